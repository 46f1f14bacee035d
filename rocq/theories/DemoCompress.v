(** * Witnesses for the method combinations that are lost. *)
From Verif Require Import Bytes Adpcm Compress SpecCompress CompressFacts ToyCodec.
Open Scope N_scope.

(** A rising wave, and a run of zero bytes for the combinations without ADPCM. *)
Definition rising : bytes :=
  concat (map write_sample [0; 1000; 2000; 3000; 4000; 5000; 6000; 7000; 8000; 9000]%Z).

Lemma lost_lost f : In f lost_combinations ->
  exists L d c out,
    lossless L /\ compress L d f = Ok (Nb f :: c) /\ Nb f :: c <> d /\
    lossy_image f d = Ok out /\ decompress L c f (lenN d) <> Ok out.
Proof.
  intros H. exists toy.
  exists (if existsb (N.eqb f) [0x0C; 0x14] then repeat x00 40 else rising).
  repeat (destruct H as [<-|H];
    [do 2 eexists; split; [exact toy_lossless|]; split; [vm_compute; reflexivity|];
     split; [discriminate|]; split; [vm_compute; reflexivity|]; vm_compute; discriminate|]).
  destruct H.
Qed.
