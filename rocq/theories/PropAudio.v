(** * C68: audio streams are decoded as the format says, whoever wrote them. *)
From Verif Require Import Bytes Compress SpecCompress ToyCodec AdpcmBits SpecAudio AudioFacts.
Open Scope Z_scope.

(** Each channel by itself, as long as there is room for samples; bytes 0x81 at the end do
    not matter. *)
Theorem C68_audio : forall L unused shift first us n size m,
  0 <= shift < 32 -> length first = 1%nat /\ m = 0x40%N \/ length first = 2%nat /\ m = 0x80%N -> Forall i16 first -> Forall unit_ok us ->
  exists out, decompress L (stream unused shift first us ++ repeat x81 n) m size = Ok (concat (map word16 out)) /\
    sounds shift first (firstn (N.to_nat ((size + 1) / 2) - length first) us) out.
Proof. exact audio_unpacked. Qed.
Print Assumptions C68_audio.

(** That is every string of bytes that is long enough for the first samples. *)
Theorem C68_every_stream : forall cc d, (1 <= cc <= 2)%nat -> (2 + 2 * N.of_nat cc <= lenN d)%N ->
  exists unused shift first us n, d = stream unused shift first us ++ repeat x81 n /\ 0 <= shift < 256 /\ length first = cc /\
    Forall i16 first /\ Forall unit_ok us.
Proof. exact any_stream. Qed.
Print Assumptions C68_every_stream.

(** Two channels: the left one rises twice and repeats, the right one falls once. *)
Example C68_audio_example : exists out,
  decompress toy (stream x00 4 [1000; -1000] [(2%nat, 0x03); (0%nat, 0x41); (0%nat, 0x80); (0%nat, 0x4f)]) 0x80 12 = Ok (concat (map word16 out)) /\
  out = [1000; -1000; 4550; -1524; 4550; -2479] /\
  every 2 0 out = 1000 :: play 4 (1000, 44) [(2%nat, 0x03); (0%nat, 0x80)].
Proof.
  destruct (C68_audio toy x00 4 [1000; -1000] [(2%nat, 0x03); (0%nat, 0x41); (0%nat, 0x80); (0%nat, 0x4f)] 0 12 0x80) as (out & E & H).
  - lia.
  - right. split; reflexivity.
  - repeat constructor; discriminate.
  - repeat constructor; discriminate.
  - rewrite app_nil_r in E. exists out. split; [exact E|]. split; [|exact (proj2 H 0%nat 1000 eq_refl)].
    destruct H as [Hl H]. pose proof (H 0%nat 1000 eq_refl) as H0. pose proof (H 1%nat (-1000) eq_refl) as H1.
    destruct out as [|a [|b [|c [|d [|e [|f [|]]]]]]]; try discriminate Hl. vm_compute in H0, H1. injection H0 as -> -> ->. injection H1 as -> -> ->. reflexivity.
Qed.
