(** * Loops that run. *)
From Verif Require Import Bytes HashTable Header Archive Builder Sparse Adpcm Huffman Signature Loops SpecLoops LoopFacts SpecSignature ToyCodec DemoArchive.
Open Scope N_scope.

(** A table of two slots, both taken by other names *)
Definition taken : list hentry := [mkHE 1 2 0 0 0; mkHE 3 4 0 0 1].
Lemma taken_endless : endless (add_round taken 5 6 0 2) 1.
Proof.
  apply (full_endless taken 1); [reflexivity|reflexivity|]. intros e [<-|[<-|[]]]; (split; [reflexivity|intros (H & _); discriminate H]).
Qed.
(** Looking for a name in it takes two rounds. *)
Lemma taken_search : rounds (find_round taken 5 6 0 1) 1 2 (Ok None).
Proof. apply (one_more _ 1 0 1); [reflexivity|]. apply last_round. reflexivity. Qed.

(** A run of 300 zeros *)
Lemma three_chunks : rounds chunk_round (300, []) 4 [Nb 255; Nb 255; Nb 174].
Proof.
  apply (one_more _ _ (173, [Nb 255]) 3); [reflexivity|]. apply (one_more _ _ (46, [Nb 255; Nb 255]) 2); [reflexivity|].
  apply (one_more _ _ (0, [Nb 255; Nb 255; Nb 174]) 1); [reflexivity|]. apply last_round. reflexivity.
Qed.

(** The built archive is looked through with its sixteen slots. *)
Lemma demo_searched : exists a t, open_archive toy demo_file = Ok a /\ a_hash a = Some t /\ lenN t = 16.
Proof. do 2 eexists. split; [vm_compute; reflexivity|]. split; [reflexivity|]. vm_compute. reflexivity. Qed.
(** The second file is entered behind the first. *)
Lemma demo_entered : exists t0 t, demo_files = [file_a] ++ file_b :: [file_c; file_d] /\ table_count demo_cfg demo_files < 2 ^ 30 /\
  ht_new (calculate_hash_table_size (table_count demo_cfg demo_files)) = Ok t0 /\ add_files t0 [file_a] 0 = Ok t.
Proof. do 2 eexists. split; [reflexivity|]. split; [reflexivity|]. split; [vm_compute; reflexivity|]. vm_compute. reflexivity. Qed.
(** The header is found in the second round. *)
Lemma demo_header : exists r, find_header demo_file = Ok r /\ rounds (header_round demo_file) 0 2 (Ok r).
Proof.
  eexists. split; [vm_compute; reflexivity|]. apply (one_more _ 0 512 1); [vm_compute; reflexivity|]. apply last_round. vm_compute. reflexivity.
Qed.
(** A reader that gives one byte at a time *)
Definition drop_by_drop (file : bytes) (pos n : N) : N := N.min 1 (N.min n (lenN file - pos)).
Lemma drop_reader file : reader_of file (drop_by_drop file).
Proof. intros pos n. unfold drop_by_drop. lia. Qed.
Lemma drops : rounds (stream_round (drop_by_drop (lit "abc")) (lit "abc")) (1, 10, []) 3 (Ok (lit "bc")).
Proof.
  apply (one_more _ _ (2, 9, lit "b") 2); [reflexivity|]. apply (one_more _ _ (3, 8, lit "bc") 1); [reflexivity|].
  apply last_round. reflexivity.
Qed.
