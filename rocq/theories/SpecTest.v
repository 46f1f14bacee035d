(** * Vocabulary for statements about test archives: the options and the files that a
    configuration amounts to. *)
From Verif Require Import Bytes Header Compress Listfile Builder TestArchives.
Open Scope N_scope.

(** Zlib for what has no method of its own; no checksums, whatever the name says; the
    list is generated if it is not included by hand. *)
Definition test_config (t : tconfig) : config :=
  mkCfg (tc_version t) (match tc_block t with Some n => n | None => 3 end)
    (if tc_listfile t then LNone else LGenerate) 2 false false 2.

(** No method means none only for encrypted files. *)
Definition test_method (f : tfile) : N :=
  match tf_comp f with Some m => m | None => if tf_encrypted f then 0 else 2 end.
Definition test_file (f : tfile) : pending :=
  mkPF (tf_data f) (tf_name f) (test_method f) (tf_encrypted f) (tf_encrypted f && tf_fix f) 0.

(** Two words at the start, then two for each file *)
Definition fake_attributes (t : tconfig) (d : bytes) : Prop :=
  lenN d = 8 + 8 * lenN (tc_files t) /\ slice 0 4 d = Some (le32 100) /\ slice 4 4 d = Some (le32 3) /\
  forall i f, nth_error (tc_files t) i = Some f ->
    slice (8 + 8 * N.of_nat i) 8 d = Some (le32 (lenN (tf_data f) mod 2 ^ 32) ++ le32 0x5F000000).

Definition test_files (t : tconfig) : list pending :=
  map test_file (tc_files t) ++
  (if tc_listfile t then [mkPF (join_lines (map tf_name (tc_files t))) (lit "(listfile)") 2 false false 0] else []) ++
  (if tc_attributes t then [mkPF (generate_attributes (tc_files t)) (lit "(attributes)") 2 false false 0] else []).

(** A name without its last extension; what begins with the only dot has none. *)
Definition without_extension (n s : bytes) : Prop :=
  (exists e, n = s ++ "."%byte :: e /\ ~ In "."%byte e /\ s <> []) \/
  (s = n /\ forall s' e, n = s' ++ "."%byte :: e -> ~ In "."%byte e -> s' = []).

(** The names with a line feed before each but the first *)
Definition one_per_line (names : list bytes) (d : bytes) : Prop :=
  match names with [] => d = [] | n :: r => d = n ++ concat (map (cons "010"%byte) r) end.

(** The outline of a test configuration: version, sector size exponent, size of the
    hash table asked for, list and attributes by hand; of each file its size, method,
    encryption and altered key *)
Definition outline (t : tconfig) :=
  (tc_version t, tc_block t, tc_hash_size t, tc_listfile t, tc_attributes t,
   map (fun f => (lenN (tf_data f), tf_comp f, tf_encrypted f, tf_fix f)) (tc_files t)).
Definition outlines : list _ :=
  (V1, Some 3, Some 16, true, false, [(11, @None N, false, false)]) ::
  map (fun v => (v, Some 3, Some 16, false, false, [(11, None, false, false)])) [V2; V3; V4] ++
  map (fun m => (V2, Some 4, Some 32, false, false, [(51200, Some m, false, false); (1024, None, false, false)]))
    [0x02; 0x10; 0x12; 0x20] ++
  [(V2, Some 3, Some 16, false, false, [(23, Some 0x02, true, false); (29, None, true, true)]);
   (V2, Some 5, Some 64, true, false,
     [(0, None, false, false); (1, Some 0x02, false, false); (19, None, false, false); (11, None, false, false);
      (102400, Some 0x02, false, false)])] ++
  map (fun v => (v, Some 7, Some 128, true, true,
    [(65, None, false, false); (32, Some 0x02, false, false); (10240, Some 0x10, false, false); (11, None, true, false);
     (1048576, Some 0x12, false, false)])) [V2; V4] ++
  [(V2, Some 3, Some 16, false, false, [(28, Some 0x02, false, false)])].
