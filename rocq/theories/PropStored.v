(** * C63: files that other tools stored are read. *)
From Verif Require Import Bytes Header Compress SpecCompress ToyCodec HetBet Archive SpecStored StoredFacts DemoStored.
Open Scope N_scope.

(** C63 for files that are not imploded, if whatever is encrypted has whole words,
    a file in a single unit that is marked as compressed became shorter, and an
    encrypted file without compression has one sector. *)
Theorem C63_stored_files_partial : forall L a name fi d ss,
  find_file a name = Ok (Some fi) -> fi_size fi = lenN d -> lenN d < 2 ^ 32 -> lenN (a_file a) < 2 ^ 63 ->
  fi_pos fi <= lenN (a_file a) -> h_block_size (a_header a) < 55 -> ss = 512 * 2 ^ h_block_size (a_header a) ->
  stored_as L true (a_file a) (a_off a) ss name (fi_pos fi) (fi_csize fi) (fi_flags fi) d ->
  on (fi_flags fi) 8 = false ->
  (on (fi_flags fi) 24 = true -> on (fi_flags fi) 9 = true -> fi_csize fi < lenN d) ->
  (on (fi_flags fi) 24 = false -> on (fi_flags fi) 9 = false -> on (fi_flags fi) 16 = true -> lenN d <= ss) ->
  read_file L a name = Ok d.
Proof. exact stored_read. Qed.
Print Assumptions C63_stored_files_partial.

(** Two sectors, of which one is compressed, encrypted with an altered key *)
Example C63_stored_example :
  open_archive toy two_file = Ok two_arc /\
  find_file two_arc foreign_name = Ok (Some two_info) /\ fi_size two_info = lenN two_data /\
  stored_as toy true (a_file two_arc) (a_off two_arc) 512 foreign_name (fi_pos two_info) (fi_csize two_info)
    (fi_flags two_info) two_data /\
  read_file toy two_arc foreign_name = Ok two_data.
Proof.
  split; [exact two_opens|]. split; [exact two_found|]. split; [reflexivity|]. split; [exact two_stored_as|].
  apply (C63_stored_files_partial toy two_arc foreign_name two_info two_data 512 two_found);
    [reflexivity|reflexivity|reflexivity|discriminate|reflexivity|reflexivity|exact two_stored_as|reflexivity
    |discriminate|discriminate].
Qed.

(** An imploded file is a stored file, ... *)
Theorem C63_imploded_is_stored : forall L file base ss name start csize flags d,
  imploded L file ss start csize flags d -> stored_as L true file base ss name start csize flags d.
Proof. exact imploded_stored. Qed.
Print Assumptions C63_imploded_is_stored.

(** ... but what is read, without an error, is something shorter: the streams
    themselves without their first bytes, which are taken for method bytes. *)
Theorem C63_imploded_refuted : forall L a name fi d ss,
  find_file a name = Ok (Some fi) -> fi_size fi = lenN d -> lenN d < 2 ^ 32 -> lenN (a_file a) < 2 ^ 63 ->
  h_block_size (a_header a) < 55 -> ss = 512 * 2 ^ h_block_size (a_header a) -> d <> [] ->
  imploded L (a_file a) ss (fi_pos fi) (fi_csize fi) (fi_flags fi) d ->
  exists out, read_file L a name = Ok out /\ lenN out < lenN d.
Proof. exact imploded_lost. Qed.
Print Assumptions C63_imploded_refuted.

Example C63_imploded_example :
  open_archive toy imp_file = Ok imp_arc /\ find_file imp_arc foreign_name = Ok (Some imp_info) /\
  fi_size imp_info = lenN imp_data /\
  imploded toy (a_file imp_arc) 512 (fi_pos imp_info) (fi_csize imp_info) (fi_flags imp_info) imp_data /\
  read_file toy imp_arc foreign_name = Ok [Nb 40; "a"%byte].
Proof.
  split; [vm_compute; reflexivity|]. split; [vm_compute; reflexivity|]. split; [reflexivity|].
  split; [exact imp_imploded|]. vm_compute. reflexivity.
Qed.

(** The last bytes of encrypted data that are no whole word are not encrypted, but
    they are decrypted. *)
Theorem C63_tail_refuted :
  exists L file a name fi d, lossless L /\ open_archive L file = Ok a /\ find_file a name = Ok (Some fi) /\
    stored_as L false (a_file a) (a_off a) 512 name (fi_pos fi) (fi_csize fi) (fi_flags fi) d /\
    h_block_size (a_header a) = 0 /\ on (fi_flags fi) 8 = false /\ on (fi_flags fi) 9 = false /\ lenN d < 512 /\
    read_file L a name <> Ok d.
Proof.
  exact (ex_intro _ toy (ex_intro _ tail_file (ex_intro _ tail_arc (ex_intro _ foreign_name (ex_intro _ tail_info
    (ex_intro _ tail_data (conj toy_lossless (conj tail_opens (conj tail_found (conj tail_stored
    (conj eq_refl (conj eq_refl (conj eq_refl (conj eq_refl tail_lost)))))))))))))).
Qed.
Print Assumptions C63_tail_refuted.

(** Encrypted sectors without compression are decrypted with the key of the first. *)
Theorem C63_sector_keys_refuted :
  exists L file a name fi d, lossless L /\ open_archive L file = Ok a /\ find_file a name = Ok (Some fi) /\
    stored_as L true (a_file a) (a_off a) 512 name (fi_pos fi) (fi_csize fi) (fi_flags fi) d /\
    h_block_size (a_header a) = 0 /\ on (fi_flags fi) 8 = false /\ on (fi_flags fi) 24 = false /\
    read_file L a name <> Ok d.
Proof.
  exact (ex_intro _ toy (ex_intro _ row_file (ex_intro _ row_arc (ex_intro _ foreign_name (ex_intro _ row_info
    (ex_intro _ row_data (conj toy_lossless (conj row_opens (conj row_found (conj row_stored
    (conj eq_refl (conj eq_refl (conj eq_refl row_lost))))))))))))).
Qed.
Print Assumptions C63_sector_keys_refuted.

(** A single unit that is marked as compressed but did not become shorter: its first
    byte is taken for a method byte. *)
Theorem C63_not_shorter_refuted :
  exists L file a name fi d, lossless L /\ open_archive L file = Ok a /\ find_file a name = Ok (Some fi) /\
    stored_as L true (a_file a) (a_off a) 512 name (fi_pos fi) (fi_csize fi) (fi_flags fi) d /\
    h_block_size (a_header a) = 0 /\ on (fi_flags fi) 8 = false /\ on (fi_flags fi) 16 = false /\
    read_file L a name <> Ok d.
Proof.
  exact (ex_intro _ toy (ex_intro _ raw_file (ex_intro _ raw_arc (ex_intro _ foreign_name (ex_intro _ raw_info
    (ex_intro _ raw_data (conj toy_lossless (conj raw_opens (conj raw_found (conj raw_stored
    (conj eq_refl (conj eq_refl (conj eq_refl raw_lost))))))))))))).
Qed.
Print Assumptions C63_not_shorter_refuted.

(** Method 0x04, PKWare streams without their heads: the first head that fits decides. *)
Theorem C63_first_head : forall L c n s, c <> [] ->
  (decompress L c 0x04 n = Ok s <->
   exists before h after, heads = before ++ h :: after /\ pk_dec L (h ++ c) = Ok s /\
     forall g, In g before -> exists e, pk_dec L (g ++ c) = Err e).
Proof. exact implode_first. Qed.
Print Assumptions C63_first_head.

(** It need not be the one that was left out. *)
Theorem C63_head_refuted :
  exists L h c s, lossless L /\ In h heads /\ pk_enc L s = Ok (h ++ c) /\ decompress L c 0x04 (lenN s) <> Ok s.
Proof. exact head_lost. Qed.
Print Assumptions C63_head_refuted.

Example C63_head_example :
  decompress toy ["a"%byte] 0x04 4 = Ok (repeat "a"%byte 4) /\ pk_dec toy ([x00; x04] ++ ["a"%byte]) = Ok (repeat "a"%byte 4).
Proof. split; vm_compute; reflexivity. Qed.
