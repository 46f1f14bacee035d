(** * Bit-packed tables: what is read back of what was written. *)
From Verif Require Import Bytes Crypto CryptoFacts HashTable BlockTable SpecTables HashTableFacts Header Compress HetBet SpecBits
  BitFacts HetBetFacts Large34Facts ToyCodec Listfile Adler Builder Attributes Archive DemoArchive Demo34.
Open Scope N_scope.

(** ** One entry *)
Lemma one_entry data i v b data' :
  b <= 64 -> write_bit_entry data i v b = Ok data' ->
  lenN data' = lenN data /\
  (v < 2 ^ b -> i * b mod 8 + b <= 64 -> spells data' (i * b) b v) /\
  forall k, k < i * b \/ i * b + b <= k -> bit_of data' k = bit_of data k.
Proof.
  intros Hb W. destruct (write_bit_entry_bits _ _ _ _ _ Hb W) as (Hl & _ & Hk).
  split; [exact Hl|]. pose proof (N.div_mod (i * b) 8 ltac:(lia)) as D. split.
  - intros Hv Hs. split; [exact Hv|]. intros j Hj. rewrite Hk.
    replace ((i * b <=? i * b + j) && (i * b + j <? N.min (i * b + b) (8 * (i * b / 8) + 64))) with true by lia.
    f_equal. lia.
  - intros k H. rewrite Hk. replace ((i * b <=? k) && (k <? N.min (i * b + b) (8 * (i * b / 8) + 64))) with false by lia.
    reflexivity.
Qed.

(** An entry that does not end within eight bytes from where it starts loses its
    last bits. *)
Lemma entry_cut data i v b data' k :
  b <= 64 -> write_bit_entry data i v b = Ok data' -> 8 * (i * b / 8) + 64 <= k ->
  bit_of data' k = bit_of data k.
Proof.
  intros Hb W Hk0. destruct (write_bit_entry_bits _ _ _ _ _ Hb W) as (_ & _ & Hk). rewrite Hk.
  replace ((i * b <=? k) && (k <? N.min (i * b + b) (8 * (i * b / 8) + 64))) with false by lia. reflexivity.
Qed.

Lemma entry_cut_witness : exists data i v b data',
  b <= 64 /\ v < 2 ^ b /\ write_bit_entry data i v b = Ok data' /\ ~ spells data' (i * b) b v.
Proof.
  exists (zeros 18), 1, (2 ^ 62), 63. eexists. split; [lia|]. split; [reflexivity|].
  split; [vm_compute; reflexivity|]. intros [_ H]. specialize (H 62 ltac:(lia)). vm_compute in H. discriminate.
Qed.

(** ** The block entry table *)
Lemma bet_round_trip L m names bt d out file off :
  create_bet_table names bt = Ok d -> write_ext_table L false m d bt_key = Ok out ->
  slice off (lenN out) file = Some out ->
  lenN names = lenN bt -> lenN names < M32 -> Forall be_ok bt ->
  exists b, bet_read L file off (lenN out) bt_key = Ok b /\ bet_count b = lenN bt /\
    let w := bet_entry_bits b in
    (forall i e, nth_error bt i = Some e -> w <= 57 ->
       N.of_nat i * w / 8 + 8 <= div_ceil (lenN bt * w) 8 ->
       bet_get b (N.of_nat i) = Ok (Some (mkBI (be_pos e) (be_size e) (be_csize e) (be_flags e)))) /\
    (forall i, div_ceil (lenN bt * w) 8 < i * w / 8 + 8 -> bet_get b i = Ok None).
Proof.
  intros C W S Hn HM Hok. destruct (bet_written L m names bt d out file off C W S Hn HM Hok) as (b & R & B).
  exists b. split; [exact R|]. pose proof B as B'. destruct B as (B1 & B2 & _ & _ & _ & _ & _ & Bl & _).
  split; [exact B1|]. rewrite <- B2 in Bl. split.
  - intros i e He Hw Hend. apply (bet_get_ok b bt i e B' He); [lia| |rewrite Bl; exact Hend].
    pose proof (N.mod_lt (N.of_nat i * bet_entry_bits b) 8 ltac:(lia)). lia.
  - intros i Hi. apply bet_get_short. rewrite Bl. exact Hi.
Qed.

Lemma bet_last_unreadable L m names bt d out file off :
  create_bet_table names bt = Ok d -> write_ext_table L false m d bt_key = Ok out ->
  slice off (lenN out) file = Some out ->
  lenN names = lenN bt -> lenN names < M32 -> Forall be_ok bt -> bt <> [] ->
  exists b, bet_read L file off (lenN out) bt_key = Ok b /\
    (bet_entry_bits b < 50 -> bet_get b (lenN bt - 1) = Ok None).
Proof.
  intros C W S Hn HM Hok Hne. destruct (bet_written L m names bt d out file off C W S Hn HM Hok) as (b & R & B).
  exists b. split; [exact R|]. now apply bet_last_lost.
Qed.

Lemma bet_too_wide names bt p s z ep es ez :
  In ep bt -> 2 ^ p <= be_pos ep -> In es bt -> 2 ^ s <= be_size es -> In ez bt -> 2 ^ z <= be_csize ez ->
  61 <= p + s + z -> create_bet_table names bt = Panic.
Proof.
  intros Ip Hp Is Hs Iz Hz Hsum. apply create_bet_wide; [intros ->; destruct Ip|].
  pose proof (bits_needed_ge _ _ (N.le_trans _ _ _ Hp (max_of_le be_pos bt ep Ip))).
  pose proof (bits_needed_ge _ _ (N.le_trans _ _ _ Hs (max_of_le be_size bt es Is))).
  pose proof (bits_needed_ge _ _ (N.le_trans _ _ _ Hz (max_of_le be_csize bt ez Iz))). lia.
Qed.

(** Eight entries of 38 bits. *)
Definition thr_bt := map (fun k => mkBE (0xF000 + N.of_nat k) 0xABC 0x123 0x80000200) (seq 0 8).
Definition thr_names := map (fun k => [Nb (N.of_nat k)]) (seq 65 8).
Definition thr_data : bytes := Eval vm_compute in
  match create_bet_table thr_names thr_bt with Ok d => d | _ => [] end.
Definition thr_out : bytes := Eval vm_compute in
  match write_ext_table toy false ZLIB thr_data bt_key with Ok o => o | _ => [] end.
Lemma thr_created : create_bet_table thr_names thr_bt = Ok thr_data.
Proof. vm_compute. reflexivity. Qed.
Lemma thr_written : write_ext_table toy false ZLIB thr_data bt_key = Ok thr_out.
Proof. vm_compute. reflexivity. Qed.
Lemma thr_ok : Forall be_ok thr_bt.
Proof. unfold thr_bt. apply Forall_forall. intros e He. apply in_map_iff in He as (k & <- & Hk).
  apply in_seq in Hk. unfold be_ok. cbn [be_pos be_size be_csize be_flags]. unfold M32. change (2 ^ 32) with 4294967296. lia.
Qed.

(** ** Compressed extended tables *)
Definition packed_cfg := mkCfg V3 0 LGenerate ZLIB false true ZLIB.
Definition packed_arc : bytes :=
  Eval vm_compute in match build toy no_md5 packed_cfg five_files with Ok a => a | _ => [] end.
Lemma packed_unreadable : exists L c files arc a,
  c_version c = V3 /\ c_ctables c = true /\ build L no_md5 c files = Ok arc /\ open_archive L arc = Ok a /\
  (exists p q, h_het_pos (a_header a) = Some p /\ h_bet_pos (a_header a) = Some q /\ 0 < p /\ 0 < q) /\
  a_het a = None /\ a_bet a = None.
Proof.
  exists toy, packed_cfg, five_files, packed_arc. eexists.
  split; [reflexivity|]. split; [reflexivity|]. split; [vm_compute; reflexivity|].
  split; [vm_compute; reflexivity|].
  split; [|split; reflexivity]. eexists. eexists. split; [reflexivity|]. split; [reflexivity|]. split; reflexivity.
Qed.
