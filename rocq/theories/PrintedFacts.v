(** * Facts about printed listings, [file info], and inspections of opened archives *)
From Coq Require Import Lia ZifyBool ZifyNat ZifyN.
From Verif Require Import Bytes Compress HashTable BlockTable HetBet Header Archive Signature Info CliList CliConfig InfoReport Json CliInfo
  SpecListfile SpecHeader SpecFields SpecCliList SpecReport SpecPercent SpecHash SpecJson SpecInfoText SpecHostile34
  HeaderFields ListfileFacts ReportFacts CliListFacts HostileFacts Hostile34Facts JsonFacts InfoTextFacts InfoJsonFacts.
From Verif Require CryptoFacts SpecLists ListsFacts CreateFacts TextFacts Listfile.
Open Scope N_scope.

(** ** Reports of opened archives have numbers of 64 bits. *)
Lemma het_read_max L file o s k t : het_read L file o s k = Ok t -> het_max t < 2 ^ 32.
Proof.
  unfold het_read. intros H. destruct (ext_read _ _ _ _ _ _) as [body| |]; cbn [bind] in H; try discriminate.
  destruct (_ <? _); [discriminate|]. cbv zeta in H. destruct (_ <? _); [discriminate|].
  destruct (slice _ _ _); [|discriminate]. destruct (slice _ _ _); [|discriminate]. apply Ok_inj in H. subst t. cbn [het_max].
  apply word_at_bound.
Qed.
Definition hash_small (e : hentry) : Prop := he_name1 e < 2 ^ 32 /\ he_name2 e < 2 ^ 32.
Lemma ht_read_small file o n t : ht_read file o n = Ok t -> Forall hash_small t.
Proof.
  unfold ht_read. destruct (is_power_of_two n); [|discriminate]. destruct (slice o (n * 16) file); cbn [of_option bind]; [|discriminate]. intros H.
  apply (parse_entries_Forall hash_small) in H as [H _]; [exact H|]. intros d x Hx. unfold he_from_bytes in Hx.
  destruct (lenN d <? 16); [discriminate|]. apply Ok_inj in Hx. subst x. split; exact (dec4 _).
Qed.
Lemma opened_loaded L file a : open_archive L file = Ok a ->
  a_off a <= lenN file /\ (forall ht, a_hash a = Some ht -> Forall hash_small ht) /\ (forall bt, a_block a = Some bt -> lenN bt < 2 ^ 32) /\
  (forall b, a_bet a = Some b -> bet_count b < 2 ^ 32) /\ (forall t, a_het a = Some t -> het_max t < 2 ^ 32).
Proof.
  intros H. unfold open_archive, open_with_options in H. destruct (find_header file) as [[[off ud] h]|e|] eqn:Hh; cbn [bind] in H; try discriminate.
  destruct (find_header_off _ _ _ _ Hh) as [Ho Hk]. unfold load_tables in H.
  cbn [a_header a_file a_off a_user a_hash a_block a_hi a_het a_bet a_attrs] in H.
  match type of H with bind ?X _ = _ => destruct X as [[het bet]| |] eqn:E1 end; cbn [bind] in H; try discriminate.
  assert (X : (forall t, het = Some t -> het_max t < 2 ^ 32) /\ (forall b, bet = Some b -> bet_count b < 2 ^ 32)).
  { clear H. destruct (version_ge _ _); [|injection E1 as <- <-; split; discriminate].
    destruct (load_ext _ (h_het_pos h) _ _ _ _) as [x| |] eqn:Ex; cbn [bind] in E1; try discriminate.
    destruct (load_ext _ (h_bet_pos h) _ _ _ _) as [y| |] eqn:Ey; cbn [bind] in E1; try discriminate. injection E1 as <- <-. split.
    - intros t Et. destruct x as [x|]; [|discriminate]. injection Et as <-. apply load_ext_reads in Ex as (q & s & _ & R).
      exact (het_read_max _ _ _ _ _ _ R).
    - intros t Et. destruct y as [y|]; [|discriminate]. injection Et as <-. apply load_ext_reads in Ey as (q & s & _ & R).
      exact (proj1 (bet_read_ok _ _ _ _ _ _ R)). }
  clear E1. destruct X as [X1 X2]. cbv zeta in H.
  match type of H with bind ?X _ = _ => destruct X as [[ht bt]| |] eqn:E2 end; cbn [bind] in H; try discriminate.
  assert (Y : (forall t, ht = Some t -> Forall hash_small t) /\ forall t, bt = Some t -> lenN t < 2 ^ 32).
  { clear H. match type of E2 with (if ?c then _ else _) = _ => destruct c end; [|injection E2 as <- <-; split; discriminate].
    destruct (add64 _ _) as [o| |]; cbn [bind] in E2; try discriminate.
    destruct (ht_read _ _ _) as [t1| |] eqn:R1; cbn [bind] in E2; try discriminate.
    destruct (add64 _ (get_block_table_pos _)) as [o'| |]; cbn [bind] in E2; try discriminate.
    destruct (bt_read _ _ _) as [t2| |] eqn:R; cbn [bind] in E2; try discriminate. injection E2 as <- <-.
    split; intros t Et; injection Et as <-; [exact (ht_read_small _ _ _ _ R1)|]. rewrite (proj2 (bt_read_ok _ _ _ _ R)). apply Hk. }
  clear E2. match type of H with bind ?X _ = _ => destruct X as [hi| |] end; cbn [bind] in H; try discriminate.
  apply (Archive34Facts.load_attributes_same L) in H as (x & ->). cbn [Archive34Facts.with_attrs a_off a_hash a_block a_bet a_het].
  destruct Y as [Y1 Y2]. split; [exact Ho|]. split; [exact Y1|]. split; [exact Y2|]. split; [exact X2|exact X1].
Qed.
Lemma filter_len {A} (f : A -> bool) l : lenN (filter f l) <= lenN l.
Proof. unfold lenN. induction l as [|x l IH]; [reflexivity|]. cbn [filter length]. destruct (f x); cbn [length]; lia. Qed.
Lemma pow_32_64 n : n < 2 ^ 32 -> n < 2 ^ 64.
Proof. intros H. eapply N.lt_trans; [exact H|reflexivity]. Qed.
Lemma report_small L md5 sha1 rd file a r : lenN file < 2 ^ 63 -> open_archive L file = Ok a -> get_report L md5 sha1 rd a = Ok r ->
  small_report r.
Proof.
  intros Hlen Ho Hr. destruct (opened_loaded L file a Ho) as (Boff & _ & Bb & Bbet & Bhet).
  destruct (report_tells L md5 sha1 rd file a r Ho Hr) as (v & _ & E1 & E2 & T & E3 & E4 & E5 & E6 & E7 & E8).
  destruct T as (_ & T2 & T3 & T4 & _).
  assert (F4 : forall p, at_ file a p 4 < 2 ^ 32) by (intros p; exact (field_lt _ _ 4)).
  assert (F8 : forall p, at_ file a p 8 < 2 ^ 64) by (intros p; exact (field_lt _ _ 8)).
  assert (F2 : forall p, at_ file a p 2 < 2 ^ 16) by (intros p; exact (field_lt _ _ 2)).
  assert (U : forall p q, upper file a v p + at_ file a q 4 < 2 ^ 64).
  { intros p q. pose proof (F4 q) as A. pose proof (F2 p) as B. unfold upper.
    assert (C : at_ file a p 2 * 2 ^ 32 < 2 ^ 48).
    { change (2 ^ 48) with (2 ^ 16 * 2 ^ 32). apply N.mul_lt_mono_pos_r; [reflexivity|exact B]. }
    destruct v; [|change (2 ^ 64) with (2 ^ 48 + (2 ^ 64 - 2 ^ 48)); apply N.add_lt_mono; [exact C|eapply N.lt_trans; [exact A|reflexivity]]..].
    rewrite N.add_0_l. now apply pow_32_64. }
  assert (I4 : forall p, fits64 (in_v4 file a v p)) by (intros p; unfold in_v4, fits64; destruct v; [exact I..|apply F8]).
  unfold small_report. split; [rewrite E1; eapply N.lt_trans; [exact Hlen|reflexivity]|].
  split; [rewrite E2; eapply N.le_lt_trans; [exact Boff|]; eapply N.lt_trans; [exact Hlen|reflexivity]|].
  split. { rewrite T3. destruct (a_bet a) as [b|]; [now apply pow_32_64, Bbet|]. destruct (a_block a) as [bt|]; [|reflexivity].
           apply pow_32_64. eapply N.le_lt_trans; [apply filter_len|now apply Bb]. }
  split. { rewrite T4. destruct (a_het a) as [t|]; [now apply pow_32_64, Bhet|]. apply pow_32_64, F4. }
  split. { rewrite T2. apply N.mod_lt. discriminate. }
  split. { rewrite E3. split; [cbn [hash_info ti_size fits64]; apply pow_32_64, F4|]. split; [apply U|apply I4]. }
  split. { destruct E4 as (A1 & A2 & A3 & _). unfold small_table. rewrite A1, A2, A3. split; [apply pow_32_64, F4|]. split; [apply U|apply I4]. }
  assert (X : forall T p q next (entries : T -> N) o x, (forall t, o = Some t -> entries t < 2 ^ 32) -> (forall y, next y < 2 ^ 64) ->
              extended_info file a v p q next entries o x -> forall t, x = Some t -> small_table t).
  { intros T p q next entries o x Hc Hn E t Et. unfold extended_info in E.
    assert (G : forall s, s < 2 ^ 64 -> small_table (mkTI (match o with Some t => Some (entries t) | None => None end) (at_ file a p 8) (Some s)
                                                  (match o with Some _ => false | None => true end))).
    { intros s Hs. split; [cbn [ti_size]; destruct o as [y|]; [apply pow_32_64; now apply Hc|exact I]|].
      split; [apply F8|exact Hs]. }
    destruct v; [congruence|congruence|..]; destruct E as [Z NZ]; (destruct (N.eq_dec (at_ file a p 8) 0) as [Y|Y]; [rewrite (Z Y) in Et; discriminate|]);
      destruct (NZ Y) as (s & Es & Ks); rewrite Es in Et; injection Et as <-; apply G.
    - pose proof (Hn (at_ file a p 8)). lia.
    - rewrite Ks. apply F8. }
  split.
  - intros t [Et|[Et|Et]].
    + refine (X _ _ _ _ _ _ _ _ _ E6 t Et); [exact Bhet|]. intros y. unfold het_next. destruct (_ <? _); [apply F8|apply U].
    + refine (X _ _ _ _ _ _ _ _ _ E7 t Et); [exact Bbet|]. intros y. apply U.
    + rewrite E5 in Et. unfold hi_info in Et. destruct v; [discriminate|..]; (destruct (_ =? _); [discriminate|]); injection Et as <-;
        (split; [exact (pow_32_64 _ (F4 28))|]; split; [exact (F8 32)|exact (I4 84)]).
  - intros hs ds Eu. destruct E8 as (k & _ & [(_ & _ & Z)|(dist & _ & _ & Z)]); [congruence|]. rewrite Z in Eu. injection Eu as <- <-.
    split; apply pow_32_64; exact (field_lt _ _ 4).
Qed.

(** ** Listings *)
Lemma tidy_names names : Forall is_text names -> valid_json (names_json names).
Proof.
  intros H. apply tidy_list. intros v Hv. apply in_map_iff in Hv as (n & <- & Hn). apply tidy_text. rewrite Forall_forall in H. now apply H.
Qed.
Lemma names_printed show names : writes_json show -> Forall is_text names -> json_names (print_json show (names_json names)) names.
Proof.
  intros Hs Hn. destruct (printed show _ Hs (tidy_names names Hn)) as (v & D & S). exists v. split; [exact D|]. split.
  - rewrite S. cbn [look shape_of names_json]. now rewrite map_length.
  - intros i n E. rewrite S. cbn [look names_json]. rewrite (map_nth_error JText _ _ E). reflexivity.
Qed.
Lemma hex_text n : is_text (hex8 n).
Proof.
  apply text_ascii. apply Forall_forall. intros b Hb. unfold hex8 in Hb.
  assert (G : forall k, In b (hex_digits k n) -> bN b < 128); [|exact (G _ Hb)].
  intros k. induction k as [|k IH]; [intros []|]. cbn [hex_digits]. intros [E|H]; [|now apply IH]. rewrite <- E. unfold hex_digit.
  match goal with |- context [?d <? 10] => assert (d < 16) by (apply N.mod_lt; discriminate) end.
  destruct (_ <? 10) eqn:C; rewrite bN_Nb by lia; lia.
Qed.
Definition hash_item (e : fentry) : json :=
  JObject ((lit "name", JText (fe_name e)) ::
           match fe_hashes e with Some (a, b) => [(lit "hash1", JText (hex8 a)); (lit "hash2", JText (hex8 b))] | None => [] end).
Lemma tidy_hashes es : Forall (fun e => is_text (fe_name e)) es -> valid_json (hashes_json es).
Proof.
  intros H. apply tidy_list. intros v Hv. apply in_map_iff in Hv as (e & <- & He). rewrite Forall_forall in H. specialize (H e He).
  destruct (fe_hashes e) as [[a b]|].
  - apply tidy_members; [reflexivity|]. member; [now apply tidy_text|]. member; [apply tidy_text, hex_text|]. member; [apply tidy_text, hex_text|].
    apply Forall_nil.
  - apply tidy_members; [reflexivity|]. member; [now apply tidy_text|]. apply Forall_nil.
Qed.
Definition hashes_small (es : list fentry) : Prop := forall e a b, In e es -> fe_hashes e = Some (a, b) -> a < 2 ^ 32 /\ b < 2 ^ 32.
Lemma hashes_printed show es : writes_json show -> Forall (fun e => is_text (fe_name e)) es ->
  (forall e a b, In e es -> fe_hashes e = Some (a, b) -> a < 2 ^ 32 /\ b < 2 ^ 32) ->
  json_lists (print_json show (hashes_json es)) es.
Proof.
  intros Hs Hn Hh. destruct (printed show _ Hs (tidy_hashes es Hn)) as (v & D & S). exists v. split; [exact D|]. split.
  - rewrite S. cbn [look shape_of hashes_json]. now rewrite map_length.
  - intros i e E. assert (G : forall q, look v (Item i :: q) = look (hash_item e) q).
    { intros q. rewrite S. cbn [look hashes_json]. now rewrite (map_nth_error _ _ _ E). }
    rewrite !G. unfold hash_item. specialize (Hh e). destruct (fe_hashes e) as [[a b]|]; (split; [reflexivity|]); [|reflexivity].
    destruct (Hh a b (nth_error_In _ _ E) eq_refl) as [Ha Hb].
    exists (hex8 a), (hex8 b). split; [now apply hex8_value|]. split; [now apply hex8_value|]. repeat split; reflexivity.
Qed.

Lemma lines_app_line l : clean l -> lines_of (line l) = [l].
Proof. intros H. rewrite <- (app_nil_r (line l)), lines_line by exact H. reflexivity. Qed.
Definition hash_line (e : fentry) : bytes :=
  fe_name e ++ match fe_hashes e with Some (a, b) => lit " [" ++ hex8 a ++ lit " " ++ hex8 b ++ lit "]" | None => [] end.
Lemma hex8_clean n : clean (hex8 n).
Proof. intros H. destruct (hex_digits_plain 8 n _ H) as (_ & _ & X & _). now apply X. Qed.
Lemma hashes_text es : lenN es < 2 ^ 64 -> hashes_small es ->
  text_lists (print_hashes_text es) es <-> Forall (fun e => ~ In "010"%byte (fe_name e)) es.
Proof.
  intros Hlen Hh. split.
  - intros (rows & n & E & _ & F). pose proof (lines_clean (print_hashes_text es)) as C. rewrite E in C. apply Forall_app in C as [C _].
    clear - F C. induction F as [|e l es rows He F IH]; [apply Forall_nil|]. inversion C as [|? ? C1 C2]; subst.
    apply Forall_cons; [|now apply IH]. unfold hash_row in He. destruct (fe_hashes e) as [[a b]|].
    + destruct He as (s & t & _ & _ & ->). intros I. apply C1. apply in_or_app. now left.
    + now subst l.
  - intros Hn. exists (map hash_line es), (decimal (lenN es)). split; [|split; [now apply decimal_shown|]].
    + change (print_hashes_text es) with
        (concat (map (fun e => line (hash_line e)) es) ++ line [] ++ line (lit "Total: " ++ decimal (lenN es) ++ lit " files")).
      rewrite <- (map_map hash_line line).
      rewrite lines_concat.
      * f_equal. rewrite lines_line by (intros []). f_equal. apply lines_app_line. apply clean_app; [now apply clean_check|].
        apply clean_app; [now apply decimal_clean|now apply clean_check].
      * rewrite Forall_map. eapply Forall_impl; [|exact Hn]. intros e He. unfold hash_line. apply clean_app; [exact He|].
        destruct (fe_hashes e) as [[a b]|]; [|intros []]. repeat (apply clean_app; [first [apply hex8_clean|now apply clean_check]|]). now apply clean_check.
    + clear Hlen Hn. induction es as [|e es IH]; [apply Forall2_nil|]. apply Forall2_cons.
      * unfold hash_row, hash_line. specialize (Hh e). destruct (fe_hashes e) as [[a b]|]; [|now rewrite app_nil_r].
        destruct (Hh a b (or_introl eq_refl) eq_refl) as [Ha Hb]. exists (hex8 a), (hex8 b). split; [now apply hex8_value|]. split; [now apply hex8_value|reflexivity].
      * apply IH. intros x a b I. apply Hh. now right.
Qed.

(** ** [file info] *)
Definition file_first (name : bytes) (size : N) : dsec :=
  (lit "File Information", repeat "="%byte 50, [(lit "Filename", name); (lit "Size", lit "    " ++ decimal size ++ lit " bytes")]).
Lemma file_text show name size : size < 2 ^ 64 ->
  text_says (print_file_info show Text name size) (file_sections name size) <-> ~ In "010"%byte name.
Proof.
  intros Hs. split.
  - generalize (print_file_info show Text name size). unfold text_says. intros d H.
    assert (X : exists s row, In s (read_text d) /\ In row (snd s) /\ snd row = name).
    { inversion H as [|s e ss es (_ & H2) _ E1 E2]; subst. clear H. exists s.
      inversion H2 as [|row x rows xs (_ & H3) _ E3 E4]; subst. cbn [snd] in H3. exists row.
      split; [now left|]. split; [now left|exact H3]. }
    destruct X as (s & row & X1 & X2 & <-). exact (values_clean _ _ _ X1 X2).
  - intros Hn. assert (E : print_file_info show Text name size = doc_text (file_first name size) []).
    { cbn [print_file_info]. unfold doc_text. cbn [map concat]. rewrite app_nil_r. unfold file_first, sec_text. cbn [sec_lines map concat fst snd].
      rewrite app_nil_r. reflexivity. }
    unfold text_says. rewrite E, doc_read.
    + cbn [map fst snd file_first file_sections]. apply Forall2_cons; [|apply Forall2_nil]. cbn [fst snd]. split; [reflexivity|].
      apply Forall2_cons; [split; [reflexivity|reflexivity]|]. apply Forall2_cons; [|apply Forall2_nil]. cbn [fst snd]. split; [reflexivity|].
      exists 4%nat, (decimal size ++ lit " bytes"). split; [reflexivity|now apply bytes_said].
    + apply Forall_cons; [|apply Forall_nil]. unfold file_first, sec_fine. split; [discriminate|]. split; [now apply clean_check|].
      split; [discriminate|]. split; [now apply clean_check|].
      apply Forall_cons; [apply label_fine; [discriminate|reflexivity|reflexivity|exact Hn]|].
      apply Forall_cons; [apply label_fine; [discriminate|reflexivity|reflexivity|]|apply Forall_nil].
      apply clean_app; [now apply clean_check|]. apply clean_app; [now apply decimal_clean|now apply clean_check].
Qed.
Lemma file_json show name size : writes_json show -> is_text name -> size < 2 ^ 64 ->
  json_has (print_file_info show Json name size) [([], SMembers 2); ([lit "filename"], SText name); ([lit "size"], SNumber size)].
Proof.
  intros Hs Hn Hz. cbn [print_file_info]. apply printed_has; [exact Hs| |].
  - apply tidy_members; [reflexivity|]. member; [now apply tidy_text|]. member; [now apply tidy_num|apply Forall_nil].
  - intros p s H. cbn [In] in H. destruct H as [H|[H|[H|[]]]]; injection H as <- <-; reflexivity.
Qed.
Lemma file_csv show name size : size < 2 ^ 64 -> exists n, shown size n /\
  (csv_text [[lit "filename"; lit "size"]; [name; n]] (print_file_info show Csv name size) <-> csv_plain name).
Proof.
  intros Hz. exists (decimal size). split; [now apply decimal_shown|]. split.
  - intros H. apply text_length in H as [_ H]. cbn [print_file_info] in H.
    assert (E : length (line (lit "filename,size") ++ line (name ++ lit "," ++ decimal size)) =
                text_size [[lit "filename"; lit "size"]; [name; decimal size]]).
    { cbn [text_size fold_right record_size]. unfold line. rewrite !app_length. cbn [length]. change (length (lit ",")) with 1%nat.
      change (length (lit "filename,size")) with 13%nat. change (length (lit "filename")) with 8%nat. change (length (lit "size")) with 4%nat. lia. }
    specialize (H E). inversion H as [|? ? _ H2]; subst. inversion H2 as [|? ? H3 _]; subst. now inversion H3.
  - intros H. cbn [print_file_info]. unfold line. rewrite <- app_assoc.
    apply (text_lf _ (lit "filename,size")).
    + apply (record_more _ (lit "filename") _ (lit "size")); [apply field_plain, csv_plainb; reflexivity|].
      apply record_last, field_plain, csv_plainb; reflexivity.
    + rewrite <- (app_nil_r ([LF])) at 1. apply (text_lf _ (name ++ lit "," ++ decimal size)); [|constructor].
      apply record_more; [now apply field_plain|]. apply record_last, field_plain. exact (shown_plain _ _ (decimal_shown _ Hz)).
Qed.
(** Printed exactly when the file can be read *)
Lemma file_printed L show out file name t : file_info L show out file name = Printed t <->
  exists a d, open_archive L file = Ok a /\ read_file L a name = Ok d /\ t = print_file_info show out name (lenN d).
Proof.
  unfold file_info. destruct (open_archive L file) as [a|e|]; [destruct (read_file L a name) as [d|e|] eqn:E|..].
  - split; [intros [= <-]; now exists a, d|]. intros (a' & d' & Ea & Ed & ->). apply Ok_inj in Ea. subst a'. rewrite E in Ed. now apply Ok_inj in Ed as ->.
  - split; [discriminate|]. intros (a' & d' & Ea & Ed & _). apply Ok_inj in Ea. subst a'. congruence.
  - split; [discriminate|]. intros (a' & d' & Ea & Ed & _). apply Ok_inj in Ea. subst a'. congruence.
  - split; [discriminate|]. intros (a' & d' & Ea & _). discriminate.
  - split; [discriminate|]. intros (a' & d' & Ea & _). discriminate.
Qed.

(** ** The names in listings are text. *)
Definition starts_char (d : bytes) : Prop := match d with [] => True | b :: _ => bN b < 128 \/ 192 <= bN b end.
Lemma encode_starts c : scalar c -> exists b t, encode c = b :: t /\ (bN b < 128 \/ 192 <= bN b) /\ Forall (fun x => 128 <= bN x < 192) t.
Proof.
  intros Hc. assert (C : c < 0x110000) by (destruct Hc; lia). unfold encode.
  assert (M : forall x, 128 <= bN (Nb (128 + x mod 64)) < 192).
  { intros x. assert (x mod 64 < 64) by (apply N.mod_lt; discriminate). rewrite bN_Nb by lia. lia. }
  destruct (c <? 0x80) eqn:E1; [|destruct (c <? 0x800) eqn:E2; [|destruct (c <? 0x10000) eqn:E3]]; do 2 eexists; (split; [reflexivity|]).
  - rewrite bN_Nb by lia. split; [left; lia|apply Forall_nil].
  - assert (c / 64 < 32) by (apply N.div_lt_upper_bound; lia). rewrite bN_Nb by lia. split; [right; lia|]. apply Forall_cons; [apply M|apply Forall_nil].
  - assert (c / 4096 < 16) by (apply N.div_lt_upper_bound; lia). rewrite bN_Nb by lia. split; [right; lia|].
    apply Forall_cons; [apply M|]. apply Forall_cons; [apply M|apply Forall_nil].
  - assert (c / 262144 < 8) by (apply N.div_lt_upper_bound; lia). rewrite bN_Nb by lia. split; [right; lia|].
    apply Forall_cons; [apply M|]. apply Forall_cons; [apply M|]. apply Forall_cons; [apply M|apply Forall_nil].
Qed.
Lemma text_split a b : is_text (a ++ b) -> starts_char b -> is_text a /\ is_text b.
Proof.
  intros (cs & Hc & E) Hb. revert a E. induction Hc as [|c cs H1 H2 IH]; intros a E.
  - apply app_eq_nil in E as [-> ->]. split; (exists []; split; [apply Forall_nil|reflexivity]).
  - destruct a as [|x a].
    + cbn [app] in E. split; [exists []; split; [apply Forall_nil|reflexivity]|]. exists (c :: cs). split; [now apply Forall_cons|exact E].
    + cbn [map concat] in E. destruct (encode_starts c H1) as (y & t & Ec & Hy & Ht).
      assert (G : (exists a', x :: a = encode c ++ a') \/ exists z r, In z t /\ b = z :: r).
      { rewrite Ec in E |- *. cbn [app] in E. injection E as Exy E. subst x. clear - E.
        assert (K : (exists a', a = t ++ a') \/ exists z r, In z t /\ b = z :: r).
        { revert a E. induction t as [|z t IHt]; intros a E; [left; now exists a|]. destruct a as [|w a].
          - right. cbn [app] in E. exists z. eexists. split; [now left|exact E].
          - cbn [app] in E. injection E as -> E. destruct (IHt a E) as [(a' & ->)|(z' & r & Hz & Eb)]; [left; now exists a'|right].
            exists z', r. split; [now right|exact Eb]. }
        destruct K as [(a' & ->)|K]; [left; now exists a'|now right]. }
      destruct G as [(a' & Ea)|(z & r & Hz & Eb)].
      * rewrite Ea in E. rewrite <- app_assoc in E. apply app_inv_head in E. destruct (IH a' E) as [A B]. split; [|exact B].
        rewrite Ea. apply text_app; [exists [c]; split; [now apply Forall_cons|cbn; now rewrite app_nil_r]|exact A].
      * rewrite Forall_forall in Ht. specialize (Ht z Hz). rewrite Eb in Hb. cbn [starts_char] in Hb. lia.
Qed.
Lemma text_starts d : is_text d -> starts_char d.
Proof.
  intros ([|c cs] & Hc & ->); [exact I|]. inversion Hc; subst. destruct (encode_starts c) as (y & t & Ec & Hy & _); [assumption|].
  cbn [map concat]. rewrite Ec. exact Hy.
Qed.
Lemma white_scalar w : In w white_space -> scalar w.
Proof. intros H. cbn in H. repeat (destruct H as [<-|H]; [left; reflexivity|]). destruct H. Qed.
Lemma run_text d : SpecLists.white_run d -> is_text d.
Proof.
  intros (cs & H & ->). exists cs. split; [|reflexivity]. eapply Forall_impl; [|exact H]. exact white_scalar.
Qed.
Lemma stripped_text d core : is_text d -> SpecLists.stripped d core -> is_text core.
Proof.
  intros Hd (a & b & Ha & Hb & -> & _). apply run_text in Ha. apply run_text in Hb. rewrite app_assoc in Hd.
  destruct (text_split _ _ Hd (text_starts _ Hb)) as [Hac _].
  exact (CreateFacts.text_tail _ _ Ha Hac).
Qed.
Lemma joined_text ls : is_text (SpecLists.joined ls) -> Forall is_text ls.
Proof.
  induction ls as [|l ls IH]; intros H; [apply Forall_nil|]. destruct ls as [|l' ls]; [apply Forall_cons; [exact H|apply Forall_nil]|].
  change (SpecLists.joined (l :: l' :: ls)) with (l ++ "010"%byte :: SpecLists.joined (l' :: ls)) in H.
  apply text_split in H as [H1 H2]; [|left; reflexivity]. apply Forall_cons; [exact H1|]. apply IH.
  apply (CreateFacts.text_tail ["010"%byte]); [|exact H2]. apply text_ascii. apply Forall_cons; [reflexivity|apply Forall_nil].
Qed.
Lemma says_clean l o n : clean l -> SpecLists.line_says l o -> o = Some n -> clean n.
Proof.
  intros Hl (core & (a & b & _ & _ & -> & _) & [(_ & ->)|(_ & p & n' & Hp & (a' & b' & _ & _ & -> & _) & ->)]) E; [discriminate|]. injection E as <-.
  intros I. apply Hl. apply in_or_app. right. apply in_or_app. left. destruct Hp as (_ & [->|(r & ->)]).
  - apply in_or_app. right. apply in_or_app. now left.
  - apply in_or_app. left. apply in_or_app. right. apply in_or_app. now left.
Qed.
Lemma says_text l o n : is_text l -> SpecLists.line_says l o -> o = Some n -> is_text n.
Proof.
  intros Hl (core & Hc & [(_ & ->)|(_ & p & n' & Hp & Hn & ->)]) E; [discriminate|]. injection E as <-.
  apply (stripped_text _ _ Hl) in Hc. apply (stripped_text p); [|exact Hn]. destruct Hp as (_ & [<-|(r & ->)]); [exact Hc|].
  apply text_split in Hc as [Hc _]; [exact Hc|left; reflexivity].
Qed.
Definition name_fine (n : bytes) : Prop := is_text n /\ clean n.
Lemma parsed_text d : Forall name_fine (Listfile.parse_listfile d).
Proof.
  destruct (proj2 (ListsFacts.lists_parsed d _) eq_refl) as (text & ls & os & R & (_ & Hc & El) & F & ->).
  assert (H : Forall is_text ls).
  { apply joined_text. rewrite <- El. apply ListsFacts.repaired_exactly in R. rewrite R. apply TextFacts.text_lossy. }
  clear R El. induction F as [|l o ls os Hl F IH]; [apply Forall_nil|]. inversion H; subst. inversion Hc; subst. unfold SpecLists.names_of. cbn [flat_map].
  apply Forall_app. split; [|now apply IH]. destruct o as [n|]; [|apply Forall_nil]. apply Forall_cons; [|apply Forall_nil].
  split; [eapply says_text; [|exact Hl|reflexivity]; assumption|eapply says_clean; [|exact Hl|reflexivity]; assumption].
Qed.

Definition entry_fine (e : fentry) : Prop :=
  name_fine (fe_name e) /\ forall a b, fe_hashes e = Some (a, b) -> a < 2 ^ 32 /\ b < 2 ^ 32.
Lemma digits_ascii (P : byte -> Prop) k n acc : (forall d, d < 10 -> P (Nb (48 + d))) -> Forall P acc -> Forall P (dec_digits k n acc).
Proof.
  intros HP. revert n acc. induction k as [|k IH]; intros n acc H; [exact H|]. cbn [dec_digits].
  assert (G : Forall P (Nb (48 + n mod 10) :: acc)) by (apply Forall_cons; [apply HP, N.mod_lt; discriminate|exact H]).
  destruct (_ =? 0); [exact G|now apply IH].
Qed.
Lemma anon_all (P : byte -> Prop) n : (forall d, d < 10 -> P (Nb (48 + d))) -> P x30 -> Forall P (lit "file_") -> Forall P (lit ".dat") -> Forall P (anon_name n).
Proof.
  intros H1 H2 H3 H4. unfold anon_name. repeat (apply Forall_app; split); [exact H3| |apply digits_ascii; [exact H1|apply Forall_nil]|exact H4].
  apply Forall_forall. intros x Hx. apply repeat_spec in Hx. now subst x.
Qed.
Lemma anon_text n : name_fine (anon_name n).
Proof.
  split.
  - apply text_ascii, anon_all.
    + intros d Hd. rewrite bN_Nb by lia. lia.
    + reflexivity.
    + repeat (apply Forall_cons; [reflexivity|]). apply Forall_nil.
    + repeat (apply Forall_cons; [reflexivity|]). apply Forall_nil.
  - intros I. assert (G : Forall (fun b => bN b <> 10) (anon_name n)).
    { apply anon_all.
      + intros d Hd. rewrite bN_Nb by lia. lia.
      + discriminate.
      + repeat (apply Forall_cons; [discriminate|]). apply Forall_nil.
      + repeat (apply Forall_cons; [discriminate|]). apply Forall_nil. }
    rewrite Forall_forall in G. now apply (G _ I).
Qed.
Lemma insert_Forall (P : fentry -> Prop) e l : P e -> Forall P l -> Forall P (insert_entry e l).
Proof.
  intros He. induction 1 as [|x l Hx H IH]; [now apply Forall_cons; [|apply Forall_nil]|]. cbn [insert_entry].
  destruct (bytes_leb _ _); [apply Forall_cons; [exact He|now apply Forall_cons]|now apply Forall_cons].
Qed.
Lemma sort_Forall (P : fentry -> Prop) l : Forall P l -> Forall P (sort_entries l).
Proof. induction 1 as [|x l Hx H IH]; [apply Forall_nil|]. cbn [sort_entries fold_right]. now apply insert_Forall. Qed.
Lemma fine_plain n x y z : name_fine n -> entry_fine (mkFE n x y z None).
Proof. intros H. split; [exact H|discriminate]. Qed.
Lemma bet_fine b k : forall i es, bet_entries b k i = Ok es -> Forall entry_fine es.
Proof.
  induction k as [|k IH]; intros i es H; cbn [bet_entries] in H; [apply Ok_inj in H; subst; apply Forall_nil|].
  destruct (bet_get b i) as [r| |]; cbn [bind] in H; try discriminate.
  destruct (bet_entries b k (i + 1)) as [rest| |] eqn:E; cbn [bind] in H; try discriminate.
  specialize (IH _ _ E). destruct r as [bi|]; [destruct (has_flag _ _)|]; apply Ok_inj in H; subst es; try exact IH.
  apply Forall_cons; [apply fine_plain, anon_text|exact IH].
Qed.
Lemma tables_fine a k es : (forall ht bt, a_hash a = Some ht -> a_block a = Some bt -> Forall entry_fine (k ht bt)) ->
  list_tables a k = Ok es -> Forall entry_fine es.
Proof.
  intros Hk H. unfold list_tables in H.
  match type of H with bind ?X _ = _ => destruct X as [l| |] eqn:E end; cbn [bind] in H; try discriminate.
  destruct l as [|x l].
  - destruct (a_hash a) as [ht|] eqn:E1; cbn [of_option bind] in H; [|discriminate].
    destruct (a_block a) as [bt|] eqn:E2; cbn [of_option bind] in H; [|discriminate]. apply Ok_inj in H. subst es. now apply Hk.
  - apply Ok_inj in H. subst es. destruct (valid_het_bet a) as [[h b]|]; [exact (bet_fine _ _ _ _ E)|discriminate].
Qed.
Lemma slots_fine bt t : forall i, Forall entry_fine (slot_entries bt t i).
Proof.
  induction t as [|e t IH]; intros i; [apply Forall_nil|]. cbn [slot_entries]. destruct (is_valid e); [|apply IH].
  destruct (nthN bt _) as [b|]; [|apply IH]. destruct (has_flag _ _); [|apply IH]. apply Forall_cons; [apply fine_plain, anon_text|apply IH].
Qed.
Lemma blocks_fine hs bt t : Forall (fun e => he_name1 e < 2 ^ 32 /\ he_name2 e < 2 ^ 32) t -> forall seen, Forall entry_fine (block_entries hs bt t seen).
Proof.
  induction 1 as [|e t He H IH]; intros seen; [apply Forall_nil|]. cbn [block_entries]. destruct (_ && _); [|apply IH].
  destruct (nthN bt _) as [b|]; [|apply IH]. destruct (has_flag _ _); [|apply IH]. apply Forall_cons; [|apply IH].
  split; [apply anon_text|]. cbn [fe_hashes]. destruct hs; [|discriminate]. intros x y E. injection E as <- <-. exact He.
Qed.
Lemma named_fine a names : Forall name_fine names -> forall es, list_named a names = Ok es -> Forall entry_fine es.
Proof.
  induction 1 as [|n names Hn H IH]; intros es E; cbn [list_named] in E; [apply Ok_inj in E; subst; apply Forall_nil|].
  destruct (find_file a n) as [r| |]; cbn [bind] in E; try discriminate.
  destruct (list_named a names) as [rest| |]; cbn [bind] in E; try discriminate. specialize (IH rest eq_refl).
  destruct r as [fi|]; apply Ok_inj in E; subst es; [|exact IH]. apply Forall_cons; [now apply fine_plain|exact IH].
Qed.
Lemma files_fine L a es : list_files L a = Ok es -> Forall entry_fine es.
Proof.
  unfold list_files. intros H. destruct (find_file a _) as [r| |]; cbn [bind] in H; try discriminate. destruct r as [fi|].
  - destruct (read_file L a _) as [d| |]; cbn [bind] in H; try discriminate. apply (named_fine a _ (parsed_text d) _ H).
  - apply tables_fine in H; [exact H|]. intros. apply slots_fine.
Qed.
Lemma source_fine L file a all hashes es : open_archive L file = Ok a -> list_source L all hashes a = Ok es -> Forall entry_fine es.
Proof.
  intros Ho H. destruct (opened_loaded L file a Ho) as (_ & Hh & _). unfold list_source in H.
  destruct all, hashes.
  - apply tables_fine in H; [exact H|]. intros ht bt Et _. apply sort_Forall, blocks_fine. exact (Hh ht Et).
  - apply tables_fine in H; [exact H|]. intros ht bt Et _. apply sort_Forall, blocks_fine. exact (Hh ht Et).
  - unfold list_with_hashes in H. destruct (list_files L a) as [l| |] eqn:E; cbn [bind] in H; try discriminate. apply Ok_inj in H. subst es.
    apply files_fine in E. rewrite Forall_map. eapply Forall_impl; [|exact E]. intros e (E1 & _). split; [exact E1|].
    cbn [fe_hashes]. intros x y X. injection X as <- <-. split; apply CryptoFacts.hash_string_lt.
  - exact (files_fine L a es H).
Qed.
Lemma listed_fine L compile file all pattern regex hashes es : list_cmd L compile file all pattern regex hashes = Ok es -> Forall entry_fine es.
Proof.
  unfold list_cmd. intros H. destruct (open_archive L file) as [a| |] eqn:Ho; cbn [bind] in H; try discriminate.
  destruct (list_source L all hashes a) as [l| |] eqn:E; cbn [bind] in H; try discriminate. apply (source_fine L file a _ _ _ Ho) in E.
  assert (X : exists l', es = sort_entries l' /\ Forall entry_fine l').
  { destruct pattern as [p|].
    - destruct (compile regex p) as [m|]; cbn [of_option bind] in H; [|discriminate]. apply Ok_inj in H. eexists. split; [symmetry; exact H|].
      apply Forall_forall. intros e He. apply filter_In in He as [He _]. rewrite Forall_forall in E. now apply E.
    - cbn [bind] in H. apply Ok_inj in H. exists l. split; [now symmetry|exact E]. }
  destruct X as (l' & -> & Hl). now apply sort_Forall.
Qed.
Lemma listing_json L compile show file all pattern regex hashes es : writes_json show ->
  list_cmd L compile file all pattern regex hashes = Ok es ->
  json_lists (print_listing show Json true es) es /\ json_names (print_listing show Json false es) (map fe_name es).
Proof.
  intros Hs H. apply listed_fine in H. split; cbn [print_listing].
  - apply hashes_printed; [exact Hs| |].
    + eapply Forall_impl; [|exact H]. intros e He. apply He.
    + intros e a b Hin. rewrite Forall_forall in H. apply (H e Hin).
  - apply names_printed; [exact Hs|]. rewrite Forall_map. eapply Forall_impl; [|exact H]. intros e He. apply He.
Qed.
Lemma listing_text L compile show file all pattern regex hashes es : list_cmd L compile file all pattern regex hashes = Ok es ->
  lenN es < 2 ^ 64 -> text_lists (print_listing show Text true es) es.
Proof.
  intros H Hlen. apply listed_fine in H. cbn [print_listing]. apply hashes_text; [exact Hlen| |].
  - intros e a b Hin. rewrite Forall_forall in H. apply (H e Hin).
  - eapply Forall_impl; [|exact H]. intros e He. apply He.
Qed.
