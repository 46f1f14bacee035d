(** * C70: inspecting any archive tells what its header and its tables say. *)
From Verif Require Import Bytes BlockTable HashTable Header Compress SpecCompress ToyCodec HetBet Builder Listfile Attributes Archive Signature Info SpecFields
  SpecCliList CliList InfoReport SpecReport ReportFacts Demo34 DemoOther DemoReport.
Open Scope N_scope.

(** ** Whatever opens, and whatever is reported about it.  Missing: the number of files counts blocks
    and not files, and encryption is noticed in classic tables only ([C70_deleted_refuted],
    [C70_sealed_refuted]). *)
Theorem C70_report_partial : forall L md5 sha1 rd file a r,
  open_archive L file = Ok a -> get_report L md5 sha1 rd a = Ok r ->
  exists v, begins_with_header (skipn (N.to_nat (a_off a)) file) v /\
    r_file_size r = lenN file /\ r_offset r = a_off a /\ told file a v (r_info r) /\
    r_hash r = hash_info file a v /\ block_info file a v (r_block r) /\ r_hi r = hi_info file a v /\
    extended_info file a v 60 92 (het_next file a v) het_max (a_het a) (r_het r) /\
    extended_info file a v 52 100 (fun _ => hash_at file a v) bet_count (a_bet a) (r_bet r) /\
    user_info file a (r_user r).
Proof. exact report_tells. Qed.
Print Assumptions C70_report_partial.

Example C70_report_example :
  (open_archive toy o_file = Ok o_arc /\ get_report toy toy_md5 toy_md5 every_read o_arc = Ok o_report /\
   r_offset o_report = 512 /\ r_user o_report = Some (16, 16) /\ i_encrypted (r_info o_report) = true) /\
  open_archive toy sealed_file = Ok sealed_arc /\ get_report toy toy_md5 toy_md5 every_read sealed_arc = Ok sealed_report /\
  r_het sealed_report = Some (mkTI (Some 4) 84 (Some 76) false) /\ i_file_count (r_info sealed_report) = 4.
Proof.
  split; [exact (conj o_opens (conj o_told (conj eq_refl (conj eq_refl eq_refl))))|].
  exact (conj sealed_opens (conj sealed_told (conj eq_refl eq_refl))).
Qed.

(** ** Nothing more can go wrong than with what is told about the files *)
Theorem C70_reported : forall L md5 sha1 rd file a i, open_archive L file = Ok a -> get_info L md5 sha1 rd a = Ok i ->
  exists r, get_report L md5 sha1 rd a = Ok r /\ r_info r = i.
Proof. exact report_there. Qed.
Print Assumptions C70_reported.

Example C70_reported_example : open_archive toy del_file = Ok del_arc /\
  get_info toy toy_md5 toy_md5 every_read del_arc = Ok (mkInfo V1 2 4 512 false false SigNone false false None).
Proof. split; [exact del_opens|vm_compute; reflexivity]. Qed.

(** ** The signature: what its verification says; one that cannot be read is invalid and does not
    prevent the report *)
Theorem C70_signature : forall L md5 sha1 rd file a, open_archive L file = Ok a -> there a (lit "(signature)") ->
  (forall i, get_info L md5 sha1 rd a = Ok i ->
     (forall s, verify_signature L md5 sha1 rd weak_public_key strong_public_key a = Ok s -> i_signature i = s) /\
     (forall e, verify_signature L md5 sha1 rd weak_public_key strong_public_key a = Err e -> i_signature i = WeakInvalid)) /\
  (forall e, get_info L md5 sha1 rd a = Err e ->
     find_file a (lit "(listfile)") = Err e \/ find_file a (lit "(attributes)") = Err e \/ validate_v4 md5 a = Err e).
Proof. exact signature_told. Qed.
Print Assumptions C70_signature.

Example C70_signature_example : exists a, open_archive toy odd_signature = Ok a /\ there a (lit "(signature)") /\
  verify_signature toy toy_md5 toy_md5 every_read weak_public_key strong_public_key a = Err ECompression /\
  exists i, get_info toy toy_md5 toy_md5 every_read a = Ok i /\ i_has_signature i = true /\ i_signature i = WeakInvalid.
Proof. exact odd_signature_told. Qed.

(** ** An archive whose tables were left for later is reported the same *)
Theorem C70_deferred : forall L md5 sha1 rd file a, open_with_options L file false = Ok a ->
  get_report L md5 sha1 rd a = (b <- open_archive L file ;; get_report L md5 sha1 rd b).
Proof. exact deferred_report. Qed.
Print Assumptions C70_deferred.

Example C70_deferred_example : exists a, open_with_options toy o_file false = Ok a /\ a_hash a = None /\
  get_report toy toy_md5 toy_md5 every_read a = Ok o_report.
Proof. eexists. split; [vm_compute; reflexivity|]. split; vm_compute; reflexivity. Qed.

(** ** A deleted file is still counted *)
Theorem C70_deleted_refuted : exists L file a r ht bt, lossless L /\ open_archive L file = Ok a /\ a_hash a = Some ht /\ a_block a = Some bt /\
  lenN (filter (fun e => N.testbit (be_flags e) 31) bt) = 1 /\ lenN (filter (fun e => he_block e <? lenN bt) ht) = 1 /\
  (forall md5 sha1 rd, get_report L md5 sha1 rd a = Ok r) /\ i_file_count (r_info r) = 2.
Proof. exact del_counted. Qed.
Print Assumptions C70_deleted_refuted.

(** ** An archive of encrypted files is called not encrypted *)
Theorem C70_sealed_refuted : exists L file a r name fi d, lossless L /\ open_archive L file = Ok a /\
  find_file a name = Ok (Some fi) /\ N.testbit (fi_flags fi) 16 = true /\ read_file L a name = Ok d /\ lenN d = 4 /\
  (forall md5 sha1 rd, get_report L md5 sha1 rd a = Ok r) /\ i_encrypted (r_info r) = false.
Proof. exact sealed_unsaid. Qed.
Print Assumptions C70_sealed_refuted.

(** ** Printed as comma separated values: right for exactly the plain paths *)
Theorem C70_csv : forall path r, r_file_size r < 2 ^ 64 -> r_offset r < 2 ^ 64 -> i_file_count (r_info r) < 2 ^ 64 ->
  i_max_count (r_info r) < 2 ^ 64 -> i_sector_size (r_info r) < 2 ^ 64 ->
  exists size off ver files max sector sig,
    shown (r_file_size r) size /\ shown (r_offset r) off /\ shown (version_number (i_version (r_info r))) ver /\
    shown (i_file_count (r_info r)) files /\ shown (i_max_count (r_info r)) max /\ shown (i_sector_size (r_info r)) sector /\
    sig = status_word (i_signature (r_info r)) /\
    (csv_text [[lit "property"; lit "value"]; [lit "path"; path]; [lit "file_size"; size]; [lit "archive_offset"; off];
               [lit "format_version"; ver]; [lit "file_count"; files]; [lit "max_file_count"; max]; [lit "sector_size"; sector];
               [lit "is_encrypted"; yes_no (i_encrypted (r_info r))]; [lit "has_signature"; yes_no (i_has_signature (r_info r))];
               [lit "signature_status"; sig]; [lit "has_attributes"; yes_no (i_has_attributes (r_info r))];
               [lit "has_listfile"; yes_no (i_has_listfile (r_info r))]]
       (print_info_csv path r) <-> csv_plain path).
Proof. exact report_csv. Qed.
Print Assumptions C70_csv.

Example C70_csv_example : csv_plain (lit "maps/o.mpq") /\ ~ csv_plain (lit "maps, old.mpq") /\
  print_info_csv (lit "o.mpq") o_report =
    concat (map (fun l => l ++ ["010"%byte])
      [lit "property,value"; lit "path,o.mpq"; lit "file_size,706"; lit "archive_offset,512"; lit "format_version,2"; lit "file_count,3";
       lit "max_file_count,4"; lit "sector_size,512"; lit "is_encrypted,true"; lit "has_signature,false"; lit "signature_status,None";
       lit "has_attributes,true"; lit "has_listfile,false"]).
Proof.
  split; [intros b Hb; cbn in Hb; repeat (destruct Hb as [<-|Hb]; [repeat split; discriminate|]); destruct Hb|].
  split; [|vm_compute; reflexivity]. intros H. destruct (H ","%byte) as [C _]; [cbn; tauto|now elim C].
Qed.
