(** * Printed inspections that mislead. *)
From Verif Require DemoHostile.
From Verif Require Import Bytes HashTable BlockTable Header Compress SpecCompress ToyCodec Archive Signature Info CliList CliConfig InfoReport Json CliInfo
  SpecListfile SpecReport SpecJson SpecInfoText Demo34 DemoOther DemoReport DemoJson PrintedFacts InfoTextFacts InfoJsonFacts.
Open Scope N_scope.

(** ** Commands *)
Lemma inspected L md5 sha1 rd show out path file d : archive_info L md5 sha1 rd show out path file = Ok d <->
  exists a r, open_archive L file = Ok a /\ get_report L md5 sha1 rd a = Ok r /\
    d = match out with Text => print_info_text path r | Json => print_json show (info_json path r) | Csv => print_info_csv path r end.
Proof.
  unfold archive_info. destruct (open_archive L file) as [a| |]; cbn [bind].
  2,3: split; [discriminate|intros (a & r & X & _); discriminate].
  destruct (get_report L md5 sha1 rd a) as [r| |] eqn:E; cbn [bind].
  - split.
    + intros H. apply Ok_inj in H. exists a, r. split; [reflexivity|]. split; [exact E|now symmetry].
    + intros (a' & r' & X & Y & ->). apply Ok_inj in X. subst a'. rewrite E in Y. apply Ok_inj in Y. now subst r'.
  - split; [discriminate|]. intros (a' & r' & X & Y & _). apply Ok_inj in X. subst a'. congruence.
  - split; [discriminate|]. intros (a' & r' & X & Y & _). apply Ok_inj in X. subst a'. congruence.
Qed.
Lemma inspected_text L md5 sha1 rd show path file d : lenN file < 2 ^ 53 -> archive_info L md5 sha1 rd show Text path file = Ok d ->
  exists a r, open_archive L file = Ok a /\ get_report L md5 sha1 rd a = Ok r /\
    (text_says d (info_sections path r) <-> ~ In "010"%byte path).
Proof.
  intros Hlen H. apply inspected in H as (a & r & Ho & Hr & ->). exists a, r. split; [exact Ho|]. split; [exact Hr|].
  apply info_text.
  - apply (report_small L md5 sha1 rd file a r); [|exact Ho|exact Hr]. eapply N.lt_trans; [exact Hlen|reflexivity].
  - destruct (ReportFacts.report_tells L md5 sha1 rd file a r Ho Hr) as (v & _ & E & _). now rewrite E.
Qed.
Lemma inspected_json L md5 sha1 rd show path file d : writes_json show -> is_text path -> lenN file < 2 ^ 63 ->
  archive_info L md5 sha1 rd show Json path file = Ok d ->
  exists a r, open_archive L file = Ok a /\ get_report L md5 sha1 rd a = Ok r /\ json_has d (info_fields path r).
Proof.
  intros Hs Hp Hlen H. apply inspected in H as (a & r & Ho & Hr & ->). exists a, r. split; [exact Ho|]. split; [exact Hr|].
  apply info_json_says; [exact Hs|exact Hp|]. exact (report_small L md5 sha1 rd file a r Hlen Ho Hr).
Qed.
Lemma inspected_alike L md5 sha1 rd show path file path' file' d a r a' r' : writes_json show -> is_text path -> is_text path' ->
  lenN file < 2 ^ 63 -> lenN file' < 2 ^ 63 ->
  archive_info L md5 sha1 rd show Json path file = Ok d -> archive_info L md5 sha1 rd show Json path' file' = Ok d ->
  open_archive L file = Ok a -> get_report L md5 sha1 rd a = Ok r -> open_archive L file' = Ok a' -> get_report L md5 sha1 rd a' = Ok r' ->
  path = path' /\ r = r'.
Proof.
  intros Hs Hp Hp' Hf Hf' H H' Ho Hr Ho' Hr'. apply inspected in H as (b & q & Hb & Hq & ->). apply inspected in H' as (b' & q' & Hb' & Hq' & E).
  rewrite Ho in Hb. apply Ok_inj in Hb. subst b. rewrite Hr in Hq. apply Ok_inj in Hq. subst q.
  rewrite Ho' in Hb'. apply Ok_inj in Hb'. subst b'. rewrite Hr' in Hq'. apply Ok_inj in Hq'. subst q'.
  apply (info_json_back show); try assumption.
  - exact (report_small L md5 sha1 rd file a r Hf Ho Hr).
  - exact (report_small L md5 sha1 rd file' a' r' Hf' Ho' Hr').
Qed.

(** ** 1536 bytes are called 1.50 KB bytes. *)
Definition kilo_file : bytes := Eval vm_compute in o_file ++ zeros 830.
Lemma kilo_said : exists L file path d, lossless L /\ lenN file = 1536 /\
  (forall md5 sha1 rd show, archive_info L md5 sha1 rd show Text path file = Ok d) /\
  In (lit "Archive size: 1.50 KB bytes") (lines_of d).
Proof.
  exists toy, kilo_file, (lit "k.mpq"). eexists. split; [exact toy_lossless|]. split; [reflexivity|].
  split; [intros; vm_compute; reflexivity|]. vm_compute. tauto.
Qed.

(** ** A damaged file is said not to be found. *)
Definition damaged : bytes := Eval vm_compute in DemoHostile.crafted (lit "f") 3 0x81000200 9 20 (map Nb [2; 9; 7; 8; 9; 1; 2; 3; 4]).
Lemma damaged_said : exists L file a name fi, lossless L /\ open_archive L file = Ok a /\ find_file a name = Ok (Some fi) /\
  forall show out, file_info L show out file name = Refused (lit "File not found: " ++ name) ECompression.
Proof.
  exists toy, damaged. eexists. exists (lit "f"). eexists. split; [exact toy_lossless|]. split; [vm_compute; reflexivity|].
  split; [vm_compute; reflexivity|]. intros. vm_compute. reflexivity.
Qed.
