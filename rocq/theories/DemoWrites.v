(** * Runs with a journal by computation: the examples and counterexamples of
    [PropWrites]. *)
From Verif Require Import Bytes Header Compress ToyCodec Builder Create Archive DemoArchive Listfile Signature Ffi SpecFfi SpecWrites FfiMain FfiDemo FfiWrites SpecNames SpecCompress SpecArchive SpecTables BuildOk SpecBuilding EndToEnd.
Open Scope N_scope.

Section Run.
Variable first : bytes -> option bytes.

(** A state and its journal. *)
Definition jstate := (state * list (nat * deed))%type.
Definition j_step (t : nat) (c : jstate) : option jstate :=
  let d := on_disk first (snd c) in
  match nth_error (snd (fst c)) t with
  | Some (Act a k) => match exec d a t (fst (fst c)) with
                      | Some (x, s') => Some ((s', set_nth (snd (fst c)) t (k x)), (t, Did a x) :: snd c)
                      | None => None
                      end
  | _ => None
  end.
Fixpoint j_many (n : nat) (t : nat) (c : jstate) : jstate :=
  match n with
  | O => c
  | S n => match j_step t c with Some c' => j_many n t c' | None => c end
  end.
Fixpoint j_all (sched : list (nat * nat)) (c : jstate) : jstate :=
  match sched with
  | [] => c
  | (t, n) :: r => j_all r (j_many n t c)
  end.
Definition fine (c0 : state) (c : jstate) : Prop := journal c0 (snd c) (fst c) /\ agrees first (snd c).
Lemma exec_agrees {A} (a : act A) t s x s' j : exec (on_disk first j) a t s = Some (x, s') -> agrees first j ->
  agrees first ((t, Did a x) :: j).
Proof.
  intros E H. cbn [agrees]. split; [|exact H]. destruct a; try exact I; cbn [exec] in E; injection E as <- _.
  - reflexivity.
  - destruct (on_disk first j path); cbn; split; congruence.
Qed.
Lemma j_step_fine c0 t c c' : fine c0 c -> j_step t c = Some c' -> fine c0 c'.
Proof.
  intros [J A]. unfold j_step. destruct c as [[s ps] j]. cbn [fst snd] in *.
  destruct (nth_error ps t) as [[r| |B a k]|] eqn:E; try discriminate.
  destruct (exec (on_disk first j) a t s) as [[x s']|] eqn:Ex; [|discriminate]. intros H. injection H as <-. split; cbn [fst snd].
  - apply (j_more c0 j (s, ps) t B a k x s' J E). eapply exec_sound. exact Ex.
  - eapply exec_agrees; eassumption.
Qed.
Lemma j_many_fine c0 t n : forall c, fine c0 c -> fine c0 (j_many n t c).
Proof.
  induction n as [|n IH]; intros c F; cbn [j_many]; [exact F|].
  destruct (j_step t c) as [c'|] eqn:E; [|exact F]. apply IH. eapply j_step_fine; eassumption.
Qed.
Lemma j_all_fine c0 sched : forall c, fine c0 c -> fine c0 (j_all sched c).
Proof.
  induction sched as [|[t n] r IH]; intros c F; cbn [j_all]; [exact F|]. apply IH. now apply j_many_fine.
Qed.
Definition j_run (sched : list (nat * nat)) (clients : list client) : jstate :=
  j_all sched ((initial, map (run toy no_md5 no_md5 zero_crc full) clients), []).
Lemma j_run_fine sched clients : fine (initial, map (run toy no_md5 no_md5 zero_crc full) clients) (j_run sched clients).
Proof. apply j_all_fine. split; [constructor|exact I]. Qed.
End Run.

(** What was written, in order: the thread, the path, the data and the answer. *)
Definition written (j : list (nat * deed)) : list (nat * bytes * bytes * bool) :=
  flat_map (fun d => match d with
                     | (t, Did a x) =>
                         match a in act A return A -> list (nat * bytes * bytes * bool) with
                         | AWriteDisk p b => fun ok => [(t, p, b, ok)]
                         | _ => fun _ => []
                         end x
                     end) (rev j).

(** ** The new archive *)
Lemma created (L : codecs) (md5 : bytes -> bytes) (data : bytes) :
  lossless L -> calm_encoders L -> (forall x, lenN (md5 x) = 16) ->
  (exists z, zlib_enc L (listfile_content []) = Ok z) ->
  build L md5 (create_config (Some V2)) [] = Ok data ->
  exists a l, open_archive L data = Ok a /\ list_files L a = Ok l /\ map fe_name l = [special_listfile] /\
    (forall name, hashes_apart name [special_listfile] -> find_file a name = Ok None).
Proof.
  intros HL HC Hm Hz Hb. destruct (fresh L md5 (Some V2) HL HC Hm Hz) as (a & l & E & H1 & H2 & _ & H3 & _).
  unfold create in E. rewrite Hb in E. cbn [bind] in E. exists a, l. split; [exact E|]. split; [exact H1|]. split; [exact H2|].
  intros name Hn. now apply H3.
Qed.

(** ** Two new archives *)
Definition nothing (_ : bytes) : option bytes := None.
Definition maker (n : N) : client := calls [CCreateArchive (Some (lit "new.mpq")) 1 n true].
Definition race_run : jstate := j_run nothing [(0, 2); (1, 100); (0, 100)]%nat [maker 16; maker 16].
Lemma new_race :
  exists L md5 sha1 crc32 rd clients j c e1 e2 path,
  journal (initial, map (run L md5 sha1 crc32 rd) clients) j c /\ agrees (fun _ => None) j /\ finished c /\
  In e1 (s_log (fst c)) /\ In e2 (s_log (fst c)) /\
  e_call e1 = CCreateArchive (Some path) 1 16 true /\ e_call e2 = CCreateArchive (Some path) 1 16 true /\
  e_ret e1 = RHandle 1 /\ e_ret e2 = RHandle 2.
Proof.
  destruct (j_run_fine nothing [(0, 2); (1, 100); (0, 100)]%nat [maker 16; maker 16]) as [J A].
  assert (E : exists e1 e2, s_log (fst (fst race_run)) = [e2; e1] /\
    e_call e1 = CCreateArchive (Some (lit "new.mpq")) 1 16 true /\ e_call e2 = CCreateArchive (Some (lit "new.mpq")) 1 16 true /\
    e_ret e1 = RHandle 1 /\ e_ret e2 = RHandle 2).
  { do 2 eexists. split; [vm_compute; reflexivity|]. vm_compute. repeat split; reflexivity. }
  destruct E as (e1 & e2 & E & K).
  exists toy, no_md5, no_md5, zero_crc, full, [maker 16; maker 16], (snd race_run), (fst race_run), e1, e2, (lit "new.mpq").
  split; [exact J|]. split; [exact A|]. split; [apply finishedb_sound; vm_compute; reflexivity|].
  rewrite E. split; [right; left; reflexivity|]. split; [left; reflexivity|]. exact K.
Qed.

Definition size_run : jstate := j_run nothing [(0, 100)]%nat [maker 1024].
Lemma table_size :
  exists L md5 sha1 crc32 rd clients j c e path data a,
  journal (initial, map (run L md5 sha1 crc32 rd) clients) j c /\ agrees (fun _ => None) j /\ finished c /\
  In e (s_log (fst c)) /\ e_call e = CCreateArchive (Some path) 1 1024 true /\ e_ret e = RHandle 1 /\
  on_disk (fun _ => None) j path = Some data /\ open_archive L data = Ok a /\ h_hash_count (a_header a) <> 1024.
Proof.
  destruct (j_run_fine nothing [(0, 100)]%nat [maker 1024]) as [J A].
  assert (E : exists e, s_log (fst (fst size_run)) = [e] /\
    e_call e = CCreateArchive (Some (lit "new.mpq")) 1 1024 true /\ e_ret e = RHandle 1).
  { eexists. split; [vm_compute; reflexivity|]. vm_compute. split; reflexivity. }
  assert (D : exists data a, on_disk (fun _ => None) (snd size_run) (lit "new.mpq") = Some data /\ open_archive toy data = Ok a /\
    h_hash_count (a_header a) <> 1024).
  { do 2 eexists. split; [vm_compute; reflexivity|]. split; [vm_compute; reflexivity|]. vm_compute. discriminate. }
  destruct E as (e & E & K1 & K2). destruct D as (data & a & D).
  exists toy, no_md5, no_md5, zero_crc, full, [maker 1024], (snd size_run), (fst size_run), e, (lit "new.mpq"), data, a.
  split; [exact J|]. split; [exact A|]. split; [apply finishedb_sound; vm_compute; reflexivity|].
  rewrite E. split; [left; reflexivity|]. split; [exact K1|]. split; [exact K2|]. exact D.
Qed.
