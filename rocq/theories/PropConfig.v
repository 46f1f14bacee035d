(** * C56: the settings of the command line tool take effect. *)
From Verif Require Import Bytes Header Compress Builder Cli SpecBuilding CliConfig SpecConfig ConfigFacts DemoConfig.
Open Scope N_scope.

(** [config set] succeeds exactly for the values a setting takes, where there is a
    place for the settings that can be written. *)
Theorem C56_set_iff :
  forall (encode : settings -> bytes) (decode : bytes -> option settings) (home : option bytes) (writable : bytes -> bool)
    (fs : files) (over : option bytes) (out : option format) (k v : bytes),
  (exists fs', storm encode decode home writable over out (SetKey k v) fs = (fs', Done)) <->
  (exists g, setting k v g) /\
  exists p, snd (storm encode decode home writable over out PathOf fs) = Told p /\ writable p = true.
Proof. exact set_iff. Qed.
Print Assumptions C56_set_iff.

(** Commands that do not succeed change nothing, the others only the file that
    [config path] names. *)
Theorem C56_changes :
  forall (encode : settings -> bytes) (decode : bytes -> option settings) (home : option bytes) (writable : bytes -> bool)
    (fs : files) (over : option bytes) (out : option format) (cmd : command) (fs' : files) (a : answer),
  storm encode decode home writable over out cmd fs = (fs', a) ->
  (a <> Done -> fs' = fs) /\
  forall p q, snd (storm encode decode home writable over out PathOf fs) = Told p -> q <> p -> fs' q = fs q.
Proof.
  exact (fun encode decode home writable fs over out cmd fs' a H =>
    conj (not_done encode decode home writable fs over out cmd fs' a H)
         (one_file encode decode home writable fs over out cmd fs' a H)).
Qed.
Print Assumptions C56_changes.

(** After [config set] an archive is created as before but for what the setting is
    for, and as before if a flag says so. *)
Theorem C56_set_takes_effect :
  forall (encode : settings -> bytes) (decode : bytes -> option settings) (home : option bytes) (writable : bytes -> bool),
  (forall s, decode (encode s) = Some s) ->
  forall (fs : files) (over : option bytes) (out : option format) (k v : bytes) (fs' : files) (g : config -> config),
  storm encode decode home writable over out (SetKey k v) fs = (fs', Done) -> setting k v g ->
  forall (out' : option format) (f : flags), exists c o,
    storm encode decode home writable over out' (Create f) fs = (fs, Creates c o) /\
    storm encode decode home writable over out' (Create f) fs' = (fs', Creates (if overridden k f then c else g c) o).
Proof. exact set_effect. Qed.
Print Assumptions C56_set_takes_effect.

(** [config show] tells the new value, and the old ones of the other settings. *)
Theorem C56_set_shown :
  forall (encode : settings -> bytes) (decode : bytes -> option settings) (home : option bytes) (writable : bytes -> bool),
  (forall s, decode (encode s) = Some s) ->
  forall (fs : files) (over : option bytes) (out : option format) (k v : bytes) (fs' : files),
  storm encode decode home writable over out (SetKey k v) fs = (fs', Done) ->
  forall (out' : option format), exists m n b t m' n' b' t',
    storm encode decode home writable over out' Show fs = (fs, Shown m n b t) /\
    storm encode decode home writable over out' Show fs' = (fs', Shown m' n' b' t') /\
    (if bytes_eqb k (lit "default_compression") then m' = v else m' = m) /\
    (if bytes_eqb k (lit "default_version") then decimal v n' else n' = n) /\
    (if bytes_eqb k (lit "default_block_size") then decimal v b' else b' = b) /\
    (if bytes_eqb k (lit "default_output") then t' = v else t' = t).
Proof. exact set_shown. Qed.
Print Assumptions C56_set_shown.

Theorem C56_reset :
  forall (encode : settings -> bytes) (decode : bytes -> option settings) (home : option bytes) (writable : bytes -> bool),
  (forall s, decode (encode s) = Some s) ->
  forall (over : option bytes) (out : option format) (fs fs' : files),
  storm encode decode home writable over out Reset fs = (fs', Done) ->
  forall (out' : option format),
  storm encode decode home writable over out' Show fs' = (fs', Shown (lit "zlib") 1 3 (lit "text")) /\
  forall nl lf, exists c o,
    storm encode decode home writable over out' (Create (mkFlags None None None nl lf)) fs' = (fs', Creates c o) /\
    c_version c = V1 /\ c_block_size c = 3 /\ c_default c = 2.
Proof. exact reset_plain. Qed.
Print Assumptions C56_reset.

(** Whatever the settings are, flags win. *)
Theorem C56_flags_win :
  forall (encode : settings -> bytes) (decode : bytes -> option settings) (home : option bytes) (writable : bytes -> bool)
    (over : option bytes) (out : option format) (f : flags) (fs fs' : files) (c : config) (o : format),
  storm encode decode home writable over out (Create f) fs = (fs', Creates c o) ->
  (forall v, fl_version f = Some v -> c_version c = v) /\
  (forall m x, fl_compression f = Some m -> In (m, x) choices -> c_default c = x) /\
  (forall b, fl_block f = Some b -> c_block_size c = b) /\
  c_listfile c = (if fl_no_listfile f then LNone
                  else match fl_listfile f with Some d => LExternal d | None => LGenerate end) /\
  (forall x, out = Some x -> o = x).
Proof. exact flags_win. Qed.
Print Assumptions C56_flags_win.

(** What the file that [config path] names says is done, however it came about;
    names that mean nothing stand for zlib, versions that there are not for the
    first. *)
Theorem C56_file_takes_effect :
  forall (encode : settings -> bytes) (decode : bytes -> option settings) (home : option bytes) (writable : bytes -> bool),
  (forall s, decode (encode s) = Some s) ->
  forall (over : option bytes) (out : option format) (fs : files) (p : bytes) (s : settings),
  snd (storm encode decode home writable over out PathOf fs) = Told p -> fs p = Some (encode s) ->
  forall f, exists c o, storm encode decode home writable over out (Create f) fs = (fs, Creates c o) /\
    (fl_compression f = None -> forall v, st_compression s = Some v ->
       (forall m, In (v, m) methods -> c_default c = m) /\ ((forall m, ~ In (v, m) methods) -> c_default c = 2)) /\
    (fl_version f = None -> forall n, st_version s = Some n ->
       (forall w, In (n, w) versions -> c_version c = w) /\ ((forall w, ~ In (n, w) versions) -> c_version c = V1)) /\
    (fl_block f = None -> forall b, st_block s = Some b -> c_block_size c = b).
Proof. exact file_effect. Qed.
Print Assumptions C56_file_takes_effect.

(** Where there were no settings, after any commands: block sizes up to 23, methods
    that there are, and [config show] tells what [archive create] uses. *)
Theorem C56_only_commands :
  forall (encode : settings -> bytes) (decode : bytes -> option settings) (home : option bytes) (writable : bytes -> bool),
  (forall s, decode (encode s) = Some s) ->
  forall (over : option bytes) (l : list (option format * command)) (fs : files),
  (forall p, fs p = None) ->
  let fs' := after (fun c => storm encode decode home writable over (fst c) (snd c)) l fs in
  forall (out : option format) (f : flags), exists c o,
    storm encode decode home writable over out (Create f) fs' = (fs', Creates c o) /\
    (fl_block f = None -> c_block_size c <= 23) /\
    (fl_compression f = None -> exists v, In (v, c_default c) methods) /\
    forall m n b t, storm encode decode home writable over out Show fs' = (fs', Shown m n b t) ->
      (fl_compression f = None -> In (m, c_default c) methods) /\
      (fl_version f = None -> In (n, c_version c) versions) /\
      (fl_block f = None -> c_block_size c = b).
Proof. exact only_commands. Qed.
Print Assumptions C56_only_commands.

(** With such settings building an archive does not panic, within the limits of C48. *)
Theorem C56_only_commands_calm :
  forall (encode : settings -> bytes) (decode : bytes -> option settings) (home : option bytes) (writable : bytes -> bool),
  (forall s, decode (encode s) = Some s) ->
  forall (L : codecs) (md5 : bytes -> bytes) (over : option bytes) (l : list (option format * command)) (fs : files),
  (forall p, fs p = None) -> calm_encoders L ->
  let fs' := after (fun c => storm encode decode home writable over (fst c) (snd c)) l fs in
  forall (out : option format) (f : flags) (c : config) (o : format) (files : list pending),
  storm encode decode home writable over out (Create f) fs' = (fs', Creates c o) ->
  (forall b, fl_block f = Some b -> b <= 23) ->
  lenN files < 2 ^ 30 - 2 -> (forall p, In p files -> pf_encrypt p = false) ->
  c_version c = V1 \/ c_version c = V2 \/ narrow (all_contents c files) ->
  build L md5 c files <> Panic.
Proof. exact only_commands_calm. Qed.
Print Assumptions C56_only_commands_calm.

Example C56_example :
  (forall s, toy_decode (toy_encode s) = Some s) /\
  map (fun c => snd (at_home (fst c) (snd c) nothing)) three = [Done; Done; Failed; Done] /\
  snd (at_home None Show later) = Shown (lit "lzma") 2 3 (lit "json") /\
  snd (at_home None PathOf later) = Told (lit "/home/me/.config/storm-cli/config.toml") /\
  snd (at_home None (Create no_flags) later) = Creates (mkCfg V2 3 LGenerate 0x12 false false ZLIB) Text /\
  snd (at_home (Some Json) (Create some_flags) later) = Creates (mkCfg V2 0 LNone 0 false false ZLIB) Json.
Proof. split; [exact toy_text|]. repeat split; vm_compute; reflexivity. Qed.

(** The setting for the output is taken and shown, but the output stays as it was. *)
Theorem C56_output_refuted :
  forall (encode : settings -> bytes) (decode : bytes -> option settings) (home : option bytes) (writable : bytes -> bool),
  (forall s, decode (encode s) = Some s) ->
  forall (over : option bytes) (out : option format) (fs fs' : files),
  storm encode decode home writable over out (SetKey (lit "default_output") (lit "json")) fs = (fs', Done) ->
  (exists m n b, storm encode decode home writable over None Show fs' = (fs', Shown m n b (lit "json"))) /\
  forall f, exists c, storm encode decode home writable over None (Create f) fs' = (fs', Creates c Text).
Proof. exact output_ignored. Qed.
Print Assumptions C56_output_refuted.

(** Settings that cannot be read cannot be reset either; no command works. *)
Theorem C56_malformed_refuted :
  forall (encode : settings -> bytes) (decode : bytes -> option settings) (home : option bytes) (writable : bytes -> bool)
    (over : option bytes) (out : option format) (cmd : command) (fs : files) (p d : bytes),
  over = Some p -> fs p = Some d -> decode d = None ->
  storm encode decode home writable over out cmd fs = (fs, Failed).
Proof. exact malformed_stuck. Qed.
Print Assumptions C56_malformed_refuted.

(** A block size that [config set] would refuse is used if the file has it. *)
Theorem C56_block_size_refuted :
  forall (encode : settings -> bytes) (decode : bytes -> option settings) (home : option bytes) (writable : bytes -> bool),
  (forall s, decode (encode s) = Some s) ->
  forall (L : codecs) (md5 : bytes -> bytes) (out : option format) (fs : files) (p : bytes) (s : settings),
  fs p = Some (encode s) -> st_block s = Some 64 ->
  exists c o, storm encode decode home writable (Some p) out (Create (mkFlags (Some V1) (Some ChNone) None true None)) fs
      = (fs, Creates c o) /\
    build L md5 c [] = Panic.
Proof. exact block_unchecked. Qed.
Print Assumptions C56_block_size_refuted.

(** What [config show] tells is what [archive create] uses where nothing else is asked for, whatever is
    in the file or left out of it, for the methods and versions that there are. *)
Theorem C56_shown_used :
  forall (encode : settings -> bytes) (decode : bytes -> option settings) (home : option bytes) (writable : bytes -> bool)
    (over : option bytes) (out : option format) (fs : files) m n b t (f : flags) fs' c o,
  storm encode decode home writable over out Show fs = (fs, Shown m n b t) ->
  storm encode decode home writable over out (Create f) fs = (fs', Creates c o) ->
  (fl_block f = None -> c_block_size c = b) /\ (fl_version f = None -> forall w, In (n, w) versions -> c_version c = w) /\
  (fl_compression f = None -> forall x, In (m, x) methods -> c_default c = x).
Proof. exact shown_used. Qed.
Print Assumptions C56_shown_used.
Example C56_shown_used_example :
  let fs := put nothing (lit "x.toml") (toy_encode (mkSet None None (Some 5) None None)) in
  storm toy_encode toy_decode None (fun _ => true) (Some (lit "x.toml")) None Show fs = (fs, Shown (lit "zlib") 1 5 (lit "text")) /\
  storm toy_encode toy_decode None (fun _ => true) (Some (lit "x.toml")) None (Create no_flags) fs = (fs, Creates (mkCfg V1 5 LGenerate ZLIB false false ZLIB) Text).
Proof. split; vm_compute; reflexivity. Qed.

(** A version that there is not is shown but not used. *)
Theorem C56_version_refuted :
  forall (encode : settings -> bytes) (decode : bytes -> option settings) (home : option bytes) (writable : bytes -> bool),
  (forall s, decode (encode s) = Some s) ->
  forall (out : option format) (fs : files) (p : bytes) (s : settings),
  fs p = Some (encode s) -> st_version s = Some 9 ->
  (exists m b t, storm encode decode home writable (Some p) out Show fs = (fs, Shown m 9 b t)) /\
  exists c o, storm encode decode home writable (Some p) out (Create (mkFlags None None None false None)) fs
      = (fs, Creates c o) /\ c_version c = V1.
Proof. exact version_shown_wrongly. Qed.
Print Assumptions C56_version_refuted.

Example C56_refuted_example :
  (exists fs', at_home None (SetKey (lit "default_output") (lit "json")) nothing = (fs', Done)) /\
  toy_decode (lit "[") = None /\
  (exists (fs : files) p s, fs p = Some (toy_encode s) /\ st_block s = Some 64 /\ st_version s = Some 9).
Proof.
  split; [eexists; vm_compute; reflexivity|]. split; [reflexivity|].
  exists (put nothing (lit "x.toml") (toy_encode (mkSet None (Some 9) (Some 64) None None))), (lit "x.toml"), (mkSet None (Some 9) (Some 64) None None).
  split; [reflexivity|]. split; reflexivity.
Qed.
