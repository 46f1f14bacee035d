(** * What [archive analyze] prints (storm-cli/src/commands/archive.rs:614-987), line by line.

    Simplifications: text without colours; the JSON text, which has [f64] numbers, is a parameter; the
    counts of a breakdown, which are [i32], do not overflow.  The order in which a [HashMap] is walked
    through is not determined: [walk k] gives it for the map that [k] stands for. *)
From Verif Require Import Bytes Header Compress BlockTable Archive Cli CliList CliConfig CliVerbose Percent CliInfo CliVerify CliAnalyze.
From Verif Require InfoReport.
Open Scope N_scope.

Inductive map_of := Summary | Extensions | Extension (e : bytes) | Breakdown.

(** [sort_by(|a, b| b.1.cmp(a.1))]: a stable sort, the largest first *)
Fixpoint put_in {A} (f : A -> N) (x : A) (l : list A) : list A :=
  match l with
  | [] => [x]
  | y :: t => if f y <=? f x then x :: l else y :: put_in f x t
  end.
Definition largest_first {A} (f : A -> N) (l : list A) : list A := fold_right (put_in f) [] l.

Definition mark (b : bool) : bytes := if b then TICK else CROSS.
(** archive.rs:823, 877, 893: [(n as f64 / total as f64 * 100.0) as u32] *)
Definition share (n total : N) : N := to_u32 (per_hundred n total).
(** [map.values().sum()] *)
Definition sum_of (m : list (bytes * N)) : N := fold_right (fun x s => snd x + s) 0 m.

(** archive.rs:816-828, 870-882 *)
Definition method_line (before : bytes) (w1 w2 total : N) (x : bytes * N) : bytes :=
  before ++ mark (supported_name (fst x)) ++ lit " " ++ pad_right w1 (fst x) ++ lit " " ++ pad_left w2 (decimal (snd x)) ++
  lit " files (" ++ pad_left 3 (decimal (share (snd x) total)) ++ lit "%)".

Section Analyzed.
Variable L : codecs.
Variable lower : bytes -> bytes.
Variable walk : map_of -> forall A : Type, list A -> list A.
Variable as_json : report -> bytes.

(** archive.rs:678-706: the line of a file *)
Definition detail_line (stats : bool) (n : bytes) (fi : finfo) (m : method) : bytes :=
  mark (supported m) ++ lit " " ++ n ++ lit " " ++ method_name m ++
  (if stats
   then lit " (" ++ decimal (fi_size fi) ++ lit " -> " ++ decimal (fi_csize fi) ++ lit " bytes, " ++ decimal (ratio (fi_csize fi) (fi_size fi)) ++ lit "%)"
   else []).

(** archive.rs:649-708: the loop of [analyze_loop] with what it prints *)
Fixpoint analyze_loop_told (text detailed only stats by_ext : bool) (a : archive) (es : list fentry) (r : report) : list bytes * res report :=
  match es with
  | [] => ([], Ok r)
  | e :: t =>
      match find_file a (fe_name e) with
      | Ok None => analyze_loop_told text detailed only stats by_ext a t r
      | Ok (Some fi) =>
          let m := from_flags (fi_flags fi mod 256) in
          let k := method_name m in
          match (c <- add64 (r_csize r) (fi_csize fi) ;; s <- add64 (r_size r) (fi_size fi) ;; Ok (c, s)) with
          | Ok (c, s) =>
              let (ls, o) := analyze_loop_told text detailed only stats by_ext a t
                (mkReport (bump k (r_methods r))
                          (if by_ext then bump2 (file_extension lower (fe_name e)) k (r_extensions r) else r_extensions r)
                          (if supported m then r_unsupported r else r_unsupported r ++ [(fe_name e, k)])
                          c s (r_files r)) in
              ((if text && detailed && (negb only || negb (supported m)) then [detail_line stats (fe_name e) fi m] else []) ++ ls, o)
          | Err x => ([], Err x)
          | Panic => ([], Panic)
          end
      | Err x => ([], Err x)
      | Panic => ([], Panic)
      end
  end.

(** archive.rs:808-849 *)
Definition summary_lines (stats : bool) (r : report) : list bytes :=
  [[]; lit "Compression Method Summary"; repeat "="%byte 60] ++
  map (method_line [] 20 6 (r_files r)) (largest_first snd (walk Summary _ (r_methods r))) ++
  (if stats
   then [[]; lit "Archive Statistics"; repeat "-"%byte 60;
         lit "Total files:           " ++ decimal (r_files r);
         lit "Total uncompressed:    " ++ decimal (r_size r) ++ lit " bytes";
         lit "Total compressed:      " ++ decimal (r_csize r) ++ lit " bytes";
         lit "Overall compression:   " ++ decimal (ratio (r_csize r) (r_size r)) ++ lit "%"]
   else []).
(** archive.rs:851-884 *)
Definition extension_lines (r : report) : list bytes :=
  [[]; lit "Compression by File Extension"; repeat "="%byte 60] ++
  flat_map (fun x => [[]; fst x ++ lit " (" ++ decimal (sum_of (snd x)) ++ lit " files):"] ++
                     map (method_line (lit "  ") 18 4 (sum_of (snd x))) (largest_first snd (walk (Extension (fst x)) _ (snd x))))
           (largest_first (fun x => sum_of (snd x)) (walk Extensions _ (r_extensions r))).
(** archive.rs:886-916 *)
Definition unsupported_lines (only : bool) (r : report) : list bytes :=
  let n := lenN (r_unsupported r) in
  [[]; lit "Unsupported Compression Methods"; repeat "="%byte 60;
   lit "Found " ++ decimal n ++ lit " files (" ++ pad_left 3 (decimal (share n (r_files r))) ++ lit "%) using unsupported compression methods:"] ++
  (if only then map (fun x => CROSS ++ lit " " ++ fst x ++ lit " " ++ snd x) (r_unsupported r) else []) ++
  [[]; lit "Unsupported method breakdown:"] ++
  map (fun x => lit "  " ++ fst x ++ lit " - " ++ decimal (snd x) ++ lit " files")
      (walk Breakdown _ (fold_left (fun m k => bump k m) (map snd (r_unsupported r)) [])).
(** archive.rs:808-922 [print_text_analysis_results] *)
Definition analysis_text (by_ext only stats : bool) (r : report) : list bytes :=
  (if only then [] else summary_lines stats r) ++
  (match r_extensions r with [] => [] | _ => if by_ext then extension_lines r else [] end) ++
  (match r_unsupported r with
   | [] => if only then [] else [[]; TICK ++ lit " All compression methods in this archive are supported!"]
   | _ => unsupported_lines only r
   end).
(** archive.rs:980-987 [print_csv_analysis_results] *)
Definition analysis_csv (r : report) : list bytes :=
  lit "compression_method,file_count,supported" ::
  map (fun x => fst x ++ lit "," ++ decimal (snd x) ++ lit "," ++ InfoReport.truth (supported_name (fst x))) (walk Summary _ (r_methods r)).

(** archive.rs:614-738 [analyze] *)
Definition analyze_told (out : format) (quiet detailed by_ext only stats : bool) (path file : bytes) : list bytes * res unit :=
  let text := match out with Text => true | _ => false end in
  let hello := if negb quiet && text then [lit "Analyzing compression methods: " ++ path] else [] in
  match (a <- open_archive L file ;; es <- list_with_hashes L a ;; Ok (a, es)) with
  | Ok (a, es) =>
      match es with
      | [] => (hello ++ (if text then [lit "No files found in archive"] else []), Ok tt)
      | _ =>
          let (ls, o) := analyze_loop_told text detailed only stats by_ext a es (mkReport [] [] [] 0 0 (lenN es)) in
          match o with
          | Ok r => (hello ++ ls ++ (match out with Text => analysis_text by_ext only stats r | Json => [as_json r] | Csv => analysis_csv r end), Ok tt)
          | Err x => (hello ++ ls, Err x)
          | Panic => (hello ++ ls, Panic)
          end
      end
  | Err x => (hello, Err x)
  | Panic => (hello, Panic)
  end.
End Analyzed.
