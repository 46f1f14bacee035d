(** * Specification: what a printed analysis of the methods should say. *)
From Verif Require Import Bytes Compress BlockTable Archive SpecReport SpecCliList SpecPercent SpecVerifyText SpecAnalyze.
From Coq Require Import Permutation Sorted.
Open Scope N_scope.

(** What was found out about the files that were found: the method of each *)
Definition methods_of (hs : list (bytes * finfo)) : list (bytes * method * finfo) :=
  map (fun h => (fst h, from_flags (fi_flags (snd h) mod 256), snd h)) hs.

(** The methods the tool can unpack, and how it calls them *)
Definition unpacked (m : method) : bool :=
  match m with MHuffman | MImplode | MPKWare | MMultiple _ => false | _ => true end.
Definition called (m : method) (t : bytes) : Prop :=
  match m with
  | MNone => t = lit "None" | MHuffman => t = lit "Huffman" | MZlib => t = lit "Zlib"
  | MImplode => t = lit "PKWare Implode" | MPKWare => t = lit "PKWare DCL" | MBZip2 => t = lit "BZip2"
  | MSparse => t = lit "Sparse" | MAdpcmMono => t = lit "ADPCM Mono" | MAdpcmStereo => t = lit "ADPCM Stereo"
  | MLzma => t = lit "LZMA"
  | MMultiple f => exists h, length h = 2%nat /\ hex_number 0 h = Some f /\ t = lit "Multiple (0x" ++ h ++ lit ")"
  end.
Definition sign (b : bool) : bytes := if b then tick else cross.

(** How often a method comes up *)
Definition how_often (P : method -> bool) (hs : list (bytes * method * finfo)) : N := lenN (filter (fun h => P (snd (fst h))) hs).
Definition same_method (m m' : method) : bool :=
  match m, m' with
  | MNone, MNone | MHuffman, MHuffman | MZlib, MZlib | MImplode, MImplode | MPKWare, MPKWare | MBZip2, MBZip2 | MSparse, MSparse
  | MAdpcmMono, MAdpcmMono | MAdpcmStereo, MAdpcmStereo | MLzma, MLzma => true
  | MMultiple f, MMultiple g => f =? g
  | _, _ => false
  end.

(** The row of a method: how many files, of how many in hundredths *)
Definition method_row (before : bytes) (w1 w2 total n : N) (m : method) (row : bytes) : Prop :=
  exists t c1 tn c2 p tp c3, called m t /\ left_aligned w1 t c1 /\ shown n tn /\ right_aligned w2 tn c2 /\
    percent_of n total p /\ shown p tp /\ right_aligned 3 tp c3 /\
    row = before ++ sign (unpacked m) ++ lit " " ++ c1 ++ lit " " ++ c2 ++ lit " files (" ++ c3 ++ lit "%)".
(** The rows of the methods of some files: each method that comes up once, the most frequent first *)
Definition method_rows (before : bytes) (w1 w2 total : N) (hs : list (bytes * method * finfo)) (rows : list bytes) : Prop :=
  exists ms, NoDup ms /\ (forall m, In m ms <-> exists h, In h hs /\ snd (fst h) = m) /\
    StronglySorted (fun m m' => how_often (same_method m') hs <= how_often (same_method m) hs) ms /\
    Forall2 (fun m => method_row before w1 w2 total (how_often (same_method m) hs) m) ms rows.

Definition banner (t : bytes) (c : byte) : list bytes := [[]; t; repeat c 60].

(** ** The parts of the text *)
(** The line of a file *)
Definition detail_says (stats : bool) (h : bytes * method * finfo) (l : bytes) : Prop :=
  exists t, called (snd (fst h)) t /\
  if stats
  then exists ts tc p tp, shown (fi_size (snd h)) ts /\ shown (fi_csize (snd h)) tc /\ percent_of (fi_csize (snd h)) (fi_size (snd h)) p /\ shown p tp /\
    l = sign (unpacked (snd (fst h))) ++ lit " " ++ fst (fst h) ++ lit " " ++ t ++ lit " (" ++ ts ++ lit " -> " ++ tc ++ lit " bytes, " ++ tp ++ lit "%)"
  else l = sign (unpacked (snd (fst h))) ++ lit " " ++ fst (fst h) ++ lit " " ++ t.
Definition details_say (detailed only stats : bool) (hs : list (bytes * method * finfo)) (ls : list bytes) : Prop :=
  if detailed then Forall2 (detail_says stats) (filter (fun h => negb only || negb (unpacked (snd (fst h)))) hs) ls else ls = [].

(** The summary, of [files] listed files *)
Definition summary_says (stats : bool) (files : N) (hs : list (bytes * method * finfo)) (ls : list bytes) : Prop :=
  exists rows, method_rows [] 20 6 files hs rows /\
  if stats
  then exists tf ts tc p tp,
    let size := total (fun h => fi_size (snd h)) hs in let csize := total (fun h => fi_csize (snd h)) hs in
    shown files tf /\ shown size ts /\ shown csize tc /\ percent_of csize size p /\ shown p tp /\
    ls = banner (lit "Compression Method Summary") "="%byte ++ rows ++ banner (lit "Archive Statistics") "-"%byte ++
         [lit "Total files:           " ++ tf; lit "Total uncompressed:    " ++ ts ++ lit " bytes";
          lit "Total compressed:      " ++ tc ++ lit " bytes"; lit "Overall compression:   " ++ tp ++ lit "%"]
  else ls = banner (lit "Compression Method Summary") "="%byte ++ rows.

(** By extension: each that comes up once, the most frequent first *)
Definition with_ext (ext : bytes -> bytes) (hs : list (bytes * method * finfo)) (e : bytes) : list (bytes * method * finfo) :=
  filter (fun h => bytes_eqb (ext (fst (fst h))) e) hs.
Definition group_says (ext : bytes -> bytes) (hs : list (bytes * method * finfo)) (e : bytes) (ls : list bytes) : Prop :=
  let n := lenN (with_ext ext hs e) in
  exists tn rows, shown n tn /\ method_rows (lit "  ") 18 4 n (with_ext ext hs e) rows /\ ls = [[]; e ++ lit " (" ++ tn ++ lit " files):"] ++ rows.
Definition extensions_say (ext : bytes -> bytes) (hs : list (bytes * method * finfo)) (ls : list bytes) : Prop :=
  (hs = [] /\ ls = []) \/
  hs <> [] /\ exists es gs, NoDup es /\ (forall e, In e es <-> exists h, In h hs /\ ext (fst (fst h)) = e) /\
    StronglySorted (fun e e' => lenN (with_ext ext hs e') <= lenN (with_ext ext hs e)) es /\
    Forall2 (group_says ext hs) es gs /\ ls = banner (lit "Compression by File Extension") "="%byte ++ concat gs.

(** The files that cannot be unpacked, and their methods, in any order *)
Definition unsupported_say (only : bool) (files : N) (hs : list (bytes * method * finfo)) (ls : list bytes) : Prop :=
  let bad := filter (fun h => negb (unpacked (snd (fst h)))) hs in
  (bad = [] /\ ls = if only then [] else [[]; tick ++ lit " All compression methods in this archive are supported!"]) \/
  bad <> [] /\ exists tn p tp c names ms rows, shown (lenN bad) tn /\ percent_of (lenN bad) files p /\ shown p tp /\ right_aligned 3 tp c /\
    (if only then Forall2 (fun h l => exists t, called (snd (fst h)) t /\ l = cross ++ lit " " ++ fst (fst h) ++ lit " " ++ t) bad names else names = []) /\
    NoDup ms /\ (forall m, In m ms <-> exists h, In h bad /\ snd (fst h) = m) /\
    Forall2 (fun m l => exists t k, called m t /\ shown (how_often (same_method m) bad) k /\ l = lit "  " ++ t ++ lit " - " ++ k ++ lit " files") ms rows /\
    ls = banner (lit "Unsupported Compression Methods") "="%byte ++
         [lit "Found " ++ tn ++ lit " files (" ++ c ++ lit "%) using unsupported compression methods:"] ++ names ++
         [[]; lit "Unsupported method breakdown:"] ++ rows.

(** ** All of it *)
Definition analysis_says (ext : bytes -> bytes) (detailed by_ext only stats : bool) (path : bytes) (files : N)
    (hs : list (bytes * method * finfo)) (ls : list bytes) : Prop :=
  exists ds ss xs us, details_say detailed only stats hs ds /\
    (if only then ss = [] else summary_says stats files hs ss) /\
    (if by_ext then extensions_say ext hs xs else xs = []) /\ unsupported_say only files hs us /\
    ls = [lit "Analyzing compression methods: " ++ path] ++ ds ++ ss ++ xs ++ us.

(** As CSV: a row for each method, in any order *)
Definition analysis_rows (hs : list (bytes * method * finfo)) (ls : list bytes) : Prop :=
  exists ms rows, NoDup ms /\ (forall m, In m ms <-> exists h, In h hs /\ snd (fst h) = m) /\
    Forall2 (fun m l => exists t k, called m t /\ shown (how_often (same_method m) hs) k /\
      l = t ++ lit "," ++ k ++ lit "," ++ (if unpacked m then lit "true" else lit "false")) ms rows /\
    ls = lit "compression_method,file_count,supported" :: rows.
