(** * The statistics of [archive analyze] (storm-cli/src/commands/archive.rs:615-806)

    The printing is left out (for the percentages see [Percent]): the order in
    which a [HashMap] is walked through is not determined.  A [HashMap] is a list of
    pairs, in the order in which the keys came up first. *)
From Verif Require Import Bytes Header Compress BlockTable Archive Cli CliList.
Open Scope N_scope.

(** [*map.entry(key).or_insert(0) += 1]; a count of [usize] does not overflow *)
Fixpoint bump (k : bytes) (l : list (bytes * N)) : list (bytes * N) :=
  match l with
  | [] => [(k, 1)]
  | (k', n) :: t => if bytes_eqb k k' then (k', n + 1) :: t else (k', n) :: bump k t
  end.
(** [map.entry(ext).or_default()], then as above *)
Fixpoint bump2 (e k : bytes) (l : list (bytes * list (bytes * N))) : list (bytes * list (bytes * N)) :=
  match l with
  | [] => [(e, [(k, 1)])]
  | (e', m) :: t => if bytes_eqb e e' then (e', bump k m) :: t else (e', m) :: bump2 e k t
  end.

(** archive.rs:756-770 [format_compression_method]; [{:02X}] *)
Definition method_name (m : method) : bytes :=
  match m with
  | MNone => lit "None"
  | MHuffman => lit "Huffman"
  | MZlib => lit "Zlib"
  | MImplode => lit "PKWare Implode"
  | MPKWare => lit "PKWare DCL"
  | MBZip2 => lit "BZip2"
  | MSparse => lit "Sparse"
  | MAdpcmMono => lit "ADPCM Mono"
  | MAdpcmStereo => lit "ADPCM Stereo"
  | MLzma => lit "LZMA"
  | MMultiple f => lit "Multiple (0x" ++ hex_digits 2 f ++ lit ")"
  end.
(** archive.rs:772-786 [is_compression_method_supported] *)
Definition supported_name (n : bytes) : bool :=
  existsb (bytes_eqb n) [lit "None"; lit "Zlib"; lit "BZip2"; lit "LZMA"; lit "Sparse"; lit "ADPCM Mono"; lit "ADPCM Stereo"].

(** [Path::extension]: what follows the last dot of the file name, if something stands
    in front of the dot *)
Fixpoint after_dot (d : bytes) (acc : bytes) : option (bytes * bytes) :=
  match d with
  | [] => None
  | b :: t => if beqb b "."%byte then Some (t, acc) else after_dot t (b :: acc)
  end.
Definition path_extension (n : bytes) : option bytes :=
  match file_name n with
  | None => None
  | Some f => match after_dot (rev f) [] with
              | Some ([], _) | None => None
              | Some (_, e) => Some e
              end
  end.

Record report := mkReport {
  r_methods : list (bytes * N);
  r_extensions : list (bytes * list (bytes * N));
  r_unsupported : list (bytes * bytes);
  r_csize : N; r_size : N; r_files : N }.

Section Analyze.
Variable L : codecs.
(** [str::to_lowercase] *)
Variable lower : bytes -> bytes.

(** archive.rs:788-794 [get_file_extension] *)
Definition file_extension (n : bytes) : bytes :=
  match path_extension n with Some e => lower e | None => lit "(no extension)" end.

(** archive.rs:648-677: the loop; the sums are checked *)
Fixpoint analyze_loop (a : archive) (by_ext : bool) (es : list fentry) (r : report) : res report :=
  match es with
  | [] => Ok r
  | e :: t =>
      o <- find_file a (fe_name e) ;;
      match o with
      | None => analyze_loop a by_ext t r
      | Some fi =>
          let m := from_flags (fi_flags fi mod 256) in
          let k := method_name m in
          c <- add64 (r_csize r) (fi_csize fi) ;;
          s <- add64 (r_size r) (fi_size fi) ;;
          analyze_loop a by_ext t
            (mkReport (bump k (r_methods r))
                      (if by_ext then bump2 (file_extension (fe_name e)) k (r_extensions r) else r_extensions r)
                      (if supported m then r_unsupported r else r_unsupported r ++ [(fe_name e, k)])
                      c s (r_files r))
      end
  end.
(** archive.rs:615-737 [analyze] *)
Definition analyze_report (file : bytes) (by_ext : bool) : res report :=
  a <- open_archive L file ;;
  es <- list_with_hashes L a ;;
  analyze_loop a by_ext es (mkReport [] [] [] 0 0 (lenN es)).
End Analyze.
