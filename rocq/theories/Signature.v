(** * Digital signatures (mopaq/src/crypto/signature.rs, mopaq/src/archive.rs:1633-1757).

    MD5 and SHA-1 are parameters: functions from the concatenation of all data
    fed to the hasher to the digest.  RSA is concrete.  A [read] may give fewer
    bytes than asked for: [rd pos n] is the number of bytes that reading at [pos]
    with room for [n] bytes gives.  Errors of the operating system are left out. *)
From Verif Require Import Bytes Header Archive Compress.
Open Scope N_scope.

(** signature.rs:17-31 *)
Definition WEAK_SIGNATURE_SIZE : N := 64.
Definition WEAK_SIGNATURE_FILE_SIZE : N := 72.
Definition DIGEST_UNIT_SIZE : N := 0x10000.
Definition STRONG_SIGNATURE_HEADER : bytes := lit "NGIS".
Definition STRONG_SIGNATURE_SIZE : N := 260.

(** signature.rs:83-121: modulus and exponent *)
Record rsa_key := mkKey { k_n : N; k_e : positive }.
Definition weak_public_key : rsa_key := mkKey
  0x92627704BFB882CC0523B90CB1AC0459272175968D025EDA47DD7C49371BF8FAEB0E0A92167557AD51B78CCB68C5426290EE9FB14BC118E430349EA4ED6AD837
  0x10001.
Definition strong_public_key : rsa_key := mkKey
  0xB1067ECE24F687C87E27F88C42981DB47D47689CCE044DDA823538C8C3DCAE2C5A3CE668038B7C6F07DECBBA9CCDF5B2C28718A37A657B2B4517E22E0F81C3165F4E5CDD52172BA94A0331D441999606C50289A76EAF4C409C8CA90B4C8510231608384E7752ED835BF893120042A991736A636F27FC45411C3E53B0CB9508BE7BF6021E9DBAFAD5D23DD830C4772EFDD08CC81B454A58B87F28E4DC4C97E60ECFFB1D04E41A8B955BE594B1F7A4BAA350A3B343F4306784B8CB8E9B71785136019A98700D5AA374BD2CDDC62F5B569555C5217F5CEDF5AA6954D0959DA836C23F011540A4E2B782B360AAFC07E98A156155E3349128E6C409B0FB1D57F86477
  0x10001.

(** [s.all(|&b| b == 0)] *)
Definition all_zero (d : bytes) : bool := forallb (beqb x00) d.

(** signature.rs:125-145 [parse_weak_signature] *)
Definition parse_weak_signature (data : bytes) : res bytes :=
  if lenN data <? WEAK_SIGNATURE_FILE_SIZE then Err EInvalidFormat
  else
    let s := firstn 64 (skipn 8 data) in
    if all_zero s then Err EInvalidFormat else Ok s.

(** signature.rs:148-176 [parse_strong_signature] *)
Definition parse_strong_signature (data : bytes) : res bytes :=
  if lenN data <? STRONG_SIGNATURE_SIZE then Err EInvalidFormat
  else if negb (bytes_eqb (firstn 4 data) STRONG_SIGNATURE_HEADER) then Err EInvalidFormat
  else
    let s := firstn 256 (skipn 4 data) in
    if all_zero s then Err EInvalidFormat else Ok s.

(** ** Big integers (num-bigint) *)
(** [BigUint::from_bytes_be] *)
Definition be_dec (d : bytes) : N := le_dec (rev d).
(** [BigUint::to_bytes_be]: no leading zero bytes, except one byte for zero *)
Definition to_bytes_be (n : N) : bytes :=
  if n =? 0 then [x00] else rev (le_enc (N.to_nat ((N.size n + 7) / 8)) n).
(** [BigUint::modpow] *)
Fixpoint modpow (s : N) (e : positive) (n : N) : N :=
  match e with
  | xH => s mod n
  | xO e' => let t := modpow s e' n in (t * t) mod n
  | xI e' => let t := modpow s e' n in ((t * t) mod n * s) mod n
  end.
(** signature.rs:260-269: the signature as a little-endian number, raised *)
Definition rsa_open (k : rsa_key) (signature : bytes) : bytes :=
  to_bytes_be (modpow (be_dec (rev signature)) (k_e k) (k_n k)).

(** signature.rs:372-421 [verify_pkcs1_v15_md5] *)
Definition md5_digest_info : bytes :=
  [x30; x20; x30; x0c; x06; x08; x2a; x86; x48; x86; xf7; x0d; x02; x05; x05; x00; x04; x10].
(** the first zero byte from position [i] on; anything but 0xFF before it ends the search *)
Inductive sep := SepAt (i : N) | SepBad | SepNone.
Fixpoint find_sep (d : bytes) (i : N) : sep :=
  match d with
  | [] => SepNone
  | c :: t => if beqb c x00 then SepAt i else if beqb c xff then find_sep t (i + 1) else SepBad
  end.
Definition verify_pkcs1_v15_md5 (d hash : bytes) : res bool :=
  if lenN d <? 11 + 16 + 18 then Ok false
  else if negb (bytes_eqb (firstn 2 d) [x00; x01]) then Ok false
  else match find_sep (skipn 2 d) 2 with
       | SepBad => Ok false
       | SepNone => Err EInvalidFormat
       | SepAt p =>
           if negb (p + 1 + 18 + 16 =? lenN d) then Ok false
           else if negb (bytes_eqb (firstn 18 (skipn (N.to_nat (p + 1)) d)) md5_digest_info) then Ok false
           else Ok (bytes_eqb (skipn (N.to_nat (p + 19)) d) hash)
       end.

(** signature.rs:424-465 [verify_mpq_strong_signature_padding] *)
Definition verify_strong_padding (d hash : bytes) : bool :=
  if negb (lenN d =? 256) then false
  else if negb (bytes_eqb (firstn 1 d) [x0b]) then false
  else if negb (forallb (beqb xbb) (firstn 235 (skipn 1 d))) then false
  else bytes_eqb (skipn 236 d) hash.

(** signature.rs:43-81: the part of the file to digest and the part to blank *)
Record sig_info := mkSI { si_begin : N; si_end : N; si_xbegin : N; si_xend : N }.
Definition new_weak (start size fpos fsize : N) : res sig_info :=
  xe <- add64 fpos fsize ;;
  e <- add64 start size ;;
  Ok (mkSI start e fpos xe).

(** signature.rs:234-236: [buffer[s..e].fill(0)] *)
Definition blank (s e : N) (d : bytes) : res bytes :=
  if (s <=? e) && (e <=? lenN d)
  then Ok (firstn (N.to_nat s) d ++ zeros (e - s) ++ skipn (N.to_nat e) d)
  else Panic.

Section Signature.
Variable L : codecs.
Variable md5 sha1 : bytes -> bytes.
Variable rd : N -> N -> N.

(** signature.rs:183-255 [calculate_mpq_hash_md5]: the data fed to the hasher *)
Fixpoint digest_loop (fuel : nat) (file : bytes) (si : sig_info) (pos : N) : res bytes :=
  match fuel with
  | O => Ok []
  | S f =>
      if pos <? si_end si then
        let n := rd pos (N.min (si_end si - pos) DIGEST_UNIT_SIZE) in
        if n =? 0 then Ok []
        else
          chunk <- of_option EIo (slice pos n file) ;;
          chunk <- (if (pos <? si_xend si) && (si_xbegin si <? pos + n)
                    then blank (if pos <? si_xbegin si then si_xbegin si - pos else 0)
                               (if si_xend si <? pos + n then si_xend si - pos else n) chunk
                    else Ok chunk) ;;
          rest <- digest_loop f file si (pos + n) ;;
          Ok (chunk ++ rest)
      else Ok []
  end.
Definition digest_data (file : bytes) (si : sig_info) : res bytes :=
  digest_loop (S (length file)) file si (si_begin si).

(** signature.rs:258-285 [verify_weak_signature_stormlib] *)
Definition verify_weak_stormlib (k : rsa_key) (file signature : bytes) (si : sig_info) : res bool :=
  d <- digest_data file si ;;
  verify_pkcs1_v15_md5 (rsa_open k signature) (md5 d).

(** signature.rs:326-345: [n] bytes from [pos] on, as far as there are any *)
Fixpoint stream_loop (fuel : nat) (file : bytes) (pos n : N) : res bytes :=
  match fuel with
  | O => Ok []
  | S f =>
      if 0 <? n then
        let m := rd pos (N.min n 65536) in
        if m =? 0 then Ok []
        else
          chunk <- of_option EIo (slice pos m file) ;;
          rest <- stream_loop f file (pos + m) (n - m) ;;
          Ok (chunk ++ rest)
      else Ok []
  end.
Definition stream_data (file : bytes) (pos n : N) : res bytes := stream_loop (S (length file)) file pos n.

(** signature.rs:316-369 [verify_strong_signature] *)
Definition verify_strong (k : rsa_key) (file : bytes) (pos n : N) (signature : bytes) : res bool :=
  d <- stream_data file pos n ;;
  Ok (verify_strong_padding (rsa_open k signature) (sha1 d)).

(** archive.rs:102-115 *)
Inductive sig_status := SigNone | WeakValid | WeakInvalid | StrongValid | StrongInvalid.

(** archive.rs:1646-1692 [Archive::verify_weak_signature]; [k] is the weak key *)
Definition SIGNATURE : bytes := lit "(signature)".
Definition archive_verify_weak (k : rsa_key) (a : archive) : res sig_status :=
  r <- find_file a SIGNATURE ;;
  match r with
  | None => Ok SigNone
  | Some fi =>
      data <- read_file L a SIGNATURE ;;
      match parse_weak_signature data with
      | Ok s =>
          si <- new_weak (a_off a) (h_archive_size (a_header a)) (fi_pos fi) (fi_csize fi) ;;
          match verify_weak_stormlib k (a_file a) s si with
          | Ok true => Ok WeakValid
          | Ok false => Ok WeakInvalid
          | Err _ => Ok WeakInvalid
          | Panic => Panic
          end
      | _ => Ok SigNone
      end
  end.

(** archive.rs:1695-1756 [Archive::verify_strong_signature] *)
Definition archive_verify_strong (k : rsa_key) (a : archive) : res sig_status :=
  fin <- add64 (a_off a) (get_archive_size (a_header a)) ;;
  need <- add64 fin STRONG_SIGNATURE_SIZE ;;
  if lenN (a_file a) <? need then Ok SigNone
  else
    match read_at (a_file a) fin STRONG_SIGNATURE_SIZE with
    | Ok data =>
        match parse_strong_signature data with
        | Ok s =>
            match verify_strong k (a_file a) (a_off a) (fin - a_off a) s with
            | Ok true => Ok StrongValid
            | Ok false => Ok StrongInvalid
            | Err _ => Ok StrongInvalid
            | Panic => Panic
            end
        | _ => Ok SigNone
        end
    | Err _ => Ok SigNone
    | Panic => Panic
    end.

(** archive.rs:1633-1644 [verify_signature] *)
Definition verify_signature (weak strong : rsa_key) (a : archive) : res sig_status :=
  match archive_verify_strong strong a with
  | Panic => Panic
  | Ok SigNone | Err _ => archive_verify_weak weak a
  | Ok s => Ok s
  end.
End Signature.
