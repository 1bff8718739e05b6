(** Storage layouts: the extensions of /repo/pkg/extension which map an object identifier to the path of
    the object below the storage root, their configuration documents, and the chain of layouts of the
    extension manager.

    Simplifications for the whole file: integers of a configuration are not negative; the hash functions
    come from the library je4/utils (package checksum, not in /repo) and are a parameter [hs]:
    [hs alg] is the function from bytes to digest bytes, [None] for an unknown name. *)
From Coq Require Import Ascii ZArith Lia Hexadecimal HexadecimalString HexadecimalN.
From stdpp Require Import base list strings gmap.
From Verif Require Import GoStr PathModel Utf8Model.

(** Outcome of computing a path. *)
Inductive pres := POk (p : string) | PErr (msg : string) | PPanic.

Definition hashes := string → option (string → string).

(** [fmt.Sprintf("%x", n)] for a number: lower case, no leading zero. *)
Definition hex_of_N (n : N) : string := HexadecimalString.NilZero.string_of_uint (N.to_hex_uint n).

(** [fmt.Sprintf("%x", bytes)], [hex.EncodeToString]: two lower case digits for each byte. *)
Definition hex_digit (n : N) : ascii := if (n <? 10)%N then ascii_of_N (48 + n) else ascii_of_N (87 + n).
Fixpoint hex_bytes (s : string) : string :=
  match s with
  | EmptyString => EmptyString
  | String c s' => String (hex_digit (N_of_ascii c / 16)) (String (hex_digit (N_of_ascii c mod 16)) (hex_bytes s'))
  end.

(** [s[i*t:(i+1)*t]] for [i] below [n], all within bounds. *)
Definition tuples (t n : nat) (s : string) : list string := (λ i, substring (i * t) t s) <$> seq 0 n.

(** The constructor caps both numbers at 32 and sets both to zero if one is zero: 0003 lines 38-47,
    0004 lines 38-47. *)
Definition cap_tuples (t n : nat) : nat * nat :=
  let n := if 32 <? n then 32 else n in
  let t := if 32 <? t then 32 else t in
  if (t =? 0) || (n =? 0) then (0, 0) else (t, n).

(** ** 0003-hash-and-id-n-tuple-storage-layout.go *)

Record conf3 := Conf3 { c3_alg : string; c3_t : nat; c3_n : nat }.

(** [NewStorageLayoutHashAndIdNTuple], lines 36-57. *)
Definition new3 (hs : hashes) (c : conf3) : option conf3 :=
  let '(t, n) := cap_tuples (c3_t c) (c3_n c) in
  match hs (c3_alg c) with None => None | Some _ => Some (Conf3 (c3_alg c) t n) end.

(** [escape], lines 125-136, works on bytes. *)
Definition in_range (lo hi c : ascii) : bool :=
  (N_of_ascii lo <=? N_of_ascii c)%N && (N_of_ascii c <=? N_of_ascii hi)%N.
Definition keep3 (c : ascii) : bool :=
  in_range "a" "z" c || in_range "A" "Z" c || in_range "0" "9" c ||
  bool_decide (c = "-"%char) || bool_decide (c = "_"%char).
Fixpoint escape (s : string) : string :=
  match s with
  | EmptyString => EmptyString
  | String c s' =>
      if keep3 c then String c (escape s')
      else String "%" (hex_of_N (N_of_ascii c) +:+ escape s')
  end.

(** [BuildStorageRootPath], lines 138-159.  The escaped identifier is ASCII, so its first 100 runes are
    its first 100 bytes. *)
Definition build3 (h : string → string) (c : conf3) (id : string) : pres :=
  let digest := hex_bytes (h id) in
  if String.length digest <? c3_t c * c3_n c then PErr "digest to short"
  else
    let path := escape id in
    let path := if 100 <? String.length path then substring 0 100 path +:+ ("-" +:+ digest) else path in
    POk (join_slash (tuples (c3_t c) (c3_n c) digest ++ [path])).

(** ** 0004-hashed-n-tuple-storage-layout.go *)

Record conf4 := Conf4 { c4_alg : string; c4_t : nat; c4_n : nat; c4_short : bool }.

(** [NewStorageLayoutHashedNTuple], lines 36-57. *)
Definition new4 (hs : hashes) (c : conf4) : option conf4 :=
  let '(t, n) := cap_tuples (c4_t c) (c4_n c) in
  match hs (c4_alg c) with None => None | Some _ => Some (Conf4 (c4_alg c) t n (c4_short c)) end.

(** [BuildStorageRootPath], lines 116-136. *)
Definition build4 (h : string → string) (c : conf4) (id : string) : pres :=
  let digest := hex_bytes (h id) in
  if String.length digest <? c4_t c * c4_n c then PErr "digest to short"
  else
    let last := if c4_short c
      then substring (c4_n c * c4_t c) (String.length digest - c4_n c * c4_t c) digest
      else digest in
    POk (join_slash (tuples (c4_t c) (c4_n c) digest ++ [last])).

(** ** 0006-flat-omit-prefix-storage-layout.go *)

(** [id[strings.LastIndex(id, d)+len(d):]] if there is an occurrence.  The empty delimiter occurs last at
    the end. *)
Fixpoint after_last (d s : string) : option string :=
  match s with
  | EmptyString => drop_prefix d s
  | String _ s' => match after_last d s' with Some r => Some r | None => drop_prefix d s end
  end.

(** [BuildStorageRootPath], lines 117-123. *)
Definition build6 (delim id : string) : pres :=
  match after_last delim id with None => POk id | Some r => POk r end.

(** ** 0007-n-tuple-omit-prefix-storage-layout.go *)

Record conf7 := Conf7 { c7_delim : string; c7_t : nat; c7_n : nat; c7_pad : string; c7_rev : bool }.

(** [reverse], lines 19-30. *)
Definition reverse (s : string) : string := encode (rev (runes s)).

(** [BuildStorageRootPath], lines 137-190.  An integer division by zero and a slice out of bounds
    panic. *)
Definition strip7 (c : conf7) (id : string) : string :=
  if decide (c7_delim c = "") then id
  else match after_last (c7_delim c) id with None => id | Some r => r end.
Definition base7 (c : conf7) (id : string) : string :=
  let target := c7_t c * c7_n c in
  let str := (if decide (c7_pad c = "right") then id else "") +:+
             (str_repeat "0" (target - String.length id) +:+
              (if decide (c7_pad c = "left") then id else "")) in
  if c7_rev c then reverse str else str.
Definition build7 (c : conf7) (id : string) : pres :=
  let id := strip7 c id in
  let base := base7 c id in
  if c7_t c =? 0 then PPanic
  else
    let n := c7_t c * c7_n c / c7_t c in
    if String.length base <? n * c7_t c then PPanic
    else POk (join_slash (tuples (c7_t c) n base ++ [id])).

(** ** NNNN-pairtree-storage-layout.go *)

Record confP := ConfP { cp_uri : string; cp_dir : string; cp_shorty : nat; cp_alg : string }.

(** [NewStorageLayoutPairTree], lines 102-113. *)
Definition newP (hs : hashes) (c : confP) : option confP :=
  match hs (cp_alg c) with None => None | Some _ => Some c end.

(** [rareChars], line 23 (with the letter c where the Pairtree specification has a comma), and [convert],
    lines 25-29. *)
Definition rare_chars : list N := [34; 42; 43; 99; 60; 61; 62; 63; 94; 124]%N.
Definition convert (c : ascii) : ascii :=
  if decide (c = "/"%char) then "="%char else if decide (c = ":"%char) then "+"%char
  else if decide (c = "."%char) then ","%char else c.
Fixpoint str_map (f : ascii → ascii) (s : string) : string :=
  match s with EmptyString => EmptyString | String c s' => String (f c) (str_map f s') end.

(** [idEncode], lines 155-190.  The intermediate result is ASCII. *)
Definition pt_rune (n : N) : string :=
  if (33 <=? n)%N && (n <=? 126)%N && negb (bool_decide (n ∈ rare_chars))
  then String (ascii_of_N n) EmptyString
  else String "^" (hex_of_N n).
Fixpoint pt_runes (l : list N) : string :=
  match l with [] => "" | n :: l' => pt_rune n +:+ pt_runes l' end.
Definition id_encode (s : string) : string := str_map convert (pt_runes (runes s)).

(** [BuildStorageRootPath], lines 140-153.  [substring] stops at the end of the string.  With length zero
    the code divides by zero in floating point and converts the infinity to an integer, which gives a
    negative number on the usual platform: no parts. *)
Definition buildP (c : confP) (id : string) : pres :=
  let id := id_encode id in
  let k := cp_shorty c in
  if k =? 0 then POk ""
  else POk (join_slash (tuples k ((String.length id + (k - 1)) / k) id)).

(** ** NNNN-direct-clean-path-layout.go

    Strings are represented by their runes after [strings.ToValidUTF8]; lengths are those of the encoded
    string.  Simplification: the two replacement strings contain no dollar sign (which [ReplaceAllString]
    would expand) and no line feed (which the dot of the last rule does not match). *)

Record confD := ConfD {
  cd_maxpath : N; cd_maxseg : N; cd_repl : list N; cd_wrepl : list N; cd_utf : bool;
  cd_alg : string; cd_folder : string; cd_ntuples : nat; cd_tsize : nat;
  cd_maxfile : N; cd_subdirs : nat }.

(** [NewDirectClean], lines 74-99. *)
Definition newD (hs : hashes) (c : confD) : option confD :=
  let c' := ConfD
    (if (cd_maxpath c =? 0)%N then 32000%N else cd_maxpath c)
    (if (cd_maxseg c =? 0)%N then 127%N else cd_maxseg c)
    (cd_repl c) (cd_wrepl c) (cd_utf c)
    (if decide (cd_alg c = "") then "sha512" else cd_alg c)
    (if decide (cd_folder c = "") then "fallback" else cd_folder c)
    (cd_ntuples c) (cd_tsize c) (cd_maxfile c) (cd_subdirs c) in
  match hs (cd_alg c') with None => None | Some _ => Some c' end.

(** [NewDirectCleanFS], lines 63-71: fields of old configurations. *)
Definition old_conf (c : confD) : confD :=
  let c := if (0 <? cd_maxfile c)%N && (cd_maxpath c =? 0)%N
    then ConfD (cd_maxfile c) (cd_maxseg c) (cd_repl c) (cd_wrepl c) (cd_utf c) (cd_alg c) (cd_folder c)
           (cd_ntuples c) (cd_tsize c) 0 (cd_subdirs c) else c in
  if (0 <? cd_subdirs c) && (cd_ntuples c =? 0)
  then ConfD (cd_maxpath c) (cd_maxseg c) (cd_repl c) (cd_wrepl c) (cd_utf c) (cd_alg c) (cd_folder c)
         (cd_subdirs c) (cd_tsize c) (cd_maxfile c) 0 else c.

(** The character classes of the rules, lines 24-29. *)
Definition white : list (N * N) :=
  [(9, 9); (10, 13); (32, 32); (133, 133); (160, 160); (5760, 5760); (8192, 8207); (8232, 8232);
   (8233, 8233); (8239, 8239); (8287, 8287); (12288, 12288)]%N.
Definition white_end : list (N * N) :=
  [(9, 9); (10, 13); (32, 32); (133, 133); (160, 160); (5760, 5760); (8192, 8352); (8232, 8232);
   (8233, 8233); (8239, 8239); (8287, 8287); (12288, 12288)]%N.
(** The punctuation listed at the end of two of the rules. *)
Definition specials : list (N * N) :=
  [(42, 42); (63, 63); (58, 58); (91, 91); (93, 93); (34, 34); (60, 60); (62, 62); (124, 124); (40, 40);
   (41, 41); (123, 123); (125, 125); (38, 38); (39, 39); (33, 33); (59, 59); (35, 35); (64, 64)]%N.
Definition rule_all : list (N * N) :=
  [(0, 31); (127, 127); (32, 32); (133, 133); (160, 160); (5760, 5760); (8192, 8207); (8232, 8232);
   (8233, 8233); (8239, 8239); (8287, 8287); (12288, 12288)]%N ++ specials.
Definition rule_1_5 : list (N * N) := [(0, 31); (127, 127)]%N ++ specials.
Definition in_class (cl : list (N * N)) (n : N) : bool :=
  existsb (λ '(lo, hi), (lo <=? n)%N && (n <=? hi)%N) cl.

(** [encodeUTFCode], lines 101-103: "=u" and the code point with at least four upper case digits.  It is
    only applied to code points below 65536. *)
Definition hex_upper (n : N) : N := if (n <? 10)%N then (48 + n)%N else (55 + n)%N.
Definition utf_code (n : N) : list N :=
  [61; 117; hex_upper (n / 4096); hex_upper (n / 256 mod 16); hex_upper (n / 16 mod 16);
   hex_upper (n mod 16)]%N.

(** [directCleanRuleEqual]: an equal sign followed by u and four letters or digits.  Matches do not
    overlap, because a match contains the equal sign only at its start. *)
Definition alnum (n : N) : bool :=
  in_class [(97, 122); (65, 90); (48, 57)]%N n.
Definition escape_follows (l : list N) : bool :=
  match l with
  | u :: a :: b :: c :: d :: _ =>
      (u =? 117)%N && alnum a && alnum b && alnum c && alnum d
  | _ => false
  end.
Fixpoint rule_equal (l : list N) : list N :=
  match l with
  | [] => []
  | n :: l' =>
      if (n =? 61)%N && escape_follows l' then [61; 117; 48; 48; 51; 68]%N ++ rule_equal l'
      else n :: rule_equal l'
  end.

(** [ReplaceAllString(n, repl)] and [ReplaceAllStringFunc] for a rule that matches single runes. *)
Definition replace_class (cl : list (N * N)) (f : N → list N) (l : list N) : list N :=
  l ≫= λ n, if in_class cl n then f n else [n].

(** [directCleanRulePeriods]. *)
Definition only_periods (l : list N) : bool :=
  match l with [] => false | _ => forallb (λ n, (n =? 46)%N) l end.

(** [directCleanRule_2_4_6] with [ReplaceAllString(n, "$1")]: the longest prefix of hyphens, tildes and white space and the
    longest suffix of white space (a larger class) of the rest are removed. *)
Fixpoint drop_while (p : N → bool) (l : list N) : list N :=
  match l with [] => [] | n :: l' => if p n then drop_while p l' else l end.
Definition trim_ends (l : list N) : list N :=
  rev (drop_while (in_class white_end) (rev (drop_while (λ n, (n =? 45)%N || (n =? 126)%N || in_class white n) l))).

(** The loop body of [build], lines 251-267, on one element. *)
Definition clean_elem (c : confD) (n : list N) : list N :=
  if cd_utf c then
    let n := replace_class rule_all utf_code (rule_equal n) in
    match n with
    | [] => []
    | x :: n' => if (x =? 126)%N || only_periods n then utf_code x ++ n' else n
    end
  else
    let n := replace_class white (λ _, cd_wrepl c) n in
    let n := replace_class rule_1_5 (λ _, cd_repl c) n in
    let n := trim_ends n in
    if only_periods n then cd_repl c ++ tail n else n.

Definition len8 (l : list N) : N := N.of_nat (String.length (encode l)).

(** [strings.Split(s, "/")] on runes. *)
Fixpoint split_runes (l : list N) : list (list N) :=
  match l with
  | [] => [[]]
  | n :: l' =>
      if (n =? 47)%N then [] :: split_runes l'
      else match split_runes l' with [] => [[n]] | w :: ws => (n :: w) :: ws end
  end.
Fixpoint join_runes (l : list (list N)) : list N :=
  match l with [] => [] | [w] => w | w :: ws => w ++ 47%N :: join_runes ws end.

(** [fallback], lines 203-241, for the digest [h] of the name: pieces of the digest of the maximal
    element length, below (overlapping) tuples of the digest, below the fallback folder.  [[]rune(digest)[a:b]]
    panics beyond the end (the capacity equals the length for digests of the usual algorithms).  The
    concurrent use of the hash is the subject of ConcurrentModel. *)
Definition digest_parts (maxseg : nat) (digest : string) : list string :=
  tuples maxseg ((String.length digest + (maxseg - 1)) / maxseg) digest.
Definition fallback_tuples (n size : nat) (digest : string) : list string :=
  (λ i, substring i size digest) <$> seq 0 n.
Definition fallback (h : string → string) (c : confD) (fname : string) : pres :=
  let digest := hex_bytes (h fname) in
  if (0 <? cd_ntuples c) && (String.length digest <? cd_ntuples c - 1 + cd_tsize c) then PPanic
  else
    let below := foldl (λ r p, path_join [r; p]) "" (digest_parts (N.to_nat (cd_maxseg c)) digest) in
    let result := foldr (λ p r, path_join [p; r]) below (fallback_tuples (cd_ntuples c) (cd_tsize c) digest) in
    let result := trim_left (path_clean (path_join [cd_folder c; result])) "/" in
    if (cd_maxpath c <? N.of_nat (String.length result))%N then PErr "result too long" else POk result.

(** [build], lines 243-288. *)
Fixpoint clean_elems (c : confD) (l : list (list N)) : option (list (list N)) :=
  match l with
  | [] => Some []
  | [] :: l' => clean_elems c l'
  | n :: l' =>
      let n := clean_elem c n in
      if (cd_maxseg c <? len8 n)%N then None
      else match clean_elems c l' with
           | None => None
           | Some r => Some (match n with [] => r | _ => n :: r end)
           end
  end.
Definition buildD (h : string → string) (c : confD) (id : string) : pres :=
  let fname := to_valid_runes (cd_repl c) id in
  match clean_elems c (split_runes fname) with
  | None => fallback h c (encode fname)
  | Some l =>
      let fname := join_runes l in
      if (cd_maxpath c <? len8 fname)%N then fallback h c (encode fname) else POk (encode fname)
  end.

(** ** Layouts and their configuration documents *)

Inductive layout :=
  | Flat                 (* 0002-flat-direct-storage-layout.go *)
  | Direct               (* pathdirect.go *)
  | Lay3 (c : conf3) | Lay4 (c : conf4) | Lay6 (delim : string) | Lay7 (c : conf7)
  | LayP (c : confP) | LayD (c : confD).

(** [BuildStorageRootPath] of each layout; flat: 0002 lines 115-117, pathdirect.go lines 112-114.  The
    constructors guarantee that the algorithm of a layout is known. *)
Definition build (hs : hashes) (l : layout) (id : string) : pres :=
  let h alg := default (λ s, s) (hs alg) in
  match l with
  | Flat | Direct => POk id
  | Lay3 c => build3 (h (c3_alg c)) c id
  | Lay4 c => build4 (h (c4_alg c)) c id
  | Lay6 d => build6 d id
  | Lay7 c => build7 c id
  | LayP c => buildP c id
  | LayD c => buildD (h (cd_alg c)) c id
  end.

(** A JSON document with one level of members; text encoding and decoding is trusted. *)
Inductive jval := JStr (s : string) | JNum (n : N) | JBool (b : bool) | JRunes (l : list N).
Definition jobj := gmap string jval.
Definition j_str (o : jobj) (k : string) : string := match o !! k with Some (JStr s) => s | _ => "" end.
Definition j_num (o : jobj) (k : string) : N := match o !! k with Some (JNum n) => n | _ => 0%N end.
Definition j_nat (o : jobj) (k : string) : nat := N.to_nat (j_num o k).
Definition j_bool (o : jobj) (k : string) : bool := match o !! k with Some (JBool b) => b | _ => false end.
Definition j_runes (o : jobj) (k : string) : list N := match o !! k with Some (JRunes l) => l | _ => [] end.

Definition layout_name (l : layout) : string :=
  match l with
  | Flat => "0002-flat-direct-storage-layout"
  | Direct => "NNNN-direct-path-layout"
  | Lay3 _ => "0003-hash-and-id-n-tuple-storage-layout"
  | Lay4 _ => "0004-hashed-n-tuple-storage-layout"
  | Lay6 _ => "0006-flat-omit-prefix-storage-layout"
  | Lay7 _ => "0007-n-tuple-omit-prefix-storage-layout"
  | LayP _ => "NNNN-pairtree-storage-layout"
  | LayD _ => "NNNN-direct-clean-path-layout"
  end.

(** [WriteConfig]: 0002 78-93, 0003 100-115, 0004 99-114, 0006 80-95, 0007 100-115, pairtree 123-138
    encode [sl.ExtensionConfig], which holds the name only; pathdirect.go 95-110 its configuration, which
    holds the name only; direct-clean 157-172 the whole configuration ([omitempty]: a zero is left out,
    which reads back as zero). *)
Definition write_config (l : layout) : jobj :=
  let name := {[ "extensionName" := JStr (layout_name l) ]} in
  match l with
  | LayD c =>
      <["maxPathnameLen" := JNum (cd_maxpath c)]> $ <["maxPathSegmentLen" := JNum (cd_maxseg c)]> $
      <["replacementString" := JRunes (cd_repl c)]> $ <["whitespaceReplacementString" := JRunes (cd_wrepl c)]> $
      <["utfEncode" := JBool (cd_utf c)]> $ <["fallbackDigestAlgorithm" := JStr (cd_alg c)]> $
      <["fallbackFolder" := JStr (cd_folder c)]> $
      <["numberOfFallbackTuples" := JNum (N.of_nat (cd_ntuples c))]> $
      <["fallbackTupleSize" := JNum (N.of_nat (cd_tsize c))]> $
      <["maxFilenameLen" := JNum (cd_maxfile c)]> $
      <["fallbackSubdirs" := JNum (N.of_nat (cd_subdirs c))]> name
  | _ => name
  end.

(** [ExtensionFactory.create] (pkg/ocfl/extensionFactory.go 50-75) with the constructors [New...FS] of the
    extensions: [None] is an error. *)
Definition read_config (hs : hashes) (o : jobj) : option layout :=
  let name := j_str o "extensionName" in
  if decide (name = layout_name Flat) then Some Flat
  else if decide (name = layout_name Direct) then Some Direct
  else if decide (name = "0003-hash-and-id-n-tuple-storage-layout") then
    Lay3 <$> new3 hs (Conf3 (j_str o "digestAlgorithm") (j_nat o "tupleSize") (j_nat o "numberOfTuples"))
  else if decide (name = "0004-hashed-n-tuple-storage-layout") then
    Lay4 <$> new4 hs (Conf4 (j_str o "digestAlgorithm") (j_nat o "tupleSize") (j_nat o "numberOfTuples")
      (j_bool o "shortObjectRoot"))
  else if decide (name = "0006-flat-omit-prefix-storage-layout") then Some (Lay6 (j_str o "delimiter"))
  else if decide (name = "0007-n-tuple-omit-prefix-storage-layout") then
    Some (Lay7 (Conf7 (j_str o "delimiter") (j_nat o "tupleSize") (j_nat o "numberOfTuples")
      (j_str o "zeroPadding") (j_bool o "reverseObjectRoot")))
  else if decide (name = "NNNN-pairtree-storage-layout") then
    LayP <$> newP hs (ConfP (j_str o "uriBase") (j_str o "storeDir") (j_nat o "shortyLength")
      (j_str o "digestAlgorithm"))
  else if decide (name = "NNNN-direct-clean-path-layout") then
    LayD <$> newD hs (old_conf (ConfD (j_num o "maxPathnameLen") (j_num o "maxPathSegmentLen")
      (j_runes o "replacementString") (j_runes o "whitespaceReplacementString") (j_bool o "utfEncode")
      (j_str o "fallbackDigestAlgorithm") (j_str o "fallbackFolder") (j_nat o "numberOfFallbackTuples")
      (j_nat o "fallbackTupleSize") (j_num o "maxFilenameLen") (j_nat o "fallbackSubdirs")))
  else None.

(** [ExtensionFactory.CreateExtensions] (pkg/ocfl/extensionFactory.go 77-212), the layouts only: an
    extension that cannot be created is left out with a warning (lines 96-99).  The documents are read in
    the order of their folders, the same at every opening. *)
Definition create_extensions (hs : hashes) (docs : list jobj) : list layout := omap (read_config hs) docs.

(** [GOCFLExtensionManager.BuildStorageRootPath]
    (NNNN-gocfl-extension-manager.go 321-334): the layouts are applied one after the other; errors and
    empty paths leave the path as it is.  The second component tells whether an error was collected;
    [None] is a panic. *)
Fixpoint manager_path (hs : hashes) (ls : list layout) (id : string) : option (string * bool) :=
  match ls with
  | [] => Some (id, false)
  | l :: ls' =>
      match build hs l id with
      | PPanic => None
      | PErr _ => (λ r, (r.1, true)) <$> manager_path hs ls' id
      | POk p => manager_path hs ls' (if decide (p = "") then id else p)
      end
  end.

(** The layouts of a storage root when it is created from configuration documents, and the layouts found when it is opened again:
    [Init] writes the configurations (pkg/ocfl/storagerootbase.go 132-138, manager 290-310), [Load] reads them
    (168-176). *)
Definition reopened (hs : hashes) (ls : list layout) : list layout :=
  create_extensions hs (write_config <$> ls).
