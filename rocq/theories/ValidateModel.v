(** Model of the validation of one inventory: /repo/pkg/ocfl/inventorybase.go (Finalize, check, checkManifest, checkFixity,
    checkVersions, CheckFiles, isEqual) and inventorytypes.go (EqualMeta, EqualState).  Only executable definitions. *)
From Coq Require Import Ascii.
From stdpp Require Import base list strings gmap sorting.
From Coq Require Import ZArith.
From Verif Require Import GoStr InventoryModel.

(** * The decoded document *)

(** inventorytypes.go:45-48 OCFLString: the value and whether decoding failed. *)
Record ostr := OStr { os_val : string; os_err : bool }.
(** inventorytypes.go:97-104 User, OCFLUser.  [None] is a nil pointer (key absent). *)
Record udoc := UDoc { u_err : bool; u_name : option ostr; u_addr : option ostr }.
(** inventorytypes.go:137-142 Version.  Created: printed time and decode error. *)
Record vdoc := VDoc {
  vd_created : option ostr;
  vd_message : option ostr;
  vd_state : option (smap * bool);
  vd_user : option udoc
}.
(** inventorybase.go:20-38 InventoryBase as filled by the JSON decoder.  JSON null for the head or for a version (nil
    pointers, dereferenced by the checks) is not modelled. *)
Record doc := Doc {
  dc_id : string;
  dc_type : string;
  dc_alg : string;
  dc_head : ostr;
  dc_contentdir : string;
  dc_manifest : option smap;
  dc_versions : option (gmap string vdoc);
  dc_fixity : gmap string smap;
  (* set by Finalize *)
  dc_values : gmap string Z;
  dc_fixalgs : list string;
  dc_padding : Z
}.

(** Map iteration order: [vo n m] is the order of the loop with label [n]. *)
Record vorder := VOrder { vo : nat → ∀ A : Type, gmap string A → list (string * A) }.
Arguments vo _ _ {_} _.
Definition vorder_ok (w : vorder) : Prop := ∀ n A (m : gmap string A), vo w n m ≡ₚ map_to_list m.
Definition default_vorder : vorder := VOrder (λ _ A m, map_to_list m).

(** validationerror.go:143-150: code and the arguments of the description (file, folder and context omitted).
    Warnings are appended to the same list as errors (validationerror.go:210-218). *)
Record finding := Finding { f_code : string; f_args : list string }.

(** Outcome of a check: the findings; or a Go panic; or an error value with the findings so far. *)
Inductive verdict :=
| VDone (fs : list finding)
| VError (fs : list finding) (msg : string)
| VPanic.
Definition vseq (a : verdict) (k : verdict) : verdict :=
  match a with
  | VDone fs =>
      match k with
      | VDone fs' => VDone (fs ++ fs')
      | VError fs' m => VError (fs ++ fs') m
      | VPanic => VPanic
      end
  | _ => a
  end.
Fixpoint vall (l : list verdict) : verdict :=
  match l with
  | [] => VDone []
  | a :: l' => vseq a (vall l')
  end.
Definition when (b : bool) (f : finding) : list finding := if b then [f] else [].

(** * Finalize *)

(** Outside parameters of the warnings: whether the identifier parses as a URI (inventorybase.go:303), whether an address is
    accepted (inventorybase.go:507-518). *)
Record lexicon := Lexicon { lx_uri : string → bool; lx_addr : string → bool }.

(** inventorybase.go:135 strconv.Atoi(strings.TrimLeft(ver, "v0")). *)
Definition version_value (ver : string) : option Z := atoi (trim_left ver "v0").

(** inventorytypes.go:128-135 OCFLUser.Finalize. *)
Definition fin_user (u : udoc) : udoc :=
  UDoc (u_err u) (Some (default (OStr "" false) (u_name u))) (Some (default (OStr "" false) (u_addr u))).
(** inventorybase.go:134-156: one round of the loop over the versions. *)
Definition fin_version (ver : string) (v : vdoc) : list finding * vdoc :=
  match version_value ver with
  | None => ([Finding "E104" [ver]], v)
  | Some _ =>
      (when (bool_decide (vd_user v = None)) (Finding "W007" ["user"; ver]) ++
       when (bool_decide (vd_message v = None)) (Finding "W007" ["message"; ver]),
       VDoc (vd_created v) (Some (default (OStr "" false) (vd_message v)))
            (Some (default (∅, false) (vd_state v)))
            (Some (fin_user (default (UDoc false None None) (vd_user v)))))
  end.

(** inventorybase.go:290-342 check is below.  First the pieces. *)

(** inventorybase.go:371-385, 413-427, 539-553: checks of one path.  [None] is the index panic for an empty path (which
    makes the test for an empty path that follows unreachable). *)
Definition bad_element (e : string) : bool := bool_decide (e = "" ∨ e = "." ∨ e = "..").
Definition check_path (cslash celem : string) (args : list string) (path : string) : verdict :=
  match str_head path, str_last path with
  | Some h, Some l =>
      let path2 := if decide (h = slash) then match path with String _ r => r | "" => "" end else path in
      VDone (when (bool_decide (h = slash ∨ l = slash)) (Finding cslash (path :: args)) ++
             flat_map (λ e, when (bad_element e) (Finding celem (path :: args))) (split_slash path2))
  | _, _ => VPanic
  end.

(** A finalised document: versions and manifest present. *)
Definition man (d : doc) : smap := default ∅ (dc_manifest d).
Definition vers (d : doc) : gmap string vdoc := default ∅ (dc_versions d).

(** [version.State.State]; [None] if the pointer is nil. *)
Definition state_of (v : vdoc) : option smap := fst <$> vd_state v.
(** A list of optional results, [None] if one is missing. *)
Fixpoint all_some {A} (l : list (option A)) : option (list A) :=
  match l with
  | [] => Some []
  | None :: _ => None
  | Some a :: l' => match all_some l' with Some r => Some (a :: r) | None => None end
  end.

(** inventorybase.go:387-396: the comparison of neighbours in the sorted list of content paths. *)
Fixpoint e101_pairs (l : list string) : list finding :=
  match l with
  | a :: (b :: _) as l' =>
      when (has_prefix (trim_right b "/" +:+ "/") a) (Finding "E101" [a; trim_right b "/" +:+ "/"]) ++ e101_pairs l'
  | _ => []
  end.
(** inventorybase.go:343-399 checkManifest.  A digest is a map key, so the test for a duplicate digest (E096) is never
    true and left out. *)
Definition check_manifest (w : vorder) (d : doc) : verdict :=
  match all_some ((λ p : string * vdoc, state_of p.2) <$> vo w 1 (vers d)) with
  | None => VPanic
  | Some sts =>
      let used := flat_map (λ st : smap, (map_to_list st).*1) sts in
      let entries := vo w 2 (man d) in
      vseq (vall ((λ p : string * list string,
              vseq (VDone (when (negb (bool_decide (p.1 ∈ used))) (Finding "E107" [p.1])))
                   (vall (check_path "E100" "E099" [] <$> p.2))) <$> entries))
           (VDone (e101_pairs (str_sort (flat_map snd entries))))
  end.

(** inventorybase.go:404-431: one fixity block, with the lower-cased digests seen so far. *)
Fixpoint check_fixity_block (alg : string) (seen : list string) (l : list (string * list string)) : verdict :=
  match l with
  | [] => VDone []
  | (digest, paths) :: l' =>
      let low := to_lower digest in
      vseq (VDone (when (bool_decide (low ∈ seen)) (Finding "E097" [alg; digest])))
      (vseq (vall (check_path "E100" "E099" [alg] <$> paths))
            (check_fixity_block alg (low :: seen) l'))
  end.
(** inventorybase.go:401-436 checkFixity. *)
Definition check_fixity (w : vorder) (d : doc) : verdict :=
  vall ((λ p : string * smap, check_fixity_block p.1 [] (vo w 4 p.2)) <$> vo w 3 (dc_fixity d)).

(** Regular expressions ^v0[0-9]+$ and ^v[1-9][0-9]*$ (inventorybase.go:287-288). *)
Definition is_digit (c : ascii) : bool := let n := N_of_ascii c in ((48 <=? n) && (n <=? 57))%N.
Fixpoint digits_only (s : string) : bool :=
  match s with
  | "" => true
  | String c s' => is_digit c && digits_only s'
  end.
Definition zero_name (ver : string) : bool :=
  match drop_prefix "v0" ver with
  | Some "" => false
  | Some r => digits_only r
  | None => false
  end.
Definition nozero_name (ver : string) : bool :=
  match ver with
  | String "v" (String c r) => is_digit c && negb (bool_decide (c = "0"%char)) && digits_only r
  | _ => false
  end%char.

(** inventorybase.go:466-495: the padding test of one version; the accumulator is paddingLength. *)
Definition check_padding (pad : Z) (ver : string) : Z * list finding :=
  let len := (Z.of_nat (String.length ver) - 2)%Z in
  if zero_name ver then
    if decide (pad = -1)%Z then (len, [])
    else (pad, if decide (pad = len) then [] else [Finding "E012" [ver]; Finding "E013" [ver]])
  else if nozero_name ver then
    if decide (pad = -1)%Z then (0%Z, [])
    else (pad, if decide (pad = 0)%Z then []
               else [Finding "E011" [ver]; Finding "E012" [ver]; Finding "E013" [ver]])
  else (pad, [Finding "E104" [ver]]).

(** inventorybase.go:496-555: the other tests of one version.  Nil pointers: Created is never set by Finalize; user, message
    and state are set for every version that gets here. *)
Definition check_version (w : vorder) (lx : lexicon) (m : smap) (ver : string) (v : vdoc) : verdict :=
  match vd_created v, vd_user v, vd_message v, vd_state v with
  | Some created, Some (UDoc uerr (Some name) (Some addr)), Some msg, Some (st, sterr) =>
      vseq (VDone (
        when (os_err created) (Finding "E049" [ver]) ++
        when uerr (Finding "E054" ["user"; ver]) ++
        when (os_err name) (Finding "E054" ["name"; ver]) ++
        when (os_err addr) (Finding "E054" ["address"; ver]) ++
        (if decide (os_val addr = "") then [Finding "W008" [ver]]
         else when (negb (lx_addr lx (os_val addr))) (Finding "W009" [ver])) ++
        when (os_err msg) (Finding "E094" [ver]) ++
        when sterr (Finding "E050" [ver])))
      (vall ((λ p : string * list string,
         vseq (VDone (if decide (p.1 ∈ (map_to_list m).*1) then []
                      else if decide (to_lower p.1 ∈ to_lower <$> (map_to_list m).*1) then [Finding "E096" [ver; p.1]]
                      else [Finding "E050" [ver; p.1]]))
              (vall (check_path "E053" "E052" [ver] <$> p.2))) <$> vo w 6 st))
  | _, _, _, _ => VPanic
  end.

(** inventorybase.go:459-558: the loop over the versions in iteration order: final padding length, version numbers in
    iteration order, verdict. *)
Fixpoint check_versions_loop (w : vorder) (lx : lexicon) (d : doc) (pad : Z) (l : list (string * vdoc))
    : Z * list Z * verdict :=
  match l with
  | [] => (pad, [], VDone [])
  | (ver, v) :: l' =>
      match dc_values d !! ver with
      | None => check_versions_loop w lx d pad l'
      | Some z =>
          let '(pad1, fs) := check_padding pad ver in
          let '(pad2, zs, r) := check_versions_loop w lx d pad1 l' in
          (pad2, z :: zs, vseq (VDone fs) (vseq (check_version w lx (man d) ver v) r))
      end
  end.

(** inventorybase.go:559-565 on the sorted numbers. *)
Fixpoint in_sequence (k : Z) (l : list Z) : bool :=
  match l with
  | [] => true
  | z :: l' => if decide (k = z - 1)%Z then in_sequence (k + 1) l' else false
  end.

(** inventorybase.go:201-228 GetVersionStrings for the version names in iteration order: of two names with the same number
    the one iterated last is returned (twice). *)
Definition sorted_names (l : list string) : list string :=
  match nums l with
  | None => []
  | Some ps => (λ n, default "" (last_with n ps)) <$> merge_sort N.le (ps.*1)
  end.
Definition version_strings (w : vorder) (n : nat) (d : doc) : list string :=
  sorted_names ((vo w n (vers d)).*1).

(** inventorybase.go:275-285 VersionLessOrEqual; the numbers are compared as unsigned 64 bit values. *)
Definition as_uint (z : Z) : Z := (if decide (z < 0) then z + 2 ^ 64 else z)%Z.
Definition version_le (values : gmap string Z) (a b : string) : bool :=
  match values !! a, values !! b with
  | Some x, Some y => bool_decide (as_uint x <= as_uint y)%Z
  | _, _ => false
  end.
(** inventorybase.go:571-580: the most recent version. *)
Fixpoint recent_version (values : gmap string Z) (recent : string) (l : list string) : string :=
  match l with
  | [] => recent
  | ver :: l' =>
      recent_version values
        (if decide (recent = "") then ver else if version_le values ver recent then recent else ver) l'
  end.

(** inventorybase.go:590-600: neighbours in the sorted list of logical paths of one version. *)
Fixpoint e095_pairs (l : list string) : list finding :=
  match l with
  | a :: (b :: _) as l' =>
      when (has_prefix (trim_suffix_char slash a +:+ "/") b) (Finding "E095" [a; b]) ++ e095_pairs l'
  | _ => []
  end.
Definition check_logical (w : vorder) (v : vdoc) : verdict :=
  match state_of v with
  | None => VPanic
  | Some st => VDone (e095_pairs (str_sort (flat_map snd (vo w 10 st))))
  end.

(** inventorybase.go:438-603 checkVersions: new padding length and verdict. *)
Definition check_versions (w : vorder) (lx : lexicon) (d : doc) : Z * verdict :=
  let '(pad, zs, r) := check_versions_loop w lx d (-1) (vo w 5 (vers d)) in
  let recent := recent_version (dc_values d) "" (version_strings w 7 d) in
  let head := os_val (dc_head d) in
  (pad,
   vseq (VDone (when (bool_decide (vers d = ∅)) (Finding "E008" [])))
   (vseq r
   (vseq (VDone (when (negb (in_sequence 0 (merge_sort Z.le zs))) (Finding "E010" []) ++
                 when (bool_decide (0 < pad)%Z) (Finding "W001" []) ++
                 when (bool_decide (head ≠ recent ∧ head ≠ "")) (Finding "E040" [head]) ++
                 when (bool_decide (head ≠ "" ∧ head ∉ version_strings w 8 d)) (Finding "E040" [head])))
         (vall ((λ p : string * vdoc, check_logical w p.2) <$> vo w 9 (vers d)))))).

(** inventorybase.go:290-342 check. *)
Definition check_doc (w : vorder) (lx : lexicon) (d : doc) : Z * verdict :=
  let '(pad, r) := check_versions w lx d in
  (pad,
   vseq r (vseq (check_manifest w d) (vseq (check_fixity w d) (VDone (
     when (bool_decide (dc_id d = "")) (Finding "E036" ["id"]) ++
     when (bool_decide (dc_id d ≠ "") && negb (lx_uri lx (dc_id d))) (Finding "W005" [dc_id d]) ++
     (if os_err (dc_head d) then [Finding "E040" ["head"]]
      else when (bool_decide (os_val (dc_head d) = "")) (Finding "E036" ["head"])) ++
     when (bool_decide (dc_type d = "")) (Finding "E036" ["type"]) ++
     when (bool_decide (dc_alg d = "")) (Finding "E036" ["digestAlgorithm"]) ++
     (if decide (dc_alg d = "sha512" ∨ dc_alg d = "sha256")
      then when (bool_decide (dc_alg d = "sha256")) (Finding "W004" [dc_alg d])
      else [Finding "E025" [dc_alg d]]) ++
     when (bool_decide (dc_contentdir d = "." ∨ dc_contentdir d = "..") || str_mem slash (dc_contentdir d))
          (Finding "E017" [dc_contentdir d])))))).

(** inventorybase.go:118-169 Finalize(inCreation): the completed document and the verdict.  The loop bodies touch
    different versions, so the resulting map does not depend on the order; the findings do. *)
Definition fin_values (vs : gmap string vdoc) : gmap string Z := map_imap (λ ver _, version_value ver) vs.
Definition fin_algs (w : vorder) (algs : list string) (fixity : gmap string smap) : list string :=
  foldl (λ acc a, if decide (a ∈ acc) then acc else acc ++ [a]) algs ((vo w 11 fixity).*1).
Definition finalize (w : vorder) (lx : lexicon) (in_creation : bool) (d : doc) : doc * verdict :=
  let fs1 := when (negb in_creation && bool_decide (dc_manifest d = None)) (Finding "E041" ["manifest"]) in
  let fs2 := when (negb in_creation && bool_decide (dc_versions d = None)) (Finding "E041" ["versions"]) in
  let fs3 := flat_map (λ p : string * vdoc, (fin_version p.1 p.2).1) (vo w 0 (vers d)) in
  let d1 := Doc (dc_id d) (dc_type d) (dc_alg d) (dc_head d) (dc_contentdir d) (Some (man d))
              (Some (map_imap (λ ver v, Some (fin_version ver v).2) (vers d))) (dc_fixity d)
              (fin_values (vers d)) (fin_algs w (dc_fixalgs d) (dc_fixity d)) (dc_padding d) in
  if in_creation then (d1, VDone (fs1 ++ fs2 ++ fs3))
  else
    let '(pad, r) := check_doc w lx d1 in
    (Doc (dc_id d1) (dc_type d1) (dc_alg d1) (dc_head d1) (dc_contentdir d1) (dc_manifest d1) (dc_versions d1)
       (dc_fixity d1) (dc_values d1) (dc_fixalgs d1) pad,
     vseq (VDone (fs1 ++ fs2 ++ fs3)) r).

(** * Comparison of inventories *)

(** helper.go:212-219 sliceContains(s, vs). *)
Definition slice_contains (s vs : list string) : bool := forallb (λ x, bool_decide (x ∈ s)) vs.

(** inventorytypes.go:144-155 EqualMeta.  [None]: nil dereference. *)
Definition equal_meta (v v2 : vdoc) : option bool :=
  match vd_created v, vd_created v2, vd_message v, vd_message v2, vd_user v, vd_user v2 with
  | Some c, Some c2, Some m, Some m2,
    Some (UDoc _ (Some n) (Some a)), Some (UDoc _ (Some n2) (Some a2)) =>
      Some (bool_decide (os_val c = os_val c2 ∧ os_val m = os_val m2 ∧ os_val n = os_val n2 ∧ os_val a = os_val a2))
  | _, _, _, _, _, _ => None
  end.
(** slices.Compact: removes equal neighbours. *)
Fixpoint compact (l : list string) : list string :=
  match l with
  | a :: (b :: _) as l' => if decide (a = b) then compact l' else a :: compact l'
  | _ => l
  end.
(** inventorytypes.go:156-190 EqualState on the state maps. *)
Definition state_files (st : smap) : list string := compact (str_sort (flat_map snd (map_to_list st))).
Definition equal_state (st st2 : smap) : bool :=
  bool_decide (size st = size st2) &&
  bool_decide (length (state_files st) = length (state_files st2)) &&
  slice_contains (state_files st) (state_files st2).
Definition equal_state_doc (v v2 : vdoc) : option bool :=
  match state_of v, state_of v2 with
  | Some st, Some st2 => Some (equal_state st st2)
  | _, _ => None
  end.

(** Conjunction of tests that may dereference nil; evaluated left to right. *)
Fixpoint all_true (l : list (option bool)) : option bool :=
  match l with
  | [] => Some true
  | None :: _ => None
  | Some false :: _ => Some false
  | Some true :: l' => all_true l'
  end.

(** inventorybase.go:58-110 isEqual for finalised documents.  Line 76 compares the length of the first manifest with
    itself.  If some version comparison is false and another dereferences nil, Go's outcome depends on the map order; here the
    order of [map_to_list]. *)
Definition is_equal (d d2 : doc) : option bool :=
  if negb (slice_contains (dc_fixalgs d) (dc_fixalgs d2) && bool_decide (length (dc_fixalgs d) = length (dc_fixalgs d2)))
  then Some false
  else if decide (dc_type d ≠ dc_type d2) then Some false
  else if decide (os_val (dc_head d) ≠ os_val (dc_head d2)) then Some false
  else if decide (dc_contentdir d ≠ dc_contentdir d2) then Some false
  else if negb (forallb (λ p : string * list string,
                   match man d2 !! p.1 with
                   | None => false
                   | Some vals2 => slice_contains p.2 vals2 && bool_decide (length p.2 = length vals2)
                   end) (map_to_list (man d))) then Some false
  else if negb (bool_decide (size (vers d) = size (vers d2))) then Some false
  else all_true ((λ p : string * vdoc,
          match vers d2 !! p.1 with
          | None => Some false
          | Some v2 =>
              match equal_meta p.2 v2 with
              | Some true => equal_state_doc p.2 v2
              | r => r
              end
          end) <$> map_to_list (vers d)).

(** * Content checks *)

(** The digests of the stored files: algorithm, digest, files (objectbase.go:1324-1368 result). *)
Notation file_manifest := (gmap string smap).

(** inventorybase.go:605-651 CheckFiles. *)
Definition check_files (w : vorder) (fm : file_manifest) (d : doc) : verdict :=
  match fm !! dc_alg d with
  | None => if decide (fm = ∅) then VDone [] else VError [] "checksum not created"
  | Some cs =>
      vseq (VDone (flat_map (λ p : string * list string,
              match cs !! to_lower p.1 with
              | None => [Finding "E092" (p.1 :: p.2)]
              | Some names => flat_map (λ f, when (negb (bool_decide (f ∈ names))) (Finding "E092" [f])) p.2
              end) (vo w 12 (man d))))
      (vall ((λ p : string * smap,
         match fm !! p.1 with
         | None => VError [] "checksum not created"
         | Some cs =>
             VDone (flat_map (λ q : string * list string,
               match (match cs !! q.1 with Some x => Some x | None => cs !! to_lower q.1 end) with
               | None => [Finding "E093" (q.1 :: q.2)]
               | Some names => flat_map (λ f, when (negb (bool_decide (f ∈ names))) (Finding "E093" [f])) q.2
               end) (vo w 14 p.2))
         end) <$> vo w 13 (dc_fixity d)))
  end.

(** inventorybase.go:653-681 GetFiles and 693-702 GetFilesFlat: all content paths of the manifest, with the findings of the
    call; an entry without slash makes [parts[1]] panic.  The files are grouped by their first path element in Go; only the
    flat list is used.  (The E023 test compares sets and is evaluated on the names of loop [n].) *)
Definition files_flat (w : vorder) (n : nat) (d : doc) : option (list string) * verdict :=
  let files := flat_map snd (vo w n (man d)) in
  if forallb (λ f, bool_decide (2 <= length (split_slash f))) files then
    (Some files,
     VDone (flat_map (λ f, when (bool_decide (length (split_slash f) < 3)) (Finding "E000" [f])) files ++
            when (negb (forallb (λ f, bool_decide (default "" (head (split_slash f)) ∈ version_strings w (S n) d)) files))
                 (Finding "E023" [])))
  else (None, VPanic).
