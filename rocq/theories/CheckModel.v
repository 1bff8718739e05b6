(** Model of the validation of a whole object: /repo/pkg/ocfl/objectbase.go (Check, checkFilesAndVersions,
    createContentManifest, getAllDigests, getVersionInventories).  Only executable definitions.

    The object's files are a map from path to content; a directory exists if and only if a file lies below it (empty directories,
    and so warning W003 of lines 1086-1097, are not modelled).  A missing file is reported by the storage driver as fs.ErrNotExist. *)
From Coq Require Import Ascii.
From stdpp Require Import base list strings gmap sorting.
From Coq Require Import ZArith.
From Verif Require Import GoStr InventoryModel ObjectModel LoadModel ValidateModel.

(** fs.WalkDir(fsys, dir): the files below [dir]; [None] if the directory does not exist (the callback is then called with a
    nil entry and panics, objectbase.go:1061 and 1340). *)
Definition walk (s : storage) (dir : string) : option (list string) :=
  match (λ p : string * string, p.1) <$> filter (λ p : string * string, has_prefix (dir +:+ "/") p.1 = true) (map_to_list s) with
  | [] => None
  | l => Some l
  end.
(** All proper directory prefixes of a file path. *)
Fixpoint dirs_of_elems (pre : string) (l : list string) : list string :=
  match l with
  | e :: (_ :: _) as l' => (pre +:+ e) :: dirs_of_elems (pre +:+ e +:+ "/") l'
  | _ => []
  end.
Definition dirs_of (path : string) : list string := dirs_of_elems "" (split_slash path).
(** fs.ReadDir(fsys, "."): names with a flag for directories. *)
Definition root_dirs (s : storage) : list string :=
  remove_dups (flat_map (λ p : string * string, match split_slash p.1 with e :: _ :: _ => [e] | _ => [] end) (map_to_list s)).
Definition root_files (s : storage) : list string :=
  flat_map (λ p : string * string, match split_slash p.1 with [e] => [e] | _ => [] end) (map_to_list s).
(** Entries of directory [dir]. *)
Definition sub_files (s : storage) (dir : string) : list string :=
  flat_map (λ p : string * string,
    match drop_prefix (dir +:+ "/") p.1 with Some r => match split_slash r with [e] => [e] | _ => [] end | None => [] end) (map_to_list s).
Definition sub_dirs (s : storage) (dir : string) : list string :=
  remove_dups (flat_map (λ p : string * string,
    match drop_prefix (dir +:+ "/") p.1 with Some r => match split_slash r with e :: _ :: _ => [e] | _ => [] end | None => [] end)
    (map_to_list s)).

(** objectbase.go:1011 allowedFilesRegexp.  The dot in inventory.json is not escaped: any character but newline. *)
Definition digits1 (s : string) : bool := digits_only s && negb (bool_decide (s = "")).
Definition allowed_inventory (name : string) : bool :=
  match drop_prefix "inventory" name with
  | Some (String c r) =>
      negb (bool_decide (N_of_ascii c = 10%N)) &&
      bool_decide (r = "json" ∨ r = "json.sha512" ∨ r = "json.sha384" ∨ r = "json.sha256" ∨ r = "json.sha1" ∨ r = "json.md5")
  | _ => false
  end.
Definition allowed_file (name : string) : bool :=
  allowed_inventory name ||
  match drop_prefix "0=ocfl_object_" name with
  | Some r => match split_on "."%char r with [a; b] => digits1 a && digits1 b | _ => false end
  | None => false
  end.

(** objectbase.go:1013-1026 checkVersionFolder; an unreadable folder cannot occur here. *)
Definition check_version_folder (s : storage) (ver : string) : list finding :=
  flat_map (λ f, when (negb (allowed_file f)) (Finding "E015" [f; ver])) (sub_files s ver).

(** objectbase.go:1277-1308: the entries of the object root. *)
Definition check_root (s : storage) (versions : list string) : list finding :=
  flat_map (λ e,
    (if decide (e ∈ versions ∨ e = "logs" ∨ e = "extensions") then []
     else Finding "E001" [e] ::
          match version_value e with
          | Some _ => check_version_folder s e ++ [Finding "E046" [e]]
          | None => []
          end) ++
    (if decide (e ∈ versions) then check_version_folder s e else [])) (root_dirs s) ++
  flat_map (λ f, when (negb (allowed_file f)) (Finding "E001" [f])) (root_files s) ++
  when (negb (bool_decide (length (filter (λ e, e ∈ versions) (root_dirs s)) = length versions))) (Finding "E010" ["count"]).

(** inventorybase.go:183-193 GetContentDir, GetRealContentDir is the field itself. *)
Definition cdir (d : doc) : string := if decide (dc_contentdir d = "") then "content" else dc_contentdir d.

(** objectbase.go:1057-1085: one version folder: warnings for directories.  A directory is fine if its path starts with
    version/content (as a string), is the version folder, or is a string prefix of version/content. *)
Definition walk_findings (d : doc) (ver : string) (files : list string) : list finding :=
  flat_map (λ dir,
    when (negb (has_prefix (ver +:+ "/" +:+ cdir d) dir) && negb (bool_decide (dir = ver)) &&
          negb (has_prefix dir (ver +:+ "/" +:+ cdir d)))
      (Finding "W002" [dir; ver])) (remove_dups (flat_map dirs_of files)).

(** objectbase.go:1409-1424 getAllDigests. *)
Definition all_digests (d : doc) (vinv : gmap string doc) : list string :=
  compact (str_sort (dc_alg d ::
    flat_map (λ p : string * doc, dc_alg p.2 :: (map_to_list (dc_fixity p.2)).*1) (map_to_list vinv))).

(** objectbase.go:1353-1361: one checksum. *)
Definition add_sum (fm : file_manifest) (x : string * string * string) : file_manifest :=
  let '(alg, cs, f) := x in
  let m := default ∅ (fm !! alg) in
  <[alg := <[cs := default [] (m !! cs) ++ [f]]> m]> fm.
(** objectbase.go:1324-1368 createContentManifest: every file below the version folders (also the inventories) with the
    digests of all algorithms.  [None]: a version folder does not exist (panic).  An unknown algorithm makes checksum.Copy fail. *)
Inductive content_sums := SumsPanic | SumsErr | Sums (fm : file_manifest).
Definition file_sums (hash : string → string → option string) (algs : list string) (s : storage) (f : string)
    : option (list (string * string * string)) :=
  match s !! f with
  | Some c => all_some ((λ alg, (λ h, (alg, h, f)) <$> hash alg c) <$> algs)
  | None => None
  end.
Definition content_manifest (hash : string → string → option string) (algs : list string) (s : storage) (versions : list string)
    : content_sums :=
  match all_some (walk s <$> versions) with
  | None => SumsPanic
  | Some files =>
      match all_some (file_sums hash algs s <$> concat files) with
      | None => SumsErr
      | Some sums => Sums (foldl add_sum ∅ (concat sums))
      end
  end.

(** objectbase.go:1110-1152: the checks of one version inventory. *)
Definition check_version_inventory (w : vorder) (s : storage) (fm : file_manifest) (first ver : string) (d : doc) : verdict :=
  vseq (VDone (when (negb (bool_decide (first = dc_contentdir d))) (Finding "E019" [ver])))
  (vseq (check_files w fm d)
  (VDone (
    flat_map (λ e, when (negb (bool_decide (e = cdir d))) (Finding "W002" [e; ver])) (sub_dirs s ver) ++
    flat_map (λ f, when (negb (bool_decide (f = "inventory.json" ∨ f = "inventory.json." +:+ dc_alg d))) (Finding "E015" [f; ver]))
      (sub_files s ver)))).

(** inventorytypes.go:18-21 SpecIsLessOrEqual compares the type fields (inventorybase.go:181 GetSpec) as strings. *)
Definition spec_le (d1 d2 : doc) : bool := bool_decide (str_le (dc_type d1) (dc_type d2)).
(** objectbase.go:1154-1173: neighbours. *)
Fixpoint check_specs (vinv : gmap string doc) (l : list string) : list finding :=
  match l with
  | v1 :: (v2 :: _) as l' =>
      match vinv !! v1, vinv !! v2 with
      | None, _ => [Finding "W010" [v1]]
      | Some _, None => [Finding "W000" [v2]]
      | Some d1, Some d2 => when (negb (spec_le d1 d2)) (Finding "E103" [v1; v2])
      end ++ check_specs vinv l'
  | _ => []
  end.

(** objectbase.go:1187-1216: the version inventories against the root inventory.  A version that is not in the root
    inventory: EqualState on a nil pointer panics. *)
Definition check_against_root (w : vorder) (d : doc) (ver : string) (vd : doc) : verdict :=
  vseq (VDone (
    when (negb (bool_decide (dc_id d = dc_id vd))) (Finding "E037" [ver]) ++
    when (bool_decide (os_val (dc_head vd) ≠ "" ∧ os_val (dc_head vd) ≠ ver)) (Finding "E040" [os_val (dc_head vd); ver]) ++
    when (negb (bool_decide (dc_alg vd = dc_alg d))) (Finding "W000" [ver])))
  (vall ((λ p : string * vdoc,
     match vers d !! p.1 with
     | None => VPanic
     | Some tv =>
         match equal_state_doc tv p.2, equal_meta tv p.2 with
         | Some es, Some em => VDone (when (negb es) (Finding "E066" [ver; p.1]) ++ when (negb em) (Finding "W011" [ver; p.1]))
         | _, _ => VPanic
         end
     end) <$> vo w 20 (vers vd))).

(** objectbase.go:1218-1238 and 1246-1281: manifest files without physical file, content files without manifest entry. *)
Definition check_physical (w : vorder) (all : list string) (vd : doc) (name : string) : verdict :=
  match files_flat w 21 vd with
  | (Some fl, r) => vseq r (VDone (flat_map (λ f, when (negb (bool_decide (f ∈ all))) (Finding "E092" [f; name])) fl))
  | (None, r) => r
  end.
Definition check_listed (w : vorder) (content : list string) (cver : string) (vd : doc) (iver : string) : verdict :=
  if version_le (dc_values vd) cver iver then
    match files_flat w 21 vd with
    | (Some fl, r) => vseq r (VDone (flat_map (λ f, when (negb (bool_decide (f ∈ fl))) (Finding "E023" [f; iver])) content))
    | (None, r) => r
    end
  else VDone [].

(** objectbase.go:1028-1266 checkFilesAndVersions.  [vinv]: the version inventories that could be loaded.  The list of version
    strings is sorted once more in Go with a comparison that agrees with the order of GetVersionStrings.  Without versions the
    last version is the empty name, which is not the name of a loaded inventory. *)
Definition check_files_and_versions (hash : string → string → option string) (w : vorder) (s : storage) (d : doc)
    (vinv : gmap string doc) : verdict :=
  let versions := version_strings w 18 d in
  match all_some (walk s <$> versions) with
  | None => VPanic
  | Some walks =>
      let all := concat walks in
      let content ver := filter (λ f, has_prefix (ver +:+ "/" +:+ cdir d) f = true) (default [] (walk s ver)) in
      vseq (VDone (flat_map (λ ver, walk_findings d ver (default [] (walk s ver))) versions))
      match content_manifest hash (all_digests d vinv) s versions with
      | SumsPanic => VPanic
      | SumsErr => VError [] "cannot read and create checksums"
      | Sums fm =>
          vseq (check_files w fm d)
          match match versions with [] => Some "" | v0 :: _ => dc_contentdir <$> vinv !! v0 end with
          | None => VPanic
          | Some cd0 =>
              vseq (vall ((λ ver, match vinv !! ver with
                                  | None => VDone []
                                  | Some vd => check_version_inventory w s fm cd0 ver vd
                                  end) <$> versions))
              (vseq (VDone (check_specs vinv versions))
              (vseq (match vinv !! default "" (last versions) with
                     | None => VDone []
                     | Some ld =>
                         match is_equal ld d with
                         | None => VPanic
                         | Some b => VDone (when (negb b) (Finding "E064" []))
                         end
                     end)
              (vseq (vall ((λ p : string * doc, check_against_root w d p.1 p.2) <$> vo w 19 vinv))
              (vseq (vall ((λ p : string * doc, check_physical w all p.2 p.1) <$> vo w 19 vinv))
              (vseq (check_physical w all d "root")
              (vall ((λ ver,
                 vseq (vall ((λ p : string * doc, check_listed w (content ver) ver p.2 p.1) <$> vo w 19 vinv))
                      (check_listed w (content ver) ver d (os_val (dc_head d)))) <$> versions)))))))
          end
      end
  end.

(** objectbase.go:1268-1321 Check. *)
Definition check_object (hash : string → string → option string) (w : vorder) (s : storage) (d : doc) (vinv : gmap string doc) : verdict :=
  vseq (VDone (check_root s (version_strings w 17 d))) (check_files_and_versions hash w s d vinv).

(** objectbase.go:285-334 LoadInventory(folder) with validation: [decode] is JSON decoding into a document.  Finalize runs
    twice (lines 280 and 333), so its findings are recorded twice.  The first component is the inventory; [None] with
    [VDone] means fs.ErrNotExist. *)
Definition load_doc (hash : string → string → option string) (decode : string → option doc) (w : vorder) (lx : lexicon)
    (s : storage) (pre : string) : option doc * verdict :=
  let file := pre +:+ "inventory.json" in
  match s !! file with
  | None => (None, VDone [])
  | Some bytes =>
      match decode bytes with
      | None => (None, VError [] "cannot initiate inventory object")
      | Some d0 =>
          let '(d1, r1) := finalize w lx false d0 in
          let '(d2, r2) := finalize w lx false d1 in
          (Some d2,
           vseq r1
           (vseq (match s !! (file +:+ "." +:+ dc_alg d0) with
                  | None => VDone [Finding "E058" [pre]]
                  | Some text =>
                      match sidecar_parse text with
                      | None => VDone [Finding "E061" [pre]]
                      | Some dg =>
                          match hash (dc_alg d0) bytes with
                          | None => VError [] "invalid digest file for inventory"
                          | Some dg' => VDone (when (negb (bool_decide (dg = dg'))) (Finding "E060" [pre]))
                          end
                      end
                  end) r2))
      end
  end.
(** objectbase.go:1374-1407 getVersionInventories. *)
Fixpoint load_versions (hash : string → string → option string) (decode : string → option doc) (w : vorder) (lx : lexicon)
    (s : storage) (l : list string) : gmap string doc * verdict :=
  match l with
  | [] => (∅, VDone [])
  | ver :: l' =>
      let '(od, r) := load_doc hash decode w lx s (ver +:+ "/") in
      let '(m, r') := load_versions hash decode w lx s l' in
      match od with
      | Some d => (<[ver := d]> m, vseq r r')
      | None => (m, vseq r (vseq (VDone [Finding "W010" [ver]]) r'))
      end
  end.
(** Loading and checking an object: Load (objectbase.go:484-503, root inventory only) and Check. *)
Definition validate_object (hash : string → string → option string) (decode : string → option doc) (w : vorder) (lx : lexicon)
    (s : storage) : verdict :=
  match load_doc hash decode w lx s "" with
  | (Some d, r) =>
      let '(vinv, rv) := load_versions hash decode w lx s (version_strings w 16 d) in
      vseq r (vseq rv (check_object hash w s d vinv))
  | (None, VDone fs) => VError fs "cannot load inventory"
  | (None, r) => r
  end.
