(** Storage roots: /repo/pkg/ocfl/storagerootbase.go, storageroot.go, object.go and helper.go. *)
From Coq Require Import Ascii ZArith.
From stdpp Require Import base list strings gmap.
From Verif Require Import GoStr PathModel InventoryModel ObjectModel Utf8Model LayoutModel.

(** * Directory listings *)

(** A directory tree.  The entries of a directory are in the order in which the file system lists them ([fs.ReadDir]).
    Errors of the file system are not modelled in this part. *)
Inductive node := File (data : string) | Dir (entries : list (string * node)).
Definition is_dir (n : node) : bool := match n with Dir _ => true | File _ => false end.

(** GetFolders, storagerootbase.go:241-254: the directories of the storage root. *)
Definition get_folders (root : list (string * node)) : list (string * node) :=
  filter (λ e : string * node, is_dir (snd e) = true ∧ fst e ≠ "." ∧ fst e ≠ "..") root.

(** The recursive function of GetObjectFolders, lines 285-310. *)
Fixpoint recurse (base : string) (n : node) : list string :=
  match n with
  | File _ => []
  | Dir entries =>
      (fix go (l : list (string * node)) : list string :=
         match l with
         | [] => []
         | e :: l' =>
             match snd e with
             | Dir _ => recurse (path_join [base; fst e]) (snd e) ++ go l'
             | File _ => if decide (fst e = "." ∨ fst e = "..") then go l' else [base]
             end
         end) entries
  end.
(** GetObjectFolders, lines 283-327. *)
Definition get_object_folders (root : list (string * node)) : list string :=
  get_folders root ≫= λ e, if decide (fst e = "extensions") then [] else recurse (fst e) (snd e).

(** * Version declarations *)

Definition is_digit (c : ascii) : bool := ((48 <=? N_of_ascii c) && (N_of_ascii c <=? 57))%N.
(** The longest prefix of digits, and the rest. *)
Fixpoint span_digits (s : string) : string * string :=
  match s with
  | EmptyString => ("", "")
  | String c s' => if is_digit c then let '(a, r) := span_digits s' in (String c a, r) else ("", s)
  end.
(** The regular expression of getVersion (helper.go:169), 0=<prefix>([0-9]+\.[0-9]+), at the beginning of a string: the group. *)
Definition match_at (prefix s : string) : option string :=
  match drop_prefix ("0=" +:+ prefix) s with
  | None => None
  | Some r =>
      match span_digits r with
      | (EmptyString, _) => None
      | (a, String "." r') =>
          match span_digits r' with
          | (EmptyString, _) => None
          | (b, _) => Some (a +:+ "." +:+ b)
          end
      | _ => None
      end
  end%char.
(** [FindStringSubmatch]: the expression has no anchor, the leftmost match counts. *)
Fixpoint find_version (prefix s : string) : option string :=
  match match_at prefix s with
  | Some v => Some v
  | None => match s with EmptyString => None | String _ s' => find_version prefix s' end
  end.

(** The results of getVersion: a version, a version with errInvalidContent, errVersionMultiple, errVersionNone. *)
Inductive gv := GOk (v : string) | GInvalid (v : string) | GMultiple | GNone.

(** helper.go:178-204; [cur] is the version found so far. *)
Fixpoint gv_loop (prefix : string) (cur : option string) (l : list (string * node)) : gv :=
  match l with
  | [] => match cur with Some v => GOk v | None => GNone end
  | (name, n) :: l' =>
      match n with
      | Dir _ => gv_loop prefix cur l'
      | File data =>
          match find_version prefix name with
          | None => gv_loop prefix cur l'
          | Some v =>
              match cur with
              | Some _ => GMultiple
              | None =>
                  if decide (data = prefix +:+ v +:+ String "010" "" ∨ data = prefix +:+ v +:+ String "013" (String "010" ""))
                  then gv_loop prefix (Some v) l'
                  else GInvalid v
              end
          end
      end
  end.
Definition get_version (prefix : string) (l : list (string * node)) : gv := gv_loop prefix None l.

(** validVersion, helper.go:206-209. *)
Definition valid_version (prefix v : string) (l : list (string * node)) : bool :=
  bool_decide (match get_version prefix l with GOk w | GInvalid w => w | _ => "" end = v).

(** The version as which newObject (object.go:84-113) treats an object: the constructors set the version. *)
Definition object_class (v : string) : string := if decide (v = "1.1") then "1.1" else if decide (v = "2.0") then "2.0" else "1.0".
(** LoadObjectByFolder, storagerootbase.go:329-356, up to the creation of the object: the version of the object, None for an
    error. *)
Definition load_object_version (l : list (string * node)) : option string :=
  match get_version "ocfl_object_" l with
  | GOk v => Some (object_class v)
  | _ => None
  end.
(** LoadStorageRoot, storageroot.go:95-129, with Load, storagerootbase.go:146-176: the version of the storage root, None for an
    error; the creation of the extensions is left out. *)
Definition load_root_version (l : list (string * node)) : option string :=
  match get_version "ocfl_" l with
  | GOk v => if decide (v = "1.0" ∨ v = "1.1" ∨ v = "2.0") then Some v else None
  | GNone => Some "1.0"
  | _ => None
  end.

(** * Creation *)

(** BuildStorageRootPath of the extension manager (NNNN-gocfl-extension-manager.go:321-334): the path, and whether an error is
    returned with it.  An extension with an error is skipped.  None for a panic. *)
Fixpoint root_path (ls : list (string → pres)) (id : string) : option (string * bool) :=
  match ls with
  | [] => Some (id, false)
  | f :: ls' =>
      match f id with
      | PPanic => None
      | PErr _ => (λ r, (fst r, true)) <$> root_path ls' id
      | POk p => root_path ls' (if decide (p = "") then id else p)
      end
  end.

(** Files of the storage root by path.  A directory exists as long as it holds files: a directory with nothing but empty
    directories counts as empty here. *)
Definition under (folder p : string) : bool :=
  bool_decide (path_clean folder = ".") || has_prefix (path_clean folder +:+ "/") p.
Definition entries_below (s : storage) (folder : string) : list (string * string) :=
  filter (λ e : string * string, under folder (fst e) = true) (map_to_list s).

(** Init of an object, objectbase.go:426-482, in the sub file system of [folder].  [fixity_ok]: the requested fixity algorithms
    are supported. *)
Definition object_init (folder version : string) (fixity_ok : bool) (s : storage) : storage * status :=
  let decl := "ocfl_object_" +:+ version in
  let file := path_join [folder; "0=" +:+ decl] in
  match s !! file with
  | Some _ => (s, SErr "already exists")
  | None =>
      match entries_below s folder with
      | _ :: _ => (s, SErr "is not empty")
      | [] =>
          let s1 := <[file := decl +:+ String "010" ""]> s in
          if fixity_ok then (s1, SOk) else (s1, SErr "forbidden digest algorithm for fixity")
      end
  end.
(** CreateObject, storagerootbase.go:391-413, for a given (not empty) version.  The error of BuildStorageRootPath is overwritten by the next assignment. *)
Definition create_object (ls : list (string → pres)) (id version : string) (fixity_ok : bool) (s : storage) : storage * status :=
  match root_path ls id with
  | None => (s, SPanic)
  | Some (folder, _) => object_init folder (object_class version) fixity_ok s
  end.
(** ObjectExists, storagerootbase.go:260-280; None for an error. *)
Definition object_exists (ls : list (string → pres)) (id : string) (s : storage) : option bool :=
  match root_path ls id with
  | Some (folder, false) => Some (match entries_below s folder with [] => false | _ => true end)
  | _ => None
  end.

(** Init of a storage root, storagerootbase.go:82-144: [others] are the documents, extension configurations and the layout file it
    writes after the declaration. *)
Definition root_init (version : string) (others : list (string * string)) (s : storage) : storage * status :=
  match map_to_list s with
  | _ :: _ => (s, SErr "storage root not empty")
  | [] =>
      let s1 := <["0=ocfl_" +:+ version := "ocfl_" +:+ version +:+ String "010" ""]> s in
      (foldl (λ s e, <[fst e := snd e]> s) s1 others, SOk)
  end.
