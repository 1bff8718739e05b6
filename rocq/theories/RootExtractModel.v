(** Extraction of a storage root and of its metadata: /repo/pkg/ocfl/storagerootbase.go Extract and ExtractMeta with LoadObjectByFolder and
    LoadObjectByID, and the check of the target in /repo/gocfl/cmd/extract.go.  Only executable definitions. *)
From Coq Require Import Ascii.
From stdpp Require Import base list strings gmap.
From Coq Require Import ZArith.
From Verif Require Import GoStr PathModel InventoryModel ObjectModel LoadModel ValidateModel CheckModel AreaModel LayoutModel RootModel RootAddModel RootCheckModel MetaModel.

(** An opened object with its inventory and its files, or the outcome without one. *)
Inductive opening := OpenedAt (i : inventory) (s : storage) | NotOpenedAt (st : status).

Section root.
  (** [create]: CreateExtension of the factory, as in RootCheckModel.  [hash] and [parse]: the digests and the reading of inventories, as in LoadModel. *)
  Context (hash : string → string → option string) (parse : string → option inventory) (create : list (string * RootModel.node) → option ext).
  Context (tree : list (string * RootModel.node)).

  (** LoadObjectByFolder, storagerootbase.go:329-381.  Findings are left out (they are in RootCheckModel.load_folder). *)
  Definition open_folder (folder : string) : opening :=
    match find_folder folder tree with
    | None => NotOpenedAt (SErr "cannot get version")
    | Some l =>
        match get_version "ocfl_object_" l with
        | GOk _ =>
            match create_extensions true create (ext_folder l) with
            | XPanic => NotOpenedAt SPanic
            | RootCheckModel.XErr _ => NotOpenedAt (SErr "cannot create extension manager")
            | XOk _ _ =>
                match load_inventory hash parse (dir_files l) "" with
                | LErr m => NotOpenedAt (SErr m)
                | LInv i _ => OpenedAt i (dir_files l)
                end
            end
        | _ => NotOpenedAt (SErr "cannot get version")
        end
    end.
  (** LoadObjectByID, lines 383-389, or LoadObjectByFolder if there is a path, as in lines 636-640 and 680-684. *)
  Definition open_one (ls : list (string → pres)) (path id : string) : opening :=
    if decide (path = "") then
      match root_path ls id with
      | None => NotOpenedAt SPanic
      | Some (_, true) => NotOpenedAt (SErr "cannot create folder from id")
      | Some (folder, false) => open_folder folder
      end
    else open_folder path.

  (** The target with the files of a sub file system (fs.Sub of the target, line 668, which is not in the repository): the files of the
      folder are those of [t]. *)
  Definition put_folder (folder : string) (t target : storage) : storage :=
    list_to_map ((λ e : string * string, (folder +:+ "/" +:+ e.1, e.2)) <$> map_to_list t) ∪ target.
  (** Lines 663-675.  [orcs n] is the map order in the n-th object; the area of the call is not used, line 672. *)
  Fixpoint extract_folders (X : AreaModel.xenv) (orcs : nat → oracle) (version : string) (man : bool) (n : nat) (folders : list string) (target : storage)
      : storage * status :=
    match folders with
    | [] => (target, SOk)
    | folder :: folders' =>
        match open_folder folder with
        | NotOpenedAt st => (target, st)
        | OpenedAt i s =>
            match extract X (orcs n) i s version man "" (sub_files folder target) with
            | (t, SOk) => extract_folders X orcs version man (S n) folders' (put_folder folder t target)
            | (t, st) => (put_folder folder t target, st)
            end
        end
    end.
  (** Extract, lines 653-694. *)
  Definition extract_root (X : AreaModel.xenv) (orcs : nat → oracle) (ls : list (string → pres)) (path id version : string) (man : bool) (area : string)
      (target : storage) : storage * status :=
    let version := if decide (version = "") then "latest" else version in
    if decide (path = "" ∧ id = "") then extract_folders X orcs version man 0 (get_object_folders tree) target
    else
      match open_one ls path id with
      | NotOpenedAt st => (target, st)
      | OpenedAt i s => extract X (orcs 0) i s version man area target
      end.
  (** /repo/gocfl/cmd/extract.go:150-165: nothing is extracted into a target that is not empty. *)
  Definition extract_command (X : AreaModel.xenv) (orcs : nat → oracle) (ls : list (string → pres)) (path id version : string) (man : bool) (area : string)
      (target : storage) : storage * status :=
    match map_to_list target with
    | _ :: _ => (target, SErr "target folder is not empty")
    | [] => extract_root X orcs ls path id version man area target
    end.

  (** ExtractMeta, lines 612-651.  [exts folder] is what the extensions of the object in the folder return, [ws n] the map orders in the
      n-th object. *)
  Fixpoint folders_meta {A} (ws : nat → worders) (exts : string → list (string * (gmap string A + string))) (n : nat) (folders : list string)
      (acc : gmap string (object_meta A)) : gmap string (object_meta A) + status :=
    match folders with
    | [] => inl acc
    | folder :: folders' =>
        match open_folder folder with
        | NotOpenedAt st => inr st
        | OpenedAt i _ =>
            match get_metadata (ws n) (exts folder) i with
            | inr e => inr (SErr e)
            | inl m => folders_meta ws exts (S n) folders' (<[inv_id i := m]> acc)
            end
        end
    end.
  Definition root_meta {A} (ws : nat → worders) (exts : string → list (string * (gmap string A + string))) : gmap string (object_meta A) + status :=
    folders_meta ws exts 0 (get_object_folders tree) ∅.
End root.
