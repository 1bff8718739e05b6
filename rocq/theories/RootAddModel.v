(** Adding to an object of a storage root: the whole of /repo/gocfl/cmd/helper.go:305-363 addObjectByPath with
    storagerootbase.go LoadObjectByID, LoadObjectByFolder, CreateObject.  Only executable definitions. *)
From Coq Require Import Ascii.
From stdpp Require Import base list strings gmap.
From Coq Require Import ZArith.
From Verif Require Import GoStr PathModel InventoryModel ObjectModel LoadModel IngestModel LayoutModel RootModel.

(** fs.Sub and writefs.SubFSCreate (not in the repository): the files below a folder under their names in the sub file system.  The
    folder "." is the file system itself. *)
Definition sub_files (folder : string) (s : storage) : storage :=
  if decide (path_clean folder = ".") then s
  else list_to_map (omap (λ e : string * string, (λ p, (p, e.2)) <$> drop_prefix (path_clean folder +:+ "/") e.1) (map_to_list s)).
(** A storage effect of the sub file system, as the storage root sees it. *)
Definition place_ev (folder : string) (e : ev) : ev :=
  match e with
  | ECreate p => ECreate (path_join [folder; p])
  | EAppend p b => EAppend (path_join [folder; p]) b
  end.
(** The files (not the directories) directly in a folder, for getVersion, which skips directories.  Their order decides only which of
    several errors is returned. *)
Definition top_files (s : storage) : list (string * RootModel.node) :=
  omap (λ e : string * string, if str_mem slash e.1 then None else Some (e.1, File e.2)) (map_to_list s).

(** An opened object, or the outcome without one. *)
Inductive opened := Opened (folder : string) (i : inventory) | NotOpened (st : status).

(** LoadObjectByID, storagerootbase.go:383-389, with LoadObjectByFolder, lines 329-381, and ObjectBase.Load, objectbase.go:484-503:
    the identifier in the inventory is not compared.  Validation findings (E004, E075, E000 and those of the inventory) and the loading
    of extensions are left out. *)
Definition load_by_id (hash : string → string → option string) (parse : string → option inventory) (ls : list (string → pres)) (id : string)
    (s : storage) : opened :=
  match root_path ls id with
  | None => NotOpened SPanic
  | Some (_, true) => NotOpened (SErr "cannot create folder from id")
  | Some (folder, false) =>
      let sub := sub_files folder s in
      match load_object_version (top_files sub) with
      | None => NotOpened (SErr "cannot get version")
      | Some _ =>
          match load_inventory hash parse sub "" with
          | LErr m => NotOpened (SErr m)
          | LInv i _ => Opened folder i
          end
      end
  end.

(** The inventory of a new object: newInventory (inventory.go:57-74) knows only 1.1 and takes 1.0 for everything else. *)
Definition inventory_type (version : string) : string :=
  if decide (version = "1.1") then "https://ocfl.io/1.1/spec/#inventory" else "https://ocfl.io/1.0/spec/#inventory".
(** What a storage root has for all its objects: the layouts, the version and the digest algorithm for new objects. *)
Record root := Root { rt_layouts : list (string → pres); rt_version : string; rt_alg : string }.

(** CreateObject, storagerootbase.go:391-413.  [fixalgs] are the requested fixity algorithms; [allowed] are the algorithms that the
    extensions allow besides sha512 and sha256 (objectbase.go:468-479). *)
Definition create_by_id (rt : root) (fixalgs allowed : list string) (id : string) (s : storage) : storage * opened :=
  match root_path (rt_layouts rt) id with
  | None => (s, NotOpened SPanic)
  | Some (folder, _) =>
      let version := object_class (rt_version rt) in
      match object_init folder version (forallb (λ a, bool_decide (a ∈ "sha512" :: "sha256" :: allowed)) fixalgs) s with
      | (s', SOk) => (s', Opened folder (new_inventory id (inventory_type version) (rt_alg rt) fixalgs))
      | (s', st) => (s', NotOpened st)
      end
  end.

(** addObjectByPath.  [fid] is the global flagObjectID, for which the existence is checked; [id] is loaded or created. *)
Definition add_object (E : env) (parse : string → option inventory) (rt : root) (fixalgs allowed : list string) (fid id : string)
    (orcs : nat → nat → oracle) (orc1 orc2 : oracle) (r : request) (folders : list (string * option IngestModel.node)) (h : hooks)
    (s : storage) : storage * status :=
  match root_path (rt_layouts rt) fid, object_exists (rt_layouts rt) fid s with
  | None, _ => (s, SPanic)
  | _, None => (s, SErr "cannot check for existence")
  | _, Some ex =>
      match (if ex then (s, load_by_id (e_hash E) parse (rt_layouts rt) id s) else create_by_id rt fixalgs allowed id s) with
      | (s1, NotOpened st) => (s1, st)
      | (s1, Opened folder i) =>
          let '(o, st) := ingest E orcs orc1 orc2 r folders h (open_object i) in
          (apply_evs (place_ev folder <$> ob_trace o) s1, st)
      end
  end.
