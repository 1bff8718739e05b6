(** The metafile extension: descriptive metadata given with an update (/repo/pkg/extension/NNNN-metafile.go) and the reader of single
    side files (/repo/pkg/ocfl/helper.go:341-367).  Only executable definitions. *)
From Coq Require Import Ascii.
From stdpp Require Import base list strings gmap.
From Coq Require Import ZArith.
From Verif Require Import GoStr PathModel InventoryModel ObjectModel AreaModel ValidateModel JsonlModel.

(** The parsed source parameter (SetParams, lines 135-147): scheme, path, and the text that URL.String gives.  Parsing is not modelled. *)
Record murl := MUrl { u_scheme : string; u_path : string; u_text : string }.
(** What is outside: the body that a GET request gives (the status is not looked at), files on the disk, and decoding, schema validation
    and json.MarshalIndent (lines 261-303) for a file name extension in lower case; None for an error. *)
Record sources := Sources {
  so_net : string → option string;
  so_disk : string → option string;
  so_decode : string → string → option string
}.
(** MetaFileConfig, lines 99-106; [ms_folder] is the folder of the extension inside the object.  The schema is part of [so_decode]. *)
Record mstore := MStore { ms_name : string; ms_type : string; ms_storage : string; ms_folder : string }.
(** MetaFile, lines 107-115: the source (nil if the parameter was not given), stored, info. *)
Record mfst := MfSt { mf_source : option murl; mf_stored : bool; mf_info : gmap string string }.
(** NewMetaFile and SetParams (lines 83-97, 135-147). *)
Definition mf_new (u : option murl) : mfst := MfSt u false ∅.

(** strings.Replace(s, $ID, id, -1). *)
Fixpoint replace_id (id s : string) : string :=
  match s with
  | String "$" (String "I" (String "D" r)) => id +:+ replace_id id r
  | String c r => String c (replace_id id r)
  | EmptyString => EmptyString
  end%char.
(** filepath.Ext: what follows the last dot of the last path element, with the dot. *)
Definition file_ext (p : string) : string :=
  match rev (split_on "."%char (default "" (last (split_slash p)))) with
  | e :: _ :: _ => String "."%char e
  | _ => ""
  end.
(** windowsPathWithDrive, line 346: a slash, a letter and a colon at the start. *)
Definition is_letter (c : ascii) : bool :=
  let n := N_of_ascii c in ((65 <=? n) && (n <=? 90) || (97 <=? n) && (n <=? 122))%N.
Definition with_drive (p : string) : bool :=
  match p with
  | String a (String b (String c _)) => bool_decide (a = slash) && is_letter b && bool_decide (c = ":"%char)
  | _ => false
  end.

(** Lines 222-259: the name that is opened, with what it holds; None if the scheme is unknown or it cannot be opened. *)
Definition mf_open (W : sources) (id : string) (u : murl) : option (string * string) :=
  let t := to_lower (u_scheme u) in
  let f := String slash (trim_left (replace_id id (u_path u)) "/") in
  if decide (t = "http" ∨ t = "https") then let n := replace_id id (u_text u) in pair n <$> so_net W n
  else if decide (t = "file") then let n := if with_drive f then trim_left f "/" else f in pair n <$> so_disk W n
  else if decide (t = "") then pair f <$> so_disk W f
  else None.
(** Lines 222-303: the bytes that are stored. *)
Definition mf_fetch (W : sources) (id : string) (u : murl) : option string :=
  match mf_open W id u with
  | None => None
  | Some (n, data) =>
      let e := to_lower (file_ext n) in
      if decide (e = ".json" ∨ e = ".yaml" ∨ e = ".toml") then so_decode W e data else None
  end.

(** Lines 305-328: where they go. *)
Definition mf_write_target (l : list subpaths) (M : mstore) : jtarget :=
  let t := to_lower (ms_type M) in
  if decide (t = "area") then JAdd [trim_left (ms_name M) "/"] (ms_storage M)
  else if decide (t = "path") then
    match area_path l "content" with
    | None => JError "cannot get area path"
    | Some p => JAdd [trim_left (path_join [p; ms_storage M; ms_name M]) "/"] ""
    end
  else if decide (t = "extension") then JFile (path_join [ms_folder M; trim_left (path_join [ms_storage M; ms_name M]) "/"])
  else JError "unsupported storage type".

(** Lines 200-333 UpdateObjectBefore, called by StartUpdate (objectbase.go:561) when the new version exists.  Without the parameter
    sl.metadataSource is nil and line 201 dereferences it.  That the file system of the extension is not set is not modelled. *)
Definition mf_before (W : sources) (E : env) (l : list subpaths) (M : mstore) (orc : oracle) (o : object) (x : mfst) : object * mfst * status :=
  match mf_source x with
  | None => (o, x, SPanic)
  | Some u =>
      if decide (u_path u = "") then (o, x, SOk)
      else if mf_stored x then (o, x, SOk)
      else
        let x1 := MfSt (Some u) true (mf_info x) in
        match mf_fetch W (inv_id (ob_inv o)) u with
        | None => (o, x1, SErr "cannot read info file")
        | Some t =>
            let x2 := MfSt (Some u) true (<[inv_head (ob_inv o) := t]> (mf_info x)) in
            match mf_write_target l M with
            | JError e => (o, x1, SErr e)
            | JFile p => (emit (write_file p t) o, x2, SOk)
            | JAdd files area =>
                match ob_add_reader E orc t files area o with
                | (o', SOk) => (o', x2, SOk)
                | (o', st) => (o', x1, st)
                end
            end
        end
  end.

(** helper.go:341-367 ReadFile: the path in the object.  The storage type is compared as it is.  The name below the folder of the
    extension is taken as a path there (a file system may refuse one that is not clean). *)
Definition mf_read_target (l : list subpaths) (M : mstore) (i : inventory) (version : string) : option string :=
  if decide (ms_type M = "area") then
    match area_path l (ms_storage M) with
    | None => None
    | Some p => Some (manifest_name_version i (p +:+ "/" +:+ ms_name M) version)
    end
  else if decide (ms_type M = "path") then
    match area_path l "content" with
    | None => None
    | Some p => Some (manifest_name_version i (p +:+ "/" +:+ ms_storage M +:+ "/" +:+ ms_name M) version)
    end
  else if decide (ms_type M = "extension") then Some (path_join [ms_folder M; trim_left (ms_storage M +:+ "/" +:+ ms_name M) "/"])
  else None.
Definition mf_read (l : list subpaths) (M : mstore) (i : inventory) (s : storage) (version : string) : option string :=
  match mf_read_target l M i version with
  | None => None
  | Some p => s !! p
  end.

(** Lines 352-376 GetMetadata: the newest version for which something is remembered or can be read.  [parse]: json.Unmarshal into a
    JSON object.  Without any version both results are nil (errors.Wrapf of a nil error). *)
Inductive mfres (A : Type) := MfNil | MfErr | MfOk (a : A).
Arguments MfNil {_}.
Arguments MfErr {_}.
Arguments MfOk {_} _.
Fixpoint mf_search (info : gmap string string) (read : string → option string) (vs : list string) : option string :=
  match vs with
  | [] => None
  | v :: vs' =>
      match info !! v with
      | Some t => Some t
      | None => match read v with Some t => Some t | None => mf_search info read vs' end
      end
  end.
Definition mf_metadata {A} (parse : string → option A) (l : list subpaths) (M : mstore) (w : vorder) (x : mfst) (i : inventory) (s : storage) : mfres A :=
  match rev (sorted_names ((vo w 0 (inv_versions i)).*1)) with
  | [] => MfNil
  | vs =>
      match mf_search (mf_info x) (mf_read l M i s) vs with
      | None => MfErr
      | Some t => match parse t with None => MfErr | Some a => MfOk a end
      end
  end.
