(** Side files of extensions and the indexer extension: /repo/pkg/ocfl/helper.go:369-506 ReadJsonL and WriteJsonL, the area paths
    (/repo/pkg/ocfl/objectbase.go:1494-1500, /repo/pkg/extension/NNNN-gocfl-extension-manager.go:532-545,
    /repo/pkg/extension/NNNN-content-subpath.go:199-205), and /repo/pkg/extension/NNNN-indexer.go.  Only executable definitions. *)
From Coq Require Import Ascii.
From stdpp Require Import base list strings gmap.
From Coq Require Import ZArith.
From Verif Require Import GoStr PathModel InventoryModel ObjectModel AreaModel ValidateModel.

(** The packages brotli and compress/gzip: None for data that cannot be unpacked. *)
Record codec := Codec {
  z_br : string → string;
  z_unbr : string → option string;
  z_gz : string → string;
  z_ungz : string → option string
}.

(** GetAreaPath of the extension manager: the first path that is not empty; otherwise the errors.  NNNN-content-subpath.go:199-205: the
    path of the area, an error for an unknown area.  (The default area is not looked at.) *)
Fixpoint area_path_from (err : bool) (l : list subpaths) (area : string) : option string :=
  match l with
  | [] => if err then None else Some ""
  | c :: l' =>
      match sp_paths c !! area with
      | None => area_path_from true l' area
      | Some p => if decide (p = "") then area_path_from err l' area else Some p
      end
  end.
Definition area_path : list subpaths → string → option string := area_path_from false.

(** How an extension keeps its side files: the name that it passes, and its configuration.  [js_folder] is the folder of the
    extension inside the object. *)
Record jstore := JStore { js_name : string; js_compress : string; js_type : string; js_storage : string; js_folder : string }.

(** helper.go:374-384 and 443-466: the file name extension. *)
Definition compress_ext (compress : string) : option string :=
  if decide (compress = "brotli") then Some ".br"
  else if decide (compress = "gzip") then Some ".gz"
  else if decide (compress = "none") then Some ""
  else None.
(** The file names made with Sprintf. *)
Definition jsonl_name (name version ext : string) : string := name +:+ "_" +:+ version +:+ ".jsonl" +:+ ext.

(** helper.go:443-466: the bytes that go to the file, made of brotli data.  Unpacking is done while the file is written; that the
    extension hands over data which is not brotli is reported here before anything is written. *)
Definition repack (Z : codec) (compress b : string) : option string :=
  if decide (compress = "brotli") then Some b
  else if decide (compress = "gzip") then z_gz Z <$> z_unbr Z b
  else z_unbr Z b.

(** inventorybase.go:708-710 BuildManifestNameVersion. *)
Definition manifest_name_version (i : inventory) (internal version : string) : string :=
  path_clean (path_join [version; content_dir i; internal]).

(** helper.go:440-506 WriteJsonL: the call of the object that it ends in, or the file in the extension folder.  The storage type is
    compared in lower case. *)
Inductive jtarget := JAdd (files : list string) (area : string) | JFile (p : string) | JError (msg : string).
Definition write_target (l : list subpaths) (J : jstore) (head : string) : jtarget :=
  match compress_ext (js_compress J) with
  | None => JError "invalid compression"
  | Some ext =>
      let t := to_lower (js_type J) in
      let name := jsonl_name (js_name J) head ext in
      if decide (t = "area") then JAdd [name] (js_storage J)
      else if decide (t = "path") then
        match area_path l "content" with
        | None => JError "cannot get area path"
        | Some p => JAdd [p +:+ "/" +:+ js_storage J +:+ "/" +:+ name] ""
        end
      else if decide (t = "extension") then
        JFile (path_join [js_folder J; trim_left (js_storage J +:+ "/" +:+ name) "/"])
      else JError "unsupported storage type"
  end.
(** The file system of the extension is a sub file system of the object, here a path prefix. *)
Definition write_jsonl (Z : codec) (E : env) (l : list subpaths) (J : jstore) (orc : oracle) (b : string) (o : object) : object * status :=
  match write_target l J (inv_head (ob_inv o)) with
  | JError e => (o, SErr e)
  | JAdd files area =>
      match repack Z (js_compress J) b with
      | None => (o, SErr "cannot write")
      | Some data => ob_add_reader E orc data files area o
      end
  | JFile p =>
      match repack Z (js_compress J) b with
      | None => (o, SErr "cannot write")
      | Some data => (emit (write_file p data) o, SOk)
      end
  end.

(** helper.go:369-438 ReadJsonL: the path in the object, then the data.  The storage type is compared as it is.  None stands for an
    error; that the file system is not set is not modelled. *)
Definition read_target (l : list subpaths) (J : jstore) (i : inventory) (version : string) : option string :=
  match compress_ext (js_compress J) with
  | None => None
  | Some ext =>
      let name := jsonl_name (js_name J) version ext in
      if decide (js_type J = "area") then
        match area_path l (js_storage J) with
        | None => None
        | Some p => Some (manifest_name_version i (p +:+ "/" +:+ name) version)
        end
      else if decide (js_type J = "path") then
        match area_path l "content" with
        | None => None
        | Some p => Some (manifest_name_version i (p +:+ "/" +:+ js_storage J +:+ "/" +:+ name) version)
        end
      else if decide (js_type J = "extension") then
        Some (path_join [js_folder J; trim_left (js_storage J +:+ "/" +:+ name) "/"])
      else None
  end.
Definition unpack (Z : codec) (compress data : string) : option string :=
  if decide (compress = "brotli") then z_unbr Z data
  else if decide (compress = "gzip") then z_ungz Z data
  else Some data.
Definition read_jsonl (Z : codec) (l : list subpaths) (J : jstore) (i : inventory) (s : storage) (version : string) : option string :=
  match read_target l J i version with
  | None => None
  | Some p =>
      match s !! p with
      | None => None
      | Some data => unpack Z (js_compress J) data
      end
  end.

(** * The indexer *)

(** json.Marshal and json.Unmarshal for one line: a content path and a result. *)
Record printer (R : Type) := Printer { l_print : string → R → string; l_parse : string → option (string * R) }.
Arguments Printer {_} _ _.
Arguments l_print {_} _ _ _.
Arguments l_parse {_} _ _.

(** NNNN-indexer.go:118-129: currentHead (the writer is nil as long as it is empty), whether the writer is open, and the lines that
    were written to the buffer of each version.  (While the writer is open the buffer counts as empty; brotli may have flushed some of it.) *)
Record ixst (R : Type) := IxSt { ix_cur : string; ix_open : bool; ix_buf : gmap string (list (string * R)) }.
Arguments IxSt {_} _ _ _.
Arguments ix_cur {_} _.
Arguments ix_open {_} _.
Arguments ix_buf {_} _.
(** NNNN-indexer.go:90-97. *)
Definition ix_new {R} : ixst R := IxSt "" false ∅.

Definition nl : ascii := Ascii.ascii_of_nat 10.
Definition cr : ascii := Ascii.ascii_of_nat 13.
(** The text of a buffer: every line ends with a newline (line 364). *)
Definition text_of {R} (L : printer R) (l : list (string * R)) : string :=
  foldr (λ p t, l_print L p.1 p.2 +:+ String nl t) "" l.

(** NNNN-indexer.go:311-369 StreamObject for an indexer that is active and enabled.  [index]: DoV2 or Stream of the dispatcher, without
    errors; None if there is no result.  [mpath] is BuildManifestName(dest).  A write to a closed brotli writer is an error. *)
Definition ix_stream {R} (index : list string → string → option R) (head mpath : string) (exts : list string) (data : string) (x : ixst R)
    : ixst R + ixst R :=
  let lines := default [] (ix_buf x !! head) in
  let x1 := if decide (ix_cur x = head) then IxSt head (ix_open x) (<[head := lines]> (ix_buf x))
            else IxSt head true (<[head := lines]> (ix_buf x)) in
  match index exts data with
  | None => inl x1
  | Some r => if ix_open x1 then inl (IxSt head true (<[head := lines ++ [(mpath, r)]]> (ix_buf x1))) else inr x1
  end.

(** Which calls get to addReader (objectbase.go:646), with its arguments: the conditions of AddReader (736-771), AddData and AddFile
    (773-950). *)
Definition streamed (E : env) (orc : oracle) (op : sop) (o : object) : option (string * list string * string) :=
  match op with
  | SAddReader data files area =>
      if inv_writeable (ob_inv o) then
        match build_names E (ob_inv o) files area with
        | Some (ps, m) => Some (data, ps, m)
        | None => None
        end
      else None
  | SAdd data path area dedup =>
      if inv_writeable (ob_inv o) then
        match build_names E (ob_inv o) [path] area, e_state_path E path area with
        | Some (ps, m), Some np =>
            if dedup then
              match e_hash E (inv_alg (ob_inv o)) data with
              | Some d =>
                  match already_exists orc 0 (ob_inv o) np d, get_duplicates (ob_inv o) d with
                  | inl false, [] => Some (data, ps, m)
                  | _, _ => None
                  end
              | None => None
              end
            else Some (data, ps, m)
        | _, _ => None
        end
      else None
  | _ => None
  end.
(** The list of the files of an update (objectbase.go:652 and 794). *)
Definition noted (E : env) (op : sop) (ps : list string) : list string :=
  match op with
  | SAdd _ path area _ => match e_state_path E path area with Some np => np :: ps | None => ps end
  | _ => ps
  end.

(** A call of the object, with ([hook]) or without the extension hooks: addReader (objectbase.go:646-711) gives the data to StreamObject
    while it writes the file, and does not add the file to the inventory if that fails.  If the digests fail the indexer is left as it
    is (what it sees then depends on timing). *)
Definition istep {R} (E : env) (index : list string → string → option R) (hook : bool) (orc : oracle) (op : sop) (o : object) (x : ixst R)
    : object * ixst R * status :=
  let '(o', st) := sop_step E orc op o in
  match (if hook then streamed E orc op o else None) with
  | None => (o', x, st)
  | Some (data, ps, m) =>
      match checksums E (remove_dups (inv_fixalgs (ob_inv o) ++ [inv_alg (ob_inv o)])) data with
      | None => (o', x, st)
      | Some _ =>
          match ix_stream index (inv_head (ob_inv o)) m ps data x with
          | inl x' => (o', x', st)
          | inr x' => (emit [ECreate m; EAppend m data] (set_upd (ob_upd o ++ noted E op ps) o), x', SErr "cannot brotli")
          end
      end
  end.

(** NNNN-indexer.go:220-256 UpdateObjectAfter.  Flush of a closed brotli writer is an error. *)
Definition ix_after {R} (Z : codec) (L : printer R) (E : env) (l : list subpaths) (J : jstore) (orc : oracle) (o : object) (x : ixst R)
    : object * ixst R * status :=
  if decide (ix_cur x = "") then (o, x, SOk)
  else if negb (ix_open x) then (o, x, SErr "cannot flush brotli writer")
  else
    let x1 := IxSt (ix_cur x) false (ix_buf x) in
    if decide (inv_head (ob_inv o) = "") then (o, x1, SErr "no head for object")
    else match ix_buf x !! inv_head (ob_inv o) with
         | None => (o, x1, SOk)
         | Some lines => let '(o', st) := write_jsonl Z E l J orc (z_br Z (text_of L lines)) o in (o', x1, st)
         end.

(** bufio.ScanLines: the lines without the newline and one carriage return; no line after the last newline.  (Lines longer than 16 MB
    are an error there.) *)
Definition drop_cr (s : string) : string :=
  match rev (list_ascii_of_string s) with
  | c :: l => if decide (c = cr) then string_of_list_ascii (rev l) else s
  | [] => s
  end.
Definition scan_lines (s : string) : list string :=
  let l := split_on nl s in
  match last l with
  | Some "" => drop_cr <$> removelast l
  | _ => drop_cr <$> l
  end.

(** NNNN-indexer.go:258-309 GetMetadata.  path2digest: later entries of the manifest replace earlier ones; a path without digest has the
    empty one. *)
Definition path_digests (w : vorder) (i : inventory) : gmap string string :=
  foldl (λ r (p : string * list string), foldl (λ r n, <[n := p.1]> r) r p.2) ∅ (vo w 0 (inv_manifest i)).
Definition version_data {R} (Z : codec) (L : printer R) (l : list subpaths) (J : jstore) (x : ixst R) (i : inventory) (s : storage) (v : string)
    : option string :=
  match ix_buf x !! v with
  | Some lines => if decide (ix_cur x = v ∧ ix_open x = true) then read_jsonl Z l J i s v else Some (text_of L lines)
  | None => read_jsonl Z l J i s v
  end.
Fixpoint add_lines {R} (L : printer R) (digests : gmap string string) (ls : list string) (r : gmap string R) : option (gmap string R) :=
  match ls with
  | [] => Some r
  | t :: ls' =>
      match l_parse L t with
      | None => None
      | Some (p, a) => add_lines L digests ls' (<[default "" (digests !! p) := a]> r)
      end
  end.
Fixpoint add_versions {R} (L : printer R) (digests : gmap string string) (data : string → option string) (vs : list string) (r : gmap string R)
    : option (gmap string R) :=
  match vs with
  | [] => Some r
  | v :: vs' =>
      match data v with
      | None => None
      | Some t => match add_lines L digests (scan_lines t) r with
                  | None => None
                  | Some r' => add_versions L digests data vs' r'
                  end
      end
  end.
Definition ix_metadata {R} (Z : codec) (L : printer R) (w : vorder) (l : list subpaths) (J : jstore) (x : ixst R) (i : inventory) (s : storage)
    : option (gmap string R) :=
  add_versions L (path_digests w i) (version_data Z L l J x i s) (fst <$> vo w 1 (inv_versions i)) ∅.
