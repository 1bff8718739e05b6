(** The thumbnail extension: /repo/pkg/extension/NNNN-thumbnail.go and /repo/pkg/subsystem/thumbnail/thumbnail.go.  Only executable definitions. *)
From Coq Require Import Ascii.
From stdpp Require Import base list strings gmap.
From Coq Require Import ZArith.
From Verif Require Import GoStr PathModel InventoryModel ObjectModel LayoutModel AreaModel ValidateModel JsonlModel MetafileModel MigrateModel.

(** thumbnail.go:23-32, 34-54: the name of a function, and its command on a file with a name extension and content.  None if the command
    fails, runs out of time or writes no file. *)
Record tfun := TFun { tf_id : string; tf_run : string → string → option string }.
(** What the hook needs from its surroundings: which files of the object can be opened ([ts_opens]; a container that is being written may
    refuse the new ones), the source folder (None if it is not set), BuildObjectExtractPath for the area with the empty name, and
    GetFunctionByPronom and GetFunctionByMimetype (thumbnail.go:69-89; if several functions fit, one of them). *)
Record tsur := TSur {
  ts_opens : string → bool;
  ts_source : option (string → option string);
  ts_extract : string → xres;
  ts_pronom : string → option tfun;
  ts_mime : string → option tfun
}.
(** ThumbnailConfig, lines 76-88: the file name extension and SingleDirectory; the rest of the configuration is a [jstore]. *)
Record tconf := TConf { tc_ext : string; tc_single : bool }.

(** ThumbnailResult, lines 90-99, as it is written to the side file; the source digest is the first part of the line.  StorageType and
    SourceName are never written. *)
Record tres := TRes { tr_ext : string; tr_error : string; tr_id : string; tr_file : string; tr_digest : string }.
(** The same as it is reported. *)
Record tmeta := TMeta {
  tm_ext : string; tm_error : string; tm_id : string; tm_file : string; tm_type : string; tm_digest : string; tm_source : string;
  tm_names : list string
}.
(** Lines 126-139: the lines of the buffers that are closed, and the counters.  An open buffer counts as empty; streamInfo is never filled. *)
Record thst := ThSt { th_buf : gmap string (list (string * tres)); th_count : gmap string N }.
(** Lines 107-124 NewThumbnail. *)
Definition th_new : thst := ThSt ∅ ∅.

(** Lines 181-191: the name of a thumbnail.  [r]: rand.Intn(64), printed in hexadecimal without padding; the second digit is taken although
    there may be only one, which is None here and a panic there. *)
Definition th_sub (J : jstore) : string := if decide (js_type J = "area") then "thumbnails" else js_storage J.
Definition th_name (T : tconf) (J : jstore) (head : string) (n r : N) : option string :=
  let last := dec_pad 5 (Z.of_N n) +:+ "." +:+ to_lower (tc_ext T) in
  if tc_single T then Some (th_sub J +:+ "/" +:+ head +:+ "/" +:+ last)
  else match hex_of_N r with
       | String a (String b _) => Some (th_sub J +:+ "/" +:+ head +:+ "/" +:+ String a ("/" +:+ String b ("/" +:+ last)))
       | _ => None
       end.

(** Lines 180-229 storeThumbnail: the file name for the line and the digest, or an error.  In an area the file is added before the path of
    the area is asked for. *)
Inductive tstored := TStored (file digest : string) | TFailed | TPanicked.
Definition th_add (E : env) (orc : oracle) (data f area : string) (file : option string) (o : object) : object * tstored :=
  match ob_add_reader E orc data [f] area o with
  | (o', SOk) => (o', match file with
                      | Some n => TStored n (default "" (e_hash E (inv_alg (ob_inv o)) data))
                      | None => TFailed
                      end)
  | (o', SErr _) => (o', TFailed)
  | (o', SPanic) => (o', TPanicked)
  end.
Definition th_store (E : env) (l : list subpaths) (T : tconf) (J : jstore) (orc : oracle) (n r : N) (data : string) (o : object) : object * tstored :=
  match th_name T J (inv_head (ob_inv o)) n r with
  | None => (o, TPanicked)
  | Some name =>
      let t := to_lower (js_type J) in
      if decide (t = "area") then
        th_add E orc data name (js_storage J) ((λ p, p +:+ "/" +:+ name) <$> area_path l (js_storage J)) o
      else if decide (t = "path") then
        match area_path l "content" with
        | None => (o, TFailed)
        | Some p => let f := trim_left (path_join [p; js_storage J; name]) "/" in th_add E orc data f "" (Some f) o
        end
      else if decide (t = "extension") then (emit (write_file (path_join [js_folder J; name]) data) o, TStored name "")
      else (o, TFailed)
  end.

(** Lines 330-361: the file that is opened, with its name extension; None if there is none, an error stops the hook.  [s]: the storage
    before the handle was opened. *)
Definition th_open (S : tsur) (s : storage) (i0 : inventory) (cs p0 : string) (o : object) : option (string * string) + string :=
  match (if ts_opens S p0 then apply_evs (ob_trace o) s !! p0 else None) with
  | Some x => inl (Some (file_ext p0, x))
  | None =>
      match ts_source S with
      | None => inl None
      | Some open =>
          match get_state_files i0 "" cs with
          | None => inr "cannot get state files"
          | Some fs =>
              match last fs with
              | None => inr "zero state file"
              | Some f =>
                  match ts_extract S f with
                  | XPath q => inl (match open q with Some x => Some (file_ext q, x) | None => None end)
                  | _ => inr "cannot build external path"
                  end
              end
          end
      end
  end.

(** Lines 322-328. *)
Definition th_function (S : tsur) (ix : string * string) : option tfun :=
  match ts_pronom S ix.1 with
  | Some f => Some f
  | None => ts_mime S ix.2
  end.

(** Lines 300-389: the loop over the files of the metadata report, [todo]: the digests with the first content path.  [idx]: pronom and
    mimetype in the result of the indexer; [done_]: what the extension itself reports.  Lines 231-276 DoThumbnail are in the last case.
    The text of errors is not modelled, only whether there is one. *)
Fixpoint th_loop (E : env) (l : list subpaths) (T : tconf) (J : jstore) (S : tsur) (s : storage) (idx : gmap string (string * string))
    (done_ : gmap string tmeta) (orcs : nat → oracle) (rnd : nat → N) (k : nat) (todo : list (string * string)) (n : N)
    (lines : list (string * tres)) (o : object) : object * N * list (string * tres) * status :=
  match todo with
  | [] => (o, n, lines, SOk)
  | (cs, p0) :: todo' =>
      let next := th_loop E l T J S s idx done_ orcs rnd (k + 1) todo' in
      match done_ !! cs with
      | Some _ => next n lines o
      | None =>
          match idx !! cs with
          | None => next n lines o
          | Some ix =>
              match th_function S ix with
              | None => next n lines o
              | Some f =>
                  match th_open S s (ob_inv o) cs p0 o with
                  | inr e => (o, n, lines, SErr e)
                  | inl None => next n lines o
                  | inl (Some (ext, x)) =>
                      let line o' err file dg := next (n + 1)%N (lines ++ [(cs, TRes (tc_ext T) err (tf_id f) file dg)]) o' in
                      match tf_run f ext x with
                      | None => line o "cannot create thumbnail file" "" ""
                      | Some y =>
                          match th_store E l T J (orcs k) (n + 1) (rnd k) y o with
                          | (o', TStored file dg) => line o' "" file dg
                          | (o', TFailed) => line o' "cannot store thumbnail" "" ""
                          | (o', TPanicked) => (o', (n + 1)%N, lines, SPanic)
                          end
                      end
                  end
              end
          end
      end
  end.

(** Lines 476-506 for one line: the entries of the report.  None stands for an error.  A source digest of fewer than two characters panics
    in line 480, here the characters are missing. *)
Definition char_at (k : nat) (t : string) : string := String.substring k 1 t.
Definition th_line (l : list subpaths) (T : tconf) (J : jstore) (i : inventory) (line : string * tres) (r : gmap string tmeta) : option (gmap string tmeta) :=
  let src := to_lower line.1 in
  let res := line.2 in
  let td := to_lower (tr_digest res) in
  match inv_manifest i !! src with
  | None => None
  | Some _ =>
      let meta file names := TMeta (tr_ext res) (tr_error res) (tr_id res) file (js_type J) td src names in
      let source := default "" (head (default [] (get_state_files i (inv_head i) src))) in
      let '(names, r1) := match inv_manifest i !! td with
                          | Some _ => ([source], <[td := meta (tr_file res) [source]]> r)
                          | None => ([], r)
                          end in
      let file := if decide (tr_file res = "")
                  then "data/" +:+ char_at 0 src +:+ "/" +:+ char_at 1 src +:+ "/" +:+ src +:+ "." +:+ to_lower (tc_ext T)
                  else tr_file res in
      let t := to_lower (js_type J) in
      let full :=
        if decide (t = "area") then (λ p, p +:+ "/" +:+ file) <$> area_path l (js_storage J)
        else if decide (t = "path") then
          (λ p, if decide (p = "") then js_storage J +:+ "/" +:+ file else p +:+ "/" +:+ js_storage J +:+ "/" +:+ file) <$> area_path l "content"
        else if decide (t = "extension") then Some file
        else None in
      match full with
      | None => None
      | Some f => Some (<[src := meta f names]> r1)
      end
  end.
Fixpoint th_lines (L : printer tres) (l : list subpaths) (T : tconf) (J : jstore) (i : inventory) (ls : list string) (r : gmap string tmeta)
    : option (gmap string tmeta) :=
  match ls with
  | [] => Some r
  | t :: ls' =>
      match l_parse L t with
      | None => None
      | Some line => match th_line l T J i line r with Some r' => th_lines L l T J i ls' r' | None => None end
      end
  end.
(** Lines 413-513 GetMetadata.  Versions without readable side file are skipped. *)
Fixpoint th_versions (Z : codec) (L : printer tres) (l : list subpaths) (T : tconf) (J : jstore) (x : thst) (i : inventory) (s : storage)
    (vs : list string) (r : gmap string tmeta) : option (gmap string tmeta) :=
  match vs with
  | [] => Some r
  | v :: vs' =>
      match (match th_buf x !! v with Some lines => Some (text_of L lines) | None => read_jsonl Z l J i s v end) with
      | None => th_versions Z L l T J x i s vs' r
      | Some t =>
          match th_lines L l T J i (scan_lines t) r with
          | Some r' => th_versions Z L l T J x i s vs' r'
          | None => None
          end
      end
  end.
Definition th_metadata (Z : codec) (L : printer tres) (w : vorder) (l : list subpaths) (T : tconf) (J : jstore) (x : thst) (i : inventory) (s : storage)
    : option (gmap string tmeta) :=
  th_versions Z L l T J x i s (fst <$> vo w 1 (inv_versions i)) ∅.

(** The files of the metadata report (objectbase.go:118-156): the digests of the manifest with their content paths, except those without any. *)
Definition th_files (w : vorder) (i : inventory) : list (string * string) :=
  omap (λ p : string * list string, pair p.1 <$> head p.2) (vo w 2 (inv_manifest i)).

(** Lines 282-411 UpdateObjectAfter.  [idx]: what the indexer reports, None if the metadata of another extension cannot be read. *)
Definition th_after (Z : codec) (L : printer tres) (E : env) (l : list subpaths) (T : tconf) (J : jstore) (S : tsur) (w : vorder) (s : storage)
    (idx : option (gmap string (string * string))) (orc : oracle) (orcs : nat → oracle) (rnd : nat → N) (o : object) (x : thst)
    : object * thst * status :=
  let head := inv_head (ob_inv o) in
  let n := default 0%N (th_count x !! head) in
  let x1 := ThSt (delete head (th_buf x)) (<[head := n]> (th_count x)) in
  match idx, th_metadata Z L w l T J x1 (ob_inv o) (apply_evs (ob_trace o) s) with
  | Some idx, Some done_ =>
      match th_loop E l T J S s idx done_ orcs rnd 0 (th_files w (ob_inv o)) n [] o with
      | (o1, n1, lines, SOk) =>
          let x2 := ThSt (<[head := lines]> (th_buf x1)) (<[head := n1]> (th_count x1)) in
          let '(o2, st) := write_jsonl Z E l J orc (z_br Z (text_of L lines)) o1 in (o2, x2, st)
      | (o1, n1, _, st) => (o1, ThSt (th_buf x1) (<[head := n1]> (th_count x1)), st)
      end
  | _, _ => (o, x1, SErr "cannot get metadata")
  end.
