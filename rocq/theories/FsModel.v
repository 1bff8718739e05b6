(** The filesystem extension: /repo/pkg/extension/NNNN-filesystem.go, with the part of AddFile for folders
    (/repo/pkg/ocfl/objectbase.go:853-948).  Only executable definitions. *)
From Coq Require Import Ascii.
From stdpp Require Import base list strings gmap.
From Coq Require Import ZArith.
From Verif Require Import GoStr PathModel InventoryModel ObjectModel AreaModel ValidateModel JsonlModel.

(** What Fullpath and os.Stat give for a source: ErrNotImplemented (also for AddData and AddReader, which pass no file system), an error,
    or the metadata (NNNN-filesystem_unix.go and its relatives). *)
Inductive fstat (R : Type) := StatNone | StatFail | StatOk (r : R).
Arguments StatNone {_}.
Arguments StatFail {_}.
Arguments StatOk {_} _.

(** A line has a path, the state version and the rest of the metadata (NNNN-filesystem.go:55-70).  currentHead, the writer and the buffers
    are those of the indexer ([ixst]).  Lines 122-130: the buffer and the writer for the head. *)
Definition fs_mark {R} (head : string) (x : ixst R) : ixst R :=
  let buf := <[head := default [] (ix_buf x !! head)]> (ix_buf x) in
  if decide (ix_cur x = head) then IxSt head (ix_open x) buf else IxSt head true buf.
(** Lines 181-191: one line.  A write to a closed brotli writer is an error. *)
Definition fs_line {R} (path head : string) (r : R) (x : ixst (string * R)) : ixst (string * R) * status :=
  if ix_open x then (IxSt (ix_cur x) true (<[head := default [] (ix_buf x !! head) ++ [(path, (head, r))]]> (ix_buf x)), SOk)
  else (x, SErr "cannot brotli").

(** NNNN-filesystem.go:104-195 AddFileAfter for a file: one source. *)
Definition fs_file_after {R} (E : env) (src area : string) (st : fstat R) (o : object) (x : ixst (string * R)) : ixst (string * R) * status :=
  let head := inv_head (ob_inv o) in
  let x1 := fs_mark head x in
  match st with
  | StatNone => (x1, SOk)
  | StatFail => (x1, SErr "cannot stat file")
  | StatOk r =>
      match e_state_path E src area with
      | None => (x1, SErr "cannot build object extract path")
      | Some np => fs_line np head r x1
      end
  end.
(** The same for a folder: an empty file with the name [folders] (the setting folders) is put into it.  Its first occurrence in the object is
    stored with AddReader, without hooks; later ones are logical copies.  If it is stored the line has the name of the empty file before the
    mapping of the content areas, else the name after it (lines 158-179). *)
Definition fs_dir_after {R} (E : env) (orc : oracle) (folders src area : string) (st : fstat R) (o : object) (x : ixst (string * R))
    : object * ixst (string * R) * status :=
  if decide (folders = "") then (o, x, SOk)
  else match e_hash E (inv_alg (ob_inv o)) "" with
       | None => (o, x, SErr "cannot calculate checksum for empty file")
       | Some d =>
           let head := inv_head (ob_inv o) in
           let x1 := fs_mark head x in
           match st with
           | StatNone => (o, x1, SOk)
           | StatFail => (o, x1, SErr "cannot stat file")
           | StatOk r =>
               match e_state_path E src area with
               | None => (o, x1, SErr "cannot build object extract path")
               | Some _ =>
                   let marker := path_join [src; folders] in
                   match inv_manifest (ob_inv o) !! d with
                   | None =>
                       let '(o1, st1) := ob_add_reader E orc "" [marker] area o in
                       match st1 with
                       | SOk => let '(x2, st2) := fs_line marker head r x1 in (o1, x2, st2)
                       | _ => (o1, x1, st1)
                       end
                   | Some _ =>
                       match build_names E (ob_inv o) [marker] area with
                       | Some (p :: _, _) =>
                           let '(o1, st1) := ob_copy p d o in
                           match st1 with
                           | SOk => let '(x2, st2) := fs_line p head r x1 in (o1, x2, st2)
                           | _ => (o1, x1, st1)
                           end
                       | _ => (o, x1, SErr "cannot build names")
                       end
                   end
               end
           end
       end.

(** objectbase.go:853-948 AddFile with hooks, for a file (also AddData, 773-851, with [StatNone]) and for a folder.  AddFileAfter is not
    called if there is no new content (lines 899-921).  The hooks of other extensions are separate calls. *)
Definition fs_add_file {R} (E : env) (orc : oracle) (data src area : string) (dedup : bool) (st : fstat R) (o : object) (x : ixst (string * R))
    : object * ixst (string * R) * status :=
  let '(o', st') := sop_step E orc (SAdd data src area dedup) o in
  match st', streamed E orc (SAdd data src area dedup) o with
  | SOk, Some _ => let '(x', st2) := fs_file_after E src area st o' x in (o', x', st2)
  | _, _ => (o', x, st')
  end.
Definition fs_add_dir {R} (E : env) (orc : oracle) (folders src area : string) (st : fstat R) (o : object) (x : ixst (string * R))
    : object * ixst (string * R) * status :=
  if inv_writeable (ob_inv o) then
    match build_names E (ob_inv o) [src] area with
    | None => (o, x, SErr "cannot create virtual filename")
    | Some _ => fs_dir_after E orc folders src area st o x
    end
  else (o, x, SErr "object not writeable").

(** NNNN-filesystem.go:279-310 UpdateObjectAfter does what that of the indexer does. *)
Definition fs_after {R} : codec → printer (string * R) → env → list subpaths → jstore → oracle → object → ixst (string * R) → object * ixst (string * R) * status :=
  ix_after.

(** NNNN-filesystem.go:212-273 GetMetadata: digest, state version, lines.  A version whose side file cannot be read is left out; a line that
    cannot be parsed is an error.  (A line without meta, a nil pointer there, counts as one that cannot be parsed.) *)
Notation fsres R := (gmap string (gmap string (list (string * (string * R))))).
Fixpoint fs_parse {R} (L : printer (string * R)) (ls : list string) : option (list (string * (string * R))) :=
  match ls with
  | [] => Some []
  | t :: ls' =>
      match l_parse L t, fs_parse L ls' with
      | Some e, Some es => Some (e :: es)
      | _, _ => None
      end
  end.
(** Lines 251-261: one line, all lines, for the logical paths of a digest. *)
Definition fs_put {R} (d : string) (e : string * (string * R)) (r : fsres R) : fsres R :=
  let m := default ∅ (r !! d) in
  <[d := <[e.2.1 := default [] (m !! e.2.1) ++ [e]]> m]> r.
Definition fs_visit {R} (lines : list (string * (string * R))) (r : fsres R) (visit : list string * list string * string) : fsres R :=
  foldl (λ r e, if decide (e.1 ∈ visit.1.2) then fs_put visit.2 e r else r) r lines.
Fixpoint fs_versions {R} (Z : codec) (L : printer (string * R)) (orc : oracle) (l : list subpaths) (J : jstore) (x : ixst (string * R)) (i : inventory) (s : storage)
    (vs : list string) (r : fsres R) : option (fsres R) :=
  match vs with
  | [] => Some r
  | v :: vs' =>
      match version_data Z L l J x i s v with
      | None => fs_versions Z L orc l J x i s vs' r
      | Some t =>
          match fs_parse L (scan_lines t) with
          | None => None
          | Some lines =>
              match iterate_state_files orc i v with
              | inr _ => None
              | inl visits => fs_versions Z L orc l J x i s vs' (foldl (fs_visit lines) r visits)
              end
          end
      end
  end.
Definition fs_metadata {R} (Z : codec) (L : printer (string * R)) (w : vorder) (orc : oracle) (l : list subpaths) (J : jstore) (x : ixst (string * R)) (i : inventory)
    (s : storage) : option (fsres R) :=
  fs_versions Z L orc l J x i s (fst <$> vo w 1 (inv_versions i)) ∅.
