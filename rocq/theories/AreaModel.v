(** Areas (/repo/pkg/extension/NNNN-content-subpath.go) and extraction (/repo/pkg/ocfl/objectbase.go Extract). *)
From Coq Require Import Ascii ZArith.
From stdpp Require Import base list strings gmap.
From Verif Require Import GoStr PathModel InventoryModel ObjectModel.

(** ContentSubPath, NNNN-content-subpath.go:63-71: the sub paths of the areas, and the area used if none is given.  The
    descriptions are left out. *)
Record subpaths := SubPaths { sp_paths : gmap string string; sp_area : string }.

(** SetParams, lines 99-106. *)
Definition set_params (params : gmap string string) (c : subpaths) : subpaths :=
  let a := default "" (params !! "ext-NNNN-content-subpath-area") in
  SubPaths (sp_paths c) (if decide (a = "") then "content" else a).

(** BuildObjectStatePath, lines 165-178 (BuildObjectManifestPath, lines 126-139, is the same); None for an error.
    [filepath] is taken on a slash platform. *)
Definition sub_state_path (c : subpaths) (path area : string) : option string :=
  let area := if decide (area = "") then sp_area c else area in
  if decide (area = "full") then Some path
  else match sp_paths c !! area with
       | None => None
       | Some sub => Some (path_join [sub; path])
       end.

(** Result of BuildObjectExtractPath: a path, the error ExtensionObjectExtractPathWrongAreaError, another error. *)
Inductive xres := XPath (p : string) | XWrongArea | XErr.

(** BuildObjectExtractPath, lines 180-197. *)
Definition sub_extract_path (c : subpaths) (path area : string) : xres :=
  let area := if decide (area = "") then sp_area c else area in
  if decide (area = "full") then XPath path
  else match sp_paths c !! area with
       | None => XErr
       | Some sub =>
           let path := trim_left path "/" in
           if has_prefix sub path then XPath (trim_left (trim_prefix path sub) "/") else XWrongArea
       end.

(** The extension manager (NNNN-gocfl-extension-manager.go): BuildObjectStatePath, lines 388-402.  The path goes through all
    extensions; an error of one makes the call fail at the end, an empty result leaves the path as it is. *)
Fixpoint mgr_state_path (l : list subpaths) (path area : string) : option string :=
  match l with
  | [] => Some path
  | c :: l' =>
      match sub_state_path c path area with
      | None => None
      | Some p => mgr_state_path l' (if decide (p = "") then path else p) area
      end
  end.
(** BuildObjectExtractPath, lines 499-508: stops at the first error. *)
Fixpoint mgr_extract_path (l : list subpaths) (path area : string) : xres :=
  match l with
  | [] => XPath path
  | c :: l' =>
      match sub_extract_path c path area with
      | XPath p => mgr_extract_path l' p area
      | r => r
      end
  end.

(** IterateStateFiles, inventorybase.go:252-273, with a callback that has effects on [S]; the callbacks made before an
    error have happened. *)
Fixpoint iterate {S} (fn : list string → list string → string → S → S * status) (man : smap)
    (l : list (string * list string)) (s : S) : S * status :=
  match l with
  | [] => (s, SOk)
  | (d, exts) :: l' =>
      match man !! d with
      | None => (s, SErr "no manifest")
      | Some [] => (s, SErr "invalid manifest for digest")
      | Some ints =>
          match fn ints exts d s with
          | (s', SOk) => iterate fn man l' s'
          | r => r
          end
      end
  end.

(** What extraction works with: [x_hash] digest of data (None: unknown algorithm), [x_path] BuildObjectExtractPath of the
    extension manager, [x_can] whether a file of this name can be created in the target. *)
Record xenv := XEnv { x_hash : string → string → option string; x_path : string → string → xres; x_can : string → bool }.

Definition newline : string := String "010" "".

(** The target files and the text of the manifest file so far. *)
Record xstate := XState { xs_files : storage; xs_manifest : string }.

(** objectbase.go:1440-1471: one file.  checksum.Copy writes the data and computes the digest; Close and read errors are not
    modelled.  The file is there even if the digest is wrong. *)
Definition extract_file (X : xenv) (src : storage) (alg : string) (ints : list string) (d q : string) (s : xstate)
    : xstate * status :=
  match ints with
  | [] => (s, SErr "no internal paths")
  | p :: _ =>
      match src !! p with
      | None => (s, SErr "cannot open")
      | Some data =>
          if x_can X q then
            match x_hash X alg data with
            | None => (XState (<[q := ""]> (xs_files s)) (xs_manifest s), SErr "error copying")
            | Some d' =>
                (XState (<[q := data]> (xs_files s)) (xs_manifest s),
                 if decide (d' = d) then SOk else SErr "invalid digest")
            end
          else (s, SErr "cannot create")
      end
  end.

(** objectbase.go:1430-1476: the callback.  A path of another area ends the callback without an error. *)
Fixpoint extract_files (X : xenv) (src : storage) (alg area : string) (ints : list string) (d : string) (exts : list string)
    (s : xstate) : xstate * status :=
  match exts with
  | [] => (s, SOk)
  | e :: exts' =>
      match x_path X e area with
      | XWrongArea => (s, SOk)
      | XErr => (s, SErr "cannot map path")
      | XPath q =>
          match extract_file X src alg ints d q s with
          | (s', SOk) =>
              extract_files X src alg area ints d exts'
                (XState (xs_files s') (xs_manifest s' +:+ (d +:+ " " +:+ q +:+ newline)))
          | r => r
          end
      end
  end.

(** objectbase.go:1426-1492 Extract: the files of the target afterwards. *)
Definition extract (X : xenv) (orc : oracle) (i : inventory) (src : storage) (ver : string) (man : bool) (area : string)
    (target : storage) : storage * status :=
  let ver := if decide (ver = "" ∨ ver = "latest") then inv_head i else ver in
  match inv_versions i !! ver with
  | None => (target, SErr "invalid version")
  | Some v =>
      match iterate (λ ints exts d s, extract_files X src (inv_alg i) area ints d exts s) (inv_manifest i)
              (o_state orc 0 ver (v_state v)) (XState target "") with
      | (s, SOk) =>
          if man then
            let name := "manifest." +:+ inv_alg i in
            if x_can X name then (<[name := xs_manifest s]> (xs_files s), SOk) else (xs_files s, SErr "cannot create manifest")
          else (xs_files s, SOk)
      | (s, st) => (xs_files s, st)
      end
  end.
