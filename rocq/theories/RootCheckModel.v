(** Loading and validating a whole storage root: /repo/pkg/ocfl/storageroot.go LoadStorageRoot, storagerootbase.go Load, LoadObjectByFolder,
    Check, CheckDirectory, CheckObjects, CheckObjectByFolder, extensionFactory.go CreateExtensions and /repo/gocfl/cmd/validate.go.  Only
    executable definitions. *)
From Coq Require Import Ascii.
From stdpp Require Import base list strings gmap.
From Coq Require Import ZArith.
From Verif Require Import GoStr PathModel InventoryModel ObjectModel LoadModel ValidateModel CheckModel RootModel.

(** * Directory trees *)

(** The files of a directory tree by path; [pre] is the path of the directory with its slash. *)
Fixpoint node_files (pre name : string) (n : node) : list (string * string) :=
  match n with
  | File data => [(pre +:+ name, data)]
  | Dir entries =>
      (fix go (l : list (string * node)) : list (string * string) :=
         match l with [] => [] | e :: l' => node_files (pre +:+ name +:+ "/") (fst e) (snd e) ++ go l' end) entries
  end.
Definition dir_files (l : list (string * node)) : storage := list_to_map (l ≫= λ e, node_files "" (fst e) (snd e)).
(** A directory by the names that lead to it (fs.Sub, fs.ReadDir). *)
Fixpoint find_dir (names : list string) (l : list (string * node)) : option (list (string * node)) :=
  match names with
  | [] => Some l
  | name :: names' =>
      match list_find (λ e : string * node, fst e = name) l with
      | Some (_, (_, Dir sub)) => find_dir names' sub
      | _ => None
      end
  end.
(** A folder of the storage root by its path. *)
Definition find_folder (folder : string) (root : list (string * node)) : option (list (string * node)) :=
  if decide (path_clean folder = ".") then Some root else find_dir (split_slash (path_clean folder)) root.

(** * Extensions *)

(** What CreateExtensions asks an extension: GetName, IsRegistered, GetExtension if it implements ExtensionInitial, and whether it
    implements ExtensionManager. *)
Record ext := Ext { x_name : string; x_registered : bool; x_initial : option string; x_manager : bool }.
Definition manager_name : string := "NNNN-gocfl-extension-manager".
(** The result of CreateExtensions: the warnings and the extensions given to the manager, the warnings and an error, or a panic. *)
Inductive xres := XOk (ws : list finding) (es : list ext) | XErr (ws : list finding) | XPanic.

(** The first loop, extensionFactory.go:82-125.  [create] is Create (lines 42-72) for the directory of an extension: any function, None
    for an error (no readable configuration, unknown name).  [val]: the argument validation is not nil.  Line 96 calls a method of
    it without the test that lines 99 and 106 have.  None for the panic.  Files are skipped.  If the folder initial holds another extension,
    an initial extension is put before it; SetExtension (initial.go:74-76) changes its own name in the configuration and not the
    manager, which is still the default one. *)
Fixpoint create_loop (val : bool) (create : list (string * node) → option ext) (l : list (string * node)) : option (list finding * list ext) :=
  match l with
  | [] => Some ([], [])
  | (name, File _) :: l' => create_loop val create l'
  | (name, Dir sub) :: l' =>
      match create sub with
      | None => if val then prod_map (cons (Finding "W000" [name])) id <$> create_loop val create l' else None
      | Some x =>
          let ws := if val then when (negb (x_registered x)) (Finding "W013" [x_name x]) ++
            when (bool_decide (name ≠ x_name x ∧ name ≠ "initial")) (Finding "W013" [x_name x; name]) else [] in
          let es := if decide (name = "initial" ∧ x_name x ≠ "initial") then [Ext "initial" true (Some manager_name) false; x] else [x] in
          prod_map (app ws) (app es) <$> create_loop val create l'
      end
  end.
(** Lines 126-220.  The last extension called initial counts; if it does not implement ExtensionInitial, there is none, and an error.  Then the
    manager is taken out, the last one with the name that initial gives; one with this name that is no manager is an error and stays.
    No manager with this name is an error.  Without initial the default manager is created.  Add (NNNN-gocfl-extension-manager.go:114-155)
    fails for an extension with the name of the manager.  Not modelled: missing creators for the two default extensions, panics of
    SetFS.  Finalize is ManagerModel. *)
Definition named_initial (x : ext) : bool := bool_decide (x_name x = "initial").
Definition create_extensions (val : bool) (create : list (string * node) → option ext) (l : list (string * node)) : xres :=
  match create_loop val create l with
  | None => XPanic
  | Some (ws, es) =>
      let initials := List.filter named_initial es in
      let rest := List.filter (λ x, negb (named_initial x)) es in
      let err1 := existsb (λ x, bool_decide (x_initial x = None)) initials in
      let '(rest2, err2) :=
        match last initials ≫= x_initial with
        | None => (rest, false)
        | Some m =>
            (List.filter (λ x, negb (bool_decide (x_name x = m) && x_manager x)) rest,
             existsb (λ x, bool_decide (x_name x = m) && negb (x_manager x)) rest || negb (existsb (λ x, bool_decide (x_name x = m) && x_manager x) rest))
        end in
      let err3 := existsb (λ x, bool_decide (x_name x = manager_name)) rest2 in
      if err1 || err2 || err3 then XErr ws else XOk ws rest2
  end.
(** The entries of the folder extensions; none if there is no such folder (fs.Sub and fs.ReadDir of the storage drivers, which are not in
    the repository). *)
Definition ext_folder (l : list (string * node)) : list (string * node) := default [] (find_dir ["extensions"] l).

(** * Findings of a storage root *)

(** Findings with the folder of the object that has reported them, the empty string for the storage root.  Like [verdict]. *)
Inductive rverdict := RDone (fs : list (string * finding)) | RError (fs : list (string * finding)) (msg : string) | RPanic.
Definition rseq (a k : rverdict) : rverdict :=
  match a with
  | RDone fs =>
      match k with
      | RDone fs' => RDone (fs ++ fs')
      | RError fs' m => RError (fs ++ fs') m
      | RPanic => RPanic
      end
  | _ => a
  end.
Definition by_ (who : string) (fs : list finding) : list (string * finding) := pair who <$> fs.
Definition rlift (who : string) (v : verdict) : rverdict :=
  match v with VDone fs => RDone (by_ who fs) | VError fs m => RError (by_ who fs) m | VPanic => RPanic end.

(** storageroot.go:43 OCFLVersionRegexp, with anchors. *)
Definition root_declaration (name : string) : option string :=
  match drop_prefix "0=ocfl_" name with
  | Some r => match split_on "."%char r with [a; b] => if digits1 a && digits1 b then Some r else None | _ => None end
  | None => None
  end.
(** CheckDirectory, storagerootbase.go:434-472: the version found so far and the findings. *)
Fixpoint directory_loop (version : string) (l : list (string * node)) : string * list finding :=
  match l with
  | [] => (version, [])
  | (name, Dir _) :: l' => directory_loop version l'
  | (name, File _) :: l' =>
      match root_declaration name with
      | None => directory_loop version l'
      | Some v =>
          if decide (version = "") then directory_loop v l'
          else prod_map id (cons (Finding "E076" [name])) (directory_loop version l')
      end
  end.
(** The version of the root after it, [rv] before it. *)
Definition check_directory (rv : string) (l : list (string * node)) : string * list finding :=
  match directory_loop "" l with
  | (version, fs) =>
      if decide (version = "") then (rv, fs ++ [Finding "E076" []; Finding "E077" []]) else (version, fs)
  end.

(** strconv.ParseFloat (readFloat in strconv/atof.go) for digits, a dot and digits, as a fraction: all digits without the dot, and
    the power of ten for the digits after it.  Rounding and overflow of very long numbers are not modelled. *)
Fixpoint mantissa (acc : N) (s : string) : N :=
  match s with
  | EmptyString => acc
  | String c s' => mantissa (if is_digit c then 10 * acc + (N_of_ascii c - 48) else acc)%N s'
  end.
Fixpoint after_dot (s : string) : string :=
  match s with
  | EmptyString => ""
  | String c s' => if decide (c = "."%char) then s' else after_dot s'
  end.
Definition decimal (v : string) : N * N := (mantissa 0 v, 10 ^ N.of_nat (String.length (after_dot v)))%N.
Definition decimal_lt (v w : string) : bool := (fst (decimal v) * snd (decimal w) <? fst (decimal w) * snd (decimal v))%N.

Section check.
  Context (hash : string → string → option string) (decode : string → option doc) (w : vorder) (lx : lexicon).
  Context (create : list (string * node) → option ext).

  Inductive loading := Loaded (fs : list (string * finding)) (d : doc) (s : storage) | LoadErr (fs : list (string * finding)) | LoadPanic.
  (** LoadObjectByFolder, storagerootbase.go:329-381, with Load, objectbase.go:484-503, in a storage root of version [rv].  The extensions are created twice, the warnings
      of the first time are reported by the storage root.  The errors of ParseFloat (lines 362-373) do not occur for the versions that
      getVersion gives. *)
  Definition load_folder (rv : string) (root : list (string * node)) (folder : string) : loading :=
    match find_folder folder root with
    | None => LoadErr []
    | Some l =>
        match get_version "ocfl_object_" l with
        | GNone => LoadErr [("", Finding "E003" [folder])]
        | GMultiple | GInvalid _ => LoadErr []
        | GOk v =>
            match create_extensions true create (ext_folder l) with
            | XPanic => LoadPanic
            | XErr ws => LoadErr (by_ "" ws)
            | XOk ws _ =>
                match load_doc hash decode w lx (dir_files l) "" with
                | (_, VPanic) => LoadPanic
                | (_, VError fs _) | (None, VDone fs) => LoadErr (by_ "" ws ++ by_ folder (ws ++ fs))
                | (Some d, VDone fs) =>
                    Loaded (by_ "" ws ++ by_ folder (ws ++ fs) ++ by_ "" (when (decimal_lt rv v) (Finding "E000" [rv; v]))) d (dir_files l)
                end
            end
        end
    end.
  (** CheckObjectByFolder, storagerootbase.go:473-487; Check of the object as in [validate_object]. *)
  Definition check_folder (rv : string) (root : list (string * node)) (folder : string) : rverdict :=
    match load_folder rv root folder with
    | LoadPanic => RPanic
    | LoadErr fs => RDone (fs ++ [("", Finding "E001" [folder])])
    | Loaded fs d s =>
        let '(vinv, r) := load_versions hash decode w lx s (version_strings w 16 d) in
        rseq (RDone fs) (rlift folder (vseq r (check_object hash w s d vinv)))
    end.
  (** CheckObjects, lines 505-516. *)
  Fixpoint check_folders (rv : string) (root : list (string * node)) (folders : list string) : rverdict :=
    match folders with
    | [] => RDone []
    | f :: l => rseq (check_folder rv root f) (check_folders rv root l)
    end.
  (** Check, lines 419-432. *)
  Definition check_storage_root (rv : string) (root : list (string * node)) : rverdict :=
    let '(rv', fs) := check_directory rv root in
    rseq (RDone (by_ "" fs)) (check_folders rv' root (get_object_folders root)).

  (** LoadStorageRoot, storageroot.go:95-129, and Load, storagerootbase.go:146-187: the version of the storage root and the findings. *)
  Definition load_root (root : list (string * node)) : option (list finding * string) * rverdict :=
    let cont (v : string) (fs : list finding) :=
      match create_extensions false create (ext_folder root) with
      | XPanic => (None, RPanic)
      | XErr _ => (None, RError (by_ "" fs) "cannot create extension manager")
      | XOk _ _ =>
          if decide (v = "1.0" ∨ v = "1.1" ∨ v = "2.0") then
            let '(v', fs') := match get_version "ocfl_" root with
                              | GOk v' => (v', [])
                              | _ => ("1.0", [Finding "E003" []; Finding "E004" []; Finding "E005" []])
                              end in
            match create_extensions true create (ext_folder root) with
            | XPanic => (None, RPanic)
            | XErr ws => (None, RError (by_ "" (fs ++ fs' ++ ws)) "cannot create extension manager")
            | XOk ws _ => (Some (fs ++ fs' ++ ws, v'), RDone [])
            end
          else (None, RError (by_ "" fs) "not supported")
      end in
    match get_version "ocfl_" root with
    | GOk v => cont v []
    | GNone => cont "1.1" (match root with [] => [] | _ => [Finding "E069" []] end)
    | _ => (None, RError [] "cannot get version")
    end.
  (** doValidate for a whole storage root, validate.go:110-145: the findings are shown (ReportModel) only if there is no error. *)
  Definition validate_root (root : list (string * node)) : rverdict :=
    match load_root root with
    | (Some (fs, rv), _) => rseq (RDone (by_ "" fs)) (check_storage_root rv root)
    | (None, r) => r
    end.
End check.
