(** Model of an object handle during an update, with its storage effects: /repo/pkg/ocfl/objectbase.go.
    Only executable definitions, no proofs. *)
From Coq Require Import Ascii.
From stdpp Require Import base list strings gmap.
From Coq Require Import ZArith.
From Verif Require Import GoStr PathModel InventoryModel.

(** * Storage *)

(** The files of one object directory: path relative to the object root -> bytes.  Directories are implicit (every
    storage driver of the project creates parents on Create). *)
Notation storage := (gmap string string).

(** Primitive storage effects.  writefs.Create truncates or creates a file; Write appends to the open file. *)
Inductive ev :=
| ECreate (p : string)
| EAppend (p : string) (bytes : string).

Definition ev_path (e : ev) : string := match e with ECreate p => p | EAppend p _ => p end.

Definition apply_ev (e : ev) (s : storage) : storage :=
  match e with
  | ECreate p => <[p := ""]> s
  | EAppend p b => <[p := default "" (s !! p) +:+ b]> s
  end.
Definition apply_evs (l : list ev) (s : storage) : storage := foldl (λ s e, apply_ev e s) s l.

(** * Environment of an object handle *)

(** [e_hash alg data]: hexadecimal digest, None for an unknown algorithm (checksum.GetHash).
    [e_json]: json.MarshalIndent of the inventory.
    [e_state_path path area], [e_manifest_path path area]: BuildObjectStatePath and BuildObjectManifestPath of the
    extension manager, None if they return an error.
    [e_ext_files]: what StoreExtensions writes, file name relative to the extensions folder and content. *)
Record env := Env {
  e_hash : string → string → option string;
  e_json : inventory → string;
  e_state_path : string → string → option string;
  e_manifest_path : string → string → option string;
  e_ext_files : list (string * string)
}.

(** objectbase.go:29-46: the fields of ObjectBase that matter here, plus the chronological list of storage effects. *)
Record object := Object {
  ob_inv : inventory;
  ob_echo : bool;
  ob_upd : list string;
  ob_trace : list ev
}.
Definition set_inv (i : inventory) (o : object) : object := Object i (ob_echo o) (ob_upd o) (ob_trace o).
Definition set_echo (b : bool) (o : object) : object := Object (ob_inv o) b (ob_upd o) (ob_trace o).
Definition set_upd (u : list string) (o : object) : object := Object (ob_inv o) (ob_echo o) u (ob_trace o).
Definition emit (l : list ev) (o : object) : object :=
  Object (ob_inv o) (ob_echo o) (ob_upd o) (ob_trace o ++ l).

(** Runs an inventory call on the handle. *)
Definition on_inv (f : inventory → inventory * status) (o : object) : object * status :=
  let '(i, st) := f (ob_inv o) in (set_inv i o, st).

(** A second family of loop orders derived from an oracle, so that the loops of nested calls are independent. *)
Definition shift_oracle (orc : oracle) : oracle :=
  Oracle (λ n, o_state orc (S n)) (λ n, o_vers orc (S n)).

(** inventorybase.go:704-710 BuildManifestName. *)
Definition manifest_name (i : inventory) (internal : string) : string :=
  path_clean (path_join [inv_head i; content_dir i; internal]).

(** objectbase.go:713-734 BuildNames: the logical paths, and the content path of the first file. *)
Fixpoint state_paths (E : env) (files : list string) (area : string) : option (list string) :=
  match files with
  | [] => Some []
  | f :: fs =>
      match e_state_path E f area, state_paths E fs area with
      | Some p, Some ps => Some (p :: ps)
      | _, _ => None
      end
  end.
Definition build_names (E : env) (i : inventory) (files : list string) (area : string)
    : option (list string * string) :=
  match files with
  | [] => None
  | f :: _ =>
      match state_paths E files area, e_manifest_path E f area with
      | Some ps, Some m => Some (ps, manifest_name i m)
      | _, _ => None
      end
  end.

(** checksum.Copy computes one digest per distinct algorithm; None if one is unknown.  The result is a Go map; the loop
    over it in AddFile has commuting bodies for different algorithms, so one order is enough. *)
Fixpoint checksums (E : env) (algs : list string) (data : string) : option (list (string * string)) :=
  match algs with
  | [] => Some []
  | a :: l =>
      match e_hash E a data, checksums E l data with
      | Some d, Some r => Some ((a, d) :: r)
      | _, _ => None
      end
  end.

(** objectbase.go:646-711 addReader.  Errors of the stream hooks are not modelled; the data goes to the file in one append
    (crash states may cut it anywhere). *)
Definition add_reader (E : env) (orc : oracle) (data : string) (exts : list string) (mpath : string) (o : object)
    : object * status :=
  let o1 := set_upd (ob_upd o ++ exts) o in
  let o2 := emit [ECreate mpath] o1 in
  let algs := remove_dups (inv_fixalgs (ob_inv o) ++ [inv_alg (ob_inv o)]) in
  match checksums E algs data with
  | None => (o2, SErr "cannot copy")
  | Some cs => on_inv (add_file orc exts mpath cs) (emit [EAppend mpath data] o2)
  end.

(** objectbase.go:736-771 AddReader without hooks.  The error of BuildNames is ignored there and the nil result is
    dereferenced. *)
Definition ob_add_reader (E : env) (orc : oracle) (data : string) (files : list string) (area : string) (o : object)
    : object * status :=
  match files with
  | [] => (o, SErr "no files given")
  | _ =>
      if inv_writeable (ob_inv o) then
        match build_names E (ob_inv o) files area with
        | None => (o, SPanic)
        | Some (ps, m) => add_reader E orc data ps m o
        end
      else (o, SErr "object not writeable")
  end.

(** objectbase.go:773-851 AddData and 853-950 AddFile for a regular file with content [data], without hooks: the two are
    the same sequence of steps. *)
Definition ob_add (E : env) (orc : oracle) (data path area : string) (dedup : bool) (o : object) : object * status :=
  if inv_writeable (ob_inv o) then
    match build_names E (ob_inv o) [path] area with
    | None => (o, SErr "cannot build names")
    | Some (ps, m) =>
        match e_state_path E path area with
        | None => (o, SErr "cannot map external path")
        | Some np =>
            let o1 := set_upd (ob_upd o ++ [np]) o in
            if dedup then
              match e_hash E (inv_alg (ob_inv o)) data with
              | None => (o1, SErr "cannot create digest")
              | Some d =>
                  match already_exists orc 0 (ob_inv o) np d with
                  | inr e => (o1, SErr e)
                  | inl true => (o1, SOk)
                  | inl false =>
                      match get_duplicates (ob_inv o) d with
                      | _ :: _ => on_inv (copy_file np d) o1
                      | [] => add_reader E (shift_oracle orc) data ps m o1
                      end
                  end
              end
            else add_reader E (shift_oracle orc) data ps m o1
        end
    end
  else (o, SErr "object not writeable").

(** objectbase.go:952-974 DeleteFile. *)
Definition ob_delete (orc : oracle) (f digest : string) (o : object) : object * status :=
  if inv_writeable (ob_inv o) then
    match already_exists orc 0 (ob_inv o) f digest with
    | inr e => (o, SErr e)
    | inl false => (o, SOk)
    | inl true => on_inv (delete_file f) o
    end
  else (o, SErr "object not writeable").

(** objectbase.go:976-998 RenameFile. *)
Definition ob_rename (orc : oracle) (src dst digest : string) (o : object) : object * status :=
  if inv_writeable (ob_inv o) then
    match already_exists orc 0 (ob_inv o) src digest with
    | inr e => (o, SErr e)
    | inl false => (o, SOk)
    | inl true => on_inv (rename_file src dst) o
    end
  else (o, SErr "object not writeable").

(** GetInventory().CopyFile as called by NNNN-filesystem.go:178 inside an AddFileAfter hook, which runs only on a
    writeable object. *)
Definition ob_copy (dst digest : string) (o : object) : object * status :=
  if inv_writeable (ob_inv o) then on_inv (copy_file dst digest) o
  else (o, SErr "object not writeable").

(** objectbase.go:509-523 echoDelete.  Sorting and compacting updateFiles does not change membership. *)
Definition ob_echo_delete (E : env) (orc : oracle) (o : object) : object * status :=
  match e_state_path E "." "" with
  | None => (o, SErr "cannot build external path")
  | Some b => on_inv (echo_delete orc (ob_upd o) (if decide (b = ".") then "" else b)) o
  end.

(** Names written by StoreInventory. *)
Definition sidecar_name (alg : string) : string := "inventory.json." +:+ alg.
Definition sidecar_text (digest : string) : string := digest +:+ " inventory.json".
Definition write_file (p bytes : string) : list ev := [ECreate p; EAppend p bytes].

(** objectbase.go:336-415 StoreInventory(version, objectRoot). *)
Definition store_inventory (E : env) (version root : bool) (o : object) : object * status :=
  let i := ob_inv o in
  if inv_writeable i then
    match e_hash E (inv_alg i) (e_json E i) with
    | None => (o, SErr "invalid digest algorithm")
    | Some d =>
        let here := if root then write_file "inventory.json" (e_json E i)
                                 ++ write_file (sidecar_name (inv_alg i)) (sidecar_text d) else [] in
        let ver := if version then write_file (inv_head i +:+ "/inventory.json") (e_json E i)
                                   ++ write_file (inv_head i +:+ "/" +:+ sidecar_name (inv_alg i)) (sidecar_text d)
                   else [] in
        (emit (here ++ ver) o, SOk)
    end
  else (o, SErr "inventory not writeable").

(** objectbase.go:417-424 StoreExtensions. *)
Definition store_extensions (E : env) (o : object) : object * status :=
  (emit (flat_map (λ p : string * string, write_file ("extensions/" +:+ p.1) p.2) (e_ext_files E)) o, SOk).

(** Sequencing of two steps that stop at the first error. *)
Definition andThen (r : object * status) (k : object → object * status) : object * status :=
  match r with
  | (o, SOk) => k o
  | _ => r
  end.

(** objectbase.go:525-545 Close. *)
Definition ob_close (E : env) (orc : oracle) (o : object) : object * status :=
  if negb (inv_writeable (ob_inv o)) then (o, SOk)
  else if negb (inv_modified (ob_inv o)) then (o, SOk)
  else
    andThen (on_inv (clean orc) o) (λ o1,
    andThen (store_inventory E false true o1) (λ o2,
    store_extensions E o2)).

(** objectbase.go:547-565 StartUpdate; UpdateObjectBefore hooks are calls that follow in the history. *)
Definition ob_start (now msg uname uaddr : string) (echo : bool) (o : object) : object * status :=
  on_inv (new_version now msg uname uaddr) (set_echo echo o).

(** Calls that change the working version. *)
Inductive sop :=
| SAdd (data path area : string) (dedup : bool)
| SAddReader (data : string) (files : list string) (area : string)
| SDelete (f digest : string)
| SRename (src dst digest : string)
| SCopy (dst digest : string).
Definition sop_step (E : env) (orc : oracle) (op : sop) (o : object) : object * status :=
  match op with
  | SAdd data path area dedup => ob_add E orc data path area dedup o
  | SAddReader data files area => ob_add_reader E orc data files area o
  | SDelete f d => ob_delete orc f d o
  | SRename a b d => ob_rename orc a b d o
  | SCopy a d => ob_copy a d o
  end.
(** What an extension hook does next: a call whose error it returns, a call whose error it drops (as DoNewVersion of the
    migration extension does, NNNN-migration.go:338-346), or a return with an error of its own. *)
Inductive hcall :=
| HCall (orc : oracle) (op : sop)
| HTry (orc : oracle) (op : sop)
| HFail (msg : string).
(** The calls of the hooks in order. *)
Fixpoint sops_run (E : env) (ops : list hcall) (o : object) : object * status :=
  match ops with
  | [] => (o, SOk)
  | HCall orc op :: ops' => andThen (sop_step E orc op o) (sops_run E ops')
  | HTry orc op :: ops' =>
      match sop_step E orc op o with
      | (o', SPanic) => (o', SPanic)
      | (o', _) => sops_run E ops' o'
      end
  | HFail msg :: _ => (o, SErr msg)
  end.

(** What the extensions do inside one EndUpdate: the calls made by the UpdateObjectAfter hooks, and, if NeedNewVersion
    answers yes, the calls made by DoNewVersion in the automated version and the hooks of the nested EndUpdate. *)
Inductive hooks :=
| HDone (after : list hcall)
| HMore (after : list hcall) (now : string) (auto : list hcall) (rest : hooks).

(** objectbase.go:567-613 EndUpdate. *)
Fixpoint ob_end (E : env) (orc : oracle) (h : hooks) (o : object) : object * status :=
  if negb (inv_writeable (ob_inv o)) then (o, SOk)
  else if negb (inv_modified (ob_inv o)) then (o, SOk)
  else
    let after := match h with HDone a => a | HMore a _ _ _ => a end in
    andThen (if ob_echo o then ob_echo_delete E orc o else (o, SOk)) (λ o1,
    andThen (sops_run E after o1) (λ o2,
    andThen (on_inv (clean orc) o2) (λ o3,
    andThen (store_inventory E true false o3) (λ o4,
    match h with
    | HDone _ => (o4, SOk)
    | HMore _ now auto rest =>
        andThen (ob_start now "automated version" "gocfl" "https://github.com/je4/gocfl" false o4) (λ o5,
        andThen (sops_run E auto o5) (λ o6,
        ob_end E (shift_oracle orc) rest o6))
    end)))).

(** objectbase.go:615-618 BeginArea. *)
Definition ob_begin_area (o : object) : object * status := (set_upd [] o, SOk).
(** objectbase.go:620-629 EndArea. *)
Definition ob_end_area (E : env) (orc : oracle) (o : object) : object * status :=
  andThen (if ob_echo o then ob_echo_delete E orc o else (o, SOk)) (λ o1, (set_upd [] o1, SOk)).

(** The calls of a client on an open object handle, and histories of calls.  A client may go on after an error. *)
Inductive oop :=
| OSimple (op : sop)
| OStart (now msg uname uaddr : string) (echo : bool)
| OEnd (h : hooks)
| OBeginArea
| OEndArea
| OClose.
Definition ostep (E : env) (orc : oracle) (op : oop) (o : object) : object * status :=
  match op with
  | OSimple s => sop_step E orc s o
  | OStart now msg un ua echo => ob_start now msg un ua echo o
  | OEnd h => ob_end E orc h o
  | OBeginArea => ob_begin_area o
  | OEndArea => ob_end_area E orc o
  | OClose => ob_close E orc o
  end.
Fixpoint orun (E : env) (ops : list (oracle * oop)) (o : object) : object :=
  match ops with
  | [] => o
  | (orc, op) :: ops' =>
      match ostep E orc op o with
      | (o', SPanic) => o'
      | (o', _) => orun E ops' o'
      end
  end.

(** A freshly opened handle on an object with inventory [i]: nothing written, not writeable (Finalize and the JSON
    decoder leave modified and writeable false). *)
Definition open_object (i : inventory) : object :=
  Object (set_modified false (set_writeable false i)) false [] [].
