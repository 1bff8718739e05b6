(** The display server: /repo/gocfl/cmd/display/server.go, the handlers that find an object and deliver its pages and files.  Only
    executable definitions. *)
From Coq Require Import Ascii.
From stdpp Require Import base list strings gmap.
From Coq Require Import ZArith.
From Verif Require Import GoStr PathModel InventoryModel ObjectModel LoadModel ValidateModel CheckModel AreaModel LayoutModel RootModel RootAddModel RootCheckModel MetaModel RootExtractModel.

(** A loaded object (ocfl.Object): its folder in the storage root, which gives its file system, and the inventory read when it was loaded. *)
Record handle := Handle { h_folder : string; h_inv : inventory }.
(** The part of Server, lines 32-48, that requests share.  There is one server for all requests and no lock. *)
Record server (A : Type) := Server { sv_object : option handle; sv_meta : option (object_meta A) }.
Arguments Server {_} _ _.
Arguments sv_object {_} _.
Arguments sv_meta {_} _.

(** The requests, lines 117-124.  [RqPage g id]: loadObjectID and report ([g] is true: they test the metadata, lines 745 and 848), manifest,
    version and detail ([g] is false).  [RqFolder]: loadObjectPath, with the path after line 729.  [RqFile]: download.  [RqExtension]:
    downloadExtFile; the value of a wildcard begins with a slash.  Binding and unescaping of the parameters are done before. *)
Inductive request :=
| RqPage (g : bool) (id : string)
| RqFolder (folder : string)
| RqFile (id digest : string)
| RqExtension (id name path : string).
(** The response: content with status 200, a page about an object (its identifier and the metadata), a redirect to the page of an object, an
    error with status 400, a panic (status 500 by the recovery of gin.Default, line 73). *)
Inductive response (A : Type) :=
| RpData (bytes : string)
| RpPage (id : string) (m : object_meta A)
| RpRedirect (id : string)
| RpError
| RpPanic.
Arguments RpData {_} _.
Arguments RpPage {_} _ _.
Arguments RpRedirect {_} _.
Arguments RpError {_}.
Arguments RpPanic {_}.

(** Where a handler is.  The steps of different handlers may alternate in any order. *)
Inductive place (A : Type) :=
| AtStart
| AtKnown
| AtLoad
| AtMeta
| AtStore (m : object_meta A + string)
| AtUse
| AtOpen (path : string)
| AtEnd (x : response A).
Arguments AtStart {_}.
Arguments AtKnown {_}.
Arguments AtLoad {_}.
Arguments AtMeta {_}.
Arguments AtStore {_} _.
Arguments AtUse {_}.
Arguments AtOpen {_} _.
Arguments AtEnd {_} _.

(** The identifier of the request; loadObjectPath has none. *)
Definition asked (r : request) : option string :=
  match r with
  | RqPage _ id | RqFile id _ | RqExtension id _ _ => Some id
  | RqFolder _ => None
  end.

Section server.
  (** [hash], [parse], [create]: as in RootExtractModel.  [ls]: the layouts of the extension manager of the root.  [exts folder]: what the
      extensions of the object in the folder (a clean path) return. *)
  Context {A : Type} (hash : string → string → option string) (parse : string → option inventory) (create : list (string * RootModel.node) → option ext).
  Context (ls : list (string → pres)) (exts : string → list (string * (gmap string A + string))).

  (** LoadObjectByFolder and LoadObjectByID, storagerootbase.go:329-389: the object, an error (nil object), or a panic. *)
  Definition load_at (tree : list (string * RootModel.node)) (folder : string) : (handle + bool) :=
    match open_folder hash parse create tree folder with
    | OpenedAt i _ => inl (Handle folder i)
    | NotOpenedAt SPanic => inr true
    | NotOpenedAt _ => inr false
    end.
  Definition load_id (tree : list (string * RootModel.node)) (id : string) : (handle + bool) :=
    match root_path ls id with
    | None => inr true
    | Some (_, true) => inr false
    | Some (folder, false) => load_at tree folder
    end.
  Definition load_for (tree : list (string * RootModel.node)) (r : request) : (handle + bool) :=
    match r with
    | RqFolder folder => load_at tree folder
    | RqPage _ id | RqFile id _ | RqExtension id _ _ => load_id tree id
    end.
  (** GetFS().Open of the object: the files that are in its folder now.  A name that leads out of the folder is not found (the drivers
      are not in the repository). *)
  Definition file_at (tree : list (string * RootModel.node)) (folder path : string) : option string :=
    match find_folder folder tree with
    | Some l => dir_files l !! path
    | None => None
    end.

  (** One step of a handler.  One statement is one step (less behaviour than the program, which may also read half-written values); the call of
      GetMetadata and the assignment of its result are two.  [w]: the map orders in GetMetadata.
      AtStart: the test in lines 179, 242, 301, 494, 584, 695, 827.  AtKnown: s.metadata == nil.  AtLoad: LoadObjectByID or
      LoadObjectByFolder with the assignment to s.object, also of nil if there is an error.  AtMeta, AtStore: GetMetadata, assigned also if it is an error
      (nil).  AtUse: lines 745-806 (the page), 739 (the redirect), 263-267 (the file with the digest), 199 (the path of the extension file).
      AtOpen: lines 269-280, 200-222. *)
  Definition step (tree : list (string * RootModel.node)) (w : worders) (r : request) (s : server A) (p : place A) : server A * place A :=
    match p with
    | AtStart =>
        match asked r, sv_object s with
        | Some id, Some h => if decide (inv_id (h_inv h) = id) then (s, AtKnown) else (s, AtLoad)
        | _, _ => (s, AtLoad)
        end
    | AtKnown => match sv_meta s with None => (s, AtMeta) | Some _ => (s, AtUse) end
    | AtLoad =>
        match load_for tree r with
        | inl h => (Server (Some h) (sv_meta s), AtMeta)
        | inr false => (Server None (sv_meta s), AtEnd RpError)
        | inr true => (s, AtEnd RpPanic)
        end
    | AtMeta =>
        match sv_object s with
        | None => (s, AtEnd RpPanic)
        | Some h => (s, AtStore (get_metadata w (exts (path_clean (h_folder h))) (h_inv h)))
        end
    | AtStore (inl m) => (Server (sv_object s) (Some m), AtUse)
    | AtStore (inr _) => (Server (sv_object s) None, AtEnd RpError)
    | AtUse =>
        match r with
        | RqPage g _ =>
            match sv_meta s, sv_object s with
            | None, _ => (s, AtEnd (if g then RpError else RpPanic))
            | Some m, Some h => (s, AtEnd (RpPage (inv_id (h_inv h)) m))
            | Some _, None => (s, AtEnd RpPanic)
            end
        | RqFolder _ =>
            match sv_object s with
            | None => (s, AtEnd RpPanic)
            | Some h => (s, AtEnd (RpRedirect (inv_id (h_inv h))))
            end
        | RqFile _ digest =>
            match sv_meta s with
            | None => (s, AtEnd RpPanic)
            | Some m =>
                match om_files m !! digest with
                | None => (s, AtEnd RpError)
                | Some f => match fm_internal f with [] => (s, AtEnd RpPanic) | path :: _ => (s, AtOpen path) end
                end
            end
        | RqExtension _ name path => (s, AtOpen (path_join ["extensions"; name; path]))
        end
    | AtOpen path =>
        match sv_object s with
        | None => (s, AtEnd RpPanic)
        | Some h => match file_at tree (h_folder h) path with None => (s, AtEnd RpError) | Some b => (s, AtEnd (RpData b)) end
        end
    | AtEnd x => (s, AtEnd x)
    end.

  (** A request that is served alone: every handler ends after at most six steps. *)
  Fixpoint steps (n : nat) (tree : list (string * RootModel.node)) (w : worders) (r : request) (s : server A) (p : place A) : server A * place A :=
    match n with
    | 0 => (s, p)
    | S n' => let '(s', p') := step tree w r s p in steps n' tree w r s' p'
    end.
  Definition serve (tree : list (string * RootModel.node)) (w : worders) (r : request) (s : server A) : server A * response A :=
    match steps 6 tree w r s AtStart with
    | (s', AtEnd x) => (s', x)
    | (s', _) => (s', RpPanic)
    end.
  Fixpoint serve_all (tree : list (string * RootModel.node)) (rs : list (worders * request)) (s : server A) : server A :=
    match rs with
    | [] => s
    | (w, r) :: rs' => serve_all tree rs' (serve tree w r s).1
    end.
  (** The server at the beginning, lines 50-68. *)
  Definition idle : server A := Server None None.

  (** Requests served at the same time: a new one arrives, or one of them makes a step. *)
  Inductive runs (tree : list (string * RootModel.node)) : server A → list (request * place A) → Prop :=
  | runs_start : runs tree idle []
  | runs_arrive s ts r : runs tree s ts → runs tree s (ts ++ [(r, AtStart)])
  | runs_step s l1 r p l2 w : runs tree s (l1 ++ (r, p) :: l2) → worders_ok w →
      runs tree (step tree w r s p).1 (l1 ++ (r, (step tree w r s p).2) :: l2).
End server.
