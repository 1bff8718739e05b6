(** Ingest of folders: /repo/gocfl/cmd/helper.go:305-363 addObjectByPath, /repo/pkg/ocfl/objectbase.go:631-644 AddFolder and the
    directory case of 853-950 AddFile.  Only executable definitions. *)
From Coq Require Import Ascii.
From stdpp Require Import base list strings gmap.
From Coq Require Import ZArith.
From Verif Require Import GoStr PathModel InventoryModel ObjectModel.

(** A source file system below one name.  [NFile None]: a file that cannot be opened.  [NDir false l]: ReadDir fails after the
    entries [l] have been read.  Symbolic links and special files are left out. *)
Inductive node :=
| NFile (content : option string)
| NDir (complete : bool) (entries : list (string * node)).

(** One call of the function given to fs.WalkDir. *)
Inductive visit :=
| VFile (path : string) (content : option string)
| VDir (path : string).

(** io/fs walkDir with the function literal of AddFolder (objectbase.go:633-639), which drops the error it is given: a directory
    that cannot be read is visited a second time and the walk goes on with the entries read so far. *)
Fixpoint walk (path : string) (t : node) : list visit :=
  match t with
  | NFile c => [VFile path c]
  | NDir complete l =>
      VDir path :: (if complete then [] else [VDir path]) ++
      (fix go (l : list (string * node)) : list visit :=
         match l with
         | [] => []
         | (name, t') :: l' => walk (path_join [path; name]) t' ++ go l'
         end) l
  end.

(** AddFile for a directory (objectbase.go:858-867, and 943-947 without hooks): only the names are built. *)
Definition ob_add_dir (E : env) (path area : string) (o : object) : object * status :=
  if inv_writeable (ob_inv o) then
    match build_names E (ob_inv o) [path] area with
    | None => (o, SErr "cannot build names")
    | Some _ => (o, SOk)
    end
  else (o, SErr "object not writeable").
(** AddFile for a file that cannot be opened (objectbase.go:858-877). *)
Definition ob_add_unreadable (E : env) (path area : string) (o : object) : object * status :=
  andThen (ob_add_dir E path area o) (λ o1, (o1, SErr "cannot open file")).

(** AddFolder, objectbase.go:631-644, after the walk has been unfolded; [orcs k] are the map orders of the k-th call. *)
Fixpoint add_visits (E : env) (orcs : nat → oracle) (k : nat) (area : string) (dedup : bool) (l : list visit) (o : object)
    : object * status :=
  match l with
  | [] => (o, SOk)
  | v :: l' =>
      andThen (match v with
               | VDir p => ob_add_dir E p area o
               | VFile p None => ob_add_unreadable E p area o
               | VFile p (Some data) => ob_add E (orcs k) data p area dedup o
               end) (add_visits E orcs (S k) area dedup l')
  end.
(** [None]: the root of the source cannot be read; the function literal calls IsDir on a nil entry. *)
Definition add_folder (E : env) (orcs : nat → oracle) (area : string) (dedup : bool) (t : option node) (o : object)
    : object * status :=
  match t with
  | None => (o, SPanic)
  | Some t => add_visits E orcs 0 area dedup (walk "." t) o
  end.

(** helper.go:342-353: the folder of the main area, then the folders of the other areas; the order of the Go map of areas is the
    order of the list. *)
Fixpoint add_folders (E : env) (orcs : nat → nat → oracle) (j : nat) (dedup : bool) (l : list (string * option node)) (o : object)
    : object * status :=
  match l with
  | [] => (o, SOk)
  | (area, t) :: l' => andThen (add_folder E (orcs j) area dedup t o) (add_folders E orcs (S j) dedup l')
  end.

(** Who, when and why, and the two flags. *)
Record request := Request { rq_now : string; rq_msg : string; rq_name : string; rq_addr : string; rq_echo : bool; rq_dedup : bool }.

(** helper.go:337-360 on the handle that LoadObjectByID or CreateObject returned.  An error leaves the handle as it is. *)
Definition ingest (E : env) (orcs : nat → nat → oracle) (orc1 orc2 : oracle) (r : request) (folders : list (string * option node))
    (h : hooks) (o : object) : object * status :=
  andThen (ob_start (rq_now r) (rq_msg r) (rq_name r) (rq_addr r) (rq_echo r) o) (λ o1,
  andThen (add_folders E orcs 0 (rq_dedup r) folders o1) (λ o2,
  andThen (ob_end E orc1 h o2) (λ o3,
  ob_close E orc2 o3))).
