(** Automatic follow-up versions: EndUpdate of an object whose extensions keep state between the calls, ask for new
    versions and fill them.  Sources: pkg/ocfl/objectbase.go, pkg/extension/NNNN-gocfl-extension-manager.go,
    pkg/extension/NNNN-migration.go, pkg/extension/NNNN-filesystem.go. *)
From Coq Require Import Ascii.
From stdpp Require Import base list strings gmap.
From Coq Require Import ZArith.
From Verif Require Import GoStr InventoryModel ObjectModel.

(** pkg/ocfl/extension.go: the parts of ExtensionObjectChange and ExtensionNewVersion that matter for EndUpdate.  [X] is
    the state an extension keeps between the calls.  A hook sees its state and the object and answers with its new
    state and the calls it makes on the object, an error it returns is an [HFail] (or an [HCall] that fails).  The calls
    may depend in any way on the object, so also on the outcome of earlier calls.  [x_need]: None is an error.
    Simplification: files an extension writes into its own folder are not part of the model. *)
Record ext (X : Type) := Ext {
  x_before : X → object → X * list hcall;
  x_after : X → object → X * list hcall;
  x_need : X → object → option bool;
  x_do : X → object → X * list hcall
}.
Arguments Ext {X}. Arguments x_before {X}. Arguments x_after {X}. Arguments x_need {X}. Arguments x_do {X}.

(** The extension manager: the extensions by number, and the lists objectChange and newVersion in their order
    (NNNN-gocfl-extension-manager.go:32-60). *)
Record manager (X : Type) := Manager {
  mg_ext : nat → ext X;
  mg_change : list nat;
  mg_new : list nat
}.
Arguments Manager {X}. Arguments mg_ext {X}. Arguments mg_change {X}. Arguments mg_new {X}.

Section follow.
  Context {X : Type} (E : env) (M : manager X) (clk : object → string).

  Definition set_ext (k : nat) (x : X) (s : nat → X) : nat → X := λ j, if decide (j = k) then x else s j.

  (** NNNN-gocfl-extension-manager.go:467-486 UpdateObjectBefore and UpdateObjectAfter: every extension is called, the
      errors are collected.  Simplification: of several errors the last is kept as the text of the result. *)
  Fixpoint run_all (f : ext X → X → object → X * list hcall) (l : list nat) (s : nat → X) (o : object) :
      (nat → X) * object * status :=
    match l with
    | [] => (s, o, SOk)
    | k :: l' =>
        let '(x, cs) := f (mg_ext M k) (s k) o in
        match sops_run E cs o with
        | (o1, SOk) => run_all f l' (set_ext k x s) o1
        | (o1, SErr m) =>
            match run_all f l' (set_ext k x s) o1 with
            | (s2, o2, SOk) => (s2, o2, SErr m)
            | r => r
            end
        | (o1, SPanic) => (set_ext k x s, o1, SPanic)
        end
    end.

  (** NNNN-gocfl-extension-manager.go:548-559 NeedNewVersion: the first yes wins, the first error ends the loop. *)
  Fixpoint need_new (l : list nat) (s : nat → X) (o : object) : option bool :=
    match l with
    | [] => Some false
    | k :: l' =>
        match x_need (mg_ext M k) (s k) o with
        | None => None
        | Some true => Some true
        | Some false => need_new l' s o
        end
    end.

  (** NNNN-gocfl-extension-manager.go:561-568 DoNewVersion: all extensions are called, also those that did not ask, up to
      the first error. *)
  Fixpoint do_new (l : list nat) (s : nat → X) (o : object) : (nat → X) * object * status :=
    match l with
    | [] => (s, o, SOk)
    | k :: l' =>
        let '(x, cs) := x_do (mg_ext M k) (s k) o in
        match sops_run E cs o with
        | (o1, SOk) => do_new l' (set_ext k x s) o1
        | (o1, st) => (set_ext k x s, o1, st)
        end
    end.

  (** objectbase.go:547-565 StartUpdate with the extensions. *)
  Definition fstart (now msg uname uaddr : string) (echo : bool) (s : nat → X) (o : object) :
      (nat → X) * object * status :=
    match ob_start now msg uname uaddr echo o with
    | (o1, SOk) => run_all x_before (mg_change M) s o1
    | (o1, st) => (s, o1, st)
    end.

  (** objectbase.go:567-613 EndUpdate.  [n] bounds the depth of the recursion, None: not finished within [n] calls. *)
  Fixpoint fend (n : nat) (orc : oracle) (s : nat → X) (o : object) : option ((nat → X) * object * status) :=
    match n with
    | O => None
    | S n' =>
        if negb (inv_writeable (ob_inv o)) then Some (s, o, SOk)
        else if negb (inv_modified (ob_inv o)) then Some (s, o, SOk)
        else
          match (if ob_echo o then ob_echo_delete E orc o else (o, SOk)) with
          | (o1, SOk) =>
              match run_all x_after (mg_change M) s o1 with
              | (s2, o2, SOk) =>
                  match andThen (on_inv (clean orc) o2) (store_inventory E true false) with
                  | (o3, SOk) =>
                      match need_new (mg_new M) s2 o3 with
                      | None => Some (s2, o3, SErr "cannot execute ext.NeedNewVersion()")
                      | Some false => Some (s2, o3, SOk)
                      | Some true =>
                          match fstart (clk o3) "automated version" "gocfl" "https://github.com/je4/gocfl" false s2 o3 with
                          | (s4, o4, SOk) =>
                              match do_new (mg_new M) s4 o4 with
                              | (s5, o5, SOk) => fend n' (shift_oracle orc) s5 o5
                              | r => Some r
                              end
                          | r => Some r
                          end
                      end
                  | (o3, st) => Some (s2, o3, st)
                  end
              | r => Some r
              end
          | (o1, st) => Some (s, o1, st)
          end
    end.

  (** The calls of a client on a handle with these extensions, and a history of calls with the status of each call. *)
  Inductive fop :=
  | FSimple (op : sop)
  | FStart (now msg uname uaddr : string) (echo : bool)
  | FEnd
  | FBeginArea
  | FEndArea
  | FClose.
  Definition fstep (n : nat) (orc : oracle) (op : fop) (s : nat → X) (o : object) :
      option ((nat → X) * object * status) :=
    match op with
    | FSimple op => let '(o1, st) := sop_step E orc op o in Some (s, o1, st)
    | FStart now msg un ua echo => Some (fstart now msg un ua echo s o)
    | FEnd => fend n orc s o
    | FBeginArea => let '(o1, st) := ob_begin_area o in Some (s, o1, st)
    | FEndArea => let '(o1, st) := ob_end_area E orc o in Some (s, o1, st)
    | FClose => let '(o1, st) := ob_close E orc o in Some (s, o1, st)
    end.
  Fixpoint frun (n : nat) (ops : list (oracle * fop)) (s : nat → X) (o : object) :
      option ((nat → X) * object * list status) :=
    match ops with
    | [] => Some (s, o, [])
    | (orc, op) :: ops' =>
        match fstep n orc op s o with
        | None => None
        | Some (s1, o1, SPanic) => Some (s1, o1, [SPanic])
        | Some (s1, o1, st) =>
            match frun n ops' s1 o1 with
            | None => None
            | Some (s2, o2, l) => Some (s2, o2, st :: l)
            end
        end
    end.
End follow.

(** * The extensions of the project that ask for new versions *)

(** NNNN-migration.go:92-105: files to migrate, files already migrated (by digest), and the done flag. *)
Record mig := Mig { m_files : list string; m_migrated : list string; m_done : bool }.
(** NNNN-migration.go:45-53 NewMigration. *)
Definition mig_new : mig := Mig [] [] false.
(** NNNN-migration.go:140-405.  [meta o]: the metadata of the object, digests of the sources already migrated and digests
    of the files for which there is a migration function, None if it cannot be read.  [todo files o]: the calls made
    while migrating the given files.  UpdateObjectAfter (153-202) adds to the files to migrate and leaves the done flag;
    NeedNewVersion (204-206); DoNewVersion (209-405) runs its deferred function on every way out.  Simplification: all
    the files to migrate count as migrated afterwards, also after an error. *)
Definition mig_ext (meta : object → option (list string * list string)) (todo : list string → object → list hcall) :
    ext mig :=
  Ext (λ x _, (x, []))
      (λ x o,
         match meta o with
         | None => (x, [HFail "cannot get metadata from object"])
         | Some (old, cand) =>
             let done := m_migrated x ++ old in
             (Mig (m_files x ++ filter (λ d, d ∉ done) cand) done (m_done x), [])
         end)
      (λ x _, Some (negb (bool_decide (m_files x = [])) && negb (m_done x)))
      (λ x o, (Mig [] (m_migrated x ++ m_files x) true, todo (m_files x) o)).

(** NNNN-filesystem.go:211-217, 286-315: never asks and adds nothing to an automated version; [after]: the call with which
    UpdateObjectAfter stores its file. *)
Definition fs_ext {X} (after : object → list hcall) : ext X :=
  Ext (λ x _, (x, [])) (λ x o, (x, after o)) (λ _ _, Some false) (λ x _, (x, [])).
