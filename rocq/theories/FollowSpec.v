(** Vocabulary for automatic follow-up versions. *)
From Coq Require Import Ascii.
From stdpp Require Import base list strings gmap.
From Coq Require Import ZArith.
From Verif Require Import GoStr InventoryModel ObjectModel ObjectSpec FollowModel.

(** An extension with a done flag [d]: while the flag is up it does not ask for a version, filling a version raises the
    flag, and the other hooks do not take it down. *)
Record flagged {X} (x : ext X) (d : X → Prop) : Prop := Flagged {
  fl_need : ∀ s o, d s → x_need x s o ≠ Some true;
  fl_do : ∀ s o, d (x_do x s o).1;
  fl_after : ∀ s o, d s → d (x_after x s o).1;
  fl_before : ∀ s o, d s → d (x_before x s o).1
}.
(** All extensions that can ask for versions have a flag. *)
Definition all_flagged {X} (M : manager X) : Prop :=
  ∃ d : nat → X → Prop, ∀ k, k ∈ mg_new M → flagged (mg_ext M k) (d k).

(** Number of versions of the object. *)
Definition nversions (o : object) : nat := size (inv_versions (ob_inv o)).

(** Number of StartUpdate calls in a history. *)
Fixpoint starts (ops : list (oracle * fop)) : nat :=
  match ops with
  | [] => 0
  | (_, FStart _ _ _ _ _) :: ops' => S (starts ops')
  | _ :: ops' => starts ops'
  end.
Definition is_end (op : fop) : bool := match op with FEnd => true | _ => false end.
(** Number of EndUpdate calls that did not succeed. *)
Fixpoint failed_ends (ops : list (oracle * fop)) (l : list status) : nat :=
  match ops, l with
  | (_, op) :: ops', st :: l' =>
      (match op, st with
       | FEnd, SOk => 0
       | FEnd, _ => 1
       | _, _ => 0
       end) + failed_ends ops' l'
  | _, _ => 0
  end.

(** Every call an extension of the manager makes satisfies [G]. *)
Definition ext_calls {X} (M : manager X) (G : oracle → sop → Prop) : Prop :=
  ∀ k s o, Forall (all_hcall G) (x_before (mg_ext M k) s o).2 ∧
    Forall (all_hcall G) (x_after (mg_ext M k) s o).2 ∧ Forall (all_hcall G) (x_do (mg_ext M k) s o).2.
Definition all_fop (G : oracle → sop → Prop) (G0 : oracle → Prop) (orc : oracle) (op : fop) : Prop :=
  match op with
  | FSimple s => G orc s
  | FEnd | FEndArea => G0 orc
  | _ => True
  end.
