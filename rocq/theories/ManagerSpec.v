From Coq Require Import Ascii Sorting.
From stdpp Require Import base list strings gmap sorting.
From Verif Require Import ManagerModel.

(** What a sorting function guarantees: the same elements, in the order of their numbers. *)
Definition sorts (srt : sorter) : Prop :=
  ∀ f l, srt f l ≡ₚ l ∧ ∀ i j a b, i ≤ j → srt f l !! i = Some a → srt f l !! j = Some b → f a ≤ f b.

(** [a] is named in the group, and no configured extension is named earlier. *)
Definition earliest (group : list string) (configured : list ext) (a : ext) : Prop :=
  a ∈ configured ∧ ∃ i, group !! i = Some (fst a) ∧ ∀ b j, b ∈ configured → group !! j = Some (fst b) → i ≤ j.

(** The members of a group which are active. *)
Definition members (group : list string) (l : list ext) : list ext := filter (λ e, fst e ∈ group) l.

Definition disjoint (g g' : list string) : Prop := ∀ n, n ∈ g → n ∉ g'.
