(** Vocabulary for several handles that are open on one object at the same time. *)
From Coq Require Import Ascii.
From stdpp Require Import base list strings gmap.
From Coq Require Import ZArith.
From Verif Require Import GoStr InventoryModel InventorySpec ObjectModel ObjectSpec CrashSpec.

(** [merged ls m rest]: the effects [m] are taken from the fronts of the lists [ls] in some order; [rest] is what is left of the lists. *)
Inductive merged : list (list ev) → list ev → list (list ev) → Prop :=
| merged_stop ls : merged ls [] ls
| merged_step ls k e l m rest : ls !! k = Some (e :: l) → merged (<[k := l]> ls) m rest → merged ls (e :: m) rest.

(** A handle: the inventory with which it was opened and the calls that are made with it. *)
Notation handle := (inventory * list (oracle * oop))%type.
Definition trace_of (E : env) (h : handle) : list ev := ob_trace (orun E h.2 (open_object h.1)).

(** A handle for an object in which the versions up to [n] exist when it is opened; new content goes to clean relative paths. *)
Record opened_on (E : env) (n : N) (pad : Z) (alg : string) (h : handle) : Prop := OpenedOn {
  oo_head : ∃ k, (n <= k)%N ∧ head_number h.1 k;
  oo_pad : inv_padding h.1 = pad;
  oo_alg : inv_alg h.1 = alg;
  oo_cdir : plain_name (content_name h.1);
  oo_clean : clean_names E h.2
}.
(** The handle is not closed. *)
Definition not_closed (h : handle) : Prop := Forall (λ x : oracle * oop, x.2 ≠ OClose) h.2.
(** No effect concerns path [p]. *)
Definition avoids (p : string) (l : list ev) : Prop := Forall (λ e, ev_path e ≠ p) l.
