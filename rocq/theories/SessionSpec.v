(** Vocabulary for histories of update sessions, each of which may be interrupted by a crash. *)
From Coq Require Import Ascii.
From stdpp Require Import base list strings gmap.
From Coq Require Import ZArith.
From Verif Require Import GoStr InventoryModel InventorySpec ObjectModel ObjectSpec LoadModel CrashSpec.

(** The stored object is intact: the loader accepts the root inventory [i] without complaint, its head is version number
    [n] and the newest, and every content path it records lies in the content directory of one of its versions and is
    stored with content of the recorded digest. *)
Record intact (E : env) (parse : string → option inventory) (s : storage) (i : inventory) (n : N) : Prop := Intact {
  it_load : load_inventory (e_hash E) parse s "" = LInv i [];
  it_describes : describes (e_hash E) i s;
  it_head : head_number i n;
  it_cdir : plain_name (content_name i);
  it_paths : content_paths_upto i n;
  it_alg : str_mem slash (inv_alg i) = false
}.

(** One session on a handle opened on the stored inventory: some calls, then Close; it may crash anywhere.  The calls add
    content only under clean relative paths, and under paths not yet used; the inventory that Close writes satisfies [P]. *)
Inductive session (E : env) (P : inventory → Prop) (parse : string → option inventory) (s s' : storage) : Prop :=
| Session i ops orc :
    load_inventory (e_hash E) parse s "" = LInv i [] →
    Forall (λ x : oracle * oop, x.2 ≠ OClose) ops →
    guarded E (λ _ op o, clean_target E op ∧ fresh_target E op o) (λ _, True) ops (open_object i) →
    (inv_modified (ob_inv (orun E ops (open_object i))) = true → P (ob_inv (orun E ops (open_object i)))) →
    crash s (ob_trace (orun E (ops ++ [(orc, OClose)]) (open_object i))) s' →
    session E P parse s s'.

(** Any number of sessions one after the other, each starting from a state the loader accepts. *)
Inductive sessions (E : env) (P : inventory → Prop) (parse : string → option inventory) (s : storage) : storage → Prop :=
| sessions_none : sessions E P parse s s
| sessions_more s1 s2 : sessions E P parse s s1 → session E P parse s1 s2 → sessions E P parse s s2.

(** The loader accepts the root inventory. *)
Definition accepted (E : env) (parse : string → option inventory) (s : storage) : Prop :=
  ∃ i, load_inventory (e_hash E) parse s "" = LInv i [].

(** Two different byte strings with the same digest. *)
Definition collision (E : env) : Prop :=
  ∃ alg a b d, a ≠ b ∧ e_hash E alg a = Some d ∧ e_hash E alg b = Some d.

(** The session that creates an object: nothing without slash is in the object directory that could be taken for an
    inventory, the handle has the fresh inventory [i] (Init writes only the object declaration). *)
Inductive creation (E : env) (P : inventory → Prop) (s : storage) (i : inventory) (s' : storage) : Prop :=
| Creation ops orc :
    inv_head i = "" ∧ inv_versions i = ∅ ∧ inv_manifest i = ∅ →
    (∀ p, has_prefix "inventory.json" p = true → s !! p = None) →
    Forall (λ x : oracle * oop, x.2 ≠ OClose) ops →
    guarded E (λ _ op o, clean_target E op ∧ fresh_target E op o) (λ _, True) ops (open_object i) →
    (inv_modified (ob_inv (orun E ops (open_object i))) = true → P (ob_inv (orun E ops (open_object i)))) →
    crash s (ob_trace (orun E (ops ++ [(orc, OClose)]) (open_object i))) s' →
    creation E P s i s'.
