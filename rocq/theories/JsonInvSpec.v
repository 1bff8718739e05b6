(** Vocabulary for stored inventories: which inventories survive being written and read. *)
From Coq Require Import Ascii.
From stdpp Require Import base list strings gmap.
From Coq Require Import ZArith.
From Verif Require Import GoStr InventoryModel InventorySpec LayoutSpec.

(** Every string of the map is valid UTF-8. *)
Definition utf8_map (m : smap) : Prop := ∀ d l, m !! d = Some l → valid_utf8 d ∧ ∀ p, p ∈ l → valid_utf8 p.
Record utf8_version (v : version) : Prop := Utf8Version {
  uv_created : valid_utf8 (v_created v);
  uv_message : valid_utf8 (v_message v);
  uv_uname : valid_utf8 (v_uname v);
  uv_uaddr : valid_utf8 (v_uaddr v);
  uv_state : utf8_map (v_state v)
}.
(** Every string of the inventory is valid UTF-8. *)
Record utf8_inventory (i : inventory) : Prop := Utf8Inventory {
  ui_id : valid_utf8 (inv_id i);
  ui_type : valid_utf8 (inv_type i);
  ui_alg : valid_utf8 (inv_alg i);
  ui_head : valid_utf8 (inv_head i);
  ui_cdir : valid_utf8 (inv_contentdir i);
  ui_manifest : utf8_map (inv_manifest i);
  ui_versions : ∀ ver v, inv_versions i !! ver = Some v → valid_utf8 ver ∧ utf8_version v;
  ui_fixity : ∀ a m, inv_fixity i !! a = Some m → valid_utf8 a ∧ utf8_map m
}.
(** Every creation time is printed in the form in which it is read. *)
Definition timely (tm : string → option string) (i : inventory) : Prop :=
  ∀ ver v, inv_versions i !! ver = Some v → tm (v_created v) = Some (v_created v).
(** No path is empty. *)
Definition named (m : smap) : Prop := ∀ d l, m !! d = Some l → "" ∉ l.
Record named_inventory (i : inventory) : Prop := NamedInventory {
  ni_manifest : named (inv_manifest i);
  ni_versions : ∀ ver v, inv_versions i !! ver = Some v → named (v_state v);
  ni_fixity : ∀ a m, inv_fixity i !! a = Some m → named m
}.
(** There is a version, and all are named after the padding of the inventory and fit into it. *)
Definition numbered_inventory (i : inventory) : Prop :=
  inv_versions i ≠ ∅ ∧ (0 <= inv_padding i)%Z ∧
  ∀ ver v, inv_versions i !! ver = Some v → ∃ k, (1 <= k)%N ∧ ver = version_name (inv_padding i) k ∧
    (inv_padding i = 0 ∨ Z.of_nat (String.length ver) = inv_padding i + 2)%Z.

(** The inventories that can be stored as JSON and read back. *)
Definition storable (tm : string → option string) (i : inventory) : Prop :=
  utf8_inventory i ∧ timely tm i ∧ named_inventory i ∧ numbered_inventory i.
(** The names of the supported digest algorithms are valid UTF-8. *)
Definition utf8_hash (hash : string → string → option string) : Prop := ∀ alg x d, hash alg x = Some d → valid_utf8 alg.
