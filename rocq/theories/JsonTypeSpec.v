(** Vocabulary for the JSON types of the parts of an inventory, independent of how they are decoded. *)
From Coq Require Import Ascii.
From stdpp Require Import base list strings gmap.
From Verif Require Import GoStr ValidateSpec JsonModel.

(** [k] is the name, up to the case of its letters; the letter U+017F (two bytes) counts as an s. *)
Inductive spelled : string → string → Prop :=
| spelled_end : spelled "" ""
| spelled_letter a b name k : lower_ascii a = lower_ascii b → spelled name k → spelled (String a name) (String b k)
| spelled_long a name k : lower_ascii a = "s"%char → spelled name k → spelled (String a name) (String "197" (String "191" k)).

(** A member of this name, in some spelling. *)
Definition has (name : string) (l : list (string * json)) (j : json) : Prop := ∃ k, spelled name k ∧ (k, j) ∈ l.
(** No other member has this name in some spelling. *)
Definition once (name : string) (l : list (string * json)) : Prop :=
  ∀ l1 k j l2, l = l1 ++ (k, j) :: l2 → spelled name k → ∀ j', ¬ has name (l1 ++ l2) j'.

Definition is_str (j : json) : Prop := ∃ s, j = JStr s.
(** null counts as absent. *)
Definition absent_or (P : json → Prop) (name : string) (l : list (string * json)) : Prop := ∀ j, has name l j → j = JNull ∨ P j.

(** The members of a JSON object are written once. *)
Definition once_user (us : list (string * json)) : Prop := once "name" us ∧ once "address" us.
Definition once_version (ms : list (string * json)) : Prop :=
  once "created" ms ∧ once "message" ms ∧ once "user" ms ∧ once "state" ms ∧
  (∀ us, has "user" ms (JObj us) → once_user us) ∧ (∀ st, has "state" ms (JObj st) → NoDup st.*1).
Definition once_inventory (l : list (string * json)) : Prop :=
  once "id" l ∧ once "type" l ∧ once "digestAlgorithm" l ∧ once "head" l ∧ once "manifest" l ∧ once "versions" l ∧
  (∀ vs, has "versions" l (JObj vs) → NoDup vs.*1 ∧ ∀ ver ms, (ver, JObj ms) ∈ vs → once_version ms).

(** An object whose members are lists of strings (or null). *)
Definition path_lists (j : json) : Prop :=
  ∃ l, j = JObj l ∧ ∀ d x, (d, x) ∈ l → x = JNull ∨ ∃ ps, x = JArr ps ∧ ∀ p, p ∈ ps → is_str p.
Definition user_block (j : json) : Prop := ∃ us, j = JObj us ∧ absent_or is_str "name" us ∧ absent_or is_str "address" us.
Record typed_version (tm : string → option string) (ms : list (string * json)) : Prop := TypedVersion {
  tv_created : ∃ x, has "created" ms (JStr x) ∧ is_Some (tm x);
  tv_message : absent_or is_str "message" ms;
  tv_user : absent_or user_block "user" ms;
  tv_state : absent_or path_lists "state" ms
}.
Record typed_inventory (tm : string → option string) (l : list (string * json)) : Prop := TypedInventory {
  ti_id : ∃ x, has "id" l (JStr x) ∧ x ≠ "";
  ti_type : ∃ x, has "type" l (JStr x) ∧ x ≠ "";
  ti_alg : ∃ x, has "digestAlgorithm" l (JStr x) ∧ (x = "sha512" ∨ x = "sha256");
  ti_head : ∃ x, has "head" l (JStr x) ∧ x ≠ "";
  ti_manifest : ∃ j, has "manifest" l j ∧ j ≠ JNull;
  ti_versions : ∃ vs, has "versions" l (JObj vs) ∧ vs ≠ [] ∧
    ∀ ver j, (ver, j) ∈ vs → ∃ ms, j = JObj ms ∧ typed_version tm ms
}.

(** What is wrong, and the code with which the validator reports it. *)
Inductive version_flaw (tm : string → option string) (ms : list (string * json)) : string → Prop :=
| flaw_created j : has "created" ms j → (∀ x, j = JStr x → tm x = None) → version_flaw tm ms "E049"
| flaw_message j : has "message" ms j → j ≠ JNull → ¬ is_str j → version_flaw tm ms "E094"
| flaw_user j : has "user" ms j → j ≠ JNull → (∀ us, j ≠ JObj us) → version_flaw tm ms "E054"
| flaw_name us j : has "user" ms (JObj us) → has "name" us j → j ≠ JNull → ¬ is_str j → version_flaw tm ms "E054"
| flaw_address us j : has "user" ms (JObj us) → has "address" us j → j ≠ JNull → ¬ is_str j → version_flaw tm ms "E054"
| flaw_state j : has "state" ms j → j ≠ JNull → (∀ st, j ≠ JObj st) → version_flaw tm ms "E050"
| flaw_paths st d j : has "state" ms (JObj st) → (d, j) ∈ st → j ≠ JNull → (∀ ps, j ≠ JArr ps) → version_flaw tm ms "E050"
| flaw_path st d ps p : has "state" ms (JObj st) → (d, JArr ps) ∈ st → p ∈ ps → p ≠ JNull → ¬ is_str p → version_flaw tm ms "E050".
Inductive flaw (tm : string → option string) (l : list (string * json)) : string → Prop :=
| flaw_id j : has "id" l j → ¬ is_str j → flaw tm l "E036"
| flaw_no_id : (∀ j, ¬ has "id" l j) → flaw tm l "E036"
| flaw_alg j : has "digestAlgorithm" l j → ¬ is_str j → flaw tm l "E025"
| flaw_no_alg : (∀ j, ¬ has "digestAlgorithm" l j) → flaw tm l "E036"
| flaw_head j : has "head" l j → ¬ is_str j → flaw tm l "E040"
| flaw_no_head : (∀ j, ¬ has "head" l j) → flaw tm l "E036"
| flaw_no_manifest : (∀ j, has "manifest" l j → j = JNull) → flaw tm l "E041"
| flaw_versions j : has "versions" l j → (∀ vs, j ≠ JObj vs) → flaw tm l "E008"
| flaw_no_versions : (∀ j, ¬ has "versions" l j) → flaw tm l "E008"
| flaw_version vs ver n ms c : has "versions" l (JObj vs) → (ver, JObj ms) ∈ vs → numbered ver n → version_flaw tm ms c → flaw tm l c.
