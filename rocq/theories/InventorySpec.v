(** Vocabulary in which the inventory properties are stated.  Independent of the model's functions. *)
From Coq Require Import Ascii.
From stdpp Require Import base list strings gmap.
From Coq Require Import ZArith.
From Verif Require Import GoStr InventoryModel.

(** Logical path [p] is listed under digest [d]. *)
Definition lists (s : smap) (p d : string) : Prop := ∃ ps, s !! d = Some ps ∧ p ∈ ps.

(** How often [p] is listed under [d]. *)
Definition times (s : smap) (p d : string) : nat := length (filter (λ q, q = p) (default [] (s !! d))).

(** Version [ver] of the inventory maps logical path [p] to digest [d]. *)
Definition recorded (i : inventory) (ver p d : string) : Prop :=
  ∃ v, inv_versions i !! ver = Some v ∧ lists (v_state v) p d.

(** The working version maps [p] to [d]. *)
Definition current (i : inventory) (p d : string) : Prop := recorded i (inv_head i) p d.

(** The name of version number [n] (n >= 1): v1, v2, ...; with padding [pad] > 0 the number is zero padded to [pad] digits
    after a leading v0. *)
Definition version_name (pad : Z) (n : N) : string :=
  if decide (pad <= 0)%Z then "v" +:+ dec_of_N n
  else "v0" +:+ (str_repeat "0" (Z.to_nat pad - String.length (dec_of_N n)) +:+ dec_of_N n).

(** Every version has a proper name and the head is the newest one; an object without versions has an empty head. *)
Definition head_newest (i : inventory) : Prop :=
  ∃ n, (n = 0%N → inv_head i = "") ∧
       (n ≠ 0%N → inv_head i = version_name (inv_padding i) n ∧ is_Some (inv_versions i !! inv_head i)) ∧
       ∀ ver, is_Some (inv_versions i !! ver) → ∃ k, (1 <= k <= n)%N ∧ ver = version_name (inv_padding i) k.

(** The versions are exactly number 1 to [n], and number [n] is the head. *)
Definition contiguous (i : inventory) (n : N) : Prop :=
  inv_head i = (if decide (n = 0%N) then "" else version_name (inv_padding i) n) ∧
  ∀ ver, is_Some (inv_versions i !! ver) ↔ ∃ k, (1 <= k <= n)%N ∧ ver = version_name (inv_padding i) k.

(** Every state digest of every version has at least one content path. *)
Definition resolvable (i : inventory) : Prop :=
  ∀ ver v d, inv_versions i !! ver = Some v → is_Some (v_state v !! d) →
    ∃ p ps, inv_manifest i !! d = Some (p :: ps).

(** A logical path is listed at most once, under one digest. *)
Definition unique_paths (s : smap) : Prop :=
  (∀ p d1 d2, lists s p d1 → lists s p d2 → d1 = d2) ∧ (∀ d ps, s !! d = Some ps → NoDup ps).

(** [d] is the digest of [p] in the newest version that records [p]. *)
Definition newest_record (i : inventory) (p d : string) : Prop :=
  ∃ k, recorded i (version_name (inv_padding i) k) p d ∧
       ∀ k' d', recorded i (version_name (inv_padding i) k') p d' → (k' <= k)%N.

(** The working version lists [p] under at most one digest. *)
Definition single (i : inventory) (p : string) : Prop :=
  ∀ d1 d2, current i p d1 → current i p d2 → d1 = d2.

(** The newest version that records [p] lists it under one digest. *)
Definition newest_single (i : inventory) (p : string) : Prop :=
  ∀ d1 d2, newest_record i p d1 → newest_record i p d2 → d1 = d2.

(** How often the working version lists [p] under [d]. *)
Definition occ (i : inventory) (p d : string) : nat :=
  match inv_versions i !! inv_head i with
  | Some v => times (v_state v) p d
  | None => 0
  end.
