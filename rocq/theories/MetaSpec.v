(** Vocabulary for the metadata report. *)
From Coq Require Import Ascii.
From stdpp Require Import base list strings gmap.
From Coq Require Import ZArith.
From Verif Require Import GoStr InventoryModel InventorySpec ObjectSpec MetaModel.

(** Extension [n] has the last word about key [d]: it reports [a], and no later extension of this name reports something for [d]. *)
Definition says {A} (exts : list (string * (gmap string A + string))) (n d : string) (a : A) : Prop :=
  ∃ l1 meta l2, exts = l1 ++ (n, inl meta) :: l2 ∧ meta !! d = Some a ∧ ∀ meta', (n, inl meta') ∈ l2 → meta' !! d = None.

(** What a report says about the content with digest [d], stored as [p :: ps]. *)
Record file_report {A} (i : inventory) (exts : list (string * (gmap string A + string))) (d p : string) (ps : list string) (f : file_meta A)
    : Prop := FileReport {
  fr_internal : fm_internal f = p :: ps;
  fr_versions : ∀ ver ns, fm_versions f !! ver = Some ns ↔ ∃ v, inv_versions i !! ver = Some v ∧ v_state v !! d = Some ns;
  fr_checksums : ∀ alg x, fm_checksums f !! alg = Some x → fixity_lists i alg p x;
  fr_checksums_all : ∀ alg x, fixity_lists i alg p x → ∃ x', fm_checksums f !! alg = Some x';
  fr_ext : ∀ n a, fm_ext f !! n = Some a ↔ says exts n d a
}.
(** What a report says about an object. *)
Record reports {A} (i : inventory) (exts : list (string * (gmap string A + string))) (m : object_meta A) : Prop := Reports {
  rp_id : om_id m = inv_id i;
  rp_alg : om_alg m = inv_alg i;
  rp_head : om_head m = inv_head i;
  rp_versions : ∀ ver x, om_versions m !! ver = Some x ↔
    ∃ v, inv_versions i !! ver = Some v ∧ x = VersionMeta (v_created v) (v_message v) (v_uname v) (v_uaddr v);
  rp_files : ∀ d f, om_files m !! d = Some f → ∃ p ps, inv_manifest i !! d = Some (p :: ps) ∧ file_report i exts d p ps f;
  rp_files_all : ∀ d p ps, inv_manifest i !! d = Some (p :: ps) → ∃ f, om_files m !! d = Some f;
  rp_ext : ∀ n a, (∃ e, om_ext m = Some e ∧ e !! n = Some a) ↔ says exts n "" a;
  rp_ext_some : ∀ e, om_ext m = Some e → e ≠ ∅
}.
(** Every content path has at most one digest of every fixity algorithm. *)
Definition fixity_unique (i : inventory) : Prop := ∀ alg p x y, fixity_lists i alg p x → fixity_lists i alg p y → x = y.
