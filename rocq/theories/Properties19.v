(** C60: the metadata report of an object. *)
From Coq Require Import Ascii.
From stdpp Require Import base list strings gmap.
From Coq Require Import ZArith Lia.
From Verif Require Import GoStr InventoryModel InventorySpec ObjectModel ObjectSpec RunProofs ClaimsInventory ClaimsInventory2 ValidateModel MetaModel MetaSpec MetaProofs Fixtures.

(** * C60 *)
(** A report agrees with the inventory and with the extensions, whatever the map orders. *)
Theorem C60_report_exact :
  ∀ A w (exts : list (string * (gmap string A + string))) i m, worders_ok w → get_metadata w exts i = inl m → reports i exts m.
Proof. intros A w exts i m W. exact (get_metadata_reports w W exts i m). Qed.
(** The only errors are those of the extensions; the first one is returned. *)
Theorem C60_report_error :
  ∀ A w (exts : list (string * (gmap string A + string))) i e,
    get_metadata w exts i = inr e ↔ ∃ l1 n l2, exts = l1 ++ (n, inr e) :: l2 ∧ ∀ n' e', (n', inr e') ∉ l1.
Proof. intros A w exts i e. exact (get_metadata_error w exts i e). Qed.
(** Two reports are the same.  Missing: a content path with two digests of one fixity algorithm, see the refutation. *)
Theorem C60_report_order_partial :
  ∀ A w1 w2 (exts : list (string * (gmap string A + string))) i m1 m2, worders_ok w1 → worders_ok w2 → fixity_unique i →
    get_metadata w1 exts i = inl m1 → get_metadata w2 exts i = inl m2 → m1 = m2.
Proof.
  intros A w1 w2 exts i m1 m2 W1 W2 F H1 H2.
  exact (reports_unique i exts m1 m2 F (get_metadata_reports w1 W1 exts i m1 H1) (get_metadata_reports w2 W2 exts i m2 H2)).
Qed.
(** After any calls on an object: exactly the logical files of every version are in the report, with the places of their content. *)
Theorem C60_every_file_reported :
  ∀ A E i ops w (exts : list (string * (gmap string A + string))) m,
    (∀ d ps, inv_manifest i !! d = Some ps → ps ≠ []) → resolvable i → worders_ok w →
    let i' := ob_inv (orun E ops (open_object i)) in
    get_metadata w exts i' = inl m →
    ∀ ver p d, recorded i' ver p d ↔
      ∃ f ns, om_files m !! d = Some f ∧ fm_versions f !! ver = Some ns ∧ p ∈ ns ∧ fm_internal f ≠ [] ∧ inv_manifest i' !! d = Some (fm_internal f).
Proof.
  intros A E i ops w exts m H1 H2 W i' Hm. destruct (always_resolvable E i ops H1 H2) as [HR _].
  exact (every_file_reported w exts i' m W HR Hm).
Qed.

Definition w0 : worders := λ _, default_vorder.
Lemma w0_ok : worders_ok w0.
Proof. intros l n A m. done. Qed.
Definition rev_vorder : vorder := VOrder (λ _ A m, rev (map_to_list m)).
Definition w1 : worders := λ _, rev_vorder.
Lemma w1_ok : worders_ok w1.
Proof. intros l n A m. cbn. symmetry. apply Permutation_rev. Qed.
(** Two extensions; the first one reports something for the object, too. *)
Definition exts0 : list (string * (gmap string string + string)) :=
  [("NNNN-indexer", inl (<["sx" := "text"]> (<["" := "obj"]> ∅))); ("NNNN-filesystem", inl (<["sx" := "0644"]> ∅))].
(** The report as lists. *)
Definition shown {A} (r : object_meta A + string) :=
  match r with
  | inl m => Some (om_head m, (λ p, (p.1, (map_to_list (fm_checksums p.2), fm_internal p.2, map_to_list (fm_versions p.2), map_to_list (fm_ext p.2)))) <$>
                     map_to_list (om_files m), map_to_list <$> om_ext m)
  | inr _ => None
  end.
Example C60_example :
  shown (get_metadata w0 exts0 inv1) =
    Some ("v1", [("sx", ([("md5", "mx")], ["v1/content/a"], [("v1", ["a"])], [("NNNN-filesystem", "0644"); ("NNNN-indexer", "text")]));
                 ("sy", ([("md5", "my")], ["v1/content/b/c"], [("v1", ["b/c"])], []))], Some [("NNNN-indexer", "obj")]).
Proof. vm_compute. reflexivity. Qed.
(** Adding a path twice in one version leaves two digests for the content path: which one is reported depends on the map order. *)
Theorem C60_report_order_refuted :
  ∃ i, i = after (update [SAdd "x" "a" "" false; SAdd "y" "a" "" false]) fresh0 ∧
    get_metadata w0 exts0 i ≠ get_metadata w1 exts0 i.
Proof.
  eexists. split; [reflexivity|]. intros H.
  apply (f_equal (λ r, match r with inl m => (λ f, fm_checksums f !! "md5") <$> om_files m !! "sx" | inr _ => None end)) in H.
  vm_compute in H. discriminate H.
Qed.
(** Fixity digests are looked up for the first content path of a digest only. *)
Theorem C60_later_path_refuted :
  ∃ i alg d p x, lists (inv_manifest i) p d ∧ fixity_lists i alg p x ∧
    ∀ m, get_metadata w0 exts0 i = inl m → ∃ f, om_files m !! d = Some f ∧ fm_checksums f !! alg = None.
Proof.
  exists (set_fixity (<["md5" := <["mx" := ["v2/content/a"]]> ∅]> ∅) (set_manifest (<["sx" := ["v1/content/a"; "v2/content/a"]]> ∅) inv1)),
    "md5", "sx", "v2/content/a", "mx".
  split; [exists ["v1/content/a"; "v2/content/a"]; split; [by vm_compute|set_solver]|].
  split; [eexists; split; [by vm_compute|]; exists ["v2/content/a"]; split; [by vm_compute|set_solver]|].
  intros m H. destruct (om_files m !! "sx") as [f|] eqn:Hf.
  - exists f. split; [done|]. apply (f_equal (λ r, match r with inl m => (λ f, fm_checksums f !! "md5") <$> om_files m !! "sx" | inr _ => None end)) in H.
    cbv beta match in H. rewrite Hf in H. vm_compute in H. by injection H.
  - exfalso. apply (f_equal (λ r, match r with inl m => (λ f, fm_checksums f !! "md5") <$> om_files m !! "sx" | inr _ => None end)) in H.
    cbv beta match in H. rewrite Hf in H. vm_compute in H. discriminate H.
Qed.
Print Assumptions C60_report_exact.
Print Assumptions C60_report_error.
Print Assumptions C60_report_order_partial.
Print Assumptions C60_every_file_reported.
Print Assumptions C60_report_order_refuted.
Print Assumptions C60_later_path_refuted.
