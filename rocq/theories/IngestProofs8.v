(** Ingested objects are valid: C58. *)
From Coq Require Import Ascii.
From stdpp Require Import base list strings gmap.
From Coq Require Import ZArith Lia.
From Verif Require Import GoStr PathModel InventoryModel ObjectModel InventorySpec InventoryProofs ObjectSpec ObjectProofs LookupProofs AddProofs ClaimsInventory ClaimsInventory2 CrashSpec LoadModel PathProofs SessionProofs PublishSpec PublishProofs PublishProofs2
  PublishProofs3 PublishProofs4 AreaModel AreaSpec AreaProofs ExtractProofs InheritProofs IngestModel IngestSpec IngestProofs IngestProofs2 IngestProofs3 IngestProofs4 IngestProofs5
  IngestProofs6 IngestProofs7.

Lemma no_file_below t ns ns' m x y : readable t → file_at t ns x → file_at t (ns ++ m :: ns') y → False.
Proof.
  intros Hr. revert ns. induction Hr as [z|l Hnd Hpl _ IH]; intros ns H1 H2.
  - inversion H1; subst. inversion H2.
  - inversion H1 as [|? ? n t' l' ? Hin Hf]; subst. cbn [app] in H2. inversion H2 as [|? ? n2 t2 l2 ? Hin2 Hf2]; subst.
    assert (t2 = t') as -> by exact (same_entry _ _ _ _ Hnd Hin Hin2). by eapply IH.
Qed.
(** In a folder no file is below another one. *)
Lemma tree_apart t p q x y r : good_folder t → has_file t p x → has_file t q y → q ≠ p +:+ "/" +:+ r.
Proof.
  intros [Hr _] (n & ns & Hf & ->) (m & ms & Hg & ->) Heq. pose proof (file_names _ _ _ Hr Hf) as H1. pose proof (file_names _ _ _ Hr Hg) as H2.
  apply (f_equal split_slash) in Heq. rewrite (split_slashed m ms H2), split_slash_app, (split_slashed n ns H1) in Heq.
  destruct (split_slash r) as [|k ks] eqn:E.
  - by apply split_on_nonempty in E.
  - rewrite Heq in Hg. exact (no_file_below t (n :: ns) ks k x y Hr Hf Hg).
Qed.
Lemma folder_apart area t src : good_folder t → folder_of [(area, t)] area src → ∀ p r, is_Some (src !! p) → is_Some (src !! (p +:+ "/" +:+ r)) → False.
Proof.
  intros Hg Hf p r [x Hx] [y Hy]. apply Hf in Hx as (t1 & [= ->]%elem_of_list_singleton & Hx), Hy as (t2 & [= ->]%elem_of_list_singleton & Hy).
  exact (tree_apart t _ _ _ _ _ Hg Hx Hy eq_refl).
Qed.
Lemma archived_clean E X area P parse ts s i : archived E X area P parse ts s i → ∀ t p, t ∈ ts → is_Some (t !! p) → clean_rel p.
Proof.
  assert (∀ i r folders src p, proper_request E i r folders → folder_of folders area src → is_Some (src !! p) → clean_rel p) as Hsrc.
  { intros i0 r folders src p Hq Hf [x Hx]. apply Hf in Hx. apply (offered_clean folders area p x); [apply Hq|done]. }
  induction 1 as [s i orcs orc1 orc2 r folders src o Hf Hd Hsup Horcs Horc1 Hq Hno Hsv Hfo Hi HP|
    t ts s i0 i orcs orc1 orc2 r folders src o del Ha IH Hl Hsup Horcs Horc1 Hq Hno Hsv Hecho Hfo Hi HP].
  - intros t p ->%elem_of_list_singleton. by eapply Hsrc.
  - intros t' p [-> |Hin]%elem_of_cons Hp; [|by eapply IH]. unfold area_after in Hp. destruct del; [by eapply Hsrc|].
    destruct Hp as [x [Hx|[_ Hx]]%lookup_union_Some_raw].
    + eapply Hsrc; [done|done|by exists x].
    + apply (IH t p); [left|by exists x].
Qed.
Lemma archived_paths E X area P parse ts s i : hex_hash (e_hash E) → json_ok P (e_json E) parse → paths_by E X [] → archived E X area P parse ts s i →
  ∀ ver, ver ∈ dom (inv_versions i) → ∃ t, t ∈ ts ∧ ∀ p d, recorded i ver p d → is_Some (t !! p).
Proof.
  intros Hhex Hj HE Ha ver Hver. destruct (archived_result E X area P parse ts s i Hhex Hj Ha) as (Hp & Hu & n & fam & Hc & Hlen & _ & Hex).
  apply elem_of_dom in Hver. pose proof Hver as Hv'. destruct Hver as [v Hv].
  apply (g_contig _ _ _ _ (kp_good _ _ _ _ _ _ (cl_kept _ _ _ _ _ Hc))) in Hv' as (k & Hk & Hverk).
  destruct (lookup_lt_is_Some_2 (rev ts) (N.to_nat k - 1)) as [t Ht]; [rewrite rev_length; lia|].
  exists t. split; [apply elem_of_list_In, in_rev, elem_of_list_In; by eapply elem_of_list_lookup_2|]. intros p d (v' & Hv' & Hl).
  rewrite Hv in Hv'. injection Hv' as <-.
  specialize (Hex (N.to_nat k - 1) t default_oracle ltac:(by split) Ht).
  replace (N.of_nat (N.to_nat k - 1) + 1)%N with k in Hex by lia. rewrite <- Hverk in Hex.
  assert (requested_version i ver = ver) as Hreq.
  { unfold requested_version. rewrite decide_False; [done|]. rewrite Hverk. intros [H|H]; [by apply version_name_nonempty in H|].
    unfold version_name in H. destruct (decide _); discriminate H. }
  rewrite (extract_body _ _ _ _ _ _ _ _ v) in Hex by (by rewrite Hreq). rewrite Hreq in Hex.
  destruct (body X default_oracle i s ver area v ∅) as [xs st] eqn:Eb.
  assert (st = SOk ∧ xs_files xs = t) as [-> <-] by (revert Hex; clear; destruct st; naive_solver).
  assert (∀ e, x_path X e area = XPath e) as Hx by (intros e; by rewrite (proj1 (proj2 (proj2 (proj2 HE))))).
  destruct (exact X default_oracle i s ver area v ∅ xs ltac:(by split) Eb) with (q := p) as (data & _ & Hd).
  - intros d' l1 e l2 Hd' He. rewrite Hx in He. discriminate He.
  - intros e1 d1 e2 d2 q H1 H2 Hq1 Hq2. rewrite Hx in Hq1, Hq2. assert (e2 = e1) as -> by congruence. by apply (proj1 (Hu ver v Hv) e1 d1 d2).
  - exists d, p. by rewrite Hx.
  - by exists data.
Qed.
