(** Proofs about the comparison of inventories and of version states. *)
From Coq Require Import Ascii ZArith Lia.
From stdpp Require Import base list strings gmap sorting.
From Verif Require Import GoStr InventoryModel ValidateModel ValidateSpec ValidateProofs.

Lemma compact_cons2 a b l : compact (a :: b :: l) = if decide (a = b) then compact (b :: l) else a :: compact (b :: l).
Proof. done. Qed.
Lemma compact_elem x l : x ∈ compact l ↔ x ∈ l.
Proof.
  induction l as [|a [|b l] IH]; [done|done|]. rewrite compact_cons2. case_decide as E.
  - subst. rewrite IH. set_solver.
  - rewrite !elem_of_cons in *. rewrite IH. set_solver.
Qed.
Lemma compact_nodup l : StronglySorted str_le l → NoDup (compact l).
Proof.
  induction l as [|a [|b l] IH]; intros Hs; [constructor|by apply NoDup_singleton|].
  apply StronglySorted_inv in Hs as [Hs Ha]. rewrite compact_cons2. case_decide as E; [by apply IH|].
  apply list.NoDup_cons. split; [|by apply IH]. rewrite compact_elem. intros Hin.
  apply Forall_cons in Ha as [Hab _]. apply StronglySorted_inv in Hs as [_ Hb].
  apply elem_of_cons in Hin as [Hin|Hin]; [done|].
  rewrite Forall_forall in Hb. apply E. apply (anti_symm str_le); [done|]. apply Hb. done.
Qed.

Lemma flat_map_state st p : p ∈ flat_map snd (map_to_list st) ↔ has_path st p.
Proof.
  rewrite flat_map_in. split.
  - intros ([dg ps] & Hin & Hp). apply elem_of_map_to_list in Hin. by exists dg, ps.
  - intros (dg & ps & Hl & Hp). exists (dg, ps). split; [by apply elem_of_map_to_list|done].
Qed.
Lemma state_files_in st p : p ∈ state_files st ↔ has_path st p.
Proof. unfold state_files. rewrite compact_elem, str_sort_perm. apply flat_map_state. Qed.
Lemma state_files_nodup st : NoDup (state_files st).
Proof. apply compact_nodup, str_sort_sorted. Qed.
Lemma slice_contains_spec l l2 : slice_contains l l2 = true ↔ l2 ⊆ l.
Proof.
  unfold slice_contains. rewrite forallb_forall. split.
  - intros H x Hx. apply elem_of_list_In, H in Hx. by apply bool_decide_eq_true in Hx.
  - intros H x Hx. apply bool_decide_eq_true. apply H. by apply elem_of_list_In.
Qed.
Lemma nodup_same_length {A} `{EqDecision A} (l l2 : list A) : NoDup l → NoDup l2 → length l = length l2 → l2 ⊆ l → l ≡ₚ l2.
Proof.
  intros Hn Hn2 Hl Hs. symmetry.
  assert (submseteq l2 l) as Hsub by (apply NoDup_submseteq; [done|intros x; apply Hs]).
  by apply (submseteq_Permutation_length_eq l2 l).
Qed.
Theorem equal_state_iff st st2 :
  equal_state st st2 = true ↔ size st = size st2 ∧ ∀ p, has_path st p ↔ has_path st2 p.
Proof.
  unfold equal_state. rewrite !andb_true_iff, !bool_decide_eq_true, slice_contains_spec. split.
  - intros [[Hz Hl] Hs]. split; [done|]. intros p. rewrite <-!state_files_in.
    by rewrite (nodup_same_length _ _ (state_files_nodup st) (state_files_nodup st2) Hl Hs).
  - intros [Hz Hp]. split; [split; [done|]|].
    + apply Permutation_length, NoDup_Permutation; try apply state_files_nodup.
      intros p. rewrite !state_files_in. apply Hp.
    + intros p. rewrite !state_files_in. apply Hp.
Qed.
Lemma all_true_spec l : all_true l = Some true ↔ Forall (λ o, o = Some true) l.
Proof.
  induction l as [|[[]|] l IH]; simpl; rewrite ?list.Forall_nil, ?list.Forall_cons; try done.
  - rewrite IH. naive_solver.
  - split; [done|]. intros [? _]. done.
  - split; [done|]. intros [? _]. done.
Qed.

(** What an accepted comparison guarantees. *)
Record agrees (d d2 : doc) : Prop := {
  ag_type : dc_type d = dc_type d2;
  ag_head : os_val (dc_head d) = os_val (dc_head d2);
  ag_cdir : dc_contentdir d = dc_contentdir d2;
  ag_man : ∀ dg ps, man d !! dg = Some ps → ∃ ps2, man d2 !! dg = Some ps2 ∧ length ps = length ps2 ∧ ps2 ⊆ ps;
  ag_names : ∀ ver, is_Some (vers d !! ver) ↔ is_Some (vers d2 !! ver);
  ag_versions : ∀ ver v v2, vers d !! ver = Some v → vers d2 !! ver = Some v2 →
    equal_meta v v2 = Some true ∧ equal_state_doc v v2 = Some true
}.
Theorem is_equal_agrees d d2 : is_equal d d2 = Some true → agrees d d2.
Proof.
  unfold is_equal. destruct (negb (slice_contains _ _ && _)); [done|].
  case_decide as H1; [done|]. case_decide as H2; [done|]. case_decide as H3; [done|].
  destruct (negb (forallb _ _)) eqn:Hm; [done|]. destruct (negb (bool_decide (size _ = _))) eqn:Hz; [done|].
  apply negb_false_iff in Hz, Hm. apply bool_decide_eq_true in Hz. rewrite forallb_forall in Hm.
  rewrite all_true_spec, Forall_fmap, Forall_forall. intros Hv. unfold compose in Hv.
  assert (∀ ver v, vers d !! ver = Some v → ∃ v2, vers d2 !! ver = Some v2 ∧ equal_meta v v2 = Some true ∧ equal_state_doc v v2 = Some true) as Hall.
  { intros ver v Hl. apply elem_of_map_to_list in Hl. specialize (Hv _ Hl). simpl in Hv.
    destruct (vers d2 !! ver) as [v2|] eqn:E2; [|done]. exists v2. split; [done|].
    destruct (equal_meta v v2) as [[]|]; done. }
  constructor.
  - exact H1.
  - exact H2.
  - exact H3.
  - intros dg ps Hl. apply elem_of_map_to_list, elem_of_list_In, Hm in Hl. simpl in Hl.
    destruct (man d2 !! dg) as [ps2|]; [|done]. apply andb_true_iff in Hl as [Hc Hlen].
    apply bool_decide_eq_true in Hlen. apply slice_contains_spec in Hc. by exists ps2.
  - assert ((dom (vers d) : gset string) ⊆ dom (vers d2)) as Hsub.
    { intros ver Hin. apply elem_of_dom in Hin as [v Hin]. apply elem_of_dom. destruct (Hall _ _ Hin) as (v2 & ? & _). by exists v2. }
    assert ((dom (vers d) : gset string) = dom (vers d2)) as Heq.
    { apply leibniz_equiv. split; [apply Hsub|]. intros Hx. destruct (decide (x ∈ (dom (vers d) : gset string))) as [|Hn]; [done|]. exfalso.
      assert ((dom (vers d) : gset string) ⊂ dom (vers d2)) as Hlt%subset_size by (split; [exact Hsub|intros Hs; by apply Hn, Hs]).
      rewrite !size_dom, Hz in Hlt. by apply Nat.lt_irrefl in Hlt. }
    intros ver. rewrite <-!(elem_of_dom (D:=gset string)). by rewrite Heq.
  - intros ver v v2 Hl Hl2. destruct (Hall _ _ Hl) as (v2' & Hl2' & ? & ?). rewrite Hl2 in Hl2'. by injection Hl2' as <-.
Qed.
(** Conversely, what makes the comparison accept. *)
Theorem agrees_is_equal d d2 :
  length (dc_fixalgs d) = length (dc_fixalgs d2) → dc_fixalgs d2 ⊆ dc_fixalgs d → agrees d d2 → is_equal d d2 = Some true.
Proof.
  intros Hfl Hfs H. destruct H as [H1 H2 H3 Hm Hn Hv]. unfold is_equal.
  apply slice_contains_spec in Hfs. rewrite Hfs, bool_decide_true by done. cbn [andb negb].
  rewrite decide_False by (intros HH; by apply HH). rewrite decide_False by (intros HH; by apply HH).
  rewrite decide_False by (intros HH; by apply HH).
  assert (forallb (λ p : string * list string,
                   match man d2 !! p.1 with
                   | None => false
                   | Some vals2 => slice_contains p.2 vals2 && bool_decide (length p.2 = length vals2)
                   end) (map_to_list (man d)) = true) as ->.
  { apply forallb_forall. intros [dg ps] Hin. apply elem_of_list_In, elem_of_map_to_list in Hin. simpl.
    destruct (Hm _ _ Hin) as (ps2 & -> & Hl & Hs). apply andb_true_iff. split; [by apply slice_contains_spec|by apply bool_decide_eq_true]. }
  cbn [negb]. rewrite bool_decide_true; cbn [negb].
  2:{ rewrite <-!(size_dom (D:=gset string)). f_equal. apply leibniz_equiv. intros ver. rewrite !elem_of_dom. apply Hn. }
  apply all_true_spec, Forall_fmap, Forall_forall. intros [ver v] Hin. apply elem_of_map_to_list in Hin. unfold compose. simpl.
  destruct (proj1 (Hn ver)) as [v2 Hl2]; [by exists v|]. rewrite Hl2. destruct (Hv _ _ _ Hin Hl2) as [-> ->]. done.
Qed.
Lemma is_equal_paths d d2 ver p : is_equal d d2 = Some true →
  (∃ dg, state_lists d ver dg p) ↔ (∃ dg, state_lists d2 ver dg p).
Proof.
  intros H%is_equal_agrees.
  assert (∀ e, (∃ dg, state_lists e ver dg p) ↔ ∃ v st, vers e !! ver = Some v ∧ state_of v = Some st ∧ has_path st p) as Hst.
  { intros e. unfold state_lists, has_path. split.
    - intros (dg & v & st & er & ps & Hv & Hs & Hl & Hp). apply has_version_vers in Hv. exists v, st. split; [done|].
      split; [unfold state_of; by rewrite Hs|]. by exists dg, ps.
    - intros (v & st & Hv & Hs & dg & ps & Hl & Hp). exists dg, v, st. unfold state_of in Hs.
      destruct (vd_state v) as [[st' er]|] eqn:E; [|done]. injection Hs as ->. exists er, ps.
      split; [by apply has_version_vers|]. done. }
  rewrite !Hst. split; intros (v & st & Hv & Hs & Hp).
  - destruct (proj1 (ag_names _ _ H ver)) as [v2 Hv2]; [by exists v|].
    destruct (ag_versions _ _ H _ _ _ Hv Hv2) as [_ He]. unfold equal_state_doc in He. rewrite Hs in He.
    destruct (state_of v2) as [st2|] eqn:E2; [|done]. injection He as He. apply equal_state_iff in He as [_ He].
    exists v2, st2. split_and!; try done. by apply He.
  - destruct (proj2 (ag_names _ _ H ver)) as [v1 Hv1]; [by exists v|].
    destruct (ag_versions _ _ H _ _ _ Hv1 Hv) as [_ He]. unfold equal_state_doc in He. rewrite Hs in He.
    destruct (state_of v1) as [st1|] eqn:E1; [|done]. injection He as He. apply equal_state_iff in He as [_ He].
    exists v1, st1. split_and!; try done. by apply He.
Qed.
Lemma lists_once_man d dg ps : lists_once d → man d !! dg = Some ps → NoDup ps.
Proof. unfold lists_once, man. destruct (dc_manifest d) as [m|]; simpl; [eauto|done]. Qed.
Lemma is_equal_manifest d d2 dg p : is_equal d d2 = Some true → lists_once d → lists_once d2 →
  man_lists d dg p → man_lists d2 dg p.
Proof.
  intros H%is_equal_agrees Hn Hn2. rewrite !man_lists_man. intros (ps & Hl & Hp).
  destruct (ag_man _ _ H _ _ Hl) as (ps2 & Hl2 & Hlen & Hs). exists ps2. split; [done|].
  assert (ps ≡ₚ ps2) as Hperm by (apply nodup_same_length; [exact (lists_once_man d dg ps Hn Hl)|exact (lists_once_man d2 dg ps2 Hn2 Hl2)|done|done]).
  by rewrite <-Hperm.
Qed.
Theorem mutual_manifest d d2 dg p : is_equal d d2 = Some true → is_equal d2 d = Some true → lists_once d → lists_once d2 →
  man_lists d dg p ↔ man_lists d2 dg p.
Proof. intros H H2 Hn Hn2. split; intros Hm; [by eapply (is_equal_manifest d d2)|by eapply (is_equal_manifest d2 d)]. Qed.
