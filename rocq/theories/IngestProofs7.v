(** The content-subpath extension and objects without it. *)
From Coq Require Import Ascii.
From stdpp Require Import base list strings gmap.
From Coq Require Import ZArith Lia.
From Verif Require Import GoStr PathModel InventoryModel ObjectModel InventorySpec InventoryProofs ObjectSpec
  PathProofs CrashSpec LoadModel PublishSpec AreaModel AreaSpec AreaProofs IngestModel IngestSpec IngestProofs IngestProofs4.

Lemma split_slashed n ns : Forall plain_name (n :: ns) → split_slash (slashed n ns) = n :: ns.
Proof.
  revert n. induction ns as [|m ns IH]; intros n [Hn Hns]%Forall_cons; cbn [slashed].
  - apply split_on_no_sep, Hn.
  - rewrite split_slash_app, IH by done. unfold split_slash. by rewrite split_on_no_sep by apply Hn.
Qed.
Lemma file_names t ns x : readable t → file_at t ns x → Forall plain_name ns.
Proof.
  intros Hr Hf. induction Hf as [x|c l n t ns x Hin Hf IH]; [done|]. inversion Hr as [|l' Hnd Hpl Hch]; subst. constructor.
  - rewrite Forall_forall in Hpl. apply Hpl. apply elem_of_list_fmap. by exists (n, t).
  - by eapply IH, Hch.
Qed.
Lemma offered_clean folders a p x : (∀ a t, (a, t) ∈ folders → good_folder t) → offered folders a p x → clean_rel p ∧ a ∈ fst <$> folders.
Proof.
  intros Hg (t & Hin & n & ns & Hf & ->). split; [|apply elem_of_list_fmap; by exists (a, t)].
  unfold clean_rel. pose proof (file_names _ _ _ (proj1 (Hg _ _ Hin)) Hf) as Hpl. by rewrite split_slashed.
Qed.

Section areas.
  Context (E : env) (X : xenv) (c : subpaths) (areas : list string) (HE : paths_by E X [c]) (Hcf : configured c areas).

  Lemma area_round a p : a ∈ areas → clean_rel p →
    ∃ np, e_state_path E p a = Some np ∧ e_manifest_path E p a = Some np ∧ clean_rel np ∧ x_path X np a = XPath p ∧
      ∀ a', a' ∈ areas → a' ≠ a → x_path X np a' = XWrongArea.
  Proof using HE Hcf.
    clear - HE Hcf.
    intros Ha Hp. destruct HE as (H1 & H2 & _ & H3 & _). destruct (cf_area _ _ Hcf a Ha) as (Hf & sub & Hs & Hcl).
    destruct (round_trip c a sub p Hf Hs ltac:(right; by left) Hp) as (np & Hnp & Hne & Hx). exists np.
    rewrite H1, H2, H3, mgr_one. rewrite (mgr_state_one c p a np Hnp Hne). split; [done|]. split; [done|]. split.
    { unfold sub_state_path in Hnp. fold (requested c a) in Hnp. rewrite decide_False, Hs in Hnp by done. apply (inj Some) in Hnp as <-.
      rewrite join_two by done. by apply clean_rel_app. }
    split; [done|]. intros a' Ha' Hne'. destruct (cf_area _ _ Hcf a' Ha') as (Hf' & sub' & Hs' & Hcl').
    destruct (other_area c a a' sub sub' p Hf Hf' Hs Hs' Hcl Hp) as (np' & Hnp' & Hw).
    - apply (cf_apart _ _ Hcf a a'); auto.
    - apply (cf_apart _ _ Hcf a' a); auto.
    - rewrite H3, mgr_one. congruence.
  Qed.
  Lemma areas_placed folders : (∀ a t, (a, t) ∈ folders → good_folder t) → fst <$> folders ⊆ areas → placed E folders.
  Proof using HE Hcf.
    clear - HE Hcf.
    intros Hg Hsub.
    assert (∀ a p x, offered folders a p x → a ∈ areas ∧ clean_rel p) as Hoff.
    { intros a p x Ho. destruct (offered_clean _ _ _ _ Hg Ho) as [H1 H2]. split; [by apply Hsub|done]. }
    assert (∀ a1 p1 x1 a2 p2 x2 np, offered folders a1 p1 x1 → offered folders a2 p2 x2 →
      e_state_path E p1 a1 = Some np → e_state_path E p2 a2 = Some np → a1 = a2 ∧ p1 = p2) as Hinj.
    { intros a1 p1 x1 a2 p2 x2 np Ho1 Ho2 Hs1 Hs2. destruct (Hoff _ _ _ Ho1) as [Ha1 Hp1], (Hoff _ _ _ Ho2) as [Ha2 Hp2].
      destruct (area_round a1 p1 Ha1 Hp1) as (n1 & E1 & _ & _ & X1 & W1), (area_round a2 p2 Ha2 Hp2) as (n2 & E2 & _ & _ & X2 & W2).
      rewrite Hs1 in E1. injection E1 as <-. rewrite Hs2 in E2. injection E2 as <-.
      destruct (decide (a1 = a2)) as [->|Hne]; [split; congruence|]. rewrite (W1 a2) in X2 by auto. done. }
    split.
    - intros a p x Ho. destruct (Hoff _ _ _ Ho) as [Ha Hp]. destruct (area_round a p Ha Hp) as (np & H1 & H2 & H3 & _). by exists np, np.
    - exact Hinj.
    - intros a1 p1 x1 a2 p2 x2 np Ho1 Ho2 Hs1 Hs2. apply (Hinj a1 p1 x1 a2 p2 x2 np Ho1 Ho2).
      + by rewrite (proj1 HE), <- (proj1 (proj2 HE)).
      + by rewrite (proj1 HE), <- (proj1 (proj2 HE)).
    - intros a t p Hin _. destruct (cf_area _ _ Hcf a) as (Hf & sub & Hs & _).
      { apply Hsub, elem_of_list_fmap. by exists (a, t). }
      rewrite (proj1 HE), (proj1 (proj2 HE)). cbn [mgr_state_path]. unfold sub_state_path. fold (requested c a). rewrite decide_False, Hs by done. split; by eexists.
  Qed.
  Lemma areas_served folders i area : (∀ a t, (a, t) ∈ folders → good_folder t) → fst <$> folders ⊆ areas → area ∈ areas →
    (∀ np d, current i np d → ∃ a, of_area E areas a np) → areas_share_nothing E areas i folders → served E X area i folders.
  Proof using HE Hcf.
    clear - HE Hcf.
    intros Hg Hsub Harea Hcur Hsh.
    assert (∀ a p x, offered folders a p x → a ∈ areas ∧ clean_rel p) as Hoff.
    { intros a p x Ho. destruct (offered_clean _ _ _ _ Hg Ho) as [H1 H2]. split; [by apply Hsub|done]. }
    assert (∀ a np, of_area E areas a np → x_path X np area = XWrongArea ↔ a ≠ area) as Hwr.
    { intros a np (Ha & p & Hp & Hs). destruct (area_round a p Ha Hp) as (n1 & E1 & _ & _ & X1 & W1). rewrite Hs in E1. injection E1 as <-.
      split; [intros H ->; congruence|]. intros H. by apply W1; auto. }
    assert (∀ np d, current i np d ∨ brings E i folders np d → ∃ a, of_area E areas a np) as Hsrc.
    { intros np d [H|(a & p & x & Ho & Hs & _)]; [by eapply Hcur|]. destruct (Hoff _ _ _ Ho) as [Ha Hp]. exists a. split; [done|]. by exists p. }
    split.
    - apply HE.
    - apply HE.
    - intros p x np Ho Hs. destruct (Hoff _ _ _ Ho) as [Ha Hp]. destruct (area_round area p Ha Hp) as (n1 & E1 & _ & _ & X1 & _). congruence.
    - intros a p x np Ho Hs Hne. destruct (Hoff _ _ _ Ho) as [Ha Hp]. apply (Hwr a); [|done]. split; [done|]. by exists p.
    - intros np d Hc. destruct (Hcur _ _ Hc) as (a & Ha & p & Hp & Hs). destruct (decide (a = area)) as [->|Hne].
      + right. exists p. destruct (area_round area p Ha Hp) as (n1 & E1 & _ & _ & X1 & _). rewrite Hs in E1. by injection E1 as <-.
      + left. apply (Hwr a); [|done]. split; [done|]. by exists p.
    - intros np np' d H1 H2 Hw. destruct (Hsrc _ _ H1) as [a Ha], (Hsrc _ _ H2) as [a' Ha']. apply (Hwr a') ; [done|]. apply (Hwr a) in Hw; [|done].
      by rewrite <- (Hsh np np' d a a' H1 H2 Ha Ha').
  Qed.
End areas.

(** Without an extension there is one folder, and its paths are the logical paths. *)
Lemma plain_placed E X area t : paths_by E X [] → good_folder t → placed E [(area, t)].
Proof.
  intros (H1 & H2 & _ & H3 & _) Hg.
  assert (∀ a p x, offered [(area, t)] a p x → a = area ∧ clean_rel p) as Hoff.
  { intros a p x Ho. destruct (offered_clean [(area, t)] a p x) as [Hp Ha]; [|done|].
    - by intros a' t' [= -> ->]%elem_of_list_singleton.
    - cbn in Ha. by apply elem_of_list_singleton in Ha. }
  split.
  - intros a p x Ho. destruct (Hoff _ _ _ Ho) as [_ Hp]. exists p, p. by rewrite H1, H2.
  - intros a1 p1 x1 a2 p2 x2 np Ho1 Ho2. rewrite !H1. cbn [mgr_state_path]. intros E1 E2.
    destruct (Hoff _ _ _ Ho1) as [-> _], (Hoff _ _ _ Ho2) as [-> _]. split; congruence.
  - intros a1 p1 x1 a2 p2 x2 np Ho1 Ho2. rewrite !H2. cbn [mgr_state_path]. intros E1 E2.
    destruct (Hoff _ _ _ Ho1) as [-> _], (Hoff _ _ _ Ho2) as [-> _]. split; congruence.
  - intros a t' p _ _. rewrite H1, H2. split; by eexists.
Qed.
Lemma plain_served E X area t i : paths_by E X [] → served E X area i [(area, t)].
Proof.
  intros (H1 & H2 & Hh & H3 & Hc). split; try done.
  - intros p x np _. rewrite H1, H3. cbn. congruence.
  - intros a p x np (t' & [= -> ->]%elem_of_list_singleton & _) _ Hne. done.
  - intros np d _. right. exists np. by rewrite H1, H3.
  - intros np np' d _ _. by rewrite H3.
Qed.
Lemma plain_deletes E X area i echo : paths_by E X [] → deletes E X area i echo echo.
Proof.
  intros (H1 & _). destruct echo; [|by left]. split; [done|]. exists ".". rewrite H1. split; [done|]. intros np d q _ _. by exists np.
Qed.
(** Echo deletion works on the default area only. *)
Lemma areas_deletes E X c areas a0 area i echo :
  paths_by E X [c] → configured c areas → a0 ∈ areas → requested c a0 = sp_area c → area ∈ areas → (∀ np d, current i np d → ∃ a, of_area E areas a np) →
  deletes E X area i echo (echo && bool_decide (area = a0)).
Proof.
  intros HE Hcf H0 Hr Ha Hcur. destruct echo; [|by left]. cbn [andb].
  destruct (cf_area _ _ Hcf a0 H0) as (Hf & sub & Hs & Hcl).
  assert (sub ≠ "" ∧ sub ≠ ".") as [Hne Hnd].
  { split; [by apply clean_rel_nonempty|]. intros ->. by inversion Hcl as [|? ? (_ & Hx & _) _]. }
  assert (e_state_path E "." "" = Some sub) as Hb.
  { rewrite (proj1 HE). apply mgr_state_one; [|done]. unfold sub_state_path. fold (requested c "").
    assert (requested c "" = requested c a0) as -> by (by rewrite Hr). rewrite decide_False, Hs by done. f_equal.
    rewrite path_join_plain by done. change (join_slash [sub; "."]) with (sub +:+ "/.").
    destruct (clean_rel_join sub Hcl) as [Ej Hn]. unfold path_clean. rewrite bool_decide_eq_false_2.
    2: { intros Eq. apply (clean_rel_head sub Hcl). by destruct sub. }
    change (sub +:+ "/.") with (sub +:+ "/" +:+ "."). rewrite split_slash_app. change (split_slash ".") with ["."].
    assert (∀ acc l, Forall plain_name l → clean_comps false acc (l ++ ["."]) = clean_comps false acc l) as Hdot.
    { clear. intros acc l; revert acc; induction l as [|x l IH]; intros acc Hl; [done|]. apply Forall_cons in Hl as [Hx Hl].
      destruct Hx as (Hx1 & Hx2 & Hx3 & _). cbn [app clean_comps]. rewrite !(decide_False (P := x = _)) by done. by apply IH. }
    rewrite (Hdot [] _ Hcl). pose proof (path_clean_rel sub Hcl) as Hpc. unfold path_clean in Hpc. rewrite bool_decide_eq_false_2 in Hpc; [done|].
    intros Eq. apply (clean_rel_head sub Hcl). by destruct sub. }
  assert (∀ np a, of_area E areas a np → ∃ s' p, sp_paths c !! requested c a = Some s' ∧ np = s' +:+ "/" +:+ p) as Hform.
  { intros np a (Ha' & p & Hp & Hnp). destruct (cf_area _ _ Hcf a Ha') as (Hf' & s' & Hs' & Hcl'). exists s', p. split; [done|].
    rewrite (proj1 HE) in Hnp. cbn [mgr_state_path] in Hnp. unfold sub_state_path in Hnp. fold (requested c a) in Hnp. rewrite decide_False, Hs' in Hnp by done.
    rewrite join_two in Hnp by done. rewrite decide_False in Hnp.
    - by apply (inj Some) in Hnp as <-.
    - intros Eq. apply (f_equal String.length) in Eq. rewrite !str_length_app in Eq. cbn in Eq. lia. }
  case_bool_decide as Hc; cbn.
  - subst a0. split; [done|]. exists sub. split; [done|]. rewrite decide_False by done. intros np d q Hcu Hq.
    destruct (Hcur np d Hcu) as (a & Hof). destruct (Hform np a Hof) as (s' & p & Hs' & ->).
    destruct (decide (a = area)) as [->|Hne'].
    + rewrite Hs in Hs'. injection Hs' as <-. by exists ("/" +:+ p).
    + exfalso. destruct Hof as (Ha' & p' & Hp' & Hnp'). destruct (area_round E X c areas HE Hcf a p' Ha' Hp') as (np2 & E2 & _ & _ & _ & W2).
      rewrite Hnp' in E2. injection E2 as <-. rewrite (W2 area Ha) in Hq by auto. done.
  - right. intros b np d q Hb' Hcu Hq [r Hst]. rewrite Hb in Hb'. injection Hb' as <-. rewrite decide_False in Hst by done.
    destruct (Hcur np d Hcu) as (a & Hof). destruct (Hform np a Hof) as (s' & p & Hs' & ->).
    assert (a = area) as ->.
    { destruct (decide (a = area)) as [|Hne']; [done|]. exfalso. destruct Hof as (Ha' & p' & Hp' & Hnp').
      destruct (area_round E X c areas HE Hcf a p' Ha' Hp') as (np2 & E2 & _ & _ & _ & W2).
      rewrite Hnp' in E2. injection E2 as <-. rewrite (W2 area Ha) in Hq by auto. done. }
    destruct (app_eq_app _ _ _ _ Hst) as [H|H].
    + by apply (cf_apart _ _ Hcf area a0 s' sub Ha H0 Hc Hs' Hs).
    + by apply (cf_apart _ _ Hcf a0 area sub s' H0 Ha (not_eq_sym Hc) Hs Hs').
Qed.
