(** Hooks at the end of an ingest leave alone what they do not name. *)
From Coq Require Import Ascii.
From stdpp Require Import base list strings gmap.
From Coq Require Import ZArith Lia.
From Verif Require Import GoStr PathModel InventoryModel ObjectModel InventorySpec InventoryProofs ObjectSpec ObjectProofs LookupProofs AddProofs
  ClaimsInventory ClaimsInventory2 CrashSpec LoadModel PathProofs CrashProofs LoadProofs SessionProofs PublishSpec PublishProofs PublishProofs2
  PublishProofs3 PublishProofs4 AreaModel AreaSpec ExtractProofs InheritProofs IngestModel IngestSpec IngestProofs IngestProofs2 IngestProofs3 IngestProofs4
  IngestProofs5 IngestProofs6 HookSpec.

(** * One call *)
Lemma delete_other f i p d : p ≠ f → occ (delete_file f i).1 p d = occ i p d.
Proof.
  intros Hp. destruct (head_version i) as [v|] eqn:Hv; [|unfold delete_file; by rewrite Hv].
  destruct (delete_file_occ f i v Hv) as (i' & -> & _ & Ho & _). cbn [fst]. by rewrite Ho, decide_False.
Qed.
Lemma copy_other f c i p d : p ≠ f → occ (copy_file f c i).1 p d = occ i p d.
Proof.
  intros Hp. destruct (copy_file f c i) as [i' st] eqn:Ec. cbn [fst]. destruct st.
  - rewrite (copy_file_occ f c i i' Ec). by rewrite decide_False by naive_solver.
  - unfold copy_file in Ec. repeat (case_match; try congruence).
  - unfold copy_file in Ec. repeat (case_match; try congruence).
Qed.
Lemma rename_other a b i p d : p ≠ a → p ≠ b → current (rename_file a b i).1 p d ↔ current i p d.
Proof.
  intros Ha Hb. unfold rename_file. destruct (head_version i) as [v|] eqn:Hv; [|done]. cbn [fst].
  rewrite <- !occ_current.
  assert (occ (if state_has a (v_state v) then set_modified true (put_head_state (map (λ g, if decide (g = a) then b else g) <$> v_state v) v i)
               else put_head_state (map (λ g, if decide (g = a) then b else g) <$> v_state v) v i) p d
    = times (map (λ g, if decide (g = a) then b else g) <$> v_state v) p d) as ->.
  { rewrite <- (occ_put i v) by done. by destruct (state_has _ _). }
  rewrite (occ_head i v) by done. rewrite !times_lists. unfold lists. rewrite lookup_fmap. split.
  - intros (l & Hl & Hin). destruct (v_state v !! d) as [l0|]; [|done]. cbn [fmap option_fmap option_map] in Hl. injection Hl as <-.
    exists l0. split; [done|]. apply elem_of_list_In, in_map_iff in Hin as (g & Hg & Hin%elem_of_list_In). destruct (decide (g = a)); congruence.
  - intros (l & Hl & Hin). rewrite Hl. eexists. split; [done|]. apply elem_of_list_In, in_map_iff. exists p. split; [by rewrite decide_False|].
    by apply elem_of_list_In.
Qed.
Lemma add_state_file_other orc n mp c f i p d : p ≠ f → occ (add_state_file orc n mp c f i).1 p d = occ i p d.
Proof.
  intros Hp. unfold add_state_file. destruct (already_exists orc n i f c) as [dup|]; [|done].
  set (i1 := if decide (mp = "") then i else _). assert (∀ q e, occ i1 q e = occ i q e) as H1 by (intros q e; subst i1; by destruct (decide _)).
  clearbody i1. cbv zeta. destruct (head_version i1) as [v|] eqn:Hv; [|by cbn [fst]].
  set (i2 := match v_state v !! c with Some _ => i1 | None => _ end).
  assert (∀ q e, occ i2 q e = occ i q e) as H2.
  { intros q e. subst i2. destruct (v_state v !! c) eqn:Ec; [done|]. rewrite occ_put, times_insert_empty, <- (occ_head i1) by done. apply H1. }
  clearbody i2. destruct (is_update orc (S n) i2 f c) as [upd|]; [|by cbn [fst]].
  assert (∀ e, occ (if upd then match delete_file f i2 with (i', SOk) => (set_modified true i', SOk) | r => r end else (i2, SOk)).1 p e = occ i p e) as H3.
  { intros e. destruct upd; [|apply H2]. pose proof (delete_other f i2 p e Hp) as H. destruct (delete_file f i2) as [i' []]; cbn [fst] in *; rewrite ?occ_modified, H; apply H2. }
  destruct (if upd then _ else _) as [i3 []]; cbn [fst] in H3; [|apply H3..]. destruct dup; [apply H3|].
  destruct (head_version i3) as [w|] eqn:Hw; [|apply H3]. cbn [fst]. rewrite occ_modified, occ_put, times_append by done.
  rewrite decide_False by naive_solver. rewrite <- (occ_head i3), H3 by done. lia.
Qed.
Lemma add_state_files_other orc n mp c fs i p d : p ∉ fs → occ (add_state_files orc n mp c fs i).1 p d = occ i p d.
Proof.
  revert n i. induction fs as [|f fs IH]; intros n i Hp; [done|]. apply not_elem_of_cons in Hp as [Hf Hp]. cbn [add_state_files].
  pose proof (add_state_file_other orc n mp c f i p d Hf) as H. destruct (add_state_file orc n mp c f i) as [i' []]; cbn [fst] in *; [|done..].
  by rewrite IH.
Qed.
Lemma add_reader_other E orc data exts m o p d : p ∉ exts → occ (ob_inv (add_reader E orc data exts m o).1) p d = occ (ob_inv o) p d.
Proof.
  intros Hp. unfold add_reader. destruct (checksums _ _ _) as [cs|]; [|done]. unfold on_inv. cbn [ob_inv emit set_upd]. unfold add_file.
  destruct (assoc _ cs) as [c|]; [|done]. pose proof (add_state_files_other orc 0 m (to_lower c) exts (add_fixities m cs (ob_inv o)) p d Hp) as H.
  destruct (add_state_files _ _ _ _ _ _) as [i' st]. cbn [fst] in *. cbn [ob_inv set_inv]. rewrite H.
  destruct (add_fixities_frame m cs (ob_inv o)) as (F1 & _ & F3 & _). unfold occ. by rewrite F1, F3.
Qed.
Lemma state_paths_elem E files area ps p : state_paths E files area = Some ps → p ∈ ps → ∃ f, f ∈ files ∧ e_state_path E f area = Some p.
Proof.
  revert ps. induction files as [|f files IH]; intros ps H Hp; cbn [state_paths] in H.
  - injection H as <-. by apply elem_of_nil in Hp.
  - destruct (e_state_path E f area) as [q|] eqn:Eq; [|done]. destruct (state_paths E files area) as [qs|]; [|done]. injection H as <-.
    apply elem_of_cons in Hp as [->|Hp]; [exists f; split; [left|done]|]. destruct (IH _ eq_refl Hp) as (g & Hg & Hgp). exists g. split; [by right|done].
Qed.
Lemma build_names_elem E i files area ps m p : build_names E i files area = Some (ps, m) → p ∈ ps → ∃ f, f ∈ files ∧ e_state_path E f area = Some p.
Proof.
  unfold build_names. destruct files as [|f files]; [done|]. destruct (state_paths E (f :: files) area) as [qs|] eqn:Es; [|done].
  destruct (e_manifest_path E f area); [|done]. intros [= <- _]. by apply state_paths_elem.
Qed.
Lemma sop_local E orc op o p d : ¬ touches E op p → current (ob_inv (sop_step E orc op o).1) p d ↔ current (ob_inv o) p d.
Proof.
  intros Ht. destruct op as [data path area dedup|data files area|f c|a b c|a c]; cbn [sop_step touches] in *.
  - unfold ob_add. destruct (inv_writeable (ob_inv o)); [|done]. destruct (build_names E (ob_inv o) [path] area) as [[ps m]|] eqn:Hb; [|done].
    destruct (e_state_path E path area) as [np|] eqn:Hnp; [|done]. cbv zeta.
    assert (p ≠ np) as Hne by congruence.
    assert (p ∉ ps) as Hps.
    { intros Hin. destruct (build_names_elem _ _ _ _ _ _ _ Hb Hin) as (f & Hf%elem_of_list_singleton & H). subst. by rewrite Hnp in H. }
    assert (∀ orc', current (ob_inv (add_reader E orc' data ps m (set_upd (ob_upd o ++ [np]) o)).1) p d ↔ current (ob_inv o) p d) as Hr.
    { intros orc'. rewrite <- !occ_current. by rewrite add_reader_other. }
    destruct dedup; [|apply Hr]. destruct (e_hash E _ data) as [c|]; [|done]. destruct (already_exists _ _ _ _ _) as [[]|]; [done| |done].
    destruct (get_duplicates _ _); [apply Hr|]. unfold on_inv. cbn [ob_inv set_upd]. pose proof (copy_other np c (ob_inv o) p d Hne) as H.
    destruct (copy_file np c (ob_inv o)). cbn [fst] in *. cbn [ob_inv set_inv]. rewrite <- !occ_current. by rewrite H.
  - unfold ob_add_reader. destruct files as [|f fs]; [done|]. destruct (inv_writeable (ob_inv o)); [|done].
    destruct (build_names E (ob_inv o) (f :: fs) area) as [[ps m]|] eqn:Hb; [|done]. rewrite <- !occ_current. rewrite add_reader_other; [done|].
    intros Hin. apply Ht. by eapply build_names_elem.
  - unfold ob_delete. destruct (inv_writeable _); [|done]. destruct (already_exists _ _ _ _ _) as [[]|]; [|done..]. unfold on_inv.
    pose proof (delete_other f (ob_inv o) p d Ht) as H. destruct (delete_file f (ob_inv o)). cbn [fst] in *. cbn [ob_inv set_inv]. rewrite <- !occ_current. by rewrite H.
  - unfold ob_rename. destruct (inv_writeable _); [|done]. destruct (already_exists _ _ _ _ _) as [[]|]; [|done..]. unfold on_inv.
    pose proof (rename_other a b (ob_inv o) p d ltac:(tauto) ltac:(tauto)) as H. destruct (rename_file a b (ob_inv o)). done.
  - unfold ob_copy. destruct (inv_writeable _); [|done]. unfold on_inv. pose proof (copy_other a c (ob_inv o) p d Ht) as H.
    destruct (copy_file a c (ob_inv o)). cbn [fst] in *. cbn [ob_inv set_inv]. rewrite <- !occ_current. by rewrite H.
Qed.
