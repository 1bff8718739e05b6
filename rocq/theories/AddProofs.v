(** What AddFile does to the working version, in terms of InventorySpec. *)
From Coq Require Import Ascii.
From stdpp Require Import base list strings gmap.
From Coq Require Import ZArith Lia.
From Verif Require Import GoStr PathModel InventoryModel InventorySpec InventoryProofs ObjectModel ObjectProofs
  LookupProofs.

Lemma times_lists s p d : 0 < times s p d ↔ lists s p d.
Proof.
  unfold times, lists. destruct (s !! d) as [ps|]; simpl.
  - split.
    + intros H. exists ps. split; [done|].
      destruct (filter (λ q, q = p) ps) as [|q l] eqn:E; [simpl in H; lia|].
      assert (q ∈ filter (λ q, q = p) ps) as Hq by (rewrite E; left).
      apply elem_of_list_filter in Hq as [-> Hq]. done.
    + intros (qs & Heq & Hp). injection Heq as <-.
      assert (p ∈ filter (λ q, q = p) ps) as Hq by (by apply elem_of_list_filter).
      destruct (filter (λ q, q = p) ps); [by apply elem_of_nil in Hq|simpl; lia].
  - split; [lia|]. by intros (? & ? & ?).
Qed.
Lemma occ_current i p d : 0 < occ i p d ↔ current i p d.
Proof.
  unfold occ, current, recorded. destruct (inv_versions i !! inv_head i) as [v|] eqn:Hv; simpl.
  - rewrite times_lists. naive_solver.
  - split; [lia|naive_solver].
Qed.
Lemma occ_0 i p d : occ i p d = 0 ↔ ¬ current i p d.
Proof. rewrite <- occ_current. lia. Qed.

Lemma times_nodup s : (∀ d ps, s !! d = Some ps → NoDup ps) ↔ ∀ p d, times s p d <= 1.
Proof.
  split.
  - intros H p d. unfold times. destruct (s !! d) as [ps|] eqn:E; simpl; [|lia].
    specialize (H d ps E). clear E. induction H as [|q ps Hq Hps IH]; simpl; [lia|].
    rewrite filter_cons. destruct (decide (q = p)) as [->|]; [|done]. simpl.
    assert (filter (λ q, q = p) ps = []) as ->; [|simpl; lia].
    destruct (filter (λ q, q = p) ps) as [|r l] eqn:E; [done|].
    assert (r ∈ filter (λ q, q = p) ps) as Hr by (rewrite E; left).
    apply elem_of_list_filter in Hr as [-> Hr]. done.
  - intros H d ps E. assert (∀ p, length (filter (λ q, q = p) ps) <= 1) as H'.
    { intros p. specialize (H p d). unfold times in H. by rewrite E in H. }
    clear E H. induction ps as [|q ps IH]; constructor.
    + intros Hq. specialize (H' q). rewrite filter_cons, decide_True in H' by done. simpl in H'.
      assert (q ∈ filter (λ r, r = q) ps) as Hq' by (by apply elem_of_list_filter).
      destruct (filter (λ r, r = q) ps); [by apply elem_of_nil in Hq'|simpl in *; lia].
    + apply IH. intros p. specialize (H' p). rewrite filter_cons in H'.
      destruct (decide (q = p)); simpl in *; lia.
Qed.

Lemma times_append s d p q e :
  times (<[d := default [] (s !! d) ++ [p]]> s) q e
  = times s q e + (if decide (q = p ∧ e = d) then 1 else 0).
Proof.
  unfold times. destruct (decide (d = e)) as [->|Hne].
  - rewrite lookup_insert. simpl. rewrite filter_app, app_length. f_equal.
    rewrite filter_cons. destruct (decide (p = q)) as [->|].
    + by rewrite decide_True.
    + rewrite decide_False by naive_solver. done.
  - rewrite lookup_insert_ne by done. rewrite decide_False by naive_solver. lia.
Qed.
Lemma times_insert_empty s d q e : s !! d = None → times (<[d := []]> s) q e = times s q e.
Proof.
  intros H. unfold times. destruct (decide (d = e)) as [->|Hne].
  - by rewrite lookup_insert, H.
  - by rewrite lookup_insert_ne.
Qed.
Lemma times_filter_self s f d : times ((λ fs : list string, filter (λ g, g ≠ f) fs) <$> s) f d = 0.
Proof.
  destruct (decide (times ((λ fs : list string, filter (λ g, g ≠ f) fs) <$> s) f d = 0)) as [|H]; [done|].
  assert (0 < times ((λ fs : list string, filter (λ g, g ≠ f) fs) <$> s) f d) as H' by lia.
  apply times_lists, lists_filter in H'. naive_solver.
Qed.

Lemma occ_head i v p d : head_version i = Some v → occ i p d = times (v_state v) p d.
Proof. unfold head_version. intros H. unfold occ. by rewrite H. Qed.
Lemma occ_put i v s p d : head_version i = Some v → occ (put_head_state s v i) p d = times s p d.
Proof. intros H. by rewrite (occ_head _ (set_state s v)) by (by apply head_version_put). Qed.
Lemma occ_modified i p d b : occ (set_modified b i) p d = occ i p d.
Proof. done. Qed.

Lemma delete_file_occ f i v :
  head_version i = Some v →
  ∃ i', delete_file f i = (i', SOk) ∧ is_Some (head_version i') ∧
    (∀ p d, occ i' p d = if decide (p = f) then 0 else occ i p d) ∧
    (inv_modified i' = true ↔ inv_modified i = true ∨ ∃ d, current i f d) ∧
    inv_manifest i' = inv_manifest i ∧ inv_fixity i' = inv_fixity i.
Proof.
  intros Hv. destruct (delete_file_spec f i v Hv) as (i' & v' & H1 & H2 & H3 & H4 & H5 & H6 & H7 & H8 & H9 & H10).
  exists i'. split; [done|]. split; [eauto|]. split.
  - intros p d. rewrite (occ_head i' v'), (occ_head i v) by done. case_decide as Hd.
    + subst. destruct (times (v_state v') f d) eqn:E; [done|].
      assert (0 < times (v_state v') f d) as Hp by lia. apply times_lists, H3 in Hp. naive_solver.
    + by apply H4.
  - split; [|done]. rewrite H6. setoid_rewrite current_state. naive_solver.
Qed.

Lemma recorded_occ i ver p d m :
  head_is i m → m ≠ 0%N → recorded i ver p d → (ver = inv_head i ∧ 0 < occ i p d) ∨ ver ≠ inv_head i.
Proof.
  intros _ _ Hr. destruct (decide (ver = inv_head i)) as [->|]; [left|by right].
  split; [done|]. by apply occ_current.
Qed.

(** Two inventories that record the same things. *)
Definition same_records (i i' : inventory) : Prop :=
  inv_padding i' = inv_padding i ∧ inv_head i' = inv_head i ∧ ∀ ver p d, recorded i' ver p d ↔ recorded i ver p d.
Lemma same_newest i i' p d : same_records i i' → newest_record i' p d ↔ newest_record i p d.
Proof.
  intros (Hp & _ & Hr). unfold newest_record. rewrite Hp. by setoid_rewrite Hr.
Qed.

Lemma newest_single_in_head i p m :
  head_is i m → single i p → (∃ d, current i p d) → newest_single i p.
Proof.
  intros Hh Hs Hc d1 d2 H1 H2. apply Hs; eapply newest_current; eauto.
Qed.

Lemma newest_recorded i p d : newest_record i p d → ∃ ver, recorded i ver p d.
Proof. intros (k & H & _). eauto. Qed.

(** The body of the loop of AddFile. *)
Lemma add_state_file_spec orc n mp d f i m :
  oracle_ok orc → head_is i m → m ≠ 0%N → ((inv_padding i <= 0)%Z ∨ ∀ ver e, ¬ recorded i ver f e) → d ≠ "" → mp ≠ "" →
  newest_single i f →
  ∃ i', add_state_file orc n mp d f i = (i', SOk) ∧
    inv_manifest i' = <[d := default [] (inv_manifest i !! d) ++ [mp]]> (inv_manifest i) ∧
    inv_fixity i' = inv_fixity i ∧
    (∀ p e, p ≠ f → occ i' p e = occ i p e) ∧
    ((newest_record i f d ∧ (∀ e, occ i' f e = occ i f e) ∧ inv_modified i' = inv_modified i) ∨
     (¬ newest_record i f d ∧ (∀ e, occ i' f e = if decide (e = d) then 1 else 0) ∧ inv_modified i' = true)).
Proof.
  intros Ho Hh Hm Hp Hd Hmp Hns.
  pose proof Hh as (Hhead & Hsome & Hnames).
  destruct (Hsome Hm) as [v Hv]. fold (head_version i) in Hv.
  set (i1 := set_manifest (<[d:=default [] (inv_manifest i !! d) ++ [mp]]> (inv_manifest i)) i).
  assert (head_version i1 = Some v) as Hv1 by done.
  set (i2 := match v_state v !! d with Some _ => i1 | None => put_head_state (<[d:=[]]> (v_state v)) v i1 end).
  assert (∃ v2, head_version i2 = Some v2) as [v2 Hv2].
  { subst i2. destruct (v_state v !! d); [eauto|]. eexists. by apply head_version_put. }
  assert (∀ p e, occ i2 p e = occ i p e) as Hocc2.
  { intros p e. subst i2. destruct (v_state v !! d) eqn:E; [done|].
    rewrite occ_put by done. rewrite (occ_head i v) by done. by apply times_insert_empty. }
  assert (same_records i i2) as Hsame.
  { subst i2. destruct (v_state v !! d) eqn:E; [done|]. split; [done|]. split; [done|].
    intros ver p e. destruct (decide (ver = inv_head i)) as [->|Hne].
    - transitivity (current (put_head_state (<[d:=[]]> (v_state v)) v i1) p e); [done|].
      transitivity (current i p e); [|done]. rewrite <- !occ_current.
      rewrite occ_put by done. rewrite (occ_head i v) by done. by rewrite times_insert_empty.
    - unfold recorded. simpl. by rewrite lookup_insert_ne. }
  assert (head_is i2 m) as Hh2.
  { apply (ext_rel_head_is i1); [|done]. subst i2. destruct (v_state v !! d); [done|]. by apply ext_rel_put. }
  assert (inv_padding i2 = inv_padding i) as Hp2 by apply Hsame.
  assert ((inv_padding i2 <= 0)%Z ∨ ∀ ver e, ¬ recorded i2 ver f e) as Hp2'.
  { rewrite Hp2. destruct Hp as [Hp|Hp]; [by left|right]. intros ver e Hr. apply Hsame in Hr. by apply Hp in Hr. }
  assert (inv_manifest i2 = inv_manifest i1) as Hman2 by (subst i2; by destruct (v_state v !! d)).
  assert (inv_fixity i2 = inv_fixity i) as Hfix2 by (subst i2; by destruct (v_state v !! d)).
  assert (inv_modified i2 = inv_modified i) as Hmod2 by (subst i2; by destruct (v_state v !! d)).
  assert (already_exists orc n i f d = inl (bool_decide (last_digest orc n i f = inl (Some d))) ∧
          (last_digest orc n i f = inl (Some d) ↔ newest_record i f d)) as [Hae Hae2].
  { unfold already_exists. rewrite decide_False by done.
    destruct (last_digest_good orc n i f m Ho Hh Hp) as [[H1 H2]|(e & H1 & H2)]; rewrite H1.
    - split; [done|]. split; [done|]. intros (ver & Hr)%newest_recorded. by apply H2 in Hr.
    - split; [f_equal; apply bool_decide_ext; naive_solver|]. split; [naive_solver|].
      intros Hn. do 2 f_equal. by apply Hns. }
  assert (∃ u, is_update orc (S n) i2 f d = inl u ∧
            ((u = true ∧ last_digest orc n i f ≠ inl (Some d)) ∨
             (u = false ∧ (last_digest orc n i f = inl (Some d) ∨ ∀ ver e, ¬ recorded i ver f e)))) as (u & Hup & Hu).
  { unfold is_update. rewrite decide_False by done.
    destruct (last_digest_good orc (S n) i2 f m Ho Hh2 Hp2') as [[H1 H2]|(e & H1 & H2)]; rewrite H1.
    - exists false. split; [done|]. right. split; [done|]. right. intros ver e Hr. apply (H2 ver e). by apply Hsame.
    - rewrite same_newest in H2 by done. exists (negb (bool_decide (e = d))). split; [done|].
      destruct (bool_decide_reflect (e = d)) as [He|He]; simpl.
      + right. split; [done|]. left. apply Hae2. by subst.
      + left. split; [done|]. rewrite Hae2. intros Hn. by apply He, Hns. }
  unfold add_state_file. rewrite Hae. rewrite decide_False by done. fold i1. rewrite Hv1. fold i2. rewrite Hup.
  case_bool_decide as Hex.
  - assert (u = false) as -> by naive_solver. exists i2. split; [done|].
    split; [by rewrite Hman2|]. split; [done|]. split; [done|]. left. apply Hae2 in Hex. done.
  - assert (¬ newest_record i f d) as Hnn by naive_solver.
    destruct u.
    + destruct (delete_file_occ f i2 v2 Hv2) as (i3 & -> & [v3 Hv3] & Hocc3 & _ & Hman3 & Hfix3).
      change (head_version (set_modified true i3)) with (head_version i3). rewrite Hv3.
      eexists. split; [done|]. split; [simpl; by rewrite Hman3, Hman2|]. split; [simpl; by rewrite Hfix3|].
      assert (∀ p e, occ (set_modified true
          (put_head_state (<[d:=default [] (v_state v3 !! d) ++ [f]]> (v_state v3)) v3 (set_modified true i3))) p e
          = (if decide (p = f) then 0 else occ i p e) + if decide (p = f ∧ e = d) then 1 else 0) as Hocc.
      { intros p e. rewrite occ_modified, occ_put by done. rewrite times_append.
        rewrite <- (occ_head i3) by done. by rewrite Hocc3, Hocc2. }
      split.
      { intros p e Hne. rewrite Hocc, !decide_False by naive_solver. lia. }
      right. split; [done|]. split; [|done].
      intros e. rewrite Hocc, decide_True by done. destruct (decide (e = d)).
      * by rewrite decide_True.
      * rewrite decide_False by naive_solver. done.
    + rewrite Hv2.
      assert (∀ e, occ i f e = 0) as Hz.
      { intros e. apply occ_0. intros Hc. destruct Hu as [[? ?]|[_ [?|Hu]]]; [done..|].
        by apply (Hu (inv_head i) e). }
      eexists. split; [done|]. split; [simpl; by rewrite Hman2|]. split; [done|].
      assert (∀ p e, occ (set_modified true
          (put_head_state (<[d:=default [] (v_state v2 !! d) ++ [f]]> (v_state v2)) v2 i2)) p e
          = occ i p e + if decide (p = f ∧ e = d) then 1 else 0) as Hocc.
      { intros p e. rewrite occ_modified, occ_put by done. rewrite times_append.
        rewrite <- (occ_head i2) by done. by rewrite Hocc2. }
      split.
      { intros p e Hne. rewrite Hocc, !decide_False by naive_solver. lia. }
      right. split; [done|]. split; [|done].
      intros e. rewrite Hocc, Hz. destruct (decide (e = d)).
      * by rewrite decide_True.
      * rewrite decide_False by naive_solver. done.
Qed.

(** Fixity entries do not touch versions or manifest. *)
Lemma add_fixities_frame p cs i :
  inv_versions (add_fixities p cs i) = inv_versions i ∧ inv_manifest (add_fixities p cs i) = inv_manifest i ∧
  inv_head (add_fixities p cs i) = inv_head i ∧ inv_padding (add_fixities p cs i) = inv_padding i ∧
  inv_alg (add_fixities p cs i) = inv_alg i.
Proof.
  revert i; induction cs as [|[a fd] cs IH]; intros i; [done|]. simpl.
  destruct (decide (a = inv_alg i)); [apply IH|].
  destruct (IH (add_fixity a fd p i)) as (-> & -> & -> & -> & ->).
  unfold add_fixity. by destruct (decide _).
Qed.

Lemma recorded_versions i i' ver p d :
  inv_versions i' = inv_versions i → recorded i' ver p d ↔ recorded i ver p d.
Proof. intros H. unfold recorded. by rewrite H. Qed.

(** AddFile for one logical path. *)
Lemma add_file_single orc f mp cs d i m :
  oracle_ok orc → head_is i m → m ≠ 0%N → ((inv_padding i <= 0)%Z ∨ ∀ ver e, ¬ recorded i ver f e) → d ≠ "" → mp ≠ "" →
  newest_single i f →
  assoc (inv_alg i) cs = Some d → to_lower d = d →
  ∃ i', add_file orc [f] mp cs i = (i', SOk) ∧
    inv_manifest i' = <[d := default [] (inv_manifest i !! d) ++ [mp]]> (inv_manifest i) ∧
    inv_fixity i' = inv_fixity (add_fixities mp cs i) ∧
    (∀ p e, p ≠ f → occ i' p e = occ i p e) ∧
    ((newest_record i f d ∧ (∀ e, occ i' f e = occ i f e) ∧
        inv_modified i' = inv_modified (add_fixities mp cs i)) ∨
     (¬ newest_record i f d ∧ (∀ e, occ i' f e = if decide (e = d) then 1 else 0) ∧ inv_modified i' = true)).
Proof.
  intros Ho Hh Hm Hp Hd Hmp Hns Has Hlow. unfold add_file. rewrite Has, Hlow. simpl.
  destruct (add_fixities_frame mp cs i) as (F1 & F2 & F3 & F4 & _).
  set (i0 := add_fixities mp cs i) in *.
  assert (∀ p e, newest_record i0 p e ↔ newest_record i p e) as Hnr.
  { intros p e. apply same_newest. split; [done|]. split; [done|]. intros. by apply recorded_versions. }
  assert (∀ p e, occ i0 p e = occ i p e) as Hoc.
  { intros p e. unfold occ. by rewrite F1, F3. }
  destruct (add_state_file_spec orc 0 mp d f i0 m) as (i' & H1 & H2 & H3 & H4 & H5); auto.
  { unfold head_is. by rewrite F1, F3, F4. }
  { rewrite F4. destruct Hp as [Hp|Hp]; [by left|right]. intros ver e Hr.
    apply (recorded_versions i) in Hr; [by apply Hp in Hr|done]. }
  { intros d1 d2. rewrite !Hnr. apply Hns. }
  rewrite H1. exists i'. split; [done|]. rewrite H2, F2. split; [done|]. split; [done|].
  split. { intros p e Hne. rewrite H4 by done. apply Hoc. }
  rewrite <- Hnr. destruct H5 as [(a & b & c)|(a & b & c)]; [left|right]; (split; [done|]); split; try done.
  intros e. rewrite b. apply Hoc.
Qed.

(** The same at the level of the handle: AddFile / AddData. *)
Lemma assoc_checksums E algs data cs a :
  checksums E algs data = Some cs → a ∈ algs → assoc a cs = e_hash E a data.
Proof.
  revert cs; induction algs as [|b algs IH]; intros cs H Ha; [by apply elem_of_nil in Ha|]. simpl in H.
  destruct (e_hash E b data) as [d|] eqn:Hd; [|done]. destruct (checksums E algs data) as [r|] eqn:Hr; [|done].
  injection H as <-. simpl. destruct (decide (b = a)) as [->|Hne]; [done|].
  apply elem_of_cons in Ha as [->|Ha]; [done|]. by apply IH.
Qed.

Lemma oracle_ok_shift orc : oracle_ok orc → oracle_ok (shift_oracle orc).
Proof. intros [H1 H2]. split; intros; [apply H1|apply H2]. Qed.

Lemma already_exists_good orc n i f d m :
  oracle_ok orc → head_is i m → ((inv_padding i <= 0)%Z ∨ ∀ ver e, ¬ recorded i ver f e) → d ≠ "" → newest_single i f →
  ∃ b, already_exists orc n i f d = inl b ∧ (b = true ↔ newest_record i f d).
Proof.
  intros Ho Hh Hp Hd Hns. unfold already_exists. rewrite decide_False by done.
  destruct (last_digest_good orc n i f m Ho Hh Hp) as [[-> H2]|(e & -> & H2)].
  - exists false. split; [done|]. split; [done|]. intros (ver & Hr)%newest_recorded. by apply H2 in Hr.
  - exists (bool_decide (e = d)). split; [done|]. rewrite bool_decide_eq_true. split; [by intros <-|].
    intros Hn. by apply Hns.
Qed.

Lemma add_reader_single E orc data np mp o d m :
  oracle_ok orc → head_is (ob_inv o) m → m ≠ 0%N →
  ((inv_padding (ob_inv o) <= 0)%Z ∨ ∀ ver e, ¬ recorded (ob_inv o) ver np e) →
  newest_single (ob_inv o) np → mp ≠ "" →
  e_hash E (inv_alg (ob_inv o)) data = Some d → d ≠ "" → to_lower d = d →
  (∀ a, a ∈ inv_fixalgs (ob_inv o) → is_Some (e_hash E a data)) →
  ∃ o', add_reader E orc data [np] mp o = (o', SOk) ∧
    inv_manifest (ob_inv o') = <[d := default [] (inv_manifest (ob_inv o) !! d) ++ [mp]]> (inv_manifest (ob_inv o)) ∧
    (∀ p e, p ≠ np → occ (ob_inv o') p e = occ (ob_inv o) p e) ∧
    ob_trace o' = ob_trace o ++ write_file mp data ∧
    ((newest_record (ob_inv o) np d ∧ ∀ e, occ (ob_inv o') np e = occ (ob_inv o) np e) ∨
     (¬ newest_record (ob_inv o) np d ∧ (∀ e, occ (ob_inv o') np e = if decide (e = d) then 1 else 0) ∧
      inv_modified (ob_inv o') = true)).
Proof.
  intros Ho Hh Hm Hp Hns Hmp Hd Hne Hlow Hfix. unfold add_reader.
  set (algs := remove_dups _).
  assert (∃ cs, checksums E algs data = Some cs) as [cs Hcs].
  { assert (∀ a, a ∈ algs → is_Some (e_hash E a data)) as Hall.
    { intros a Ha. subst algs. apply elem_of_remove_dups, elem_of_app in Ha as [Ha|Ha]; [auto|].
      apply elem_of_list_singleton in Ha as ->. eauto. }
    clearbody algs. induction algs as [|a l IH]; [by exists []|]. simpl.
    destruct (Hall a ltac:(left)) as [x ->]. destruct IH as [cs ->]; [|eauto].
    intros b Hb. apply Hall. by right. }
  rewrite Hcs. unfold on_inv. simpl.
  destruct (add_file_single orc np mp cs d (ob_inv o) m) as (i' & H1 & H2 & H3 & H4 & H5); auto.
  { rewrite (assoc_checksums E algs data cs); auto. subst algs. apply elem_of_remove_dups, elem_of_app. right.
    by apply elem_of_list_singleton. }
  rewrite H1. eexists. split; [done|]. simpl. split; [done|]. split; [done|].
  split; [by rewrite <- app_assoc|]. destruct H5 as [(a & b & c)|(a & b & c)]; [left|right]; auto.
Qed.

Lemma build_names_one E i path area ps m :
  build_names E i [path] area = Some (ps, m) → ∃ np, e_state_path E path area = Some np ∧ ps = [np].
Proof.
  unfold build_names. simpl. destruct (e_state_path E path area) as [np|]; [|done].
  destruct (e_manifest_path E path area); [|done]. intros H. injection H as <- _. eauto.
Qed.

(** All cases of adding one file. *)
Lemma ob_add_spec E orc data path area dedup o np d m :
  oracle_ok orc → head_is (ob_inv o) m → m ≠ 0%N → inv_writeable (ob_inv o) = true →
  e_state_path E path area = Some np → is_Some (e_manifest_path E path area) →
  ((inv_padding (ob_inv o) <= 0)%Z ∨ ∀ ver e, ¬ recorded (ob_inv o) ver np e) →
  newest_single (ob_inv o) np →
  e_hash E (inv_alg (ob_inv o)) data = Some d → d ≠ "" → to_lower d = d →
  (∀ a, a ∈ inv_fixalgs (ob_inv o) → is_Some (e_hash E a data)) →
  ∃ o', ob_add E orc data path area dedup o = (o', SOk) ∧
    (∀ p e, p ≠ np → occ (ob_inv o') p e = occ (ob_inv o) p e) ∧
    np ∈ ob_upd o' ∧
    ((newest_record (ob_inv o) np d ∧ (∀ e, occ (ob_inv o') np e = occ (ob_inv o) np e) ∧
        (dedup = true → ob_inv o' = ob_inv o ∧ ob_trace o' = ob_trace o)) ∨
     (¬ newest_record (ob_inv o) np d ∧ dedup = true ∧ get_duplicates (ob_inv o) d ≠ [] ∧
        (∀ e, occ (ob_inv o') np e = occ (ob_inv o) np e + if decide (e = d) then 1 else 0) ∧
        ob_trace o' = ob_trace o ∧ inv_modified (ob_inv o') = true) ∨
     (¬ newest_record (ob_inv o) np d ∧ (dedup = true → get_duplicates (ob_inv o) d = []) ∧
        (∀ e, occ (ob_inv o') np e = if decide (e = d) then 1 else 0) ∧ inv_modified (ob_inv o') = true)).
Proof.
  intros Ho Hh Hm Hw Hsp [mp' Hmp] Hp Hns Hd Hne Hlow Hfix. unfold ob_add. rewrite Hw.
  assert (build_names E (ob_inv o) [path] area = Some ([np], manifest_name (ob_inv o) mp')) as ->.
  { unfold build_names. simpl. by rewrite Hsp, Hmp. }
  rewrite Hsp. set (o1 := set_upd _ o).
  assert (np ∈ ob_upd o1) as Hupd by (apply elem_of_app; right; by apply elem_of_list_singleton).
  destruct (add_reader_single E (shift_oracle orc) data np (manifest_name (ob_inv o) mp') o1 d m)
    as (o2 & R1 & R2 & R3 & R4 & R5); auto using oracle_ok_shift, manifest_name_nonempty.
  assert (np ∈ ob_upd o2) as Hupd2.
  { unfold add_reader in R1. destruct (checksums _ _ _); [|done]. unfold on_inv in R1.
    destruct (add_file _ _ _ _ _) as [i2 st]. injection R1 as <- _. simpl.
    apply elem_of_app; right; by apply elem_of_list_singleton. }
  destruct dedup.
  - rewrite Hd. destruct (already_exists_good orc 0 (ob_inv o) np d m) as (b & Hb1 & Hb2); auto.
    rewrite Hb1. destruct b.
    + exists o1. split; [done|]. split; [done|]. split; [done|]. left. split; [by apply Hb2|]. done.
    + assert (¬ newest_record (ob_inv o) np d) as Hnn by (rewrite <- Hb2; done).
      destruct (get_duplicates (ob_inv o) d) as [|q qs] eqn:Hdup.
      * exists o2. split; [done|]. split; [done|]. split; [done|]. right; right.
        destruct R5 as [[R5 R6]|(R5 & R6 & R7)]; [done|]. done.
      * unfold on_inv. change (ob_inv o1) with (ob_inv o).
        unfold get_duplicates in Hdup. rewrite decide_False in Hdup by done.
        destruct (inv_manifest (ob_inv o) !! d) as [ps|] eqn:Hman; [|done].
        pose proof Hh as (_ & Hs & _). destruct (Hs Hm) as [v Hv]. fold (head_version (ob_inv o)) in Hv.
        assert (∀ e, e = d → ¬ current (ob_inv o) np e) as Hnc.
        { intros e -> Hc. apply Hnn. by eapply current_newest. }
        unfold copy_file. rewrite Hman, Hv.
        rewrite decide_False.
        2:{ intros Hin. apply (Hnc d); [done|]. apply current_state. exists v. split; [done|].
            destruct (v_state v !! d) as [l|] eqn:El; simpl in Hin; [|by apply elem_of_nil in Hin]. by exists l. }
        eexists. split; [done|]. simpl.
        assert (∀ p e, occ (set_modified true
            (put_head_state (<[d:=default [] (v_state v !! d) ++ [np]]> (v_state v)) v (ob_inv o))) p e
            = occ (ob_inv o) p e + if decide (p = np ∧ e = d) then 1 else 0) as Hocc.
        { intros p e. rewrite occ_modified, occ_put by done. by rewrite times_append, (occ_head (ob_inv o) v). }
        split. { intros p e Hpn. rewrite Hocc, decide_False by naive_solver. lia. }
        split; [done|]. right; left. repeat split; auto; try done.
        intros e. rewrite Hocc. destruct (decide (e = d)); [by rewrite decide_True|].
        by rewrite decide_False by naive_solver.
  - exists o2. split; [done|]. split; [done|]. split; [done|]. destruct R5 as [[R5 R6]|(R5 & R6 & R7)].
    + left. split; [done|]. split; [|done]. done.
    + right; right. done.
Qed.
