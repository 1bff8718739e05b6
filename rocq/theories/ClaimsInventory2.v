(** Proofs of the inventory properties C08 - C14. *)
From Coq Require Import Ascii.
From stdpp Require Import base list strings gmap.
From Coq Require Import ZArith Lia.
From Verif Require Import GoStr PathModel InventoryModel InventorySpec InventoryProofs ObjectModel ObjectSpec ObjectProofs
  LookupProofs AddProofs RunProofs ClaimsInventory.

(** ** C08 *)
Lemma add_present E orc data path area dedup o np d :
  oracle_ok orc → addable E o data path area np d →
  (inv_padding (ob_inv o) <= 0)%Z ∨ (∀ ver e, ¬ recorded (ob_inv o) ver np e) →
  newest_single (ob_inv o) np →
  (newest_record (ob_inv o) np d → ∃ e, current (ob_inv o) np e) →
  ∃ o', ob_add E orc data path area dedup o = (o', SOk) ∧
    current (ob_inv o') np d ∧
    (∀ p e, p ≠ np → occ (ob_inv o') p e = occ (ob_inv o) p e).
Proof.
  intros Ho [ad_head0 ad_started0 ad_write0 ad_state0 ad_man0 ad_hash0 ad_ne0 ad_low0 ad_fix0] Hp Hns Hr. destruct (head_newest_nonzero _ ad_head0 ad_started0) as (m & Hh & Hm).
  destruct (ob_add_spec E orc data path area dedup o np d m) as (o' & H1 & H2 & _ & H3); auto.
  exists o'. split; [done|]. split; [|done]. apply occ_current.
  destruct H3 as [(Hn & Hocc & _)|[(Hn & _ & _ & Hocc & _)|(Hn & _ & Hocc & _)]]; rewrite Hocc.
  - apply occ_current. eapply newest_current; eauto.
  - rewrite decide_True by done. lia.
  - rewrite decide_True by done. lia.
Qed.

Lemma add_lost E orc data path area dedup o np d :
  oracle_ok orc → addable E o data path area np d → (inv_padding (ob_inv o) <= 0)%Z →
  newest_single (ob_inv o) np → newest_record (ob_inv o) np d → (∀ e, ¬ current (ob_inv o) np e) →
  ∃ o', ob_add E orc data path area dedup o = (o', SOk) ∧ ∀ e, ¬ current (ob_inv o') np e.
Proof.
  intros Ho [ad_head0 ad_started0 ad_write0 ad_state0 ad_man0 ad_hash0 ad_ne0 ad_low0 ad_fix0] Hp Hns Hr Hc. destruct (head_newest_nonzero _ ad_head0 ad_started0) as (m & Hh & Hm).
  destruct (ob_add_spec E orc data path area dedup o np d m) as (o' & H1 & H2 & _ & H3); auto.
  exists o'. split; [done|]. intros e. apply occ_0.
  destruct H3 as [(Hn & Hocc & _)|[(Hn & _)|(Hn & _)]]; [|done..]. rewrite Hocc. by apply occ_0.
Qed.

(** ** C09 *)
Definition uniq_head (i : inventory) : Prop := (∀ p, single i p) ∧ ∀ p e, occ i p e <= 1.
Lemma uniq_head_paths i v : head_version i = Some v → uniq_head i ↔ unique_paths (v_state v).
Proof.
  intros Hv. unfold uniq_head, unique_paths. rewrite times_nodup. split.
  - intros [H1 H2]. split.
    + intros p d1 d2 L1 L2. apply (H1 p); apply current_state; eauto.
    + intros p d. rewrite <- (occ_head i v) by done. apply H2.
  - intros [H1 H2]. split.
    + intros p d1 d2 C1 C2. apply occ_current in C1, C2. rewrite (occ_head i v) in C1, C2 by done.
      apply times_lists in C1, C2. eauto.
    + intros p e. rewrite (occ_head i v) by done. apply H2.
Qed.

Definition inv09 (i : inventory) : Prop :=
  ∃ m, head_is i m ∧ (inv_writeable i = true → m ≠ 0%N) ∧ (inv_padding i <= 0)%Z ∧
       ∀ ver v, inv_versions i !! ver = Some v → unique_paths (v_state v).

Lemma inv09_head i : inv09 i → uniq_head i.
Proof.
  intros (m & Hh & Hw & Hp & Hu). destruct (head_version i) as [v|] eqn:Hv.
  - apply (uniq_head_paths i v); [done|]. eapply Hu, Hv.
  - split.
    + intros p d1 d2 (v & Hv' & _). unfold head_version in Hv. congruence.
    + intros p e. unfold occ. unfold head_version in Hv. rewrite Hv. lia.
Qed.
Lemma inv09_ext i i' : ext_rel i i' → uniq_head i' → inv09 i → inv09 i'.
Proof.
  intros He Hu (m & Hh & Hw & Hp & Hall). exists m. rewrite (er_wr _ _ He), (er_pad _ _ He).
  split; [by eapply ext_rel_head_is|]. split; [done|]. split; [done|]. intros ver v Hv.
  destruct (decide (ver = inv_head i)) as [->|Hne].
  - apply (uniq_head_paths i' v); [|done]. unfold head_version. by rewrite (er_head _ _ He).
  - rewrite (er_vers _ _ He) in Hv by done. by eapply Hall.
Qed.
Lemma inv09_newest i p : inv09 i → newest_single i p.
Proof.
  intros (m & Hh & Hw & Hp & Hall) d1 d2 (k1 & R1 & M1) (k2 & R2 & M2).
  assert (k1 = k2) as -> by (pose proof (M1 _ _ R2); pose proof (M2 _ _ R1); lia).
  destruct R1 as (v & Hv & L1), R2 as (w & Hw' & L2). rewrite Hv in Hw'. injection Hw' as <-.
  destruct (Hall _ _ Hv) as [Hu _]. eauto.
Qed.

Lemma inv09_delete f i : inv09 i → inv09 (delete_file f i).1.
Proof.
  intros H. pose proof (inv09_head i H) as [H1 H2]. revert H. apply inv09_ext; [apply ext_rel_delete|].
  destruct (head_version i) as [v|] eqn:Hv.
  - destruct (delete_file_occ f i v Hv) as (i' & -> & _ & Hocc & _). simpl. split.
    + intros p d1 d2 C1 C2. apply occ_current in C1, C2. rewrite Hocc in C1, C2.
      destruct (decide (p = f)); [lia|]. apply (H1 p); by apply occ_current.
    + intros p e. rewrite Hocc. destruct (decide (p = f)); [lia|]. apply H2.
  - unfold delete_file. rewrite Hv. done.
Qed.
Lemma inv09_delete_all fs i : inv09 i → inv09 (delete_all fs i).1.
Proof.
  revert i; induction fs as [|f fs IH]; intros i H; [done|]. simpl.
  pose proof (inv09_delete f i H). destruct (delete_file f i) as [i' [| |]]; simpl in *; auto.
Qed.
Lemma inv09_rename a b i : (a = b ∨ ∀ e, ¬ current i b e) → inv09 i → inv09 (rename_file a b i).1.
Proof.
  intros Hab H. pose proof (inv09_head i H) as [H1 H2]. revert H. apply inv09_ext; [apply ext_rel_rename|].
  destruct (head_version i) as [v|] eqn:Hv; [|unfold rename_file; by rewrite Hv].
  destruct (decide (a = b)) as [->|Hne].
  - assert (∀ p d, occ (rename_file b b i).1 p d = occ i p d) as Hocc.
    { intros p d. unfold rename_file. rewrite Hv. simpl.
      assert (∀ l : list string, map (λ g, if decide (g = b) then b else g) l = l) as Hid.
      { induction l as [|x l IH]; [done|]. simpl. rewrite IH. by destruct (decide (x = b)) as [->|]. }
      transitivity (occ (put_head_state (map (λ g, if decide (g = b) then b else g) <$> v_state v) v i) p d).
      { by destruct (state_has b (v_state v)). }
      rewrite occ_put, (occ_head i v) by done. f_equal. apply map_eq. intros e. rewrite lookup_fmap.
      destruct (v_state v !! e); simpl; [by rewrite Hid|done]. }
    split.
    + intros p d1 d2 C1 C2. apply occ_current in C1, C2. rewrite Hocc in C1, C2. apply (H1 p); by apply occ_current.
    + intros p e. by rewrite Hocc.
  - destruct Hab as [|Hb]; [done|].
    destruct (rename_file_occ a b i v Hv Hne Hb) as (i' & -> & Hocc & _). simpl. split.
    + intros p d1 d2 C1 C2. apply occ_current in C1, C2. rewrite Hocc in C1, C2.
      destruct (decide (p = b)); [apply (H1 a); by apply occ_current|].
      destruct (decide (p = a)); [lia|]. apply (H1 p); by apply occ_current.
    + intros p e. rewrite Hocc. destruct (decide (p = b)); [done|]. destruct (decide (p = a)); [lia|done].
Qed.
Lemma copy_file_occ f d i i' :
  copy_file f d i = (i', SOk) →
  (∀ p e, occ i' p e = if decide (p = f ∧ e = d ∧ occ i f d = 0) then 1 else occ i p e).
Proof.
  intros H p e. unfold copy_file in H. destruct (inv_manifest i !! d) as [mps|]; [|done].
  destruct (head_version i) as [v|] eqn:Hv; [|done].
  destruct (decide (f ∈ default [] (v_state v !! d))) as [Hin|Hin]; injection H as <-.
  - rewrite decide_False; [done|]. intros (-> & -> & Ho). revert Ho. rewrite (occ_head i v) by done.
    assert (0 < times (v_state v) f d); [|lia]. apply times_lists.
    destruct (v_state v !! d) as [l|] eqn:El; simpl in Hin; [|by apply elem_of_nil in Hin]. by exists l.
  - rewrite occ_modified, occ_put, times_append, <- (occ_head i v) by done.
    assert (occ i f d = 0) as Hz.
    { rewrite (occ_head i v) by done. destruct (times (v_state v) f d) eqn:Et; [done|].
      assert (0 < times (v_state v) f d) as Hlt by lia. apply times_lists in Hlt as (l & El & Hl).
      by rewrite El in Hin. }
    destruct (decide (p = f ∧ e = d)) as [[-> ->]|Hne].
    + rewrite decide_True by done. rewrite Hz. done.
    + rewrite decide_False by naive_solver. lia.
Qed.
Lemma inv09_copy f d i : (∀ e, current i f e → e = d) → inv09 i → inv09 (copy_file f d i).1.
Proof.
  intros Hd H. pose proof (inv09_head i H) as [H1 H2]. revert H. apply inv09_ext; [apply ext_rel_copy|].
  destruct (copy_file f d i) as [i' [|s|]] eqn:Hc; simpl.
  2,3: unfold copy_file in Hc; destruct (inv_manifest i !! d); [|injection Hc as <-; done];
    destruct (head_version i); [|injection Hc as <-; done]; by destruct (decide _).
  pose proof (copy_file_occ f d i i' Hc) as Hocc. split.
  - intros p d1 d2 C1 C2. apply occ_current in C1, C2. rewrite Hocc in C1, C2.
    destruct (decide (p = f)) as [->|Hne].
    + destruct (decide (f = f ∧ d1 = d ∧ occ i f d = 0)) as [(_ & -> & _)|N1];
        destruct (decide (f = f ∧ d2 = d ∧ occ i f d = 0)) as [(_ & -> & _)|N2]; try done.
      * symmetry. apply Hd. by apply occ_current.
      * apply Hd. by apply occ_current.
      * apply occ_current in C1, C2. by eapply H1.
    + rewrite decide_False in C1 by naive_solver. rewrite decide_False in C2 by naive_solver.
      apply (H1 p); by apply occ_current.
  - intros p e. rewrite Hocc. destruct (decide _); [lia|done].
Qed.
Lemma inv09_add_state_files orc n m d fs i :
  oracle_ok orc → d ≠ "" → m ≠ "" → inv_writeable i = true → inv09 i → inv09 (add_state_files orc n m d fs i).1.
Proof.
  intros Ho Hd Hm. revert n i. induction fs as [|f fs IH]; intros n i Hw H; [done|]. simpl.
  pose proof (inv09_newest i f H) as Hns. pose proof (inv09_head i H) as [H1 H2].
  pose proof H as (k & Hh & Hk & Hp & _).
  pose proof (ext_rel_add_state_file orc n m d f i) as He.
  destruct (add_state_file_spec orc n m d f i k) as (i' & Heq & _ & _ & Hocc & Hf); auto.
  rewrite Heq in *. simpl in He. apply IH; [by rewrite (er_wr _ _ He)|]. revert H. apply inv09_ext; [done|].
  split.
  - intros p d1 d2 C1 C2. apply occ_current in C1, C2. destruct (decide (p = f)) as [->|Hne].
    + destruct Hf as [(_ & Hf & _)|(_ & Hf & _)]; rewrite Hf in C1, C2.
      * apply (H1 f); by apply occ_current.
      * destruct (decide (d1 = d)), (decide (d2 = d)); [congruence|lia..].
    + rewrite Hocc in C1, C2 by done. apply (H1 p); by apply occ_current.
  - intros p e. destruct (decide (p = f)) as [->|Hne].
    + destruct Hf as [(_ & Hf & _)|(_ & Hf & _)]; rewrite Hf; [done|]. destruct (decide _); lia.
    + by rewrite Hocc.
Qed.
Lemma to_lower_nonempty d : d ≠ "" → to_lower d ≠ "".
Proof. by destruct d. Qed.
Lemma assoc_in a cs d : assoc a cs = Some d → (a, d) ∈ cs.
Proof.
  induction cs as [|[b e] cs IH]; [done|]. simpl. destruct (decide (b = a)) as [->|].
  - intros H. injection H as ->. left.
  - intros H. right. auto.
Qed.
Lemma checksums_hash E algs data cs a d : checksums E algs data = Some cs → (a, d) ∈ cs → e_hash E a data = Some d.
Proof.
  revert cs; induction algs as [|b l IH]; intros cs H Hin; simpl in H.
  - injection H as <-. by apply elem_of_nil in Hin.
  - destruct (e_hash E b data) as [x|] eqn:Hx; [|done]. destruct (checksums E l data) as [r|] eqn:Hr; [|done].
    injection H as <-. apply elem_of_cons in Hin as [Heq|Hin]; [injection Heq as -> ->; done|]. by eapply IH.
Qed.
Lemma inv09_fixities m cs i : inv09 i → inv09 (add_fixities m cs i).
Proof.
  intros (k & Hh & Hw & Hp & Hu). destruct (add_fixities_frame m cs i) as (F1 & F2 & F3 & F4 & _).
  exists k. unfold head_is. rewrite F1, F3, F4, (er_wr _ _ (ext_rel_add_fixities m cs i)). done.
Qed.

Lemma inv09_add_reader E orc data exts m o :
  oracle_ok orc → nonempty_hash E → m ≠ "" → inv_writeable (ob_inv o) = true → inv09 (ob_inv o) →
  inv09 (ob_inv (add_reader E orc data exts m o).1).
Proof.
  intros Ho HE Hm Hw H. unfold add_reader. destruct (checksums _ _ _) as [cs|] eqn:Hcs; [|done].
  unfold on_inv. simpl. unfold add_file. destruct (assoc _ cs) as [d|] eqn:Ha; [|done].
  apply assoc_in in Ha. eapply checksums_hash in Ha; [|done]. apply HE in Ha.
  pose proof (inv09_add_state_files orc 0 m (to_lower d) exts (add_fixities m cs (ob_inv o))) as Hx.
  destruct (add_state_files _ _ _ _ _ _) as [i' st]. apply Hx; auto using to_lower_nonempty, inv09_fixities.
  by rewrite (er_wr _ _ (ext_rel_add_fixities m cs (ob_inv o))).
Qed.

Lemma inv09_sop E orc op o :
  nonempty_hash E → no_collision E orc op o → inv09 (ob_inv o) → inv09 (ob_inv (sop_step E orc op o).1).
Proof.
  intros HE [Ho Hg] H. destruct op as [data path area dedup|data files area|f d|a b d|a d]; simpl.
  - unfold ob_add. destruct (inv_writeable (ob_inv o)) eqn:Hw; [|done].
    destruct (build_names E (ob_inv o) [path] area) as [[ps m]|] eqn:Hb; [|done].
    apply build_names_nonempty in Hb.
    destruct (e_state_path E path area) as [np|] eqn:Hnp; [|done].
    destruct dedup; [|by apply inv09_add_reader; auto using oracle_ok_shift].
    destruct (e_hash E _ data) as [d|] eqn:Hd; [|done].
    destruct (already_exists _ _ _ _ _) as [[]|]; [done| |done].
    destruct (get_duplicates _ _); [by apply inv09_add_reader; auto using oracle_ok_shift|].
    unfold on_inv. simpl. pose proof (inv09_copy np d (ob_inv o)) as Hc.
    destruct (copy_file np d (ob_inv o)). apply Hc; [|done]. intros e. by apply Hg.
  - unfold ob_add_reader. destruct files as [|f fs]; [done|].
    destruct (inv_writeable (ob_inv o)) eqn:Hw; [|done].
    destruct (build_names _ _ _ _) as [[ps m]|] eqn:Hb; [|done].
    apply build_names_nonempty in Hb. by apply inv09_add_reader.
  - unfold ob_delete. destruct (inv_writeable (ob_inv o)); [|done].
    destruct (already_exists _ _ _ _ _) as [[]|]; [|done|done].
    unfold on_inv. simpl. pose proof (inv09_delete f (ob_inv o) H). by destruct (delete_file f (ob_inv o)).
  - unfold ob_rename. destruct (inv_writeable (ob_inv o)); [|done].
    destruct (already_exists _ _ _ _ _) as [[]|]; [|done|done].
    unfold on_inv. simpl. pose proof (inv09_rename a b (ob_inv o) Hg H). by destruct (rename_file a b (ob_inv o)).
  - unfold ob_copy. destruct (inv_writeable (ob_inv o)); [|done].
    unfold on_inv. simpl. pose proof (inv09_copy a d (ob_inv o) Hg H). by destruct (copy_file a d (ob_inv o)).
Qed.
Lemma inv09_echo E orc o : inv09 (ob_inv o) → inv09 (ob_inv (ob_echo_delete E orc o).1).
Proof.
  intros H. unfold ob_echo_delete. destruct (e_state_path E "." "") as [b|]; [|done].
  unfold on_inv, echo_delete. destruct (head_version (ob_inv o)); [|done].
  pose proof (inv09_delete_all (filter (λ f, has_prefix (if decide (b = ".") then "" else b) f = true ∧ f ∉ ob_upd o)
    (flat_map snd (o_state orc 0 (inv_head (ob_inv o)) (v_state v)))) (ob_inv o) H).
  by destruct (delete_all _ _).
Qed.
Lemma inv09_start now msg un ua e o : inv09 (ob_inv o) → inv09 (ob_inv (ob_start now msg un ua e o).1).
Proof.
  intros (m & Hh & Hw & Hp & Hu). unfold ob_start, on_inv. simpl.
  pose proof (new_version_head_is _ _ now msg un ua Hh) as Hh'.
  destruct (new_version_spec _ m now msg un ua Hh) as (s & Heq & Hf & Hs0 & Hs1). rewrite Heq in *. simpl in *.
  exists (m + 1)%N. split; [done|]. split; [simpl; lia|]. split; [done|]. simpl. intros ver v.
  destruct (decide (version_name (inv_padding (ob_inv o)) (m + 1) = ver)) as [<-|Hne].
  - rewrite lookup_insert. intros Hv. injection Hv as <-. simpl. destruct (decide (m = 0%N)) as [->|Hm].
    + rewrite (Hs0 eq_refl). split.
      * intros p d1 d2 (ps & Hps & _). by rewrite lookup_empty in Hps.
      * intros d ps Hps. by rewrite lookup_empty in Hps.
    + destruct (Hs1 Hm) as (old & Hold & ->). by eapply Hu.
  - rewrite lookup_insert_ne by done. apply Hu.
Qed.
Lemma inv_store E a b o : ob_inv (store_inventory E a b o).1 = ob_inv o.
Proof. unfold store_inventory. destruct (inv_writeable _); [|done]. by destruct (e_hash _ _ _). Qed.
Lemma inv_close E o : ob_inv (andThen (store_inventory E false true o) (store_extensions E)).1 = ob_inv o.
Proof.
  pose proof (inv_store E false true o) as H. destruct (store_inventory E false true o) as [o' [| |]]; simpl in *; done.
Qed.

Lemma unique_run E i ops :
  nonempty_hash E → head_newest i → (inv_padding i <= 0)%Z →
  (∀ ver v, inv_versions i !! ver = Some v → unique_paths (v_state v)) →
  guarded E (no_collision E) oracle_ok ops (open_object i) →
  ∀ ver v, inv_versions (ob_inv (orun E ops (open_object i))) !! ver = Some v → unique_paths (v_state v).
Proof.
  intros HE Hn Hp Hu Hg.
  assert (inv09 (ob_inv (orun E ops (open_object i)))) as (m & _ & _ & _ & H).
  { apply (guarded_run E (no_collision E) oracle_ok (λ o, inv09 (ob_inv o))); try done.
    - intros. by apply inv09_sop.
    - intros. by apply inv09_start.
    - intros. by apply inv09_echo.
    - intros o _ H. by rewrite inv_store.
    - intros o _ H. by rewrite inv_close.
    - apply head_newest_is in Hn as [m Hm]. exists m. done. }
  exact H.
Qed.

(** ** C10 *)
Lemma add_state_file_manifest orc n m d f i :
  m ≠ "" →
  inv_manifest (add_state_file orc n m d f i).1 = inv_manifest i ∨
  inv_manifest (add_state_file orc n m d f i).1 = <[d := default [] (inv_manifest i !! d) ++ [m]]> (inv_manifest i).
Proof.
  intros Hm. unfold add_state_file. destruct (already_exists orc n i f d) as [dup|]; [|by left].
  rewrite decide_False by done. set (i1 := set_manifest _ i). right.
  change (<[d := _]> (inv_manifest i)) with (inv_manifest i1).
  destruct (head_version i1) as [v|] eqn:Hv; [|done].
  set (i2 := match v_state v !! d with Some _ => i1 | None => put_head_state (<[d:=[]]> (v_state v)) v i1 end).
  assert (inv_manifest i2 = inv_manifest i1) as H2 by (subst i2; by destruct (v_state v !! d)).
  destruct (is_update orc (S n) i2 f d) as [upd|]; [|done].
  set (r := if upd then _ else _).
  assert (inv_manifest r.1 = inv_manifest i1) as H3.
  { subst r. destruct upd; [|done]. unfold delete_file. destruct (head_version i2); [simpl|done].
    by destruct (state_has _ _). }
  destruct r as [i3 [| |]]; simpl in *; try done. destruct dup; [done|]. by destruct (head_version i3).
Qed.

Lemma unique_append s d p : unique_paths s → (∀ e, ¬ lists s p e) → unique_paths (<[d := default [] (s !! d) ++ [p]]> s).
Proof.
  intros [H1 H2] Hp. split.
  - intros q d1 d2. rewrite !lists_append. intros [L1|[-> ->]] [L2|[E2 ->]]; subst; eauto; try done.
    + by apply Hp in L1.
    + by apply Hp in L2.
  - rewrite times_nodup in H2. apply times_nodup. intros q e. rewrite times_append.
    destruct (decide (q = p ∧ e = d)) as [[-> ->]|]; [|specialize (H2 q e); lia].
    destruct (times s p d) eqn:Et; [lia|].
    assert (0 < times s p d) as Hl by lia. apply times_lists in Hl. by apply Hp in Hl.
Qed.

Lemma add_reader_manifest E orc data np m o :
  m ≠ "" → unique_paths (inv_manifest (ob_inv o)) → man_fresh (ob_inv o) m →
  unique_paths (inv_manifest (ob_inv (add_reader E orc data [np] m o).1)).
Proof.
  intros Hm Hu Hf. unfold add_reader. destruct (checksums _ _ _) as [cs|]; [|done].
  unfold on_inv, add_file. simpl. destruct (assoc _ cs) as [d|]; [|done].
  destruct (add_fixities_frame m cs (ob_inv o)) as (_ & F2 & _).
  pose proof (add_state_file_manifest orc 0 m (to_lower d) np (add_fixities m cs (ob_inv o)) Hm) as Hx.
  simpl. destruct (add_state_file _ _ _ _ _ _) as [i' [| |]]; simpl in *; rewrite F2 in Hx;
    destruct Hx as [->| ->]; auto using unique_append.
Qed.

Lemma content_unique_run E i ops :
  unique_paths (inv_manifest i) →
  guarded E (fresh_content_path E) (λ _, True) ops (open_object i) →
  unique_paths (inv_manifest (ob_inv (orun E ops (open_object i)))).
Proof.
  intros Hu Hg.
  assert (∀ f j, inv_manifest (delete_file f j).1 = inv_manifest j) as Hdel.
  { intros f j. unfold delete_file. destruct (head_version j); [simpl|done]. by destruct (state_has _ _). }
  assert (∀ f d j, inv_manifest (copy_file f d j).1 = inv_manifest j) as Hcopy.
  { intros f d j. unfold copy_file. destruct (inv_manifest j !! d); [|done]. destruct (head_version j); [|done].
    by destruct (decide _). }
  apply (guarded_run E (fresh_content_path E) (λ _, True) (λ o, unique_paths (inv_manifest (ob_inv o)))); try done.
  - intros orc op o Hgo Ho. destruct op as [data path area dedup|data files area|f d|a b d|a d]; simpl in *.
    + unfold ob_add. destruct (inv_writeable (ob_inv o)) eqn:Hw; [|done].
      destruct (build_names E (ob_inv o) [path] area) as [[ps m]|] eqn:Hb; [|done].
      pose proof (build_names_nonempty _ _ _ _ _ _ Hb) as Hm.
      destruct (build_names_one _ _ _ _ _ _ Hb) as (np & Hnp & ->). rewrite Hnp.
      assert (man_fresh (ob_inv o) m) as Hf.
      { unfold build_names in Hb. simpl in Hb. rewrite Hnp in Hb.
        destruct (e_manifest_path E path area) as [mm|]; [|done]. injection Hb as <-. by apply Hgo. }
      destruct dedup; [|by apply add_reader_manifest].
      destruct (e_hash E _ data) as [d|] eqn:Hd; [|done].
      destruct (already_exists _ _ _ _ _) as [[]|]; [done| |done].
      destruct (get_duplicates _ _); [by apply add_reader_manifest|].
      unfold on_inv. simpl. specialize (Hcopy np d (ob_inv o)). destruct (copy_file np d (ob_inv o)).
      simpl in *. by rewrite Hcopy.
    + destruct Hgo as (f & -> & Hf). unfold ob_add_reader. destruct (inv_writeable (ob_inv o)); [|done].
      destruct (build_names _ _ _ _) as [[ps m]|] eqn:Hb; [|done].
      pose proof (build_names_nonempty _ _ _ _ _ _ Hb) as Hm.
      destruct (build_names_one _ _ _ _ _ _ Hb) as (np & Hnp & ->).
      apply add_reader_manifest; auto.
      unfold build_names in Hb. simpl in Hb. rewrite Hnp in Hb.
      destruct (e_manifest_path E f area) as [mm|]; [|done]. injection Hb as <-. by apply Hf.
    + unfold ob_delete. destruct (inv_writeable (ob_inv o)); [|done].
      destruct (already_exists _ _ _ _ _) as [[]|]; [|done|done].
      unfold on_inv. simpl. specialize (Hdel f (ob_inv o)). destruct (delete_file f (ob_inv o)). simpl in *. by rewrite Hdel.
    + unfold ob_rename. destruct (inv_writeable (ob_inv o)); [|done].
      destruct (already_exists _ _ _ _ _) as [[]|]; [|done|done].
      unfold on_inv, rename_file. simpl. destruct (head_version (ob_inv o)); [simpl|done]. by destruct (state_has _ _).
    + unfold ob_copy. destruct (inv_writeable (ob_inv o)); [|done].
      unfold on_inv. simpl. specialize (Hcopy a d (ob_inv o)). destruct (copy_file a d (ob_inv o)). simpl in *. by rewrite Hcopy.
  - intros now msg un ua e o Ho. unfold ob_start, on_inv, new_version. simpl.
    destruct (next_head (ob_inv o)); [|done]. destruct (decide _); [done|]. simpl. by destruct (_ !! inv_head _).
  - intros orc o _ _ Ho. unfold ob_echo_delete. destruct (e_state_path E "." "") as [b|]; [|done].
    unfold on_inv, echo_delete. destruct (head_version (ob_inv o)); [|done].
    set (fs := filter _ _). assert (∀ l j, inv_manifest (delete_all l j).1 = inv_manifest j) as Hall.
    { induction l as [|f l IH]; intros j; [done|]. simpl. specialize (Hdel f j).
      destruct (delete_file f j) as [j' [| |]]; simpl in *; [by rewrite IH|done|done]. }
    specialize (Hall fs (ob_inv o)). destruct (delete_all fs (ob_inv o)). simpl in *. by rewrite Hall.
  - intros o _ Ho. by rewrite inv_store.
  - intros o _ Ho. by rewrite inv_close.
Qed.

(** ** C11 *)
Lemma re_add_nothing E files o :
  Forall (λ x : oracle * (string * string * string), oracle_ok x.1) files →
  head_newest (ob_inv o) → (inv_padding (ob_inv o) <= 0)%Z → inv_writeable (ob_inv o) = true →
  Forall (λ x : oracle * (string * string * string), is_current E (ob_inv o) x.2) files →
  ∀ k, ∃ u, orun E ((re_add <$> files) ++ k) o = orun E k (set_upd u o).
Proof.
  intros Ho Hn Hp Hw Hf rest. revert o Hn Hp Hw Hf.
  induction Ho as [|[orc [[data path] area]] files Ho1 Ho IH]; intros o Hn Hp Hw Hf.
  - exists (ob_upd o). by destruct o.
  - inversion Hf as [|? ? Hx Hf']; subst.
    destruct Hx as (np & d & Hnp & [mp Hmp] & Hd & Hne & Hc & Hs). simpl.
    assert (inv_head (ob_inv o) ≠ "") as Hhe.
    { apply head_newest_is in Hn as (m & Hh & _ & Hk). intros He. destruct Hc as (v & Hv & _).
      destruct (Hk _ (ex_intro _ _ Hv)) as (k & _ & Hk'). rewrite He in Hk'.
      by apply (version_name_nonempty (inv_padding (ob_inv o)) k). }
    destruct (head_newest_nonzero _ Hn Hhe) as (m & Hh & Hm).
    unfold ob_add. rewrite Hw.
    assert (build_names E (ob_inv o) [path] area = Some ([np], manifest_name (ob_inv o) mp)) as ->.
    { unfold build_names. simpl. by rewrite Hnp, Hmp. }
    simpl in Hnp. rewrite Hnp, Hd.
    destruct (already_exists_good orc 0 (ob_inv o) np d m) as (b & -> & Hb); auto.
    { eapply single_newest; eauto. }
    assert (b = true) as -> by (apply Hb; eapply current_newest; eauto).
    destruct (IH (set_upd (ob_upd o ++ [np]) o)) as (u & Hu); try done. exists u. exact Hu.
Qed.

Lemma no_change_writes_nothing E i files now msg un ua echo h orc1 orc2 orc3 :
  head_newest i → inv_head i ≠ "" → (inv_padding i <= 0)%Z →
  Forall (λ x : oracle * (string * string * string), oracle_ok x.1) files →
  Forall (λ x : oracle * (string * string * string), is_current E i x.2) files →
  ob_trace (orun E ([(orc1, OStart now msg un ua echo)] ++ (re_add <$> files) ++ [(orc2, OEnd h); (orc3, OClose)])
              (open_object i)) = [].
Proof.
  intros Hn Hhe Hp Ho Hf.
  destruct (start_copies E i [] now msg un ua echo Hn) as (o' & Heq & Hocc & Hfresh & _ & Hvers & Hman & Hw & Htr).
  change (orun E [] (open_object i)) with (open_object i) in *.
  change (orun E ([(orc1, OStart now msg un ua echo)] ++ ?l) (open_object i)) with
    (match ob_start now msg un ua echo (open_object i) with
     | (o', SPanic) => o' | (o', _) => orun E l o' end).
  rewrite Heq.
  assert (inv_modified (ob_inv o') = false ∧ inv_alg (ob_inv o') = inv_alg i ∧ inv_padding (ob_inv o') = inv_padding i
          ∧ head_newest (ob_inv o')) as (Hmod & Halg & Hpad & Hhn).
  { apply head_newest_is in Hn as [n Hn]. unfold ob_start, on_inv in Heq.
    change (ob_inv (set_echo echo (open_object i))) with (ob_inv (open_object i)) in Heq.
    pose proof (new_version_head_is (ob_inv (open_object i)) n now msg un ua Hn) as Hh'.
    destruct (new_version_spec (ob_inv (open_object i)) n now msg un ua Hn) as (s & Hs & _).
    rewrite Hs in Heq, Hh'. simpl in Heq. injection Heq as <-. simpl in *. repeat split; auto.
    apply head_newest_is. eauto. }
  destruct (re_add_nothing E files o') with (k := [(orc2, OEnd h); (orc3, OClose)]) as (u & Hu); auto.
  { by rewrite Hpad. }
  { eapply Forall_impl; [exact Hf|]. intros [orc [[data path] area]] (np & d & H1 & H2 & H3 & H4 & H5 & H6).
    exists np, d. rewrite Halg. simpl in *. repeat split; auto.
    - apply occ_current. rewrite Hocc. by apply occ_current.
    - intros d1 d2 C1 C2. apply occ_current in C1, C2. rewrite Hocc in C1, C2. apply H6; by apply occ_current. }
  rewrite Hu. simpl. rewrite ob_end_unfold. simpl. rewrite Hw, Hmod. simpl.
  unfold ob_close. simpl. rewrite Hw, Hmod. simpl. by rewrite Htr.
Qed.

(** ** C12 *)
Lemma padded_add_fails E orc data path area dedup o np d :
  oracle_ok orc → addable E o data path area np d → (0 < inv_padding (ob_inv o))%Z →
  (∃ ver e, recorded (ob_inv o) ver np e) →
  ∃ o' msg, ob_add E orc data path area dedup o = (o', SErr msg).
Proof.
  intros Ho [ad_head0 ad_started0 ad_write0 ad_state0 ad_man0 ad_hash0 ad_ne0 ad_low0 ad_fix0] Hp Hr. destruct (head_newest_nonzero _ ad_head0 ad_started0) as (m & Hh & Hm).
  unfold ob_add. rewrite ad_write0. destruct ad_man0 as [mp Hmp].
  assert (build_names E (ob_inv o) [path] area = Some ([np], manifest_name (ob_inv o) mp)) as ->.
  { unfold build_names. simpl. by rewrite ad_state0, Hmp. }
  rewrite ad_state0. destruct dedup.
  - rewrite ad_hash0. unfold already_exists. rewrite decide_False by done.
    destruct (last_digest_padded orc 0 (ob_inv o) np m Ho Hh Hp) as [[_ Hx]|[-> _]]; [|eauto].
    destruct Hr as (ver & e & Hr). by apply Hx in Hr.
  - unfold add_reader. simpl. destruct (checksums _ _ _) as [cs|] eqn:Hcs; [|eauto].
    unfold on_inv, add_file. simpl.
    rewrite (assoc_checksums E _ data cs (inv_alg (ob_inv o)) Hcs), ad_hash0.
    2:{ apply elem_of_remove_dups, elem_of_app. right. by apply elem_of_list_singleton. }
    rewrite ad_low0. unfold add_state_files, add_state_file, already_exists. rewrite decide_False by done.
    destruct (add_fixities_frame (manifest_name (ob_inv o) mp) cs (ob_inv o)) as (F1 & F2 & F3 & F4 & _).
    destruct (last_digest_padded (shift_oracle orc) 0 (add_fixities (manifest_name (ob_inv o) mp) cs (ob_inv o)) np m)
      as [[_ Hx]|[-> _]]; [by apply oracle_ok_shift| |by rewrite F4| |].
    { unfold head_is. by rewrite F1, F3, F4. }
    { destruct Hr as (ver & e & Hr). apply (recorded_versions _ _ ver np e F1) in Hr. by apply Hx in Hr. }
    eauto.
Qed.

(** ** C13 *)
Lemma add_fixity_self alg fd p i : fixity_lists (add_fixity alg fd p i) alg p fd.
Proof.
  unfold fixity_lists, add_fixity. destruct (decide _) as [Hin|Hin]; simpl; rewrite lookup_insert;
    (eexists; split; [done|]); unfold lists; rewrite lookup_insert; (eexists; split; [done|]); [done|].
  apply elem_of_app. right. by apply elem_of_list_singleton.
Qed.
Lemma add_fixity_times alg fd p i a q e :
  fixity_times (add_fixity alg fd p i) a q e =
  fixity_times i a q e +
    if decide (a = alg ∧ q = p ∧ e = fd ∧ fixity_times i alg p fd = 0) then 1 else 0.
Proof.
  unfold add_fixity, fixity_times. set (blk := default ∅ (inv_fixity i !! alg)).
  assert (∀ l, times (<[fd := l]> blk) q e = if decide (e = fd) then length (filter (λ x, x = q) l) else times blk q e) as Ht.
  { intros l. unfold times. destruct (decide (e = fd)) as [->|Hne]; [by rewrite lookup_insert|].
    by rewrite lookup_insert_ne. }
  destruct (decide (p ∈ default [] (blk !! fd))) as [Hin|Hin]; simpl.
  - assert (times blk p fd ≠ 0) as Hnz.
    { assert (0 < times blk p fd); [|lia]. apply times_lists. unfold lists.
      destruct (blk !! fd); simpl in Hin; [eauto|by apply elem_of_nil in Hin]. }
    rewrite decide_False by naive_solver. rewrite Nat.add_0_r.
    destruct (decide (alg = a)) as [<-|Hne]; [|by rewrite lookup_insert_ne].
    rewrite lookup_insert. simpl. rewrite Ht. destruct (decide (e = fd)) as [->|]; [done|done].
  - assert (times blk p fd = 0) as Hz.
    { destruct (times blk p fd) eqn:Et; [done|]. assert (0 < times blk p fd) as Hl by lia.
      apply times_lists in Hl as (l & El & Hl). by rewrite El in Hin. }
    destruct (decide (alg = a)) as [<-|Hne].
    + rewrite lookup_insert. simpl. rewrite Ht. destruct (decide (e = fd)) as [->|He].
      * rewrite filter_app, app_length. unfold times at 1. f_equal. rewrite filter_cons.
        destruct (decide (p = q)) as [->|Hpq]; [by rewrite decide_True|].
        rewrite decide_False by naive_solver. done.
      * rewrite decide_False by naive_solver. fold blk. lia.
    + rewrite lookup_insert_ne by done. rewrite decide_False by naive_solver. lia.
Qed.

Lemma add_fixities_spec p cs i :
  (∀ alg fd, (alg, fd) ∈ cs → alg ≠ inv_alg i → fixity_lists (add_fixities p cs i) alg p fd) ∧
  (∀ alg q e, q ≠ p → fixity_times (add_fixities p cs i) alg q e = fixity_times i alg q e) ∧
  (∀ alg e, fixity_times i alg p e <= 1 → fixity_times (add_fixities p cs i) alg p e <= 1).
Proof.
  revert i; induction cs as [|[a fd] cs IH]; intros i.
  - split; [|done]. intros ? ? H. by apply elem_of_nil in H.
  - simpl. destruct (decide (a = inv_alg i)) as [->|Hne].
    + destruct (IH i) as (H1 & H2 & H3). split; [|done]. intros alg x Hx Hal.
      apply elem_of_cons in Hx as [Hx|Hx]; [injection Hx as -> ->; done|]. auto.
    + destruct (IH (add_fixity a fd p i)) as (H1 & H2 & H3).
      assert (inv_alg (add_fixity a fd p i) = inv_alg i) as Halg by apply (ext_rel_add_fixity a fd p i).
      split; [|split].
      * intros alg x Hx Hal. apply elem_of_cons in Hx as [Hx|Hx].
        -- injection Hx as -> ->.
           pose proof (ext_rel_add_fixities p cs (add_fixity a fd p i)) as He.
           destruct (add_fixity_self a fd p i) as (blk & Hb & l & Hl & Hin).
           destruct (er_fix _ _ He a blk fd l Hb Hl) as (blk' & ext & Hb' & Hl').
           exists blk'. split; [done|]. exists (l ++ ext). split; [done|]. apply elem_of_app. by left.
        -- apply H1; [done|]. by rewrite Halg.
      * intros alg q e Hq. rewrite H2 by done. rewrite add_fixity_times, decide_False by naive_solver. lia.
      * intros alg e Hle. apply H3. rewrite add_fixity_times.
        destruct (decide (alg = a ∧ p = p ∧ e = fd ∧ fixity_times i a p fd = 0)) as [(-> & _ & -> & Hz)|]; lia.
Qed.

Lemma add_state_file_fixity orc n m d f i : inv_fixity (add_state_file orc n m d f i).1 = inv_fixity i.
Proof.
  unfold add_state_file. destruct (already_exists orc n i f d) as [dup|]; [|done].
  set (i1 := if decide (m = "") then i else _).
  assert (inv_fixity i1 = inv_fixity i) as H1 by (subst i1; by destruct (decide _)).
  destruct (head_version i1) as [v|] eqn:Hv; [|done].
  set (i2 := match v_state v !! d with Some _ => i1 | None => put_head_state (<[d:=[]]> (v_state v)) v i1 end).
  assert (inv_fixity i2 = inv_fixity i) as H2 by (subst i2; by destruct (v_state v !! d)).
  destruct (is_update orc (S n) i2 f d) as [upd|]; [|done].
  set (r := if upd then _ else _).
  assert (inv_fixity r.1 = inv_fixity i) as H3.
  { subst r. destruct upd; [|done]. unfold delete_file. destruct (head_version i2); [simpl|done].
    by destruct (state_has _ _). }
  destruct r as [i3 [| |]]; simpl in *; try done. destruct dup; [done|]. by destruct (head_version i3).
Qed.
Lemma add_state_files_fixity orc n m d fs i : inv_fixity (add_state_files orc n m d fs i).1 = inv_fixity i.
Proof.
  revert n i; induction fs as [|f fs IH]; intros n i; [done|]. simpl.
  pose proof (add_state_file_fixity orc n m d f i) as H. destruct (add_state_file _ _ _ _ _ _) as [i' [| |]]; simpl in *;
    [by rewrite IH|done|done].
Qed.

Lemma checksums_in E algs data cs a : checksums E algs data = Some cs → a ∈ algs → ∃ d, (a, d) ∈ cs.
Proof.
  intros H Ha. pose proof (assoc_checksums E algs data cs a H Ha) as Has.
  destruct (e_hash E a data) as [d|] eqn:Hd.
  - apply assoc_in in Has. eauto.
  - exfalso. revert cs H Has. induction algs as [|b l IH]; intros cs H Has; [by apply elem_of_nil in Ha|].
    simpl in H. apply elem_of_cons in Ha as [->|Ha]; [by rewrite Hd in H|].
    destruct (e_hash E b data) as [x|]; [|done]. destruct (checksums E l data) as [r|]; [|done].
    injection H as <-. simpl in Has. destruct (decide (b = a)); [done|]. by eapply IH.
Qed.

Lemma fixity_recorded E orc data exts m o o' :
  add_reader E orc data exts m o = (o', SOk) →
  (∀ alg, alg ∈ inv_fixalgs (ob_inv o) → alg ≠ inv_alg (ob_inv o) →
     ∃ fd, e_hash E alg data = Some fd ∧ fixity_lists (ob_inv o') alg m fd) ∧
  (∀ alg fd, fixity_times (ob_inv o) alg m fd <= 1 → fixity_times (ob_inv o') alg m fd <= 1) ∧
  (∀ alg p fd, p ≠ m → fixity_times (ob_inv o') alg p fd = fixity_times (ob_inv o) alg p fd) ∧
  (∀ alg p fd, fixity_lists (ob_inv o) alg p fd → fixity_lists (ob_inv o') alg p fd).
Proof.
  unfold add_reader. destruct (checksums _ _ _) as [cs|] eqn:Hcs; [|done]. unfold on_inv. simpl. unfold add_file.
  destruct (assoc _ cs) as [d|]; [|done].
  pose proof (add_state_files_fixity orc 0 m (to_lower d) exts (add_fixities m cs (ob_inv o))) as Hf.
  destruct (add_state_files _ _ _ _ _ _) as [i' st] eqn:Hi. intros H. injection H as <- ->. simpl in *.
  destruct (add_fixities_spec m cs (ob_inv o)) as (H1 & H2 & H3).
  unfold fixity_lists, fixity_times in *. rewrite Hf. repeat split; auto.
  - intros alg Ha Hne. destruct (checksums_in _ _ _ _ alg Hcs) as [fd Hfd].
    { apply elem_of_remove_dups, elem_of_app. by left. }
    exists fd. split; [by eapply checksums_hash|]. by apply H1.
  - intros alg p fd (blk & Hb & l & Hl & Hin).
    destruct (er_fix _ _ (ext_rel_add_fixities m cs (ob_inv o)) alg blk fd l Hb Hl) as (blk' & ext & Hb' & Hl').
    exists blk'. split; [done|]. exists (l ++ ext). split; [done|]. apply elem_of_app. by left.
Qed.

(** ** C14 *)
Lemma echo_exact E orc o b :
  oracle_ok orc → e_state_path E "." "" = Some b → is_Some (inv_versions (ob_inv o) !! inv_head (ob_inv o)) →
  ∃ o', ob_echo_delete E orc o = (o', SOk) ∧
    (∀ p d, current (ob_inv o') p d ↔
       current (ob_inv o) p d ∧ (has_prefix (if decide (b = ".") then "" else b) p = true → p ∈ ob_upd o)) ∧
    (∀ ver, ver ≠ inv_head (ob_inv o) → inv_versions (ob_inv o') !! ver = inv_versions (ob_inv o) !! ver) ∧
    ob_trace o' = ob_trace o ∧ inv_head (ob_inv o') = inv_head (ob_inv o).
Proof.
  intros Ho Hb [v Hv]. unfold ob_echo_delete. rewrite Hb. unfold on_inv.
  set (pre := if decide (b = ".") then "" else b).
  destruct (echo_delete_spec orc (ob_upd o) pre (ob_inv o) v Ho Hv) as (i' & v' & Heq & Hv' & Hl & _).
  pose proof (ext_rel_echo orc (ob_upd o) pre (ob_inv o)) as He. rewrite Heq in *. simpl in He.
  eexists. split; [done|]. simpl. split; [|split; [|split]].
  - intros p d. rewrite !current_state, Hv'. unfold head_version. rewrite Hv. split.
    + intros (w & Hw & Hw'). injection Hw as <-. apply Hl in Hw' as [? ?]. eauto.
    + intros ((w & Hw & Hw') & Hx). injection Hw as <-. exists v'. split; [done|]. apply Hl. done.
  - apply (er_vers _ _ He).
  - done.
  - apply (er_head _ _ He).
Qed.

(** A completed EndUpdate without hooks, echo on. *)
Lemma end_update_echo E orc o b o' :
  oracle_ok orc → e_state_path E "." "" = Some b → is_Some (inv_versions (ob_inv o) !! inv_head (ob_inv o)) →
  ob_echo o = true → inv_writeable (ob_inv o) = true → inv_modified (ob_inv o) = true →
  ob_end E orc (HDone []) o = (o', SOk) →
  ∀ p d, current (ob_inv o') p d ↔
    current (ob_inv o) p d ∧ (has_prefix (if decide (b = ".") then "" else b) p = true → p ∈ ob_upd o).
Proof.
  intros Ho Hb Hv He Hw Hm. rewrite ob_end_unfold, Hw, Hm, He. simpl.
  destruct (echo_exact E orc o b Ho Hb Hv) as (o1 & -> & H1 & _). simpl.
  pose proof (inv_store E true false o1) as Hi.
  destruct (store_inventory E true false o1) as [o2 [| |]]; simpl in *; try done.
  intros H. injection H as <-. intros p d. rewrite Hi. apply H1.
Qed.
