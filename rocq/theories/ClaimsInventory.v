(** Proofs of the inventory properties C03 - C14. *)
From Coq Require Import Ascii.
From stdpp Require Import base list strings gmap.
From Coq Require Import ZArith Lia.
From Verif Require Import GoStr PathModel InventoryModel InventorySpec InventoryProofs ObjectModel ObjectProofs
  LookupProofs AddProofs RunProofs.

(** ** C03 *)
Definition man_nonempty (i : inventory) : Prop := ∀ d ps, inv_manifest i !! d = Some ps → ps ≠ [].
Definition inv03 (i : inventory) : Prop := man_nonempty i ∧ resolvable i.

Lemma inv03_states i i' :
  inv_manifest i' = inv_manifest i →
  (∀ ver v d, inv_versions i' !! ver = Some v → is_Some (v_state v !! d) →
     (∃ ver' v', inv_versions i !! ver' = Some v' ∧ is_Some (v_state v' !! d)) ∨ is_Some (inv_manifest i !! d)) →
  inv03 i → inv03 i'.
Proof.
  intros Hm Hs [H1 H2]. split.
  - intros d ps. rewrite Hm. apply H1.
  - intros ver v d Hv Hd. rewrite Hm. destruct (Hs ver v d Hv Hd) as [(ver' & v' & Hv' & Hd')|[ps Hps]].
    + by eapply H2.
    + pose proof (H1 d ps Hps). destruct ps as [|p ps]; [done|]. eauto.
Qed.
Lemma inv03_put i v s :
  head_version i = Some v →
  (∀ d, is_Some (s !! d) → is_Some (v_state v !! d) ∨ is_Some (inv_manifest i !! d)) →
  inv03 i → inv03 (put_head_state s v i).
Proof.
  intros Hv Hs. apply inv03_states; [done|]. simpl. intros ver w d.
  destruct (decide (ver = inv_head i)) as [->|Hne].
  - rewrite lookup_insert. intros Hw Hd. injection Hw as <-. simpl in Hd. destruct (Hs d Hd) as [?|?]; [|by right].
    left. unfold head_version in Hv. eauto.
  - rewrite lookup_insert_ne by done. intros Hw Hd. left. eauto.
Qed.
Lemma inv03_modified i b : inv03 (set_modified b i) ↔ inv03 i.
Proof. done. Qed.
Lemma inv03_delete f i : inv03 i → inv03 (delete_file f i).1.
Proof.
  intros H. unfold delete_file. destruct (head_version i) as [v|] eqn:Hv; [|done]. simpl.
  assert (inv03 (put_head_state ((λ fs : list string, filter (λ g, g ≠ f) fs) <$> v_state v) v i)) as H'.
  { apply inv03_put; auto. intros d. rewrite lookup_fmap, fmap_is_Some. by left. }
  by destruct (state_has f (v_state v)).
Qed.
Lemma inv03_rename a b i : inv03 i → inv03 (rename_file a b i).1.
Proof.
  intros H. unfold rename_file. destruct (head_version i) as [v|] eqn:Hv; [|done]. simpl.
  assert (inv03 (put_head_state (map (λ g, if decide (g = a) then b else g) <$> v_state v) v i)) as H'.
  { apply inv03_put; auto. intros d. rewrite lookup_fmap, fmap_is_Some. by left. }
  by destruct (state_has a (v_state v)).
Qed.
Lemma inv03_insert i v d ps :
  head_version i = Some v → is_Some (inv_manifest i !! d) → inv03 i →
  inv03 (put_head_state (<[d := ps]> (v_state v)) v i).
Proof.
  intros Hv Hd. apply inv03_put; [done|]. intros e. destruct (decide (d = e)) as [->|Hne]; [by right|].
  rewrite lookup_insert_ne by done. by left.
Qed.
Lemma inv03_copy f d i : inv03 i → inv03 (copy_file f d i).1.
Proof.
  intros H. unfold copy_file. destruct (inv_manifest i !! d) as [ps|] eqn:Hd; [|done].
  destruct (head_version i) as [v|] eqn:Hv; [|done]. destruct (decide _); [done|]. simpl.
  rewrite inv03_modified. apply inv03_insert; eauto.
Qed.
Lemma inv03_delete_all fs i : inv03 i → inv03 (delete_all fs i).1.
Proof.
  revert i; induction fs as [|f fs IH]; intros i H; [done|]. simpl.
  pose proof (inv03_delete f i H). destruct (delete_file f i) as [i' [| |]]; simpl in *; auto.
Qed.
Lemma inv03_manifest i d p :
  inv03 i → inv03 (set_manifest (<[d := default [] (inv_manifest i !! d) ++ [p]]> (inv_manifest i)) i).
Proof.
  intros [H1 H2]. split.
  - intros e ps. simpl. destruct (decide (d = e)) as [->|Hne].
    + rewrite lookup_insert. intros Hps. injection Hps as <-. by destruct (default [] (inv_manifest i !! e)).
    + rewrite lookup_insert_ne by done. apply H1.
  - intros ver v e Hv He. simpl in *. destruct (decide (d = e)) as [->|Hne].
    + rewrite lookup_insert. destruct (default [] (inv_manifest i !! e)) as [|q qs]; simpl; eauto.
    + rewrite lookup_insert_ne by done. eauto.
Qed.
Lemma inv03_add_state_file orc n m d f i : m ≠ "" → inv03 i → inv03 (add_state_file orc n m d f i).1.
Proof.
  intros Hm H. unfold add_state_file. destruct (already_exists orc n i f d) as [dup|]; [|done].
  rewrite decide_False by done. set (i1 := set_manifest _ i).
  assert (inv03 i1) as H1 by (by apply inv03_manifest).
  destruct (head_version i1) as [v|] eqn:Hv; [|done].
  set (i2 := match v_state v !! d with Some _ => i1 | None => put_head_state (<[d:=[]]> (v_state v)) v i1 end).
  assert (is_Some (inv_manifest i1 !! d)) as Hd1 by (simpl; rewrite lookup_insert; eauto).
  assert (inv03 i2) as H2.
  { subst i2. destruct (v_state v !! d); [done|]. by apply inv03_insert. }
  assert (is_Some (inv_manifest i2 !! d)) as Hd2 by (subst i2; by destruct (v_state v !! d)).
  destruct (is_update orc (S n) i2 f d) as [upd|]; [|done].
  set (r := if upd then _ else _).
  assert (inv03 r.1 ∧ is_Some (inv_manifest r.1 !! d)) as [H3 Hd3].
  { subst r. destruct upd; [|done]. pose proof (inv03_delete f i2 H2) as H3.
    assert (inv_manifest (delete_file f i2).1 = inv_manifest i2) as Heq.
    { unfold delete_file. destruct (head_version i2); [simpl|done]. by destruct (state_has _ _). }
    rewrite <- Heq in Hd2. destruct (delete_file f i2) as [i3 [| |]]; simpl in *; done. }
  destruct r as [i3 [| |]]; simpl in *; try done. destruct dup; [done|].
  destruct (head_version i3) as [w|] eqn:Hw; [|done]. simpl. rewrite inv03_modified. by apply inv03_insert.
Qed.
Lemma inv03_fixity alg fd p i : inv03 i → inv03 (add_fixity alg fd p i).
Proof. intros H. unfold add_fixity. by destruct (decide _). Qed.
Lemma inv03_fixities p cs i : inv03 i → inv03 (add_fixities p cs i).
Proof.
  revert i; induction cs as [|[a fd] cs IH]; intros i H; [done|]. simpl.
  destruct (decide _); auto using inv03_fixity.
Qed.
Lemma inv03_add_file orc fs m cs i : m ≠ "" → inv03 i → inv03 (add_file orc fs m cs i).1.
Proof.
  intros Hm H. unfold add_file. destruct (assoc _ _) as [d|]; [|done].
  apply (inv03_fixities m cs) in H. revert H. generalize (add_fixities m cs i) as j. generalize 0.
  induction fs as [|f fs IH]; intros n j H; [done|]. simpl.
  pose proof (inv03_add_state_file orc n m (to_lower d) f j Hm H).
  destruct (add_state_file _ _ _ _ _ _) as [j' [| |]]; simpl in *; auto.
Qed.
Lemma inv03_new now msg un ua i : inv03 i → inv03 (new_version now msg un ua i).1.
Proof.
  intros H. unfold new_version. destruct (next_head i) as [h|]; [|done].
  assert (inv03 (set_versions (<[h:=Version now msg un ua ∅]> (inv_versions i)) (set_head h i))) as H1.
  { revert H. apply inv03_states; [done|]. simpl. intros ver v d. destruct (decide (h = ver)) as [->|Hne].
    - rewrite lookup_insert. intros Hv Hd. injection Hv as <-. simpl in Hd. rewrite lookup_empty in Hd. by destruct Hd.
    - rewrite lookup_insert_ne by done. eauto. }
  destruct (decide _); [done|].
  destruct (inv_versions (set_versions (<[h:=Version now msg un ua ∅]> (inv_versions i)) (set_head h i)) !! inv_head i)
    as [old|] eqn:Hold; [|done].
  simpl in *. revert H1. apply inv03_states; [done|]. simpl. intros ver v d. destruct (decide (h = ver)) as [->|Hne].
  - rewrite lookup_insert. intros Hv Hd. injection Hv as <-. simpl in Hd. left. eauto.
  - rewrite lookup_insert_ne by done. eauto.
Qed.
Lemma inv03_run E ops o : inv03 (ob_inv o) → inv03 (ob_inv (orun E ops o)).
Proof.
  apply (PO_run E (λ i _, inv03 i)).
  - intros. by apply inv03_new.
  - intros. by apply inv03_add_file.
  - intros. by apply inv03_copy.
  - intros. by apply inv03_delete.
  - intros. by apply inv03_rename.
  - intros i orc ex p H. unfold echo_delete. destruct (head_version i); [|done]. by apply inv03_delete_all.
Qed.

Lemma resolve_states_ok man l :
  (∀ d exts, (d, exts) ∈ l → ∃ p ps, man !! d = Some (p :: ps)) →
  ∃ r, resolve_states man l = inl r ∧
    ∀ d exts, (d, exts) ∈ l → ∃ ints, man !! d = Some ints ∧ ints ≠ [] ∧ (ints, exts, d) ∈ r.
Proof.
  induction l as [|[d exts] l IH]; intros H.
  - exists []. split; [done|]. intros d exts Hin. by apply elem_of_nil in Hin.
  - destruct IH as (r & Hr & Hin). { intros d' e' Hd. apply (H d' e'). by right. }
    destruct (H d exts ltac:(left)) as (p & ps & Hp). simpl. rewrite Hp, Hr.
    eexists. split; [done|]. intros d' e' Hd. apply elem_of_cons in Hd as [Heq|Hd].
    + injection Heq as -> ->. exists (p :: ps). split; [done|]. split; [done|]. left.
    + destruct (Hin d' e' Hd) as (ints & ? & ? & ?). exists ints. split; [done|]. split; [done|]. by right.
Qed.

Lemma always_resolvable E i ops :
  (∀ d ps, inv_manifest i !! d = Some ps → ps ≠ []) → resolvable i →
  let i' := ob_inv (orun E ops (open_object i)) in
  resolvable i' ∧
  ∀ orc ver, oracle_ok orc → is_Some (inv_versions i' !! ver) → ver ≠ "" → ver ≠ "latest" →
    ∃ calls, iterate_state_files orc i' ver = inl calls ∧
      ∀ p d, recorded i' ver p d →
        ∃ stored logical, (stored, logical, d) ∈ calls ∧ p ∈ logical ∧ stored ≠ [] ∧ inv_manifest i' !! d = Some stored.
Proof.
  intros H1 H2 i'. assert (inv03 i') as [H3 H4] by (by apply inv03_run). split; [done|].
  intros orc ver [Ho _] [v Hv] Hn1 Hn2. unfold iterate_state_files. rewrite decide_False by tauto. rewrite Hv.
  destruct (resolve_states_ok (inv_manifest i') (o_state orc 0 ver (v_state v))) as (r & Hr & Hin).
  { intros d exts Hd. rewrite Ho in Hd. apply elem_of_map_to_list in Hd. eapply H4; eauto. }
  exists r. split; [done|]. intros p d (v' & Hv' & ps & Hps & Hp). rewrite Hv in Hv'. injection Hv' as <-.
  destruct (Hin d ps) as (ints & Hi1 & Hi2 & Hi3).
  { rewrite Ho. by apply elem_of_map_to_list. }
  exists ints, ps. done.
Qed.

(** ** C04, C05 *)
Lemma head_newest_run E i ops : head_newest i → head_newest (ob_inv (orun E ops (open_object i))).
Proof.
  intros Hn. apply head_newest_is in Hn as [n Hn].
  destruct (inv01_run E i n ops (open_object i)) as (m & Hm & _); auto.
  - exists n. repeat split; try apply Hn; auto; try lia; done.
  - apply head_newest_is. eauto.
Qed.

Lemma start_copies E i ops now msg un ua echo :
  head_newest i →
  let o := orun E ops (open_object i) in
  ∃ o', ob_start now msg un ua echo o = (o', SOk) ∧
    (∀ p d, occ (ob_inv o') p d = occ (ob_inv o) p d) ∧
    inv_versions (ob_inv o) !! inv_head (ob_inv o') = None ∧
    (∃ v, inv_versions (ob_inv o') !! inv_head (ob_inv o') = Some v ∧
          v_created v = now ∧ v_message v = msg ∧ v_uname v = un ∧ v_uaddr v = ua) ∧
    (∀ ver, ver ≠ inv_head (ob_inv o') → inv_versions (ob_inv o') !! ver = inv_versions (ob_inv o) !! ver) ∧
    inv_manifest (ob_inv o') = inv_manifest (ob_inv o) ∧
    inv_writeable (ob_inv o') = true ∧ ob_trace o' = ob_trace o.
Proof.
  intros Hn o. apply (head_newest_run E i ops) in Hn. fold o in Hn. apply head_newest_is in Hn as [n Hn].
  unfold ob_start, on_inv. simpl.
  destruct (new_version_spec (ob_inv o) n now msg un ua Hn) as (s & -> & Hf & Hs0 & Hs1).
  eexists. split; [done|]. simpl. split; [|split; [done|]; split; [|split; [|done]]].
  - intros p d. unfold occ at 1. simpl. rewrite lookup_insert. simpl. destruct (decide (n = 0%N)) as [->|Hne].
    + rewrite (Hs0 eq_refl). destruct Hn as (Hh & _ & Hk). unfold occ.
      destruct (inv_versions (ob_inv o) !! inv_head (ob_inv o)) eqn:Hv; [|done].
      destruct (Hk _ (ex_intro _ _ Hv)) as (k & ? & _). lia.
    + destruct (Hs1 Hne) as (old & Hold & ->). unfold occ. by rewrite Hold.
  - rewrite lookup_insert. eexists. split; [done|]. done.
  - intros ver Hv. by rewrite lookup_insert_ne.
Qed.

Lemma contiguous_head_is i n : contiguous i n → head_is i n.
Proof.
  intros [H1 H2]. split; [done|]. split.
  - intros Hn. rewrite H1, decide_False by done. apply H2. exists n. split; [lia|done].
  - intros ver Hv. by apply H2.
Qed.
Lemma contiguous_new i n now msg un ua :
  contiguous i n → contiguous (new_version now msg un ua i).1 (n + 1).
Proof.
  intros Hc. destruct (new_version_spec i n now msg un ua (contiguous_head_is i n Hc)) as (s & -> & _).
  destruct Hc as [H1 H2]. unfold contiguous. simpl. rewrite decide_False by lia. split; [done|].
  intros ver. destruct (decide (ver = version_name (inv_padding i) (n + 1))) as [->|Hne].
  - rewrite lookup_insert. split; [|eauto]. intros _. exists (n + 1)%N. split; [lia|done].
  - rewrite lookup_insert_ne by done. rewrite H2. split.
    + intros (k & Hk & ->). exists k. split; [lia|done].
    + intros (k & Hk & ->). exists k. split; [|done]. assert (k ≠ (n + 1)%N) by (intros ->; done). lia.
Qed.
Lemma contiguous_ext i i' n : ext_rel i i' → contiguous i n → contiguous i' n.
Proof.
  intros H [H1 H2]. unfold contiguous. rewrite (er_head _ _ H), (er_pad _ _ H). split; [done|].
  intros ver. by rewrite (ext_rel_is_some i i').
Qed.
Lemma contiguous_run E i n ops :
  contiguous i n → ∃ m, (n <= m)%N ∧ contiguous (ob_inv (orun E ops (open_object i))) m.
Proof.
  intros Hc.
  apply (PO_run E (λ i _, ∃ m, (n <= m)%N ∧ contiguous i m)).
  - intros j _ _ now msg un ua (m & Hle & Hm). exists (m + 1)%N. split; [lia|]. by apply contiguous_new.
  - intros j _ orc fs m cs _ _ (k & Hle & Hm). exists k. split; [done|].
    eapply contiguous_ext; [apply ext_rel_add_file|done].
  - intros j _ f d _ (k & Hle & Hm). exists k. split; [done|]. eapply contiguous_ext; [apply ext_rel_copy|done].
  - intros j _ f _ (k & Hle & Hm). exists k. split; [done|]. eapply contiguous_ext; [apply ext_rel_delete|done].
  - intros j _ a b _ (k & Hle & Hm). exists k. split; [done|]. eapply contiguous_ext; [apply ext_rel_rename|done].
  - intros j orc ex p (k & Hle & Hm). exists k. split; [done|]. eapply contiguous_ext; [apply ext_rel_echo|done].
  - exists n. split; [lia|done].
Qed.
Lemma contiguous_start n now msg un ua echo o :
  contiguous (ob_inv o) n → contiguous (ob_inv (ob_start now msg un ua echo o).1) (n + 1).
Proof.
  intros Hc. apply (contiguous_new _ _ now msg un ua) in Hc. unfold ob_start, on_inv. simpl.
  by destruct (new_version now msg un ua (ob_inv o)).
Qed.

(** ** C06, C07 at object level *)
Lemma single_newest i f m : head_is i m → single i f → (∃ d, current i f d) → newest_single i f.
Proof. intros. by eapply newest_single_in_head. Qed.

Lemma head_newest_nonzero i : head_newest i → inv_head i ≠ "" → ∃ m, head_is i m ∧ m ≠ 0%N.
Proof.
  intros Hn Hh. apply head_newest_is in Hn as [m Hm]. exists m. split; [done|]. intros ->.
  destruct Hm as [Hm _]. done.
Qed.

Lemma ob_delete_exact orc f d o :
  oracle_ok orc → head_newest (ob_inv o) → (inv_padding (ob_inv o) <= 0)%Z → inv_writeable (ob_inv o) = true →
  d ≠ "" → current (ob_inv o) f d → single (ob_inv o) f →
  ∃ o', ob_delete orc f d o = (o', SOk) ∧
    (∀ e, occ (ob_inv o') f e = 0) ∧
    (∀ p e, p ≠ f → occ (ob_inv o') p e = occ (ob_inv o) p e) ∧
    inv_modified (ob_inv o') = true ∧
    (∀ ver, ver ≠ inv_head (ob_inv o) → inv_versions (ob_inv o') !! ver = inv_versions (ob_inv o) !! ver) ∧
    inv_manifest (ob_inv o') = inv_manifest (ob_inv o).
Proof.
  intros Ho Hn Hp Hw Hd Hc Hs.
  assert (inv_head (ob_inv o) ≠ "") as Hne.
  { apply head_newest_is in Hn as (m & Hh & _ & Hk). intros He. destruct Hc as (v & Hv & _).
    destruct (Hk _ (ex_intro _ _ Hv)) as (k & _ & Hk'). rewrite He in Hk'. by apply (version_name_nonempty (inv_padding (ob_inv o)) k). }
  destruct (head_newest_nonzero _ Hn Hne) as (m & Hh & Hm).
  unfold ob_delete. rewrite Hw.
  destruct (already_exists_good orc 0 (ob_inv o) f d m) as (b & -> & Hb); auto.
  { eapply single_newest; eauto. }
  assert (b = true) as ->. { apply Hb. eapply current_newest; eauto. }
  pose proof Hc as (v & Hv & _). fold (head_version (ob_inv o)) in Hv.
  destruct (delete_file_spec f (ob_inv o) v Hv) as (i' & v' & H1 & H2 & H3 & H4 & H5 & H6 & H7 & H8 & H9 & H10).
  destruct (delete_file_occ f (ob_inv o) v Hv) as (i'' & H1' & _ & Hocc & _).
  rewrite H1 in H1'. injection H1' as <-.
  unfold on_inv. rewrite H1. eexists. split; [done|]. simpl. repeat split; auto.
  - intros e. by rewrite Hocc, decide_True.
  - intros p e Hpf. by rewrite Hocc, decide_False.
  - apply H6. right. exists d. rewrite current_state in Hc. naive_solver.
Qed.

Lemma times_rename s a b p d :
  a ≠ b → (∀ e, times s b e = 0) →
  times (map (λ g, if decide (g = a) then b else g) <$> s) p d =
    if decide (p = b) then times s a d else if decide (p = a) then 0 else times s p d.
Proof.
  intros Hab Hb. specialize (Hb d). unfold times in *. rewrite lookup_fmap.
  destruct (s !! d) as [ps|]; simpl in *; [|by repeat destruct (decide _)].
  induction ps as [|q ps IH]; simpl; [by repeat destruct (decide _)|].
  rewrite filter_cons in Hb. destruct (decide (q = b)) as [->|Hqb]; [done|]. specialize (IH Hb).
  rewrite filter_cons. rewrite (filter_cons _ q ps). destruct (decide (q = a)) as [->|Hqa].
  - destruct (decide (b = p)) as [<-|Hbp].
    + rewrite decide_True by done. rewrite decide_True in IH by done. simpl. by rewrite IH.
    + rewrite decide_False by done. rewrite decide_False in IH by done.
      destruct (decide (p = a)) as [->|Hpa]; [done|]. rewrite IH.
      rewrite filter_cons, decide_False by done. done.
  - destruct (decide (q = p)) as [->|Hqp].
    + rewrite !decide_False by done. rewrite !decide_False in IH by done. simpl. rewrite IH.
      rewrite filter_cons, decide_True by done. done.
    + rewrite IH. destruct (decide (p = b)); [done|]. destruct (decide (p = a)); [done|].
      by rewrite filter_cons, decide_False.
Qed.

Lemma rename_file_occ a b i v :
  head_version i = Some v → a ≠ b → (∀ d, ¬ current i b d) →
  ∃ i', rename_file a b i = (i', SOk) ∧
    (∀ p d, occ i' p d = if decide (p = b) then occ i a d else if decide (p = a) then 0 else occ i p d) ∧
    (inv_modified i' = true ↔ inv_modified i = true ∨ ∃ d, current i a d) ∧
    (∀ ver, ver ≠ inv_head i → inv_versions i' !! ver = inv_versions i !! ver) ∧
    inv_manifest i' = inv_manifest i.
Proof.
  intros Hv Hab Hb. destruct (rename_file_spec a b i v Hv) as (i' & v' & H1 & H2 & H3 & H4 & H5 & H6 & H7 & _).
  exists i'. split; [done|]. split.
  - intros p d. unfold rename_file in H1. rewrite Hv in H1. injection H1 as <-.
    transitivity (occ (put_head_state (map (λ g, if decide (g = a) then b else g) <$> v_state v) v i) p d).
    { by destruct (state_has a (v_state v)). }
    rewrite occ_put by done. rewrite times_rename; [|done|].
    + by rewrite !(occ_head i v).
    + intros e. rewrite <- (occ_head i v) by done. by apply occ_0.
  - split; [|done]. rewrite H5. setoid_rewrite current_state. naive_solver.
Qed.

Lemma ob_rename_exact orc a b d o :
  oracle_ok orc → head_newest (ob_inv o) → (inv_padding (ob_inv o) <= 0)%Z → inv_writeable (ob_inv o) = true →
  d ≠ "" → current (ob_inv o) a d → single (ob_inv o) a → a ≠ b → (∀ e, ¬ current (ob_inv o) b e) →
  ∃ o', ob_rename orc a b d o = (o', SOk) ∧
    (∀ e, occ (ob_inv o') b e = occ (ob_inv o) a e) ∧
    (∀ e, occ (ob_inv o') a e = 0) ∧
    (∀ p e, p ≠ a → p ≠ b → occ (ob_inv o') p e = occ (ob_inv o) p e) ∧
    inv_modified (ob_inv o') = true ∧
    (∀ ver, ver ≠ inv_head (ob_inv o) → inv_versions (ob_inv o') !! ver = inv_versions (ob_inv o) !! ver) ∧
    inv_manifest (ob_inv o') = inv_manifest (ob_inv o).
Proof.
  intros Ho Hn Hp Hw Hd Hc Hs Hab Hb.
  assert (inv_head (ob_inv o) ≠ "") as Hne.
  { apply head_newest_is in Hn as (m & Hh & _ & Hk). intros He. destruct Hc as (v & Hv & _).
    destruct (Hk _ (ex_intro _ _ Hv)) as (k & _ & Hk'). rewrite He in Hk'. by apply (version_name_nonempty (inv_padding (ob_inv o)) k). }
  destruct (head_newest_nonzero _ Hn Hne) as (m & Hh & Hm).
  unfold ob_rename. rewrite Hw.
  destruct (already_exists_good orc 0 (ob_inv o) a d m) as (x & -> & Hx); auto.
  { eapply single_newest; eauto. }
  assert (x = true) as ->. { apply Hx. eapply current_newest; eauto. }
  pose proof Hc as (v & Hv & _). fold (head_version (ob_inv o)) in Hv.
  destruct (rename_file_occ a b (ob_inv o) v Hv Hab Hb) as (i' & H1 & H2 & H3 & H4 & H5).
  unfold on_inv. rewrite H1. eexists. split; [done|]. simpl. repeat split; auto.
  - intros e. by rewrite H2, decide_True.
  - intros e. by rewrite H2, decide_False, decide_True.
  - intros p e Hpa Hpb. by rewrite H2, !decide_False.
  - apply H3. eauto.
Qed.
