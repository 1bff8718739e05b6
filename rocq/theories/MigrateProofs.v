(** Effects of the calls that the migration makes. *)
From Coq Require Import Ascii.
From stdpp Require Import base list strings gmap sorting.
From Coq Require Import ZArith Lia.
From Verif Require Import GoStr PathModel InventoryModel InventorySpec ObjectModel ObjectSpec CrashSpec PublishSpec InventoryProofs ObjectProofs LookupProofs AddProofs
  ClaimsInventory ClaimsInventory2 CrashProofs HookProofs AreaModel ValidateModel ValidateProofs3 JsonlModel MigrateModel MigrateSpec.

(** ** The previous version *)
Lemma sorted_permutation l l' : Permutation l l' → Sorted N.le l' → merge_sort N.le l = l'.
Proof.
  intros Hp Hs. apply (Sorted_unique N.le).
  - apply Sorted_merge_sort. intros a b. lia.
  - done.
  - by rewrite merge_sort_Permutation.
Qed.

Lemma last_two (n : N) (l : list N) : (2 <= n)%N → NoDup l → (∀ k, k ∈ l ↔ (1 <= k <= n)%N) → ∃ r, rev (merge_sort N.le l) = n :: (n - 1)%N :: r.
Proof.
  intros Hn Hd Hl.
  assert (merge_sort N.le l = N.of_nat <$> seq 1 (N.to_nat n)) as ->.
  { apply sorted_permutation.
    - apply NoDup_Permutation; [done|apply NoDup_fmap_2; [intros a b; lia|apply NoDup_seq]|].
      intros k. rewrite Hl, elem_of_list_fmap. setoid_rewrite elem_of_seq. split.
      + intros Hk. exists (N.to_nat k). lia.
      + intros (j & -> & Hj). lia.
    - generalize 1. induction (N.to_nat n) as [|m IH]; intros j; [constructor|]. cbn [seq fmap list_fmap].
      constructor; [apply IH|]. destruct m; cbn [seq fmap list_fmap]; constructor. lia. }
  replace (N.to_nat n) with (S (S (N.to_nat n - 2))) by lia. rewrite !seq_S. rewrite !fmap_app, !rev_app_distr. cbn [fmap list_fmap rev app].
  eexists. f_equal; [lia|]. f_equal. lia.
Qed.

Lemma last_with_key (n : N) ps : (∀ p, p ∈ ps → p.2 = version_name 0 p.1) → n ∈ ps.*1 → last_with n ps = Some (version_name 0 n).
Proof.
  intros Hps Hin. destruct (ValidateProofs3.last_with_in _ _ Hin) as (s & -> & Hs). apply Hps in Hs. cbn [fst snd] in Hs. by subst s.
Qed.

Lemma pad_name pad k : (pad <= 0)%Z → version_name pad k = version_name 0 k.
Proof. intros H. unfold version_name. by rewrite !decide_True by lia. Qed.

Lemma previous_version orc i n : oracle_ok orc → contiguous i n → (2 <= n)%N → (inv_padding i <= 0)%Z →
  ∃ r, rev (sorted_names ((o_vers orc 0 (inv_versions i)).*1)) = inv_head i :: earlier i n :: r.
Proof.
  intros [_ Ho] [Hh Hv] Hn Hp. rewrite decide_False in Hh by lia. specialize (Ho 0 (inv_versions i)).
  set (l := (o_vers orc 0 (inv_versions i)).*1).
  assert (∀ ver, ver ∈ l ↔ ∃ k, (1 <= k <= n)%N ∧ ver = version_name (inv_padding i) k) as Hl.
  { intros ver. rewrite <- Hv. unfold l. rewrite elem_of_list_fmap. split.
    - intros ([a v] & -> & Hin). rewrite Ho in Hin. apply elem_of_map_to_list in Hin. cbn [fst]. eauto.
    - intros [v Hx]. exists (ver, v). split; [done|]. rewrite Ho. by apply elem_of_map_to_list. }
  assert (NoDup l) as Hd. { unfold l. rewrite Ho. apply NoDup_fst_map_to_list. }
  destruct (nums_names (inv_padding i) l) as (ns & Hns & Hsnd & Hall).
  { apply stdpp.list.Forall_forall. intros s Hs. apply Hl in Hs as (k & Hk & ->). exists k. split; [lia|done]. }
  rewrite stdpp.list.Forall_forall in Hall.
  unfold sorted_names. rewrite Hns. rewrite <- map_rev.
  assert (∀ k, k ∈ ns.*1 ↔ (1 <= k <= n)%N) as Hk.
  { intros k. rewrite elem_of_list_fmap. split.
    - intros ([a s] & -> & Hin). pose proof (Hall _ Hin) as [Ha1 Ha2]. cbn [fst snd] in *.
      assert (s ∈ l) as Hs by (rewrite <- Hsnd; apply elem_of_list_fmap; by exists (a, s)).
      apply Hl in Hs as (k' & Hk' & Hs'). rewrite Ha1 in Hs'. apply version_name_inj in Hs'. by subst a.
    - intros Hk. assert (version_name (inv_padding i) k ∈ l) as Hin by (apply Hl; eauto). rewrite <- Hsnd in Hin.
      apply elem_of_list_fmap in Hin as ([a s] & Hs & Hin). exists (a, s). split; [|done]. pose proof (Hall _ Hin) as [Ha1 Ha2]. cbn [fst snd] in *.
      rewrite Ha1 in Hs. by apply version_name_inj in Hs. }
  assert (NoDup ns.*1) as Hdn.
  { clear -Hd Hsnd Hall. rewrite <- Hsnd in Hd. clear Hsnd. induction ns as [|[a s] ns IH]; [constructor|]. cbn [fmap list_fmap fst snd] in *.
    apply stdpp.list.NoDup_cons in Hd as [H1 H2]. apply stdpp.list.NoDup_cons. split.
    - intros Hin. apply H1. apply elem_of_list_fmap in Hin as ([b t] & -> & Hin). cbn [fst snd] in *.
      pose proof (Hall (b, s) ltac:(apply elem_of_cons; by left)) as [E1 _]. pose proof (Hall (b, t) ltac:(apply elem_of_cons; by right)) as [E2 _]. cbn [fst snd] in *.
      subst. apply elem_of_list_fmap. by exists (b, version_name (inv_padding i) b).
    - apply IH; [done|]. intros p Hin. apply Hall. by right. }
  destruct (last_two n ns.*1 Hn Hdn Hk) as [r Hr]. rewrite Hr. cbn [map]. eexists.
  assert (∀ k, (1 <= k <= n)%N → default "" (last_with k ns) = version_name (inv_padding i) k) as Hw.
  { intros k Hk'. rewrite last_with_key; [|intros p Hin; rewrite <- (pad_name (inv_padding i)) by done; by apply Hall|by apply Hk]. cbn [default]. by rewrite <- (pad_name (inv_padding i)). }
  rewrite !Hw by lia. rewrite Hh. done.
Qed.

(** ** Adding one content under several names *)
Definition ready (i : inventory) (f : string) : Prop := (∃ e, current i f e) ∨ ∀ ver e, ¬ recorded i ver f e.

Lemma recorded_current i ver p e : recorded i ver p e → ver = inv_head i → current i p e.
Proof. intros H ->. done. Qed.

Lemma add_state_file_current orc n mp d f i :
  oracle_ok orc → inv_writeable i = true → inv09 i → d ≠ "" → mp ≠ "" → ready i f →
  ∃ i', add_state_file orc n mp d f i = (i', SOk) ∧ inv09 i' ∧ ext_rel i i' ∧
    inv_manifest i' = <[d := default [] (inv_manifest i !! d) ++ [mp]]> (inv_manifest i) ∧
    ∀ p e, current i' p e ↔ (p = f ∧ e = d) ∨ (p ≠ f ∧ current i p e).
Proof.
  intros Ho Hw H Hd Hm Hr. pose proof (inv09_newest i f H) as Hns. pose proof (inv09_head i H) as [H1 H2].
  pose proof H as (k & Hh & Hk & Hp & _). specialize (Hk Hw).
  pose proof (inv09_add_state_files orc n mp d [f] i Ho Hd Hm Hw H) as H'.
  pose proof (ext_rel_add_state_file orc n mp d f i) as He.
  destruct (add_state_file_spec orc n mp d f i k) as (i' & Heq & Hman & _ & Hocc & Hf); auto.
  cbn [add_state_files] in H'. rewrite Heq in H', He. cbn [fst] in He. cbn [fst] in H'.
  exists i'. split; [done|]. split; [done|]. split; [done|]. split; [done|]. intros p e. rewrite <- !occ_current.
  destruct (decide (p = f)) as [->|Hne]; [|rewrite Hocc by done; naive_solver].
  destruct Hf as [(Hn & Hf & _)|(Hn & Hf & _)]; rewrite Hf.
  - assert (current i f d) as Hc.
    { destruct Hr as [Hr|Hr]; [by eapply newest_current|]. apply newest_recorded in Hn as [ver Hn]. by apply Hr in Hn. }
    rewrite occ_current. split; [|naive_solver]. intros Hce. left. split; [done|]. by apply (H1 f).
  - destruct (decide (e = d)) as [->|]; split; try naive_solver lia.
Qed.

Lemma add_state_files_current orc n mp d fs i :
  oracle_ok orc → inv_writeable i = true → inv09 i → d ≠ "" → mp ≠ "" → (∀ f, f ∈ fs → ready i f) →
  ∃ i', add_state_files orc n mp d fs i = (i', SOk) ∧ inv09 i' ∧ ext_rel i i' ∧ (fs ≠ [] → lists (inv_manifest i') mp d) ∧
    ∀ p e, current i' p e ↔ (p ∈ fs ∧ e = d) ∨ (p ∉ fs ∧ current i p e).
Proof.
  intros Ho. revert n i. induction fs as [|f fs IH]; intros n i Hw H Hd Hm Hr.
  { exists i. split; [done|]. split; [done|]. split; [done|]. split; [done|]. intros p e. set_solver. }
  cbn [add_state_files].
  destruct (add_state_file_current orc n mp d f i Ho Hw H Hd Hm (Hr f ltac:(set_solver))) as (i1 & -> & H1 & He1 & Hman & Hc1).
  destruct (IH (S (S n)) i1) as (i2 & -> & H2 & He2 & _ & Hc2); [by rewrite (er_wr _ _ He1)|done|done|done| |].
  { intros g Hg. destruct (decide (g = f)) as [->|Hne]; [left; exists d; apply Hc1; by left|].
    destruct (Hr g ltac:(set_solver)) as [(e & Hx)|Hx]; [left; exists e; apply Hc1; by right|].
    right. intros ver e Hre. destruct (decide (ver = inv_head i)) as [->|Hv].
    - rewrite <- (er_head _ _ He1) in Hre. apply Hc1 in Hre as [[-> _]|[_ Hre]]; [done|]. by apply (Hx (inv_head i) e).
    - apply (Hx ver e). destruct Hre as (v & Hv' & Hl). exists v. by rewrite <- (er_vers _ _ He1). }
  exists i2. split; [done|]. split; [done|]. split; [by transitivity i1|]. split.
  { intros _. assert (lists (inv_manifest i1) mp d) as (ps & Hps & Hin).
    { rewrite Hman. eexists. split; [apply lookup_insert|]. set_solver. }
    apply (er_man _ _ He2) in Hps as (ext & Hps). eexists. split; [done|]. set_solver. }
  intros p e. rewrite Hc2, Hc1. destruct (decide (p ∈ fs)); destruct (decide (p = f)); set_solver.
Qed.

Lemma inv09_same i i' : inv_versions i' = inv_versions i → inv_head i' = inv_head i → inv_padding i' = inv_padding i → inv_writeable i' = inv_writeable i →
  inv09 i → inv09 i'.
Proof. intros Hv Hh Hp Hw. unfold inv09, head_is. by rewrite Hv, Hh, Hp, Hw. Qed.

Definition now (s : storage) (o : object) : storage := apply_evs (ob_trace o) s.

(** ** The three calls *)
Record step (o o' : object) : Prop := Step {
  st_inv : inv09 (ob_inv o');
  st_ext : ext_rel (ob_inv o) (ob_inv o')
}.

Lemma add_reader_current E orc data files area o d ps m :
  oracle_ok orc → inv_writeable (ob_inv o) = true → inv09 (ob_inv o) → hex_hash (e_hash E) → nonempty_hash E → supported E (ob_inv o) →
  build_names E (ob_inv o) files area = Some (ps, m) → (∀ f, f ∈ ps → ready (ob_inv o) f) → e_hash E (inv_alg (ob_inv o)) data = Some d →
  ∃ o', ob_add_reader E orc data files area o = (o', SOk) ∧ step o o' ∧ lists (inv_manifest (ob_inv o')) m d ∧
    ob_trace o' = ob_trace o ++ write_file m data ∧
    ∀ p e, current (ob_inv o') p e ↔ (p ∈ ps ∧ e = d) ∨ (p ∉ ps ∧ current (ob_inv o) p e).
Proof.
  intros Ho Hw H Hx Hne Hs Hb Hr Hd. pose proof (build_names_nonempty _ _ _ _ _ _ Hb) as Hm.
  assert (ps ≠ []) as Hps. { unfold build_names in Hb. destruct files as [|f fs]; [done|]. cbn [state_paths] in Hb.
    destruct (e_state_path E f area), (state_paths E fs area), (e_manifest_path E f area); try done. injection Hb as <- <-. done. }
  unfold ob_add_reader. destruct files as [|f fs]; [done|]. rewrite Hw, Hb. unfold add_reader.
  destruct (checksums E (remove_dups (inv_fixalgs (ob_inv o) ++ [inv_alg (ob_inv o)])) data) as [cs|] eqn:Hcs.
  2:{ exfalso. revert Hcs. clear -Hs. set (algs := remove_dups _).
      assert (∀ a, a ∈ algs → a = inv_alg (ob_inv o) ∨ a ∈ inv_fixalgs (ob_inv o)) as Ha.
      { intros a. unfold algs. rewrite elem_of_remove_dups, elem_of_app, elem_of_list_singleton. tauto. }
      revert Ha. generalize algs. clear algs. induction algs as [|a l IH]; intros Ha; [done|]. cbn [checksums].
      destruct (Hs a data (Ha a ltac:(left))) as [d ->]. destruct (checksums E l data) eqn:Hc; [done|]. intros _. apply IH; [|done]. intros b Hbl. apply Ha. by right. }
  pose proof (assoc_checksums _ _ _ _ (inv_alg (ob_inv o)) Hcs) as Has.
  rewrite Hd in Has. specialize (Has ltac:(apply elem_of_remove_dups; set_solver)).
  unfold on_inv. unfold add_file. cbn [ob_inv emit set_upd]. rewrite Has. destruct (Hx _ _ _ Hd) as [_ Hlow]. rewrite Hlow.
  destruct (add_fixities_frame m cs (ob_inv o)) as (F1 & F2 & F3 & F4 & F5). pose proof (ext_rel_add_fixities m cs (ob_inv o)) as Hef.
  assert (∀ ver p e, recorded (add_fixities m cs (ob_inv o)) ver p e ↔ recorded (ob_inv o) ver p e) as Hrec by (intros; by apply recorded_versions).
  destruct (add_state_files_current orc 0 m d ps (add_fixities m cs (ob_inv o)) Ho) as (i' & -> & H1 & H2 & H3 & H4).
  { by rewrite (er_wr _ _ Hef). }
  { eapply inv09_same; [..|done]; [done..|apply (er_wr _ _ Hef)]. }
  { by eapply Hne. }
  { done. }
  { intros g Hg. destruct (Hr g Hg) as [(e & Hc)|Hc]; [left; exists e|right; intros ver e; rewrite Hrec; apply Hc].
    unfold current. rewrite F3, Hrec. exact Hc. }
  eexists. split; [done|]. cbn [ob_inv set_inv]. split; [split; [done|by transitivity (add_fixities m cs (ob_inv o))]|].
  split; [by apply H3|]. split.
  { cbn [ob_trace set_inv emit set_upd]. unfold write_file. by rewrite <- (assoc_L (++)). }
  intros p e. rewrite H4. unfold current at 1. rewrite F3, Hrec. done.
Qed.

Lemma delete_current orc f d o :
  oracle_ok orc → inv_writeable (ob_inv o) = true → inv09 (ob_inv o) → d ≠ "" → current (ob_inv o) f d →
  ∃ o', ob_delete orc f d o = (o', SOk) ∧ step o o' ∧ ob_trace o' = ob_trace o ∧
    ∀ p e, current (ob_inv o') p e ↔ p ≠ f ∧ current (ob_inv o) p e.
Proof.
  intros Ho Hw H Hd Hc. pose proof H as (k & Hh & Hk & Hp & _).
  destruct (ob_delete_exact orc f d o) as (o' & Heq & H1 & H2 & _); [done|apply head_newest_is; by exists k|done..| |].
  { apply inv09_head in H as [H _]. intros d1 d2. apply H. }
  exists o'. split; [done|]. split.
  { split.
    - unfold ob_delete in Heq. rewrite Hw in Heq. destruct (already_exists _ _ _ _ _) as [[]|]; [| |done]; [|by injection Heq as <-].
      unfold on_inv in Heq. pose proof (inv09_delete f (ob_inv o) H) as H'. destruct (delete_file f (ob_inv o)). injection Heq as <- ->. done.
    - unfold ob_delete in Heq. rewrite Hw in Heq. destruct (already_exists _ _ _ _ _) as [[]|]; [| |done]; [|by injection Heq as <-].
      unfold on_inv in Heq. pose proof (ext_rel_delete f (ob_inv o)) as H'. destruct (delete_file f (ob_inv o)). injection Heq as <- ->. done. }
  split.
  { unfold ob_delete in Heq. rewrite Hw in Heq. destruct (already_exists _ _ _ _ _) as [[]|]; [| |done]; [|by injection Heq as <-].
    unfold on_inv in Heq. destruct (delete_file f (ob_inv o)). by injection Heq as <- ->. }
  intros p e. rewrite <- !occ_current. destruct (decide (p = f)) as [->|Hne]; [rewrite H1; split; [lia|naive_solver]|]. rewrite H2 by done. naive_solver.
Qed.

Lemma rename_current orc a b d o :
  oracle_ok orc → inv_writeable (ob_inv o) = true → inv09 (ob_inv o) → d ≠ "" → current (ob_inv o) a d → (∀ e, ¬ current (ob_inv o) b e) →
  ∃ o', ob_rename orc a b d o = (o', SOk) ∧ step o o' ∧ ob_trace o' = ob_trace o ∧
    ∀ p e, current (ob_inv o') p e ↔ (p = b ∧ e = d) ∨ (p ≠ a ∧ current (ob_inv o) p e).
Proof.
  intros Ho Hw H Hd Hc Hb. pose proof H as (k & Hh & Hk & Hp & _). pose proof (inv09_head _ H) as [Hu _].
  assert (a ≠ b) as Hab. { intros ->. by apply Hb in Hc. }
  destruct (ob_rename_exact orc a b d o) as (o' & Heq & H1 & H2 & H3 & _); [done|apply head_newest_is; by exists k|done..| | | |].
  { intros d1 d2. apply Hu. }
  { done. }
  { done. }
  exists o'. split; [done|]. split.
  { split.
    - unfold ob_rename in Heq. rewrite Hw in Heq. destruct (already_exists _ _ _ _ _) as [[]|]; [| |done]; [|by injection Heq as <-].
      unfold on_inv in Heq. pose proof (inv09_rename a b (ob_inv o) (or_intror Hb) H) as H'. destruct (rename_file a b (ob_inv o)). injection Heq as <- ->. done.
    - unfold ob_rename in Heq. rewrite Hw in Heq. destruct (already_exists _ _ _ _ _) as [[]|]; [| |done]; [|by injection Heq as <-].
      unfold on_inv in Heq. pose proof (ext_rel_rename a b (ob_inv o)) as H'. destruct (rename_file a b (ob_inv o)). injection Heq as <- ->. done. }
  split.
  { unfold ob_rename in Heq. rewrite Hw in Heq. destruct (already_exists _ _ _ _ _) as [[]|]; [| |done]; [|by injection Heq as <-].
    unfold on_inv in Heq. destruct (rename_file a b (ob_inv o)). by injection Heq as <- ->. }
  intros p e. rewrite <- !occ_current. destruct (decide (p = b)) as [->|Hpb].
  - rewrite H1, !occ_current. split.
    + intros He. left. split; [done|]. by apply (Hu a).
    + intros [[_ ->]|[_ He]]; [done|by apply Hb in He].
  - destruct (decide (p = a)) as [->|Hpa]; [rewrite H2; split; [lia|naive_solver]|]. rewrite H3 by done. naive_solver.
Qed.

Lemma step_refl o : inv09 (ob_inv o) → step o o.
Proof. by split. Qed.
Lemma step_trans o1 o2 o3 : step o1 o2 → step o2 o3 → step o1 o3.
Proof. intros [_ H1] [H2 H3]. split; [done|by etransitivity]. Qed.

(** ** The loops over the originals *)
Lemma originals_delete orcs k cs ns o :
  (∀ j, oracle_ok (orcs j)) → inv_writeable (ob_inv o) = true → inv09 (ob_inv o) → cs ≠ "" → NoDup ns → (∀ f, f ∈ ns → current (ob_inv o) f cs) →
  ∃ o', originals orcs k (λ orc f, ob_delete orc f cs) ns o = (o', SOk) ∧ step o o' ∧ ob_trace o' = ob_trace o ∧
    ∀ p e, current (ob_inv o') p e ↔ p ∉ ns ∧ current (ob_inv o) p e.
Proof.
  intros Ho. revert k o. induction ns as [|f ns IH]; intros k o Hw H Hd Hnd Hc.
  { exists o. split; [done|]. split; [by apply step_refl|]. split; [done|]. set_solver. }
  apply stdpp.list.NoDup_cons in Hnd as [Hf Hnd].
  cbn [originals]. destruct (delete_current (orcs k) f cs o (Ho k) Hw H Hd (Hc f ltac:(left))) as (o1 & -> & S1 & T1 & C1). cbn [andThen].
  destruct (IH (S k) o1) as (o2 & Heq & S2 & T2 & C2); [by rewrite (er_wr _ _ (st_ext _ _ S1))|apply S1|done|done| |].
  { intros g Hg. apply C1. split; [set_solver|]. apply Hc. by right. }
  exists o2. split; [exact Heq|]. split; [by eapply step_trans|]. split; [congruence|]. intros p e. rewrite C2, C1. set_solver.
Qed.

Lemma originals_rename orcs k cs (g : string → string) ns o :
  (∀ j, oracle_ok (orcs j)) → inv_writeable (ob_inv o) = true → inv09 (ob_inv o) → cs ≠ "" → NoDup ns → (∀ f, f ∈ ns → current (ob_inv o) f cs) →
  (∀ f e, f ∈ ns → ¬ current (ob_inv o) (g f) e) → (∀ f f', f ∈ ns → f' ∈ ns → g f = g f' → f = f') →
  ∃ o', originals orcs k (λ orc f, ob_rename orc f (g f) cs) ns o = (o', SOk) ∧ step o o' ∧ ob_trace o' = ob_trace o ∧
    ∀ p e, current (ob_inv o') p e ↔ (∃ f, f ∈ ns ∧ p = g f ∧ e = cs) ∨ (p ∉ ns ∧ current (ob_inv o) p e).
Proof.
  intros Ho. revert k o. induction ns as [|f ns IH]; intros k o Hw H Hd Hnd Hc Hg Hi.
  { exists o. split; [done|]. split; [by apply step_refl|]. split; [done|]. set_solver. }
  apply stdpp.list.NoDup_cons in Hnd as [Hf Hnd].
  cbn [originals]. destruct (rename_current (orcs k) f (g f) cs o (Ho k) Hw H Hd (Hc f ltac:(left))) as (o1 & -> & S1 & T1 & C1); [by intros; apply Hg; left|]. cbn [andThen].
  destruct (IH (S k) o1) as (o2 & Heq & S2 & T2 & C2); [by rewrite (er_wr _ _ (st_ext _ _ S1))|apply S1|done|done| | |naive_solver set_solver|].
  { intros h Hh. apply C1. right. split; [set_solver|]. apply Hc. by right. }
  { intros h e Hh. rewrite C1. intros [[Heq _]|[_ Hx]].
    - assert (h = f) as -> by (apply Hi; [by right|by left|done]). done.
    - by apply (Hg h e) in Hx; [|by right]. }
  exists o2. split; [exact Heq|]. split; [by eapply step_trans|]. split; [congruence|]. intros p e. rewrite C2, C1. split.
  - intros [(h & Hh & -> & ->)|(Hp & [[-> ->]|[Hpf Hx]])].
    + left. exists h. set_solver.
    + left. exists f. set_solver.
    + right. set_solver.
  - intros [(h & [->|Hh]%elem_of_cons & -> & ->)|(Hp & Hx)].
    + right. split; [|by left]. intros Hin. apply (Hg f cs); [by left|]. apply Hc. by right.
    + left. by exists h.
    + right. set_solver.
Qed.
