(** An inventory for which nothing but warnings is reported satisfies the rules, but for hidden conflicts of logical paths. *)
From Coq Require Import Ascii.
From stdpp Require Import base list strings gmap.
From Coq Require Import ZArith Lia.
From Verif Require Import GoStr InventoryModel ObjectModel CrashSpec LoadModel ValidateModel ValidateSpec ValidateProofs ValidateProofs2 ValidateProofs3
  ValidateProofs4 CheckModel CheckSpec EqualProofs CheckProofs CheckProofs2 AcceptSpec AcceptProofs JsonTypeProofs GuaranteeProofs.

Section doc.
  Context (w : vorder) (lx : lexicon) (Hw : vorder_ok w) (d : doc) (fs : list finding) (HV : validated w lx d fs) (Hc : ws fs).
  Lemma no_code c : str_head c ≠ Some "W"%char → ¬ reported fs c.
  Proof using Hc. intros H1 H2. by apply (clean_not fs c). Qed.
  Lemma clean_cdir : dc_contentdir d ≠ "." ∧ dc_contentdir d ≠ ".." ∧ ∀ a b, dc_contentdir d ≠ a +:+ "/" +:+ b.
  Proof using HV Hc.
    assert (∀ b : bool, b = true → b = bool_decide (dc_contentdir d = "." ∨ dc_contentdir d = "..") || str_mem slash (dc_contentdir d) → False) as H.
    { intros b Hb ->. apply (no_code "E017"); [done|]. exists [dc_contentdir d]. apply (rest_reported w lx d fs HV). unfold rest_findings.
      rewrite !elem_of_app, !when_in. by do 6 right. }
    split; [|split].
    - intros E. apply (H _ eq_refl). rewrite E. done.
    - intros E. apply (H _ eq_refl). rewrite E. done.
    - intros a b E. apply (H _ eq_refl). rewrite E. symmetry. apply orb_true_iff. right. rewrite str_mem_app. apply orb_true_iff. right. reflexivity.
  Qed.
  Lemma clean_class a b va vb : has_version d a va → has_version d b vb → pad_class a = pad_class b.
  Proof using Hw HV Hc.
    intros Ha Hb. destruct (decide (pad_class a = pad_class b)) as [|Hne]; [done|]. exfalso.
    pose proof (clean_numbered w lx Hw d fs HV Hc) as Hn.
    assert (∀ ver, ver ∈ (valued (fdoc w d) (vo w 5 (vers (fdoc w d)))).*1 → zero_name ver = true ∨ nozero_name ver = true) as Hnm.
    { intros ver [v Hv]%valued_names; [|done..]. destruct (Hn _ _ Hv) as [k Hk]. by eapply numbered_name. }
    apply (no_code "E012"); [done|]. destruct (proj2 (proj1 (pad_all _ Hnm) "E012" (or_introl eq_refl))) as [args Hf].
    { exists a, b. split; [apply valued_names; [done..|by exists va]|]. split; [apply valued_names; [done..|by exists vb]|done]. }
    openparts2 HV HP pad zs fr fl fm ff El Hlog Hman Hfix. exists args. apply HP. do 2 right. by left.
  Qed.
  Lemma clean_uniform : uniform d.
  Proof using Hw HV Hc.
    pose proof (clean_numbered w lx Hw d fs HV Hc) as Hn. split; [exact Hn|].
    destruct (decide (vers d = ∅)) as [He|He].
    { left. intros ver v Hv%has_version_vers. by rewrite He, lookup_empty in Hv. }
    apply map_choose in He as (v0 & x0 & H0). apply has_version_vers in H0.
    destruct (zero_name v0) eqn:Ez.
    - right. exists (String.length v0). intros ver v Hv. pose proof (clean_class _ _ _ _ H0 Hv) as E. pose proof (pad_class_pos _ Ez) as Hp.
      destruct (Hn _ _ Hv) as [k Hk]. rewrite (zero_head _ _ Hk). unfold pad_class in E, Hp. rewrite Ez in E, Hp.
      destruct (zero_name ver); [|lia]. split; [done|lia].
    - left. intros ver v Hv. destruct (Hn _ _ Hv) as [k Hk]. rewrite (zero_head _ _ Hk). intros Hz. pose proof (pad_class_pos _ Hz) as Hp.
      rewrite <- (clean_class _ _ _ _ H0 Hv) in Hp. unfold pad_class in Hp. rewrite Ez in Hp. lia.
  Qed.
  Lemma clean_present : dc_manifest d ≠ None ∧ dc_versions d ≠ None.
  Proof using HV Hc.
    split; intros E; [apply (no_code "E041" ltac:(done)); exact (no_manifest_reported w lx d fs HV E)|].
    apply (no_code "E008" ltac:(done)). apply (no_versions_reported w lx d fs HV). unfold vers. by rewrite E.
  Qed.
  Lemma clean_head : os_err (dc_head d) = false ∧ newest d (os_val (dc_head d)).
  Proof using Hw HV Hc.
    destruct (os_err (dc_head d)) eqn:E; [destruct (no_code "E040" ltac:(done)); exact (head_reported w lx d fs HV E)|]. split; [done|].
    destruct (decide (os_val (dc_head d) = "")) as [E'|E'].
    { destruct (no_code "E036" ltac:(done)). exact (no_head_reported w lx d fs HV E E'). }
    assert (vers d ≠ ∅) as He.
    { intros He. destruct (no_code "E008" ltac:(done)). exact (no_versions_reported w lx d fs HV He). }
    pose proof (recent_newest w 7 d Hw (clean_numbered w lx Hw d fs HV Hc) (clean_distinct w lx Hw d fs HV Hc) He) as Hr.
    destruct (decide (os_val (dc_head d) = recent_version (dc_values (fdoc w d)) "" (version_strings w 7 (fdoc w d)))) as [Eq|Hne]; [by rewrite Eq|].
    exfalso. apply (no_code "E040"); [done|]. openparts2 HV HP pad zs fr fl fm ff El Hlog Hman Hfix. eexists. apply HP. do 4 right. left.
    unfold tail_findings. rewrite !elem_of_app, !when_in. do 2 right. left. split; [|reflexivity]. by apply bool_decide_eq_true.
  Qed.
  Lemma clean_sound_version ver v : has_version d ver v → sound_version v.
  Proof using Hw HV Hc.
    intros Hv. destruct (clean_numbered w lx Hw d fs HV Hc ver v Hv) as [n Hn]. pose proof (numbered_value _ _ Hn) as Hz.
    destruct (version_reported w lx d fs Hw HV ver v _ Hv Hz) as ((c & Ec & H1) & H2 & H3 & H4 & H5 & H6). split.
    - rewrite Ec. split; [done|]. intros x Hx. apply (inj Some) in Hx as <-. destruct (os_err c) eqn:E; [|done].
      destruct (no_code "E049" ltac:(done)). by apply H1.
    - intros x Hx. destruct (os_err x) eqn:E; [|done]. destruct (no_code "E094" ltac:(done)). by eapply H2.
    - intros u Hu. split; [|split].
      + destruct (u_err u) eqn:E; [|done]. destruct (no_code "E054" ltac:(done)). by eapply H3.
      + intros x Hx. destruct (os_err x) eqn:E; [|done]. destruct (no_code "E054" ltac:(done)). by eapply H4.
      + intros x Hx. destruct (os_err x) eqn:E; [|done]. destruct (no_code "E054" ltac:(done)). by eapply H5.
    - intros st e Hst. destruct e; [|done]. destruct (no_code "E050" ltac:(done)). by eapply H6.
  Qed.
  Lemma clean_states ver v st e dg : has_version d ver v → vd_state v = Some (st, e) → is_Some (st !! dg) →
    ∃ m, dc_manifest d = Some m ∧ is_Some (m !! dg).
  Proof using Hw HV Hc.
    intros Hv Hst [ps Hps]. destruct (clean_numbered w lx Hw d fs HV Hc ver v Hv) as [n Hn]. pose proof (numbered_value _ _ Hn) as Hz.
    destruct (version_checked w lx d fs Hw HV ver v _ Hv Hz) as (fv & Hfv & Hsub). revert Hfv. unfold fin_version. rewrite Hz. cbn [snd].
    unfold check_version. cbn [vd_created vd_user vd_message vd_state fin_user]. rewrite Hst. cbn [default from_option id].
    destruct (vd_created v) as [c|]; [|done]. intros (fa & fb & _ & Hb & ->)%vseq_done.
    assert ((dg, ps) ∈ vo w 6 st) as Hin by (by apply vo_in).
    destruct (proj1 (vall_map_ok _ _) (ex_intro _ _ Hb) _ Hin) as [fx Hx]. pose proof Hx as Hx'. cbn [fst snd] in Hx.
    apply vseq_done in Hx as (f1 & f2 & Hf1 & _ & ->). injection Hf1 as <-.
    assert (∀ f, f ∈ (if decide (dg ∈ (map_to_list (man d)).*1) then []
                      else if decide (to_lower dg ∈ to_lower <$> (map_to_list (man d)).*1) then [Finding "E096" [ver; dg]]
                      else [Finding "E050" [ver; dg]]) → f ∈ fs) as Hf.
    { intros f Hf. apply Hsub, elem_of_app. right. eapply vall_map_done; [exact Hb|]. eexists _, _. split; [exact Hin|]. split; [exact Hx'|].
      apply elem_of_app. by left. }
    destruct (decide (dg ∈ (map_to_list (man d)).*1)) as [Hk|Hk].
    - apply elem_of_list_fmap in Hk as ([k qs] & -> & Hk). apply elem_of_map_to_list in Hk. unfold man in Hk.
      destruct (dc_manifest d) as [m|]; [|exfalso; revert Hk; clear; intros H; cbn in H; by rewrite lookup_empty in H]. exists m. split; [done|]. by eexists.
    - destruct (decide _) in Hf.
      + destruct (no_code "E096" ltac:(done)). eexists. apply Hf. left.
      + destruct (no_code "E050" ltac:(done)). eexists. apply Hf. left.
  Qed.
  Lemma clean_used m dg : dc_manifest d = Some m → is_Some (m !! dg) →
    ∃ ver v st e, has_version d ver v ∧ vd_state v = Some (st, e) ∧ is_Some (st !! dg).
  Proof using Hw HV Hc.
    intros Hm [ps Hps]. openparts2 HV HP pad zs fr fl fm ff El Hlog Hman Hfix.
    assert (man (fdoc w d) = m) as Em by (unfold fdoc, man; cbn; by rewrite Hm).
    unfold check_manifest in Hman. destruct (all_some _) as [sts|] eqn:Es; [|done]. apply vseq_done in Hman as (fa & fb & Ha & _ & ->).
    assert ((dg, ps) ∈ vo w 2 (man (fdoc w d))) as Hin by (rewrite Em; by apply vo_in).
    destruct (proj1 (vall_map_ok _ _) (ex_intro _ _ Ha) _ Hin) as [fx Hx]. pose proof Hx as Hx'. cbn [fst snd] in Hx.
    apply vseq_done in Hx as (f1 & f2 & Hf1 & _ & ->). injection Hf1 as <-.
    destruct (decide (dg ∈ flat_map (λ st : smap, (map_to_list st).*1) sts)) as [Hk|Hk].
    - apply elem_of_list_In, in_flat_map in Hk as (st & Hst & Hk). apply elem_of_list_In in Hst, Hk.
      apply (all_some_in _ _ Es), elem_of_list_fmap in Hst as ([ver v'] & Est & Hv). cbn [snd] in Est. apply vo_in in Hv; [|done].
      apply fdoc_vers in Hv as (v & Hv & ->). apply has_version_vers in Hv.
      destruct (clean_numbered w lx Hw d (_ : list finding) HV Hc ver v Hv) as [n Hn]. pose proof (fin_state_valued ver v _ (numbered_value _ _ Hn)) as E.
      unfold state_of in Est. rewrite E in Est. cbn in Est. apply (inj Some) in Est. subst st.
      apply elem_of_list_fmap in Hk as ([k qs] & -> & Hk). apply elem_of_map_to_list in Hk. cbn [fst].
      destruct (vd_state v) as [[st e]|] eqn:Ev; [|exfalso; revert Hk; clear; intros H; cbn in H; by rewrite lookup_empty in H]. exists ver, v, st, e. split; [done|]. split; [done|]. by eexists.
    - destruct (no_code "E107" ltac:(done)). exists [dg]. apply HP. do 6 right. left. apply elem_of_app. left.
      eapply vall_map_done; [exact Ha|]. eexists _, _. split; [exact Hin|]. split; [exact Hx'|]. apply elem_of_app. left.
      rewrite when_in. split; [|done]. cbn [fst]. by rewrite bool_decide_eq_false_2.
  Qed.
  Lemma clean_case alg m dg dg' : dc_fixity d !! alg = Some m → is_Some (m !! dg) → is_Some (m !! dg') → to_lower dg = to_lower dg' → dg = dg'.
  Proof using Hw HV Hc.
    intros Hm [ps Hps] [qs Hqs] Heq. openparts2 HV HP pad zs fr fl fm ff El Hlog Hman Hfix. unfold check_fixity in Hfix.
    assert ((alg, m) ∈ vo w 3 (dc_fixity (fdoc w d))) as Hin by (by apply vo_in).
    destruct (proj1 (vall_map_ok _ _) (ex_intro _ _ Hfix) _ Hin) as [fx Hx]. pose proof Hx as Hx'. cbn [fst snd] in Hx.
    assert (¬ reported fx "E097") as Hno.
    { intros [args Hf]. apply (no_code "E097"); [done|]. exists args. apply HP. do 7 right. left. eapply vall_map_done; [exact Hfix|]. eauto. }
    rewrite (fix_block_e097 w w Hw Hw _ _ _ _ Hx) in Hno.
    assert (NoDup (to_lower <$> (vo w 4 m).*1)) as Hnd.
    { destruct (decide (NoDup (to_lower <$> (vo w 4 m).*1))) as [|Hn]; [done|]. exfalso. apply Hno. by intros [? _]. }
    assert (dg ∈ (vo w 4 m).*1) as H1. { apply elem_of_list_fmap. exists (dg, ps). split; [done|]. by apply vo_in. }
    assert (dg' ∈ (vo w 4 m).*1) as H2. { apply elem_of_list_fmap. exists (dg', qs). split; [done|]. by apply vo_in. }
    apply elem_of_list_lookup in H1 as [i Hi], H2 as [j Hj].
    assert (i = j) as <-; [|congruence].
    apply (NoDup_lookup (to_lower <$> (vo w 4 m).*1) i j (to_lower dg)); [done|..]; rewrite list_lookup_fmap, ?Hi, ?Hj; cbn; congruence.
  Qed.
  Lemma clean_sound : (∀ ver dg dg' p q, state_lists d ver dg p → state_lists d ver dg' q → ¬ dir_of p q) → sound_doc d.
  Proof using Hw HV Hc.
    intros Hdirs. split.
    - intros E. exact (no_code "E036" ltac:(done) (id_reported w lx d fs HV E)).
    - intros E. exact (no_code "E036" ltac:(done) (type_reported w lx d fs HV E)).
    - destruct (decide (dc_alg d = "sha512")) as [|H1]; [by left|]. destruct (decide (dc_alg d = "sha256")) as [|H2]; [by right|].
      destruct (no_code "E025" ltac:(done) (unknown_alg_reported w lx d fs HV H1 H2)).
    - exact clean_cdir.
    - exact clean_present.
    - exact clean_uniform.
    - destruct (clean_upto w lx Hw d fs HV Hc) as (n & Hn). exists n. split; [|done].
      destruct clean_head as [_ (v & k & Hv & Hk & _)]. destruct Hn as (_ & H2 & _). destruct (H2 _ _ Hv) as (k' & [Hk1 _] & Hk2). lia.
    - exact clean_head.
    - exact clean_sound_version.
    - exact clean_states.
    - exact clean_used.
    - intros dg p Hl Hm. destruct (proj2 (malformed_content w lx d fs p Hw HV)) as [[args H]|[args H]]; [split; [done|left; by exists dg]|..].
      + apply (no_code "E100" ltac:(done)). by eexists.
      + apply (no_code "E099" ltac:(done)). by eexists.
    - intros alg dg p Hl Hm. destruct (proj2 (malformed_content w lx d fs p Hw HV)) as [[args H]|[args H]]; [split; [done|right; by exists alg, dg]|..].
      + apply (no_code "E100" ltac:(done)). by eexists.
      + apply (no_code "E099" ltac:(done)). by eexists.
    - intros ver dg p Hl Hm. pose proof Hl as (v & st & e & ps & Hv & _). destruct (clean_numbered w lx Hw d fs HV Hc ver v Hv) as [n Hn].
      destruct (proj2 (malformed_logical w lx d fs ver n p Hw HV Hn)) as [H|H]; [split; [done|by exists dg]|..].
      + apply (no_code "E053" ltac:(done)). by eexists.
      + apply (no_code "E052" ltac:(done)). by eexists.
    - exact Hdirs.
    - exact clean_case.
  Qed.
End doc.
