(** Proofs about descriptive metadata: the writer and the reader, content that stays, the order of the versions. *)
From Coq Require Import Ascii.
From stdpp Require Import base list strings gmap sorting.
From Coq Require Import ZArith Lia.
From Verif Require Import GoStr PathModel PathProofs InventoryModel ObjectModel InventorySpec InventoryProofs ObjectSpec ObjectProofs CrashSpec CrashProofs RunProofs LoadModel LoadProofs
  SessionProofs AreaModel AreaSpec AreaProofs ValidateModel ValidateSpec ValidateProofs ValidateProofs3 PublishSpec PublishProofs PublishProofs2 PublishProofs3 PublishProofs4 PublishProofs5 InheritProofs
  JsonlModel JsonlSpec JsonlProofs JsonlProofs2 MetafileModel MetafileSpec.

(** * Paths *)
Lemma place_target i v q : CrashSpec.plain_name v → CrashSpec.plain_name (content_name i) → clean_rel q → manifest_name_version i q v = place i v q.
Proof.
  intros Hv Hc Hq. change (manifest_name_version i q v) with (manifest_name (set_head v i) q).
  by rewrite manifest_name_clean.
Qed.
Lemma trim_clean p : clean_rel p → trim_left p "/" = p.
Proof. intros H. apply trim_left_id, clean_rel_head, H. Qed.
Lemma join_three a b c : clean_rel a → clean_rel b → clean_rel c → path_join [a; b; c] = a +:+ "/" +:+ b +:+ "/" +:+ c.
Proof.
  intros Ha Hb Hc. rewrite path_join_plain by (by apply clean_rel_nonempty).
  change (join_slash [a; b; c]) with (a +:+ "/" +:+ b +:+ "/" +:+ c). apply path_clean_rel. by apply clean_rel_app, clean_rel_app.
Qed.

Lemma matching_clean l M q : matching l M q → clean_rel q.
Proof. intros []; [by apply clean_rel_app|done|by apply clean_rel_app, clean_rel_app|by apply clean_rel_app]. Qed.
Lemma matching_read l M q i v : matching l M q → CrashSpec.plain_name v → CrashSpec.plain_name (content_name i) → mf_read_target l M i v = Some (place i v q).
Proof.
  intros HM Hv Hc. pose proof (matching_clean _ _ _ HM) as Hq. unfold mf_read_target.
  destruct HM as [c name storage folder sub H1 H2 H3 H4 H5|name storage folder H1|c name storage folder sub H1 H2 H3 H4 H5|name storage folder H1 H2];
    cbn [ms_type ms_name ms_storage].
  - rewrite decide_True by done. unfold area_path. cbn [area_path_from]. rewrite H3, decide_False by (by apply clean_rel_nonempty).
    by rewrite place_target.
  - rewrite decide_True by done. unfold area_path. cbn [area_path_from]. change ("" +:+ ?x) with x. rewrite manifest_version_slash. by rewrite place_target.
  - rewrite (decide_False (P := "path" = "area")), decide_True by done. unfold area_path. cbn [area_path_from]. rewrite H2, decide_False by (by apply clean_rel_nonempty).
    by rewrite place_target.
  - rewrite (decide_False (P := "path" = "area")), decide_True by done. unfold area_path. cbn [area_path_from]. change ("" +:+ ?x) with x.
    rewrite manifest_version_slash. by rewrite place_target.
Qed.
Lemma matching_write E l M q : manifest_by E l → matching l M q → ∃ f area, mf_write_target l M = JAdd [f] area ∧ e_manifest_path E f area = Some q.
Proof.
  intros HE HM. unfold mf_write_target.
  destruct HM as [c name storage folder sub H1 H2 H3 H4 H5|name storage folder H1|c name storage folder sub H1 H2 H3 H4 H5|name storage folder H1 H2];
    cbn [ms_type ms_name ms_storage].
  - change (to_lower "area") with "area". rewrite decide_True by done. eexists _, _. split; [done|]. rewrite HE, trim_clean by done. cbn [mgr_state_path]. unfold sub_state_path.
    rewrite (decide_False (P := storage = "")), (decide_False (P := storage = "full")), H3 by done. rewrite join_two by done.
    by rewrite decide_False by (by destruct sub).
  - change (to_lower "area") with "area". rewrite decide_True by done. eexists _, _. split; [done|]. by rewrite HE, trim_clean.
  - change (to_lower "path") with "path". rewrite (decide_False (P := "path" = "area")), decide_True by done. unfold area_path. cbn [area_path_from].
    rewrite H2, decide_False by (by apply clean_rel_nonempty). eexists _, _. split; [done|]. rewrite join_three, trim_clean by (try done; by apply clean_rel_app, clean_rel_app).
    rewrite HE. cbn [mgr_state_path]. unfold sub_state_path. rewrite (decide_True (P := "" = "")), H1, decide_True by done. by rewrite decide_False by (by destruct sub).
  - change (to_lower "path") with "path". rewrite (decide_False (P := "path" = "area")), decide_True by done. unfold area_path. cbn [area_path_from].
    eexists _, _. split; [done|]. change (path_join [""; storage; name]) with (path_join [storage; name]).
    rewrite join_two, trim_clean by (try done; by apply clean_rel_app). by rewrite HE.
Qed.

(** * Content that is listed stays *)
Section stays.
  Context (E : env) (s : storage) (Hhex : hex_hash (e_hash E)) (p d x : string).
  Definition has (o : object) : Prop := apply_evs (ob_trace o) s !! p = Some x ∧ lists (inv_manifest (ob_inv o)) p d.
  Lemma sop_has orc op o : proper E orc op o → has o → has (sop_step E orc op o).1.
  Proof using.
    intros (_ & _ & Hf) [H1 H2]. pose proof (ef_ext _ _ _ _ (sop_effect E orc op o)) as He. destruct (sop_step E orc op o) as [o' st] eqn:Hs. cbn [fst] in *. split.
    - rewrite (sop_stable E orc op o o' st s p d Hs Hf H2). exact H1.
    - by eapply ext_rel_lists.
  Qed.
  Lemma echo_has orc o : has o → has (ob_echo_delete E orc o).1.
  Proof using.
    intros [H1 H2]. pose proof (ef_ext _ _ _ _ (echo_effect E (SCopy "" "") orc o)) as He. split; [|by eapply ext_rel_lists].
    unfold ob_echo_delete. destruct (e_state_path E "." ""); [|done]. unfold on_inv. by destruct (echo_delete _ _ _ _).
  Qed.
  Lemma sops_has ops o : guarded_sops E (proper E) ops o → has o → has (sops_run E ops o).1.
  Proof using.
    revert o; induction ops as [|[orc op|orc op|msg] ops IH]; intros o Hg Hh; cbn [sops_run]; [done|..|done].
    - cbn [guarded_sops] in Hg. destruct Hg as [Hp Hg]. pose proof (sop_has orc op o Hp Hh) as H.
      destruct (sop_step E orc op o) as [o' []]; cbn [andThen fst after_ok] in *; [by apply IH|done..].
    - cbn [guarded_sops] in Hg. destruct Hg as [Hp Hg]. pose proof (sop_has orc op o Hp Hh) as H.
      destruct (sop_step E orc op o) as [o' []]; cbn [fst] in *; [by apply IH|by apply IH|done].
  Qed.
  Lemma calls_has o o' : calls E o o' → has o → has o'.
  Proof using.
    induction 1 as [|orc op o o1 st o2 Hin Hg Hstep Hst Hrest IH]; [done|]. intros Hh. apply IH. clear IH.
    destruct op; cbn [in_update guarded_op ostep] in *; try done.
    - pose proof (sop_has orc op o Hg Hh) as H. by rewrite Hstep in H.
    - by injection Hstep as <- <-.
    - unfold ob_end_area in Hstep. destruct (ob_echo o).
      + pose proof (echo_has orc o Hh) as H. destruct (ob_echo_delete E orc o) as [o3 []]; cbn [andThen fst] in *; injection Hstep as <- <-; done.
      + cbn [andThen] in Hstep. by injection Hstep as <- <-.
  Qed.
  Lemma start_has n nw msg un ua e o o' : ob_start nw msg un ua e o = (o', SOk) → base E s n o → has o → has o'.
  Proof using.
    unfold ob_start, on_inv. cbn [ob_inv set_echo]. destruct (new_version nw msg un ua (ob_inv o)) as [i' st] eqn:Ei.
    intros [= <- ->] [[fam Hk] _] [H1 H2]. pose proof (contiguous_is _ _ (g_contig _ _ _ _ (kp_good _ _ _ _ _ _ Hk))) as Hh.
    destruct (new_version_spec (ob_inv o) n nw msg un ua Hh) as (st & Eq & _). rewrite Eq in Ei. injection Ei as <-. by split.
  Qed.
  Lemma store_has n o o' : store_inventory E true false o = (o', SOk) → working E s n o → has o → has o'.
  Proof using.
    unfold store_inventory. intros Hst ([fam Hk] & _ & Hw) [H1 H2]. rewrite Hw in Hst.
    destruct (e_hash E _ _) as [dg|] eqn:Hd; [|done]. apply (f_equal fst) in Hst. cbn [fst] in Hst. subst o'. rewrite app_nil_l.
    assert (inv_head (ob_inv o) = version_name (inv_padding (ob_inv o)) (n + 1)) as Hh.
    { rewrite (proj1 (g_contig _ _ _ _ (kp_good _ _ _ _ _ _ Hk))). by rewrite decide_False by lia. }
    destruct (g_paths _ _ _ _ (kp_good _ _ _ _ _ _ Hk) _ _ H2) as (k & r & _ & _ & Hcp).
    split; [|done]. unfold emit. cbn [ob_trace]. rewrite (apply_evs_app (ob_trace o)), apply_evs_app, !apply_write, Hh.
    rewrite <- H1, Hcp. apply lookup_two; apply cpath_vfile; [done|]. apply sidecar_slash, (kp_alg _ _ _ _ _ _ Hk).
  Qed.
  Lemma end_has n orc h o o' : ob_end E orc h o = (o', SOk) → guarded_end E (proper E) (λ _, True) orc h o → working E s n o →
    inv_modified (ob_inv o) = true → has o → has o'.
  Proof using Hhex.
    revert n orc o; induction h as [a|a nw auto rest IH]; intros n orc o; rewrite ob_end_unfold; intros He Hg Hwk Hm Hh;
      (pose proof Hwk as (_ & _ & Hw); rewrite Hw, Hm in He; cbn [negb] in He; cbn [guarded_end] in Hg; destruct Hg as [_ Hg];
       assert (∃ o1, (if ob_echo o then ob_echo_delete E orc o else (o, SOk)) = (o1, SOk) ∧ working E s n o1 ∧ inv_modified (ob_inv o1) = true ∧ has o1)
         as (o1 & E1 & W1 & M1 & Hh1);
       [destruct (ob_echo o); [|by exists o]; pose proof (echo_working E s n orc o Hwk) as HW; pose proof (echo_modified E orc o Hm) as HM;
        pose proof (echo_has orc o Hh) as HH;
        destruct (ob_echo_delete E orc o) as [o1 []]; cbn [andThen] in He; [by exists o1|done|done]|];
       rewrite E1 in He, Hg; cbn [andThen after_ok] in He, Hg; destruct Hg as [Hga Hg];
       pose proof (sops_working E s Hhex n _ o1 Hga W1) as W2; pose proof (sops_modified E a o1 M1) as M2; pose proof (sops_has _ o1 Hga Hh1) as Hh2;
       destruct (sops_run E a o1) as [o2 []]; cbn [andThen after_ok fst] in He, Hg, W2, M2, Hh2; [|done..];
       destruct (store_inventory E true false o2) as [o3 []] eqn:Est; cbn [andThen after_ok] in He, Hg; [|done..];
       pose proof (store_settled E s n o2 o3 Est W2 M2) as S3; pose proof (store_has n o2 o3 Est W2 Hh2) as Hh3).
    - by injection He as <-.
    - destruct (ob_start nw _ _ _ false o3) as [o4 []] eqn:E4; cbn [andThen after_ok] in He, Hg; [|done..]. destruct Hg as [Hgb Hg].
      destruct (start_working E s _ _ _ _ _ _ _ _ E4 (settled_base E s _ _ S3)) as [W4 _].
      pose proof (start_has _ _ _ _ _ _ _ _ E4 (settled_base E s _ _ S3) Hh3) as Hh4.
      assert (inv_modified (ob_inv o4) = true) as M4.
      { destruct S3 as (_ & _ & _ & M3 & _). unfold ob_start, on_inv in E4. cbn [ob_inv set_echo] in E4.
        destruct (new_version _ _ _ _ (ob_inv o3)) as [i4 st] eqn:Ei. injection E4 as <- ->. cbn [ob_inv set_inv].
        unfold new_version in Ei. destruct (next_head _); [|done]. destruct (decide _); [by injection Ei as <-|]. destruct (_ !! _); [|done]. by injection Ei as <-. }
      pose proof (sops_working E s Hhex _ _ o4 Hgb W4) as W5. pose proof (sops_modified E auto o4 M4) as M5. pose proof (sops_has _ o4 Hgb Hh4) as Hh5.
      destruct (sops_run E auto o4) as [o5 []]; cbn [andThen after_ok fst] in He, Hg, W5, M5, Hh5; [|done..]. by eapply (IH (n + 1)%N).
  Qed.
  Lemma close_has n orc o o' : ob_close E orc o = (o', SOk) → settled E s n o → has o → has o'.
  Proof using.
    intros Hc ((fam & Hk & _) & _ & Hw & Hm & _) [H1 H2]. destruct (close_spec E orc o o' Hw Hm Hc) as (dg & Hd & Hi & Ht).
    destruct (g_paths _ _ _ _ (kp_good _ _ _ _ _ _ Hk) _ _ H2) as (k & r & _ & _ & Hcp).
    split; [|by rewrite Hi]. rewrite Ht, apply_evs_app, apply_evs_other; [exact H1|]. rewrite Hcp. apply Forall_app. split.
    - repeat constructor; cbn [ev_path]; apply not_eq_sym; apply (slash_ne _ _ (cpath_slash _ _ _)); [done..| |]; apply sidecar_slash, (kp_alg _ _ _ _ _ _ Hk).
    - eapply Forall_impl; [apply ext_events_below|]. intros e Hb He. cbv beta in Hb. rewrite He in Hb. by apply (cpath_not_below _ _ _ "extensions") in Hb; [|left].
  Qed.
End stays.

(** * The versions in order *)
Definition upto (n : nat) : list N := N.of_nat <$> seq 1 n.
Lemma upto_in n k : k ∈ upto n ↔ (1 <= k <= N.of_nat n)%N.
Proof.
  unfold upto. rewrite elem_of_list_fmap. split.
  - intros (j & -> & H%elem_of_seq). lia.
  - intros H. exists (N.to_nat k). split; [lia|]. apply elem_of_seq. lia.
Qed.
Lemma upto_nodup n : NoDup (upto n).
Proof. apply NoDup_fmap_2; [intros a b; lia|]. apply NoDup_seq. Qed.
Lemma upto_S n : upto (S n) = upto n ++ [N.of_nat (S n)].
Proof. unfold upto. rewrite seq_S, fmap_app. done. Qed.
Lemma upto_sorted n : StronglySorted N.le (upto n).
Proof.
  induction n as [|n IH]; [constructor|]. rewrite upto_S.
  assert (∀ (l : list N) a, StronglySorted N.le l → (∀ b, b ∈ l → (b <= a)%N) → StronglySorted N.le (l ++ [a])) as H.
  { clear. induction l as [|b l IH]; intros a Hl Ha; cbn [app]; [repeat constructor|]. apply StronglySorted_inv in Hl as [H1 H2]. constructor.
    - apply IH; [done|]. intros c Hc. apply Ha. by right.
    - apply Forall_app. split; [done|]. repeat constructor. apply Ha. by left. }
  apply H; [done|]. intros b Hb%upto_in. lia.
Qed.
Lemma names_in_order {A} (m : gmap string A) pad n w k :
  vorder_ok w → (pad <= 0)%Z → (∀ ver, is_Some (m !! ver) ↔ ∃ k, (1 <= k <= N.of_nat n)%N ∧ ver = version_name pad k) →
  sorted_names ((vo w k m).*1) = version_name pad <$> upto n.
Proof.
  intros Hw Hpad Hm. set (l := (vo w k m).*1).
  assert (∀ v, v ∈ l ↔ is_Some (m !! v)) as Hl.
  { intros v. unfold l. rewrite elem_of_list_fmap. split.
    - intros ([u x] & -> & Hx). rewrite (Hw k _ m) in Hx. apply elem_of_map_to_list in Hx. by eexists.
    - intros [x Hx]. exists (v, x). split; [done|]. rewrite (Hw k _ m). by apply elem_of_map_to_list. }
  assert (NoDup l) as Hnd by (unfold l; rewrite (Hw k _ m); apply NoDup_fst_map_to_list).
  unfold sorted_names. destruct (nums_numbered l) as (ps & E1 & E2 & Hps).
  { intros v (j & Hj & ->)%Hl%Hm. exists j. apply vname_numbered; [done|lia]. }
  rewrite E1.
  assert (∀ j v, (j, v) ∈ ps → (1 <= j <= N.of_nat n)%N ∧ v = version_name pad j) as Hv.
  { intros j v Hin. pose proof (Hps _ _ Hin) as Hn. assert (v ∈ l) as Hvl by (rewrite <- E2; apply elem_of_list_fmap; by exists (j, v)).
    apply Hl, Hm in Hvl as (i & Hi & ->). assert (j = i) as -> by (eapply numbered_fun; [exact Hn|apply vname_numbered; [done|lia]]). done. }
  assert (l = version_name pad <$> ps.*1) as El.
  { rewrite <- E2. clear -Hv. induction ps as [|[j v] ps IH]; [done|]. rewrite !fmap_cons. cbn [fst snd]. f_equal; [by apply Hv; left|].
    apply IH. intros a b Hin. apply Hv. by right. }
  assert (ps.*1 ≡ₚ upto n) as Hperm.
  { apply NoDup_Permutation; [|apply upto_nodup|].
    - apply (NoDup_fmap_1 (version_name pad)). by rewrite <- El.
    - intros j. rewrite upto_in. split.
      + intros ([j' v] & -> & Hin)%elem_of_list_fmap. by apply (Hv j' v).
      + intros Hj. assert (version_name pad j ∈ l) as Hin by (apply Hl, Hm; by exists j).
        rewrite <- E2 in Hin. apply elem_of_list_fmap in Hin as ([j' v] & Hjv & Hin). cbn [snd] in Hjv. destruct (Hv _ _ Hin) as [_ ->].
        apply InventoryProofs.version_name_inj in Hjv as ->. apply elem_of_list_fmap. by exists (j', version_name pad j'). }
  assert (merge_sort N.le ps.*1 = upto n) as ->.
  { apply (StronglySorted_unique N.le); [apply StronglySorted_merge_sort; apply _|apply upto_sorted|]. by rewrite merge_sort_Permutation. }
  apply list_fmap_ext. intros ix j Hj%elem_of_list_lookup_2.
  assert (j ∈ ps.*1) as Hj' by (by rewrite Hperm). destruct (last_with_in _ _ Hj') as (v & -> & Hin). cbn [default]. by apply Hv.
Qed.

(** The newest one of the numbers up to [n] for which there is a text. *)
Definition newest (f : N → option string) (n : N) (latest : option string) : Prop :=
  match latest with
  | Some t => ∃ k, (1 <= k <= n)%N ∧ f k = Some t ∧ ∀ j, (k < j <= n)%N → f j = None
  | None => ∀ j, (1 <= j <= n)%N → f j = None
  end.
Lemma search_newest pad read n latest :
  newest (λ k, read (version_name pad k)) (N.of_nat n) latest → mf_search ∅ read (rev (version_name pad <$> upto n)) = latest.
Proof.
  revert latest. induction n as [|n IH]; intros latest.
  - cbn. destruct latest as [t|]; [|done]. intros (k & Hk & _). lia.
  - rewrite upto_S, fmap_app, rev_app_distr. cbn [fmap list_fmap rev app mf_search]. rewrite lookup_empty.
    destruct (read (version_name pad (N.of_nat (S n)))) as [t|] eqn:Er; intros H.
    + destruct latest as [t'|].
      * destruct H as (k & Hk & Hf & Hj). destruct (decide (k = N.of_nat (S n))) as [->|Hne]; [congruence|].
        rewrite Hj in Er by lia. done.
      * cbn in H. rewrite H in Er by lia. done.
    + apply IH. destruct latest as [t'|].
      * destruct H as (k & Hk & Hf & Hj). exists k. split; [|split; [done|intros; apply Hj; lia]].
        destruct (decide (k = N.of_nat (S n))) as [->|Hne]; [congruence|lia].
      * intros j Hj. apply H. lia.
Qed.
