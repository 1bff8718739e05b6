(** The validator reports nothing but warnings for a sound inventory. *)
From Coq Require Import Ascii ZArith Lia.
From stdpp Require Import base list strings gmap sorting.
From Verif Require Import GoStr InventoryModel ObjectModel CrashSpec LoadModel ValidateModel ValidateSpec ValidateProofs ValidateProofs2 ValidateProofs3
  ValidateProofs4 CheckModel CheckSpec EqualProofs CheckProofs CheckProofs2 AcceptSpec.

(** * Verdicts *)

Lemma warn_code f c : f_code f = c → str_head c = Some "W"%char → warning f.
Proof. intros <- H. unfold warning. destruct (f_code f) as [|x r]; [done|]. injection H as ->. by exists r. Qed.
Definition ws (fs : list finding) : Prop := ∀ f, f ∈ fs → warning f.
Lemma ws_nil : ws [].
Proof. intros f H. by apply elem_of_nil in H. Qed.
Lemma ws_app a b : ws (a ++ b) ↔ ws a ∧ ws b.
Proof. unfold ws. setoid_rewrite elem_of_app. naive_solver. Qed.
Lemma ws_when b f : (b = true → warning f) → ws (when b f).
Proof. intros H x [Hb ->]%when_in. auto. Qed.
Lemma ws_flat {A} (f : A → list finding) l : (∀ a, a ∈ l → ws (f a)) → ws (flat_map f l).
Proof. intros H x (a & Ha & Hx)%flat_map_in. by apply (H a). Qed.
Lemma ok_done fs : ws fs → only_warnings (VDone fs).
Proof. intros H. by exists fs. Qed.
Lemma ok_seq a b : only_warnings a → only_warnings b → only_warnings (vseq a b).
Proof. intros (fa & -> & Ha) (fb & -> & Hb). exists (fa ++ fb). split; [done|]. by apply ws_app. Qed.
Lemma ok_all {A} (f : A → verdict) l : (∀ a, a ∈ l → only_warnings (f a)) → only_warnings (vall (f <$> l)).
Proof.
  induction l as [|a l IH]; intros H; [apply ok_done, ws_nil|]. rewrite fmap_cons. cbn [vall]. apply ok_seq.
  - apply H. by left.
  - apply IH. intros x Hx. apply H. by right.
Qed.
Lemma malformed_empty : malformed "".
Proof. exists "". split; [|by left]. unfold split_slash. simpl. by apply elem_of_list_singleton. Qed.
Lemma mem_split c s : str_mem c s = true → ∃ a b, s = a +:+ String c b.
Proof.
  induction s as [|x s IH]; [done|]. simpl. destruct (decide (c = x)) as [->|]; [intros _; by exists "", s|].
  intros (a & b & ->)%IH. by exists (String x a), b.
Qed.
Lemma str_last_none s : str_last s = None → s = "".
Proof. induction s as [|c s IH]; [done|]. simpl. destruct s as [|c' s']; [done|]. intros H. by apply IH in H. Qed.
Lemma ok_path cs ce args p : ¬ malformed p → check_path cs ce args p = VDone [].
Proof.
  intros Hm. assert (p ≠ "") as Hp by (intros ->; apply Hm; by apply malformed_empty).
  unfold check_path. destruct p as [|h r] eqn:Ep; [done|]. cbn [str_head]. destruct (str_last (String h r)) as [l|] eqn:El; [|by apply str_last_none in El].
  assert (h ≠ slash) as Hh.
  { intros ->. apply Hm. exists "". split; [|by left]. unfold split_slash. rewrite split_on_cons_sep. by left. }
  assert (l ≠ slash) as Hl.
  { intros ->. apply str_last_some in El as [a Ha]. apply Hm. exists "". split; [|by left]. rewrite Ha.
    destruct (split_on_snoc slash a) as [l' E]. unfold split_slash. rewrite E. apply elem_of_app. right. by left. }
  rewrite bool_decide_false by naive_solver. rewrite decide_False by done. cbn [when app]. f_equal.
  assert (∀ x, x ∉ flat_map (λ e, when (bad_element e) (Finding ce (String h r :: args))) (split_slash (String h r))) as Hx.
  { intros x (e & He & Hw)%flat_map_in. apply when_in in Hw as [Hb _]. unfold bad_element in Hb. apply bool_decide_eq_true in Hb.
    apply Hm. by exists e. }
  destruct (flat_map _ _) as [|x l']; [done|]. destruct (Hx x). by left.
Qed.

(** * One inventory *)
Section doc.
  Context (w : vorder) (lx : lexicon) (Hw : vorder_ok w) (d : doc) (Hd : sound_doc d).

  Lemma sound_numbered : all_numbered d.
  Proof using Hd. exact (proj1 (sd_names _ Hd)). Qed.
  Lemma sound_distinct : distinct_numbers d.
  Proof using Hd. apply uniform_distinct, sd_names, Hd. Qed.
  Lemma sound_man : ∃ m, dc_manifest d = Some m ∧ man d = m.
  Proof using Hd. destruct (sd_present _ Hd) as [H _]. unfold man. destruct (dc_manifest d); [eauto|done]. Qed.
  Lemma sound_state ver v st dg : vers d !! ver = Some v → state_of v = Some st → is_Some (st !! dg) → is_Some (man d !! dg).
  Proof using Hd.
    intros Hv Hs Hg. unfold state_of in Hs. destruct (vd_state v) as [[st' e]|] eqn:E; [|done]. simpl in Hs. injection Hs as ->.
    destruct (sd_states _ Hd ver v st e dg) as (m & Hm & Hg'); [by apply has_version_vers|done|done|].
    unfold man. by rewrite Hm.
  Qed.
  Lemma sound_nonempty : vers d ≠ ∅.
  Proof using Hd.
    intros H. destruct (sd_head _ Hd) as [_ (v & n & Hv & _)]. apply has_version_vers in Hv. by rewrite H, lookup_empty in Hv.
  Qed.
  Lemma not_malformed p : ¬ malformed p → p ≠ "".
  Proof using. intros Hm ->. by apply Hm, malformed_empty. Qed.

  Lemma sound_checkable : checkable d.
  Proof using Hd.
    split; [|split].
    - intros dg p H. eapply not_malformed, sd_man_paths; done.
    - intros alg dg p H. eapply not_malformed, sd_fix_paths; done.
    - intros ver v Hv. destruct (sound_numbered ver v Hv) as [n Hn]. rewrite (numbered_value _ _ Hn). split.
      + apply (sv_created v), (sd_version _ Hd ver v Hv).
      + intros dg p H. eapply not_malformed, sd_state_paths; done.
  Qed.

  Lemma sound_start : ws (start_findings w d).
  Proof using Hw Hd.
    unfold start_findings. destruct (sd_present _ Hd) as [H1 H2]. apply ws_app. split; [|apply ws_app; split].
    - apply ws_when. intros H%bool_decide_eq_true. done.
    - apply ws_when. intros H%bool_decide_eq_true. done.
    - apply ws_flat. intros [ver v] Hin. apply vo_in, has_version_vers in Hin; [|done].
      destruct (sound_numbered ver v Hin) as [n Hn]. unfold fin_version. cbn [fst snd]. rewrite (numbered_value _ _ Hn). cbn [fst].
      apply ws_app. split; apply ws_when; intros _; by eapply warn_code.
  Qed.
  Lemma sound_pad f : f ∉ pad_findings (-1) ((valued (fdoc w d) (vo w 5 (vers (fdoc w d)))).*1).
  Proof using Hw Hd.
    intros Hf. pose proof (only_pad _ _ _ Hf) as Hc.
    set (l := (valued (fdoc w d) (vo w 5 (vers (fdoc w d)))).*1) in *.
    assert (∀ ver, ver ∈ l → zero_name ver = true ∨ nozero_name ver = true) as Hn.
    { intros ver (v & Hv)%(valued_names w 5 d ver Hw sound_numbered). destruct (sound_numbered ver v Hv) as [n Hn].
      by eapply numbered_name. }
    destruct (pad_all l Hn) as (H1 & H2 & _). destruct (uniform_class d (sd_names _ Hd)) as [k Hk].
    assert (¬ ∃ a b, a ∈ l ∧ b ∈ l ∧ pad_class a ≠ pad_class b) as Hne.
    { intros (a & b & (va & Ha)%(valued_names w 5 d a Hw sound_numbered) & (vb & Hb)%(valued_names w 5 d b Hw sound_numbered) & Hab).
      apply Hab. rewrite (Hk _ _ Ha), (Hk _ _ Hb). done. }
    destruct f as [c args]. cbn [f_code] in Hc. rewrite !elem_of_cons in Hc.
    destruct Hc as [-> | [-> | [-> | [-> | Hc]]]].
    - apply Hne, H2. by exists args.
    - apply Hne, (H1 "E012"); [by left|]. by exists args.
    - apply Hne, (H1 "E013"); [by right|]. by exists args.
    - apply pad_e104 in Hf as (ver & Hin & Hz & Hnz & _). destruct (Hn _ Hin); congruence.
    - by apply elem_of_nil in Hc.
  Qed.
  Lemma sound_check_version ver v n : vers d !! ver = Some v → numbered ver n →
    only_warnings (check_version w lx (man d) ver (fin_version ver v).2).
  Proof using Hw Hd.
    intros Hl Hn. pose proof Hl as Hv. apply has_version_vers in Hv. destruct (sd_version _ Hd ver v Hv) as [[Hc1 Hc2] Hm Hu Hs].
    unfold fin_version. rewrite (numbered_value _ _ Hn). cbn [snd]. unfold check_version. cbn [vd_created vd_user vd_message vd_state fin_user].
    destruct (vd_created v) as [cr|] eqn:Ec; [|done].
    destruct (default (∅, false) (vd_state v)) as [st se] eqn:Es. apply ok_seq.
    - apply ok_done. rewrite !ws_app. rewrite (Hc2 cr eq_refl). 
      assert (u_err (default (UDoc false None None) (vd_user v)) = false ∧
              os_err (default (OStr "" false) (u_name (default (UDoc false None None) (vd_user v)))) = false ∧
              os_err (default (OStr "" false) (u_addr (default (UDoc false None None) (vd_user v)))) = false) as (-> & -> & ->).
      { destruct (vd_user v) as [u|]; [|done]. destruct (Hu u eq_refl) as (Hu1 & Hu2 & Hu3). cbn [default].
        split; [exact Hu1|]. split.
        - unfold fine in Hu2. simpl. destruct (u_name u) as [x|]; [by apply Hu2|done].
        - unfold fine in Hu3. simpl. destruct (u_addr u) as [x|]; [by apply Hu3|done]. }
      assert (os_err (default (OStr "" false) (vd_message v)) = false) as ->.
      { unfold fine in Hm. destruct (vd_message v) as [x|]; [by apply Hm|done]. }
      assert (se = false) as ->.
      { destruct (vd_state v) as [[st' e']|]; simpl in Es; [|by injection Es].
        assert (e' = se) as -> by congruence. by eapply Hs. }
      repeat split; try apply ws_nil.
      case_decide; [|apply ws_when; intros _; by eapply warn_code]. intros f ->%elem_of_list_singleton. by eapply warn_code.
    - apply ok_all. intros [dg ps] Hin. apply vo_in in Hin; [|done]. cbn [fst snd].
      assert (vd_state v = Some (st, se) ∨ st = ∅) as [Hst| ->].
      { destruct (vd_state v) as [[st' e']|]; simpl in Es; [left; congruence|right; congruence]. }
      2:{ by rewrite lookup_empty in Hin. }
      rewrite decide_True.
      2:{ destruct (sound_state ver v st dg Hl) as [x Hx]; [unfold state_of; by rewrite Hst|by eexists|].
          apply elem_of_list_fmap. exists (dg, x). split; [done|]. by apply elem_of_map_to_list. }
      apply ok_seq; [apply ok_done, ws_nil|]. apply ok_all. intros p Hp. rewrite ok_path; [apply ok_done, ws_nil|].
      apply (sd_state_paths _ Hd ver dg). by exists v, st, se, ps.
  Qed.
  Lemma trailing_malformed r : malformed (r +:+ "/").
  Proof using. 
    exists "". split; [|by left]. change "/" with (String slash ""). destruct (split_on_snoc slash r) as [l' E].
    unfold split_slash. rewrite E. apply elem_of_app. right. by left.
  Qed.

  Lemma sound_validated : only_warnings (finalize w lx false d).2.
  Proof using Hw Hd.
    destruct (proj2 (verdict_iff w lx d Hw) sound_checkable) as [fs Hv]. exists fs. split; [exact Hv|].
    pose proof (proj2 (sequence_iff w lx d fs Hw Hv)) as Hseq.
    destruct Hseq as [H104 H010]. { destruct (sd_upto _ Hd) as (n & _ & Hn). by exists n. }
    assert (¬ reported fs "E040") as H040.
    { destruct (sd_head _ Hd) as [He Hn]. rewrite (e040_iff w lx d fs Hw Hv sound_numbered sound_distinct He); [naive_solver|].
      destruct Hn as (v & n & _ & Hn & _). by eapply numbered_nonempty. }
    assert (¬ reported fs "E095") as H095.
    { rewrite (e095_exact w lx d fs Hw Hv).
      - intros (ver & dg & dg' & p & q & H1 & H2 & H3 & _). exact (sd_dirs _ Hd _ _ _ _ _ H1 H2 H3).
      - intros ver dg p r Hl ->. exact (sd_state_paths _ Hd _ _ _ Hl (trailing_malformed r)). }
    assert (¬ reported fs "E101") as H101.
    { intros H. destruct (e101_trailing_slash w lx d fs Hw Hv H) as (dg & p & r & Hl & ->). exact (sd_man_paths _ Hd _ _ Hl (trailing_malformed r)). }
    assert (∀ c args, c = "E100" ∨ c = "E099" → Finding c args ∉ fs) as H100.
    { intros c args Hc Hf. apply (content_findings w lx d fs c args Hw Hv Hc) in Hf as (p & xs & fp & Hp & Hin & Hl).
      rewrite ok_path in Hp; [injection Hp as <-; by apply elem_of_nil in Hin|].
      destruct Hl as [(_ & dg & Hl)|(alg & dg & _ & Hl)]; [by eapply sd_man_paths|by eapply sd_fix_paths]. }
    destruct (validated_parts _ _ _ _ Hv) as [P]. intros f Hf. pose proof Hf as Hin. apply (findings_in w lx d fs P) in Hf.
    destruct Hf as [Hf|[[Hf _]|[Hf|[Hf|[Hf|[Hf|[Hf|[Hf|Hf]]]]]]]].
    - by apply sound_start.
    - by apply sound_nonempty in Hf.
    - by apply sound_pad in Hf.
    - destruct Hf as (ver & v & fv & Hvl & Hc & Hf). apply valued_in in Hvl as (v0 & Hl & _ & ->); [|done].
      destruct (sound_numbered ver v0) as [n Hn]; [by apply has_version_vers|].
      destruct (sound_check_version ver v0 n Hl Hn) as (fs' & Hfs & Hws). rewrite Hfs in Hc. injection Hc as ->. by apply Hws.
    - pose proof (only_tail _ _ _ _ _ Hf) as Hc. destruct f as [c args]. cbn [f_code] in Hc. rewrite !elem_of_cons, elem_of_nil in Hc.
      destruct Hc as [-> | [-> | [-> | []]]].
      + destruct H010. by exists args.
      + by eapply warn_code.
      + destruct H040. by exists args.
    - pose proof (only_log _ _ _ (pt_log _ _ _ _ P) _ Hf) as Hc. destruct f as [c args]. cbn [f_code] in Hc.
      apply elem_of_list_singleton in Hc as ->. destruct H095. by exists args.
    - pose proof (only_man _ _ _ (pt_man _ _ _ _ P) _ Hf) as Hc. destruct f as [c args]. cbn [f_code] in Hc. rewrite !elem_of_cons, elem_of_nil in Hc.
      destruct Hc as [-> | [-> | [-> | [-> | []]]]].
      + exfalso. pose proof (pt_man _ _ _ _ P) as Hm. unfold check_manifest in Hm.
        destruct (all_some _) as [sts|] eqn:Ea; [|done]. apply vseq_done in Hm as (fa & fb & Ha & Hb & E). injection Hb as <-.
        rewrite E in Hf. apply elem_of_app in Hf as [Hf|Hf].
        * destruct (proj1 (vall_map_done _ _ _ Ha _) Hf) as ([dg ps] & fd & Hin' & Hfd & Hf2). clear Hf; rename Hf2 into Hf. cbn [fst snd] in Hfd.
          apply vo_in in Hin'; [|done]. rewrite fdoc_man in Hin'. apply vseq_done in Hfd as (f1 & f2 & H1 & H2 & ->). injection H1 as <-.
          apply elem_of_app in Hf as [Hf|Hf].
          -- apply when_in in Hf as [Hf _]. apply negb_true_iff, bool_decide_eq_false in Hf. apply Hf.
             destruct sound_man as (m & Hm & Em). rewrite Em in Hin'.
             destruct (sd_used _ Hd m dg Hm) as (ver & v & st & e & Hvv & Hst & Hg); [by eexists|].
             apply has_version_vers in Hvv. destruct (sound_numbered ver v) as [n Hn]; [by apply has_version_vers|].
             apply elem_of_list_In, in_flat_map. exists st. split.
             ++ apply elem_of_list_In, (all_some_in _ _ Ea), elem_of_list_fmap. exists (ver, (fin_version ver v).2). split.
                ** cbn [snd]. rewrite fin_state, (numbered_value _ _ Hn). unfold state_of. by rewrite Hst.
                ** apply vo_in; [done|]. apply fdoc_vers. by exists v.
             ++ apply elem_of_list_In, elem_of_list_fmap. destruct Hg as [x Hx]. exists (dg, x). split; [done|]. by apply elem_of_map_to_list.
          -- destruct (proj1 (vall_map_done _ _ _ H2 _) Hf) as (p & fp & Hp & Hfp & Hf2). clear Hf; rename Hf2 into Hf. rewrite ok_path in Hfp.
             ++ injection Hfp as <-. by apply elem_of_nil in Hf.
             ++ apply (sd_man_paths _ Hd dg), man_lists_man. by exists ps.
        * apply only_e101 in Hf. apply elem_of_list_singleton in Hf. done.
      + destruct (H100 "E100" args); [by left|done].
      + destruct (H100 "E099" args); [by right|done].
      + destruct H101. by exists args.
    - pose proof (only_fix _ _ _ (pt_fix _ _ _ _ P) _ Hf) as Hc. destruct f as [c args]. cbn [f_code] in Hc. rewrite !elem_of_cons, elem_of_nil in Hc.
      destruct Hc as [-> | [-> | [-> | []]]].
      + exfalso. pose proof (pt_fix _ _ _ _ P) as Hm. unfold check_fixity in Hm.
        destruct (proj1 (vall_map_done _ _ _ Hm _) Hf) as ([alg m] & fd & Hin' & Hfd & Hf2). clear Hf; rename Hf2 into Hf. cbn [fst snd] in Hfd. apply vo_in in Hin'; [|done].
        cbn [fst snd] in Hin'. change (dc_fixity (fdoc w d)) with (dc_fixity d) in Hin'.
        apply (fix_block_e097 w w Hw Hw alg [] _ _ Hfd); [by exists args|]. split; [|intros x _ Hx; by apply elem_of_nil in Hx].
        apply NoDup_fmap_2_strong.
        * intros a b ([k1 x1] & -> & Hx1)%elem_of_list_fmap ([k2 x2] & -> & Hx2)%elem_of_list_fmap Hab.
          apply vo_in in Hx1, Hx2; [|done|done]. cbn [fst] in *. eapply (sd_case _ Hd alg m); [done|by eexists|by eexists|done].
        * rewrite (Hw 4 _ m). apply NoDup_fst_map_to_list.
      + destruct (H100 "E100" args); [by left|done].
      + destruct (H100 "E099" args); [by right|done].
    - unfold rest_findings in Hf. destruct (sd_cdir _ Hd) as (Hc1 & Hc2 & Hc3). destruct (sd_head _ Hd) as [He _].
      rewrite He in Hf. rewrite !elem_of_app, !when_in in Hf.
      destruct Hf as [[Hf _]|[[_ ->]|[[Hf _]|[[Hf _]|[[Hf _]|[Hf|[Hf _]]]]]]].
      + apply bool_decide_eq_true in Hf. by destruct (sd_id _ Hd).
      + by eapply warn_code.
      + apply bool_decide_eq_true in Hf. destruct (sd_head _ Hd) as [_ (v & n & _ & Hn & _)]. by apply numbered_nonempty in Hn.
      + apply bool_decide_eq_true in Hf. by destruct (sd_type _ Hd).
      + apply bool_decide_eq_true in Hf. destruct (sd_alg _ Hd) as [E|E]; by rewrite E in Hf.
      + rewrite decide_True in Hf by exact (sd_alg _ Hd). apply when_in in Hf as [_ ->]. by eapply warn_code.
      + apply orb_true_iff in Hf as [Hf|Hf].
        * apply bool_decide_eq_true in Hf as [Hf|Hf]; done.
        * apply mem_split in Hf as (a & b & E). by destruct (Hc3 a b).
  Qed.
End doc.
