(** Proofs about the validation of an inventory: paths, verdict, numbering, head. *)
From Coq Require Import Ascii.
From stdpp Require Import base list strings gmap sorting.
From Coq Require Import ZArith Lia.
From Verif Require Import GoStr InventoryModel InventorySpec InventoryProofs ValidateModel ValidateSpec ValidateProofs.

(** * Malformed paths *)

Lemma fix_block_in alg seen l fs f : check_fixity_block alg seen l = VDone fs →
  f ∈ fs → (∃ dg, f = Finding "E097" [alg; dg]) ∨
    ∃ dg ps p fp, (dg, ps) ∈ l ∧ p ∈ ps ∧ check_path "E100" "E099" [alg] p = VDone fp ∧ f ∈ fp.
Proof.
  revert seen fs. induction l as [|[dg ps] l IH]; intros seen fs; cbn [check_fixity_block].
  - intros [= <-] H. by apply elem_of_nil in H.
  - intros (fa & fb & Ha & Hb & ->)%(vseq_done (VDone _)). injection Ha as <-.
    apply vseq_done in Hb as (f1 & f2 & H1 & H2 & ->). rewrite !elem_of_app.
    intros [(_ & ->)%when_in|[H|H]].
    + left. by exists dg.
    + apply (vall_map_done _ _ _ H1) in H as (p & fp & Hp & Hc & Hf). right. exists dg, ps, p, fp. split; [by left|done].
    + destruct (IH _ _ H2 H) as [|(dg' & ps' & p & fp & Hin & Hrest)]; [by left|]. right. exists dg', ps', p, fp.
      split; [by right|done].
Qed.
Lemma fix_block_path alg seen l fs dg ps p : check_fixity_block alg seen l = VDone fs →
  (dg, ps) ∈ l → p ∈ ps → ∃ fp, check_path "E100" "E099" [alg] p = VDone fp ∧ ∀ f, f ∈ fp → f ∈ fs.
Proof.
  revert seen fs. induction l as [|[dg' ps'] l IH]; intros seen fs; cbn [check_fixity_block].
  - intros _ H. by apply elem_of_nil in H.
  - intros (fa & fb & Ha & Hb & ->)%(vseq_done (VDone _)). injection Ha as <-.
    apply vseq_done in Hb as (f1 & f2 & H1 & H2 & ->). intros [[= -> ->]|Hin]%elem_of_cons Hp.
    + destruct (proj1 (vall_map_ok (check_path "E100" "E099" [alg]) ps') (ex_intro _ _ H1) p Hp) as [fp Hfp].
      exists fp. split; [done|]. intros f Hf. rewrite !elem_of_app. right. left.
      apply (vall_map_done _ _ _ H1). eauto.
    + destruct (IH _ _ H2 Hin Hp) as (fp & Hfp & Hall). exists fp. split; [done|].
      intros f Hf. rewrite !elem_of_app. right. right. by apply Hall.
Qed.

(** The path findings about the manifest and the fixity block. *)
Lemma content_findings w lx d fs c args :
  vorder_ok w → validated w lx d fs → c = "E100" ∨ c = "E099" →
  Finding c args ∈ fs ↔
    ∃ p xs fp, check_path "E100" "E099" xs p = VDone fp ∧ Finding c args ∈ fp ∧
      ((xs = [] ∧ ∃ dg, man_lists d dg p) ∨ (∃ alg dg, xs = [alg] ∧ fix_lists d alg dg p)).
Proof.
  intros Hw HV Hc. openparts2 HV HP pad zs fr fl fm ff El Hlog Hman Hfix. split.
  - intros Hf. apply HP in Hf.
    assert (Finding c args ∈ fm ∨ Finding c args ∈ ff) as [Hm|Hm].
    { destruct Hc as [-> | ->]; byparts Hf; [by left|by right|by left|by right]. }
    + unfold check_manifest in Hman. destruct (all_some _) as [sts|]; [|done].
      apply vseq_done in Hman as (fa & fb & Ha & Hb & ->). injection Hb as <-.
      apply elem_of_app in Hm as [Hm|Hm].
      * apply (vall_map_done _ _ _ Ha) in Hm as ([dg ps] & fx & Hin & Hx & Hm). cbn [fst snd] in Hx.
        apply vseq_done in Hx as (f1 & f2 & Hf1 & Hf2 & ->). injection Hf1 as <-. apply elem_of_app in Hm as [Hm|Hm].
        { apply when_in in Hm as [_ [= -> _]]. by destruct Hc. }
        apply (vall_map_done _ _ _ Hf2) in Hm as (p & fp & Hp & Hcp & Hm).
        exists p, [], fp. split; [done|]. split; [done|]. left. split; [done|]. exists dg. apply man_lists_man.
        apply vo_in in Hin; [|done]. by exists ps.
      * apply only_e101 in Hm. cbn in Hm. destruct Hc as [-> | ->]; set_solver.
    + unfold check_fixity in Hfix.
      apply (vall_map_done _ _ _ Hfix) in Hm as ([alg m] & fx & Hin & Hx & Hm). cbn [fst snd] in Hx.
      destruct (fix_block_in _ _ _ _ _ Hx Hm) as [[dg Hd]|(dg & ps & p & fp & Hl & Hp & Hcp & Hfp)].
      * injection Hd as -> _. by destruct Hc.
      * exists p, [alg], fp. split; [done|]. split; [done|]. right. exists alg, dg. split; [done|].
        apply vo_in in Hin; [|done]. apply vo_in in Hl; [|done]. by exists m, ps.
  - intros (p & xs & fp & Hcp & Hf & Hl). apply HP.
    destruct Hl as [(-> & dg & (ps & Hps & Hp)%man_lists_man)|(alg & dg & -> & (m & ps & Hm & Hps & Hp))].
    + do 6 right. left. unfold check_manifest in Hman. destruct (all_some _) as [sts|]; [|done].
      apply vseq_done in Hman as (fa & fb & Ha & Hb & ->). injection Hb as <-.
      apply elem_of_app. left. apply (vall_map_done _ _ _ Ha).
      assert ((dg, ps) ∈ vo w 2 (man (fdoc w d))) as Hin by (by apply vo_in).
      destruct (proj1 (vall_map_ok _ _) (ex_intro _ _ Ha) _ Hin) as [fx Hx]. exists (dg, ps), fx. split; [done|]. split; [done|].
      cbn [fst snd] in Hx. apply vseq_done in Hx as (f1 & f2 & Hf1 & Hf2 & ->). apply elem_of_app. right.
      apply (vall_map_done _ _ _ Hf2). eauto.
    + do 7 right. left. unfold check_fixity in Hfix. apply (vall_map_done _ _ _ Hfix).
      assert ((alg, m) ∈ vo w 3 (dc_fixity (fdoc w d))) as Hin by (by apply vo_in).
      destruct (proj1 (vall_map_ok _ _) (ex_intro _ _ Hfix) _ Hin) as [fx Hx]. exists (alg, m), fx. split; [done|]. split; [done|].
      cbn [fst snd] in Hx. destruct (fix_block_path _ _ _ _ dg ps p Hx) as (fp' & Hfp' & Hall); [by apply vo_in|done|].
      apply Hall. congruence.
Qed.


Lemma malformed_content w lx d fs p :
  vorder_ok w → validated w lx d fs →
  (reported_for fs "E100" p ∨ reported_for fs "E099" p) ↔ malformed p ∧ listed d p.
Proof.
  intros Hw HV. split.
  - assert (∀ c args, c = "E100" ∨ c = "E099" → Finding c (p :: args) ∈ fs → malformed p ∧ listed d p) as H.
    { intros c args Hc Hf. pose proof Hf as (p' & xs & fp & Hcp & Hfp & Hl)%(content_findings w lx d fs c _ Hw HV Hc).
      apply check_path_done in Hcp as (_ & _ & Hm & Hall); [|done].
      assert (p' = p) as -> by (destruct (Hall _ Hfp) as [[= _ -> _]|[= _ -> _]]; done).
      split.
      - apply Hm. destruct (Hall _ Hfp) as [E|E]; rewrite E in Hfp; [by left|by right].
      - destruct Hl as [(_ & dg & H)|(alg & dg & _ & H)]; [left|right]; eauto. }
    intros [[args Hf]|[args Hf]]; [apply (H "E100" args)|apply (H "E099" args)]; auto.
  - intros [Hm Hl].
    assert (∃ xs, (xs = [] ∧ ∃ dg, man_lists d dg p) ∨ (∃ alg dg, xs = [alg] ∧ fix_lists d alg dg p)) as [xs Hx].
    { destruct Hl as [H|(alg & dg & H)]; [exists []; by left|exists [alg]; right; eauto]. }
    assert (∃ fp, check_path "E100" "E099" xs p = VDone fp) as [fp Hfp].
    { openparts2 HV HP pad zs fr fl fm ff El Hlog Hman Hfix. destruct Hx as [(-> & dg & (ps & Hps & Hp)%man_lists_man)|(alg & dg & -> & (m & ps & Hmm & Hps & Hp))].
      - unfold check_manifest in Hman. destruct (all_some _) as [sts|]; [|done].
        apply vseq_done in Hman as (fa & fb & Ha & Hb & ->).
        assert ((dg, ps) ∈ vo w 2 (man (fdoc w d))) as Hin by (by apply vo_in).
        destruct (proj1 (vall_map_ok _ _) (ex_intro _ _ Ha) _ Hin) as [fx Hx]. cbn [fst snd] in Hx.
        apply vseq_done in Hx as (f1 & f2 & Hf1 & Hf2 & ->).
        exact (proj1 (vall_map_ok _ _) (ex_intro _ _ Hf2) _ Hp).
      - unfold check_fixity in Hfix.
        assert ((alg, m) ∈ vo w 3 (dc_fixity (fdoc w d))) as Hin by (by apply vo_in).
        destruct (proj1 (vall_map_ok _ _) (ex_intro _ _ Hfix) _ Hin) as [fx Hx]. cbn [fst snd] in Hx.
        destruct (fix_block_path _ _ _ _ dg ps p Hx) as (fp' & Hfp' & _); [by apply vo_in|done|]. eauto. }
    pose proof Hfp as (_ & _ & Hmal & _)%check_path_done; [|done].
    apply Hmal in Hm as [Hm|Hm]; [left|right]; exists xs;
      apply (content_findings w lx d fs _ _ Hw HV); auto; by exists p, xs, fp.
Qed.
(** A leading or trailing slash. *)
Lemma slash_content w lx d fs p :
  vorder_ok w → validated w lx d fs → listed d p →
  reported_for fs "E100" p ↔ (∃ r, p = String slash r) ∨ (∃ r, p = r +:+ "/").
Proof.
  intros Hw HV Hl. split.
  - intros [args Hf]. apply (content_findings w lx d fs "E100" _ Hw HV) in Hf as (p' & xs & fp & Hcp & Hfp & _); [|by left].
    apply check_path_done in Hcp as (_ & Hs & _ & Hall); [|done].
    destruct (Hall _ Hfp) as [[= -> ->]|[= _ _]]. by apply Hs.
  - intros Hs.
    assert (malformed p) as Hm.
    { exists "". split; [|by left]. destruct Hs as [[r ->]|[r ->]].
      - unfold split_slash. rewrite split_on_cons_sep. by left.
      - change "/" with (String slash ""). destruct (split_on_snoc slash r) as [l E]. unfold split_slash. rewrite E. set_solver. }
    destruct (proj2 (malformed_content _ _ _ _ _ Hw HV) (conj Hm Hl)) as [H|[args Hf]]; [done|].
    pose proof Hf as (p' & xs & fp & Hcp & Hfp & Hx)%(content_findings w lx d fs "E099" _ Hw HV); [|by right].
    pose proof Hcp as (_ & Hs' & _ & Hall)%check_path_done; [|done].
    destruct (Hall _ Hfp) as [[= _ _]|[= -> ->]]. apply Hs' in Hs.
    exists xs. apply (content_findings w lx d fs "E100" _ Hw HV); [by left|]. by eexists _, xs, fp.
Qed.

(** ** Logical paths *)

Lemma version_findings w lx m ver v st e fv c args :
  vorder_ok w → vd_state v = Some (st, e) →
  check_version w lx m ver v = VDone fv → c = "E053" ∨ c = "E052" →
  Finding c args ∈ fv ↔ ∃ dg ps p fp, st !! dg = Some ps ∧ p ∈ ps ∧ check_path "E053" "E052" [ver] p = VDone fp ∧ Finding c args ∈ fp.
Proof.
  intros Hw Hst. unfold check_version. rewrite Hst.
  destruct (vd_created v), (vd_user v) as [[ue [un|] [ua|]]|], (vd_message v); try done.
  intros (fa & fb & Ha & Hb & ->)%vseq_done Hc. injection Ha as <-.
  match goal with |- context [_ ∈ ?l ++ fb] => assert (only ["E049"; "E054"; "W008"; "W009"; "E094"; "E050"] l) as Ho by codes end.
  rewrite elem_of_app. split.
  - intros [Hf|Hf].
    + apply Ho in Hf. cbn in Hf. destruct Hc as [-> | ->]; set_solver.
    + apply (vall_map_done _ _ _ Hb) in Hf as ([dg ps] & fx & Hin & Hx & Hf). cbn [fst snd] in Hx.
      apply vseq_done in Hx as (f1 & f2 & Hf1 & Hf2 & ->). injection Hf1 as <-. apply elem_of_app in Hf as [Hf|Hf].
      * exfalso. destruct (decide (dg ∈ _)); [by apply elem_of_nil in Hf|].
        destruct (decide (to_lower dg ∈ _)); apply elem_of_list_singleton in Hf as [= -> _]; by destruct Hc.
      * apply (vall_map_done _ _ _ Hf2) in Hf as (p & fp & Hp & Hcp & Hf). apply vo_in in Hin; [|done].
        by exists dg, ps, p, fp.
  - intros (dg & ps & p & fp & Hps & Hp & Hcp & Hf). right. apply (vall_map_done _ _ _ Hb).
    assert ((dg, ps) ∈ vo w 6 st) as Hin by (by apply vo_in).
    destruct (proj1 (vall_map_ok _ _) (ex_intro _ _ Hb) _ Hin) as [fx Hx]. exists (dg, ps), fx. split; [done|]. split; [done|].
    cbn [fst snd] in Hx. apply vseq_done in Hx as (f1 & f2 & Hf1 & Hf2 & ->). apply elem_of_app. right.
    apply (vall_map_done _ _ _ Hf2). eauto.
Qed.
Lemma version_paths w lx m ver v st e fv dg ps p :
  vorder_ok w → vd_state v = Some (st, e) → check_version w lx m ver v = VDone fv → st !! dg = Some ps → p ∈ ps → p ≠ "".
Proof.
  intros Hw Hst. unfold check_version. rewrite Hst.
  destruct (vd_created v), (vd_user v) as [[ue [un|] [ua|]]|], (vd_message v); try done.
  intros (fa & fb & Ha & Hb & ->)%vseq_done Hps Hp.
  assert ((dg, ps) ∈ vo w 6 st) as Hin by (by apply vo_in).
  destruct (proj1 (vall_map_ok _ _) (ex_intro _ _ Hb) _ Hin) as [fx Hx].
  cbn [fst snd] in Hx. apply vseq_done in Hx as (f1 & f2 & Hf1 & Hf2 & ->).
  destruct (proj1 (vall_map_ok _ _) (ex_intro _ _ Hf2) _ Hp) as [fp Hfp]. by apply (check_path_ok "E053" "E052" [ver]); eauto.
Qed.
Lemma fin_state_valued ver v z : version_value ver = Some z → vd_state (fin_version ver v).2 = Some (default (∅, false) (vd_state v)).
Proof. intros H. unfold fin_version. by rewrite H. Qed.

Lemma malformed_logical w lx d fs ver n p :
  vorder_ok w → validated w lx d fs → numbered ver n →
  (Finding "E053" [p; ver] ∈ fs ∨ Finding "E052" [p; ver] ∈ fs) ↔ malformed p ∧ ∃ dg, state_lists d ver dg p.
Proof.
  intros Hw HV Hn. openparts2 HV HP pad zs fr fl fm ff El Hlog Hman Hfix.
  assert (∀ c, c = "E053" ∨ c = "E052" → Finding c [p; ver] ∈ fs ↔
    ∃ fp, check_path "E053" "E052" [ver] p = VDone fp ∧ Finding c [p; ver] ∈ fp ∧ ∃ dg, state_lists d ver dg p) as Hx.
  { intros c Hc. split.
    - intros Hf. apply HP in Hf.
      assert (∃ ver' v fv, (ver', v) ∈ valued (fdoc w d) (vo w 5 (vers (fdoc w d))) ∧
        check_version w lx (man d) ver' v = VDone fv ∧ Finding c [p; ver] ∈ fv) as (ver' & v & fv & Hv & Hcv & Hf').
      { destruct Hc as [-> | ->]; byparts Hf; eauto 10. }
      apply valued_in in Hv as (v0 & Hv0 & [z Hz] & ->); [|done].
      pose proof (fin_state_valued ver' v0 z Hz) as Est. destruct (default (∅, false) (vd_state v0)) as [st e] eqn:Ed.
      pose proof (proj1 (version_findings _ _ _ _ _ _ _ _ _ _ Hw Est Hcv Hc) Hf') as (dg & ps & p' & fp & Hps & Hp & Hcp & Hf2).
      clear Hf'. rename Hf2 into Hf'.
      pose proof Hcp as (_ & _ & _ & Hall)%check_path_done; [|done].
      assert (p' = p ∧ ver' = ver) as [-> ->] by (destruct (Hall _ Hf') as [[= _ -> ->]|[= _ -> ->]]; done).
      exists fp. split; [done|]. split; [done|]. exists dg. apply state_lists_state. exists v0, st, ps. split; [done|].
      split; [|done]. unfold state_of. destruct (vd_state v0) as [[st' e']|]; simpl in *; [by injection Ed as -> ->|].
      injection Ed as <- <-. by rewrite lookup_empty in Hps.
    - intros (fp & Hcp & Hf & dg & (v0 & st & ps & Hv0 & Hst & Hps & Hp)%state_lists_state).
      pose proof (numbered_value _ _ Hn) as Hz. pose proof (fin_state_valued ver v0 _ Hz) as Est.
      assert ((ver, (fin_version ver v0).2) ∈ valued (fdoc w d) (vo w 5 (vers (fdoc w d)))) as Hv.
      { apply valued_in; [done|]. exists v0. split; [done|]. split; [by eexists|done]. }
      destruct (loop_spec _ _ _ _ _ _ _ _ El) as (_ & _ & _ & Hok).
      destruct (proj1 Hok (ex_intro _ _ eq_refl) _ _ Hv) as [fv Hfv].
      apply HP. do 3 right. left. exists ver, (fin_version ver v0).2, fv. split; [done|]. split; [done|].
      unfold state_of in Hst. destruct (vd_state v0) as [[st' e']|]; [|done]. injection Hst as ->. simpl in Est.
      apply (version_findings _ _ _ _ _ _ _ _ _ _ Hw Est Hfv Hc). exists dg, ps, p, fp. done. }
  rewrite !Hx by auto. split.
  - intros [(fp & Hcp & Hf & Hl)|(fp & Hcp & Hf & Hl)]; (split; [|done]);
      apply check_path_done in Hcp as (_ & _ & Hm & _); try done; apply Hm; auto.
  - intros (Hm & Hl). pose proof Hl as (dg & (v0 & st & ps & Hv0 & Hst & Hps & Hp)%state_lists_state).
    assert (p ≠ "") as Hne.
    { pose proof (numbered_value _ _ Hn) as Hz. pose proof (fin_state_valued ver v0 _ Hz) as Est.
      assert ((ver, (fin_version ver v0).2) ∈ valued (fdoc w d) (vo w 5 (vers (fdoc w d)))) as Hv.
      { apply valued_in; [done|]. exists v0. split; [done|]. split; [by eexists|done]. }
      destruct (loop_spec _ _ _ _ _ _ _ _ El) as (_ & _ & _ & Hok).
      destruct (proj1 Hok (ex_intro _ _ eq_refl) _ _ Hv) as [fv Hfv].
      unfold state_of in Hst. destruct (vd_state v0) as [[st' e']|]; [|done]. injection Hst as ->. simpl in Est.
      by eapply version_paths. }
    apply (check_path_ok "E053" "E052" [ver]) in Hne as [fp Hfp].
    pose proof Hfp as (_ & _ & Hmal & _)%check_path_done; [|done]. apply Hmal in Hm as [Hm|Hm]; [left|right]; eauto.
Qed.

(** * When there is a verdict *)

Lemma all_some_ok {A} (l : list (option A)) : (∃ r, all_some l = Some r) ↔ ∀ x, x ∈ l → x ≠ None.
Proof.
  induction l as [|[a|] l IH]; simpl.
  - split; [intros _ x H; by apply elem_of_nil in H|eauto].
  - split.
    + intros [r H] x [->|Hx]%elem_of_cons; [done|]. apply IH; [|done]. destruct (all_some l); [eauto|done].
    + intros H. destruct (proj2 IH) as [r ->]; [intros x Hx; apply H; by right|]. eauto.
  - split; [by intros [r H]|]. intros H. exfalso. by apply (H None); [left|].
Qed.
Lemma version_ok w lx m ver v st e : vorder_ok w → vd_state v = Some (st, e) →
  (∃ ue un ua, vd_user v = Some (UDoc ue (Some un) (Some ua))) → vd_message v ≠ None →
  (∃ fv, check_version w lx m ver v = VDone fv) ↔ vd_created v ≠ None ∧ ∀ dg ps p, st !! dg = Some ps → p ∈ ps → p ≠ "".
Proof.
  intros Hw Hst (ue & un & ua & Hu) Hm. split.
  - intros [fv Hv]. split; [|by intros; eapply version_paths]. unfold check_version in Hv. by destruct (vd_created v).
  - intros [Hc Hp]. unfold check_version. rewrite Hst, Hu. destruct (vd_created v) as [cr|]; [|done].
    destruct (vd_message v) as [msg|]; [|done].
    match goal with |- ∃ fv, vseq ?a ?b = _ => assert (∃ fb, b = VDone fb) as [fb ->] end.
    { apply vall_map_ok. intros [dg ps] Hin. apply vo_in in Hin; [|done]. cbn [fst snd].
      destruct (proj2 (vall_map_ok (check_path "E053" "E052" [ver]) ps)) as [fp Hfp].
      { intros p Hpp. apply check_path_ok. by eapply Hp. }
      rewrite Hfp. simpl. eauto. }
    simpl. eauto.
Qed.
Lemma fix_block_ok alg seen l : (∃ fs, check_fixity_block alg seen l = VDone fs) ↔ ∀ dg ps p, (dg, ps) ∈ l → p ∈ ps → p ≠ "".
Proof.
  split.
  - intros [fs H] dg ps p Hin Hp. destruct (fix_block_path _ _ _ _ _ _ _ H Hin Hp) as (fp & Hfp & _).
    apply (check_path_ok "E100" "E099" [alg]). eauto.
  - revert seen. induction l as [|[dg ps] l IH]; intros seen H; cbn [check_fixity_block]; [eauto|].
    destruct (IH (to_lower dg :: seen)) as [fs Hfs]; [intros; eapply H; [by right|done]|].
    destruct (proj2 (vall_map_ok (check_path "E100" "E099" [alg]) ps)) as [fp Hfp].
    { intros p Hp. apply check_path_ok. eapply H; [by left|done]. }
    rewrite Hfs, Hfp. simpl. eauto.
Qed.

Lemma state_of_none v : state_of v = None ↔ vd_state v = None.
Proof. unfold state_of. by destruct (vd_state v). Qed.
Lemma verdict_iff w lx d : vorder_ok w → (∃ fs, validated w lx d fs) ↔ checkable d.
Proof.
  intros Hw. split.
  - intros [fs HV]. split; [|split].
    + intros dg p (ps & Hps & Hp)%man_lists_man. openparts2 HV HP pad zs fr fl fm ff El Hlog Hman Hfix.
      unfold check_manifest in Hman. destruct (all_some _) as [sts|]; [|done]. apply vseq_done in Hman as (fa & fb & Ha & Hb & ->).
      assert ((dg, ps) ∈ vo w 2 (man (fdoc w d))) as Hin by (by apply vo_in).
      destruct (proj1 (vall_map_ok _ _) (ex_intro _ _ Ha) _ Hin) as [fx Hx]. cbn [fst snd] in Hx.
      apply vseq_done in Hx as (f1 & f2 & _ & Hf2 & ->).
      apply (check_path_ok "E100" "E099" []). exact (proj1 (vall_map_ok _ _) (ex_intro _ _ Hf2) _ Hp).
    + intros alg dg p (m & ps & Hm & Hps & Hp). openparts2 HV HP pad zs fr fl fm ff El Hlog Hman Hfix.
      unfold check_fixity in Hfix. assert ((alg, m) ∈ vo w 3 (dc_fixity (fdoc w d))) as Hin by (by apply vo_in).
      pose proof (proj1 (vall_map_ok _ _) (ex_intro _ _ Hfix) _ Hin) as Hx. cbn [fst snd] in Hx.
      eapply (proj1 (fix_block_ok _ _ _) Hx); [by apply vo_in|done].
    + intros ver v0 Hv0%has_version_vers.
      assert (vers (fdoc w d) !! ver = Some (fin_version ver v0).2) as Hv by (apply fdoc_vers; eauto).
      destruct (validated_state _ _ _ _ _ _ Hw HV Hv) as [st Hst]. rewrite fin_state in Hst.
      openparts2 HV HP pad zs fr fl fm ff El Hlog Hman Hfix.
      destruct (version_value ver) as [z|] eqn:Ez.
      * assert ((ver, (fin_version ver v0).2) ∈ valued (fdoc w d) (vo w 5 (vers (fdoc w d)))) as Hin.
        { apply valued_in; [done|]. exists v0. split; [done|]. split; [by eexists|done]. }
        destruct (loop_spec _ _ _ _ _ _ _ _ El) as (_ & _ & _ & Hok).
        destruct (proj1 Hok (ex_intro _ _ eq_refl) _ _ Hin) as [fv Hfv]. split.
        -- intros Hc. unfold fin_version in Hfv. rewrite Ez in Hfv. unfold check_version in Hfv. simpl in Hfv. by rewrite Hc in Hfv.
        -- intros dg p (v & st' & ps & Hv' & Hst' & Hps & Hp)%state_lists_state. assert (v = v0) as -> by congruence.
           pose proof (fin_state_valued ver v0 _ Ez) as Est. unfold state_of in Hst'.
           destruct (vd_state v0) as [[st2 e]|]; [|done]. injection Hst' as ->. simpl in Est. by eapply version_paths.
      * rewrite <- state_of_none. congruence.
  - intros (Hman & Hfix & Hvers).
    assert (∃ fr pad zs, check_versions_loop w lx (fdoc w d) (-1) (vo w 5 (vers (fdoc w d))) = (pad, zs, VDone fr)) as (fr & pad & zs & El).
    { destruct (check_versions_loop w lx (fdoc w d) (-1) (vo w 5 (vers (fdoc w d)))) as [[pad zs] r] eqn:El.
      destruct (loop_spec _ _ _ _ _ _ _ _ El) as (_ & _ & _ & Hok). destruct (proj2 Hok) as [fr ->]; [|eauto].
      intros ver v (v0 & Hv0 & [z Hz] & ->)%valued_in; [|done].
      pose proof (Hvers ver v0 (proj2 (has_version_vers _ _ _) Hv0)) as Hd. rewrite Hz in Hd. destruct Hd as [Hc Hp].
      pose proof (fin_state_valued ver v0 _ Hz) as Est. destruct (default (∅, false) (vd_state v0)) as [st e] eqn:Ed.
      eapply version_ok; [done|exact Est| | |].
      - unfold fin_version. rewrite Hz. simpl. eauto.
      - unfold fin_version. by rewrite Hz.
      - split; [unfold fin_version; by rewrite Hz|]. intros dg ps p Hps Hpp. apply (Hp dg), state_lists_state.
        exists v0, st, ps. split; [done|]. split; [|done]. unfold state_of.
        destruct (vd_state v0) as [[st2 e2]|]; simpl in Ed; injection Ed as <- <-; [done|]. by rewrite lookup_empty in Hps. }
    assert (∀ ver v, vers (fdoc w d) !! ver = Some v → ∃ st, state_of v = Some st) as Hst.
    { intros ver v (v0 & Hv0 & ->)%fdoc_vers. rewrite fin_state. destruct (version_value ver) eqn:Ez; [eauto|].
      pose proof (Hvers ver v0 (proj2 (has_version_vers _ _ _) Hv0)) as Hd. rewrite Ez in Hd.
      unfold state_of. destruct (vd_state v0); [simpl; eauto|done]. }
    assert (∃ fl, vall ((λ p : string * vdoc, check_logical w p.2) <$> vo w 9 (vers (fdoc w d))) = VDone fl) as [fl Hl].
    { apply vall_map_ok. intros [ver v] Hin. apply vo_in in Hin; [|done]. destruct (Hst _ _ Hin) as [st E]. cbn [snd].
      unfold check_logical. rewrite E. eauto. }
    assert (∃ fm, check_manifest w (fdoc w d) = VDone fm) as [fm Hm].
    { unfold check_manifest. destruct (proj2 (all_some_ok ((λ p : string * vdoc, state_of p.2) <$> vo w 1 (vers (fdoc w d))))) as [sts ->].
      - intros x ([ver v] & -> & Hin)%elem_of_list_fmap. apply vo_in in Hin; [|done]. destruct (Hst _ _ Hin) as [st E]. cbn [snd]. congruence.
      - match goal with |- ∃ fv, vseq ?a ?b = _ => assert (∃ fa, a = VDone fa) as [fa ->]; [|simpl; eauto] end.
        apply vall_map_ok. intros [dg ps] Hin. apply vo_in in Hin; [|done]. cbn [fst snd].
        destruct (proj2 (vall_map_ok (check_path "E100" "E099" []) ps)) as [fp Hfp]; [|rewrite Hfp; simpl; eauto].
        intros p Hp. apply check_path_ok. apply (Hman dg), man_lists_man. eauto. }
    assert (∃ ff, check_fixity w (fdoc w d) = VDone ff) as [ff Hf].
    { unfold check_fixity. apply vall_map_ok. intros [alg m] Hin. apply vo_in in Hin; [|done]. cbn [fst snd].
      apply fix_block_ok. intros dg ps p Hl' Hp. apply vo_in in Hl'; [|done]. eapply Hfix. exists m, ps. eauto. }
    by eapply parts_validated.
Qed.
(** Validation never ends with an error value. *)
Lemma finalize_noerr w lx b d fs m : (finalize w lx b d).2 ≠ VError fs m.
Proof.
  assert (∀ a k, (∀ fs m, a ≠ VError fs m) → (∀ fs m, k ≠ VError fs m) → ∀ fs m, vseq a k ≠ VError fs m) as Hseq.
  { intros [fa|fa ma|] [fk|fk mk|] H1 H2 fs' m'; simpl; try done; [by destruct (H2 fk mk)|by destruct (H1 fa ma)..]. }
  assert (∀ fs' fs m, VDone fs' ≠ VError fs m) as Hd by done.
  assert (∀ cs ce args l fs m, vall (check_path cs ce args <$> l) ≠ VError fs m) as Hpaths.
  { intros cs ce args l. apply vall_map_cases. intros. apply check_path_noerr. }
  unfold finalize. destruct b; [done|]. unfold check_doc, check_versions.
  destruct (check_versions_loop _ _ _ _ _) as [[pad zs] r] eqn:El. cbn [snd].
  apply Hseq; [done|]. apply Hseq; [|apply Hseq; [|apply Hseq; [|done]]].
  - apply Hseq; [done|]. apply Hseq; [|apply Hseq; [done|]].
    + revert El. match goal with |- check_versions_loop w lx ?x ?y ?z = _ → _ => generalize x y z end. intros d' z l.
      revert pad zs r z. induction l as [|[ver v] l IH]; intros pad zs r z; cbn [check_versions_loop]; [by intros [= <- <- <-]|].
      destruct (dc_values d' !! ver); [|apply IH]. destruct (check_padding z ver) as [pad1 fp].
      destruct (check_versions_loop w lx d' pad1 l) as [[pad2 zs2] r2] eqn:E2. intros [= <- <- <-].
      apply (Hseq (VDone fp)); [done|]. apply Hseq; [|by eapply IH]. unfold check_version.
      destruct (vd_created v), (vd_user v) as [[ue [un|] [ua|]]|], (vd_message v), (vd_state v) as [[st e]|]; try done.
      apply Hseq; [done|]. apply vall_map_cases. intros [dg ps] _. apply Hseq; [done|]. apply Hpaths.
    + apply vall_map_cases. intros [ver v] _. unfold check_logical. by destruct (state_of _).
  - unfold check_manifest. destruct (all_some _); [|done]. apply Hseq; [|done].
    apply vall_map_cases. intros [dg ps] _. apply Hseq; [done|]. apply Hpaths.
  - unfold check_fixity. apply vall_map_cases. intros [alg mm] _. cbn [fst snd].
    generalize (@nil string). generalize (vo w 4 mm). intros l. induction l as [|[dg ps] l IH]; intros seen; cbn [check_fixity_block]; [done|].
    apply Hseq; [done|]. apply Hseq; [apply Hpaths|apply IH].
Qed.
