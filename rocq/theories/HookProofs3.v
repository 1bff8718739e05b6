(** A request whose update ends with hooks. *)
From Coq Require Import Ascii.
From stdpp Require Import base list strings gmap.
From Coq Require Import ZArith Lia.
From Verif Require Import GoStr PathModel InventoryModel ObjectModel InventorySpec InventoryProofs ObjectSpec ObjectProofs LookupProofs AddProofs
  ClaimsInventory ClaimsInventory2 CrashSpec LoadModel PathProofs CrashProofs LoadProofs SessionProofs PublishSpec PublishProofs PublishProofs2
  PublishProofs3 PublishProofs4 AreaModel AreaSpec ExtractProofs InheritProofs IngestModel IngestSpec IngestProofs IngestProofs2 IngestProofs3 IngestProofs4
  IngestProofs5 IngestProofs6 HookSpec HookProofs HookProofs2.

Lemma view_refl X area T s o : inv09 (ob_inv o) → view X area T s o o.
Proof. intros H. split; try done. intros d ps Hd. exists []. by rewrite app_nil_r. Qed.
Lemma close_view E s X area T o0 n0 n orc o o4 :
  working E s n0 o0 → settled E s n o → view X area T s o0 o → ob_close E orc o = (o4, SOk) → view X area T s o0 o4 ∧ ob_inv o4 = ob_inv o.
Proof.
  intros Hw0 Hset [V1 V2 V3 V4 V5 V6 V7] Hcl. destruct (close_ok E s n orc o Hset) as (o4' & Hcl' & Hi & Hfr). rewrite Hcl in Hcl'.
  apply (f_equal fst) in Hcl'. cbn [fst] in Hcl'. subst o4'. split; [|done]. split; try (by rewrite Hi).
  intros c d Hl. rewrite <- (V5 c d Hl). destruct Hw0 as ([fam0 Hk0] & _).
  destruct (g_paths _ _ _ _ (kp_good _ _ _ _ _ _ Hk0) _ _ Hl) as (k & r & _ & _ & ->). rewrite <- (cpath_same (ob_inv o0) (ob_inv o)) by done. apply Hfr.
Qed.
(** The content of the area, as the extraction finds it. *)
Definition found (X : xenv) (s : storage) (i : inventory) (area q x : string) : Prop :=
  ∃ v, inv_versions i !! inv_head i = Some v ∧ wanted X i s area (v_state v) q x.
Lemma found_view E X area T s o0 n0 o q x : working E s n0 o0 → view X area T s o0 o → ¬ T q →
  found X (now s o) (ob_inv o) area q x ↔ found X (now s o0) (ob_inv o0) area q x.
Proof.
  intros ([fam0 Hk0] & _) [V1 V2 V3 V4 V5 V6 V7] HT. pose proof (kp_good _ _ _ _ _ _ Hk0) as HG. split.
  - intros (v & Hv & d & e & p & ps & Hl & Hq & Hm & Hs & Hh). assert (current (ob_inv o0) e d) as (v0 & Hv0 & Hl0) by (apply (V6 e d q Hq HT); by exists v).
    exists v0. split; [done|]. destruct (g_states _ _ _ _ HG _ _ d Hv0) as [ps0 Hps0]; [destruct Hl0 as (l & H & _); by eexists|].
    destruct ps0 as [|c cs]; [by apply (g_nonempty _ _ _ _ HG) in Hps0|]. destruct (V4 d _ Hps0) as [ext Hx]. rewrite Hm in Hx. injection Hx as -> _.
    exists d, e, c, cs. rewrite (V5 c d) in Hs by (exists (c :: cs); split; [done|left]). rewrite V1 in Hh. done.
  - intros (v & Hv & d & e & p & ps & Hl & Hq & Hm & Hs & Hh). assert (current (ob_inv o) e d) as (v1 & Hv1 & Hl1) by (apply (V6 e d q Hq HT); by exists v).
    exists v1. split; [done|]. destruct (V4 d _ Hm) as [ext Hx]. exists d, e, p, (ps ++ ext). rewrite (V5 p d) by (exists (p :: ps); split; [done|left]).
    by rewrite V1.
Qed.
Lemma retrievable_extractable X area i v : (∀ q, x_can X q = true) → retrievable X area i → inv_versions i !! inv_head i = Some v → unique_paths (v_state v) →
  extractable X area (v_state v).
Proof.
  intros Hc [R1 R2 R3] Hv [Hun _]. assert (∀ e d, lists (v_state v) e d → current i e d) as Hcur by (intros e d Hl; by exists v). split.
  - done.
  - intros e d Hl. by apply (R1 e d), Hcur.
  - intros d l1 e l2 Hd He. apply Forall_forall. intros e' He'. apply (R2 e e' d); [..|done]; apply Hcur; exists (l1 ++ e :: l2); (split; [done|]);
      apply elem_of_app; right; [left|by right].
  - intros e d e' d' q Hl Hl' Hq Hq'. assert (e' = e) as -> by (eapply R3; [by apply Hcur|by apply Hcur|done|done]). by apply (Hun e).
Qed.

Lemma request_hooks E P parse X s i n fam orcs orc1 orc2 r folders h o :
  hex_hash (e_hash E) → json_ok P (e_json E) parse → kept E s i n n fam → supported E i → unique_states i →
  (∀ j k, oracle_ok (orcs j k)) → oracle_ok orc1 → proper_request E i r folders → no_clashes E (inv_alg i) s folders →
  hooks_satisfy E (orderly E) orcs orc1 r folders h i →
  ingest E orcs orc1 orc2 r (given folders) h (open_object i) = (o, SOk) →
  let s' := apply_evs (ob_trace o) s in
  complete E s i s' (ob_inv o) ∧ unique_states (ob_inv o) ∧ (∃ n' fam', closed E s' (ob_inv o) n' fam') ∧
  (P (ob_inv o) → ∃ i2, load_inventory (e_hash E) parse s' "" = LInv i2 [] ∧ same_record (ob_inv o) i2) ∧
  ∀ area T src t0 orc del, served E X area i folders → folder_of folders area src → deletes E X area i (rq_echo r) del →
    hooks_satisfy E (stays_in E X area T) orcs orc1 r folders h i → retrievable X area (ob_inv o) → oracle_ok orc → held X s i area t0 →
    ∃ t, extract X orc (ob_inv o) s' "latest" false area ∅ = (t, SOk) ∧ ∀ q, ¬ T q → t !! q = area_after del src t0 !! q.
Proof.
  intros Hhex Hj Hk Hsup Hu Horcs Horc1 Hreq Hno Hord Hi. pose proof Hreq as [Hnd Hgood Hpl Had Hch Hecho].
  destruct (request_result E P parse X s i n fam orcs orc1 orc2 r folders Hhex Hj Hk Hsup Hu Horcs Horc1 Hreq Hno)
    as (ov & Hiv & _ & _ & _ & _ & _ & _ & Hres).
  destruct (start_copied E s i n fam (rq_now r) (rq_msg r) (rq_name r) (rq_addr r) (rq_echo r) Hk Hsup Hu) as (o1 & Hst & Hcp).
  unfold ingest in Hi, Hiv. rewrite Hst in Hi, Hiv. cbn [andThen] in Hi, Hiv.
  destruct (folders_progress E Hhex s i n fam Hk Hsup folders (rq_dedup r) (rq_echo r) o1 Hcp Hpl Had Hgood orcs folders Horcs) with (j := 0) (L := @nil file) (o := o1)
    as (o2 & L & Hf & Hp & HL); auto.
  { by eapply progress_start. }
  { intros a p x Hin. by apply elem_of_nil in Hin. }
  rewrite Hf in Hi, Hiv. cbn [andThen] in Hi, Hiv.
  assert (∀ a p x, (a, p, x) ∈ L ↔ offered folders a p x) as HL'.
  { intros a p x. rewrite HL. split; [intros [Hin|?]; [by apply elem_of_nil in Hin|done]|by right]. }
  clear HL. destruct Hch as (np0 & d0 & (a0 & p0 & x0 & Ho0 & Hnp0 & Hd0) & Hnc0).
  assert (inv_modified (ob_inv o2) = true) as Hm2.
  { apply (pg_mod _ _ _ _ _ _ _ _ _ Hp a0 p0 x0 np0 d0); auto. by apply HL'. }
  pose proof (pg_working _ _ _ _ _ _ _ _ _ Hp) as Hwk.
  assert (inv09 (ob_inv o2)) as H92 by (by apply (progress_09 E Hhex s i n Hsup folders (rq_echo r) o1 Hcp L)).
  (* the state after echo deletion *)
  assert (∃ oe, (if ob_echo o2 then ob_echo_delete E orc1 o2 else (o2, SOk)) = (oe, SOk) ∧ working E s n oe ∧ inv09 (ob_inv oe)) as (oe & Ee & We & H9e).
  { destruct (ob_end E orc1 h o2) as [o3 []] eqn:Eend; [|done..]. rewrite ob_end_unfold in Eend. destruct Hwk as (Hk2 & Hs2 & Hw2). rewrite Hw2, Hm2 in Eend.
    cbn [negb] in Eend. destruct (ob_echo o2); [|by exists o2].
    pose proof (echo_working E s n orc1 o2 ltac:(by split)) as HW. pose proof (inv09_echo E orc1 o2 H92) as HI.
    destruct (ob_echo_delete E orc1 o2) as [oe []]; [by exists oe|done..]. }
  assert (∀ h' o', andThen (ob_end E orc1 h' o2) (ob_close E orc2) = (o', SOk) → ∃ o3, ob_end E orc1 h' o2 = (o3, SOk) ∧ ob_close E orc2 o3 = (o', SOk)) as Hsplit.
  { intros h' o'. destruct (ob_end E orc1 h' o2) as [o3 []]; [by exists o3|done..]. }
  destruct (Hsplit _ _ Hi) as (o3 & Hend & Hcl). destruct (Hsplit _ _ Hiv) as (ov3 & Hendv & Hclv). clear Hsplit Hi Hiv.
  pose proof (Hord o1 o2 Hst Hf) as Hg.
  assert (guarded_end E (proper E) (λ _, True) orc1 h o2) as Hgp by (eapply guarded_end_mono; [|exact Hg]; by intros ? ? ? [? _]).
  assert (complete E s i (apply_evs (ob_trace o) s) (ob_inv o)) as Hcomp.
  { refine (Complete _ _ _ _ _ o3 orc2 o _ Hcl eq_refl eq_refl). apply updates_one.
    exact (Update E _ _ _ _ _ orc1 h (open_object i) o1 o2 o3 Hst (pg_calls _ _ _ _ _ _ _ _ _ Hp) Hm2 Hgp Hend). }
  destruct (complete_closed E s i _ _ n fam Hhex Hk Hsup Hcomp) as (n' & fam' & Hc).
  destruct (end_settled E s Hhex n orc1 h o2 o3 Hend Hgp Hwk Hm2) as [n3 Hset].
  assert (∀ area T, hooks_satisfy E (stays_in E X area T) orcs orc1 r folders h i → view X area T s oe o) as Hview.
  { intros area T Hst'. pose proof (guarded_end_and E _ _ orc1 h o2 Hg (Hst' o1 o2 Hst Hf)) as Hg2.
    destruct (end_view E s Hhex X area T oe n We n orc1 h o2 oe o3 Ee Hend Hg2 Hwk Hm2 (view_refl _ _ _ _ _ H9e)) as (m & Hset' & Hv3).
    by apply (close_view E s X area T oe n m orc2 o3 o). }
  assert (∀ area, view X area (λ _, False) s oe ov) as Hviewv.
  { intros area. assert (guarded_end E (λ orc op o, orderly E orc op o ∧ stays_in E X area (λ _, False) orc op o) (λ _, True) orc1 (HDone []) o2) as Hgv.
    { cbn [guarded_end]. split; [done|]. rewrite Ee. cbn [after_ok guarded_sops sops_run]. split; [done|]. by destruct (store_inventory E true false oe) as [? []]. }
    destruct (end_view E s Hhex X area (λ _, False) oe n We n orc1 (HDone []) o2 oe ov3 Ee Hendv Hgv Hwk Hm2 (view_refl _ _ _ _ _ H9e)) as (m & Hset' & Hv3).
    by apply (close_view E s X area (λ _, False) oe n m orc2 ov3 ov). }
  cbv zeta. assert (unique_states (ob_inv o)) as Huo.
  { (* every place may be touched *)
    assert (hooks_satisfy E (stays_in E X "" (λ _, True)) orcs orc1 r folders h i) as Hall.
    { intros o1' o2' _ _. clear - h. generalize orc1, o2'. clear. induction h as [a|a nw auto rest IH]; intros orc o.
      - cbn [guarded_end]. split; [done|]. destruct (if ob_echo o then _ else _) as [o1 []]; cbn [after_ok]; try done.
        assert (∀ ops o, guarded_sops E (stays_in E X "" (λ _, True)) ops o) as Hs.
        { clear. induction ops as [|[orc op|orc op|msg] ops IH]; intros o; cbn [guarded_sops]; [done|..|done]; (split; [done|]); destruct (sop_step E orc op o) as [o' []]; cbn [after_ok]; auto. }
        split; [apply Hs|]. destruct (sops_run E a o1) as [o2 []]; cbn [after_ok]; try done. by destruct (store_inventory E true false o2) as [? []].
      - cbn [guarded_end]. split; [done|]. destruct (if ob_echo o then _ else _) as [o1 []]; cbn [after_ok]; try done.
        assert (∀ ops o, guarded_sops E (stays_in E X "" (λ _, True)) ops o) as Hs.
        { clear. induction ops as [|[orc op|orc op|msg] ops IH]; intros o; cbn [guarded_sops]; [done|..|done]; (split; [done|]); destruct (sop_step E orc op o) as [o' []]; cbn [after_ok]; auto. }
        split; [apply Hs|]. destruct (sops_run E a o1) as [o2 []]; cbn [after_ok]; try done. destruct (store_inventory E true false o2) as [o3 []]; cbn [after_ok]; try done.
        destruct (ob_start nw _ _ _ false o3) as [o4 []]; cbn [after_ok]; try done. split; [apply Hs|]. destruct (sops_run E auto o4) as [o5 []]; cbn [after_ok]; try done. }
    destruct (vw_09 _ _ _ _ _ _ (Hview "" _ Hall)) as (m & _ & _ & _ & H). exact H. }
  split; [done|]. split; [done|]. split; [by exists n', fam'|]. split.
  { intros HP. destruct Hset as ((fam3 & Hk3 & _) & _ & Hw3 & Hm3 & _).
    assert (ob_inv o = ob_inv o3) as Hi4.
    { destruct (close_spec E orc2 o3 o Hw3 Hm3 Hcl) as (dg & _ & H & _). exact H. }
    apply (close_loads E P parse orc2 o3 o s Hhex Hj (kp_alg _ _ _ _ _ _ Hk3) Hw3 Hm3 Hcl). by rewrite <- Hi4. }
  intros area T src t0 orc del Hsv Hsrc Hdel Hstay Hret Horc Ht0.
  destruct (Hres area src t0 orc del Hsv Hsrc Hdel Horc Ht0) as [_ Hheld].
  destruct (head_some _ _ _ _ _ Hc) as [_ [v Hv]]. pose proof (kp_good _ _ _ _ _ _ (cl_kept _ _ _ _ _ Hc)) as HG.
  assert (inv_versions (ob_inv o) !! requested_version (ob_inv o) "latest" = Some v) as Hv' by (by rewrite latest_is).
  destruct (extract_works E X _ (ob_inv o) n' orc "latest" v area HG (sv_hash _ _ _ _ _ Hsv) Horc Hv') as (t & Ht & Hw).
  { eapply retrievable_extractable; [apply Hsv|done|done|]. by eapply Huo. }
  exists t. split; [done|]. intros q HT. apply option_eq. intros x. rewrite Hw. rewrite (Hheld q x).
  change (apply_evs (ob_trace ?a) s) with (now s a).
  transitivity (found X (now s o) (ob_inv o) area q x).
  { split; [intros H; by exists v|]. intros (v2 & Hv2 & H). congruence. }
  rewrite (found_view E X area T s oe n o q x We (Hview area T Hstay) HT).
  symmetry. apply (found_view E X area (λ _, False) s oe n ov q x We (Hviewv area)). tauto.
Qed.
