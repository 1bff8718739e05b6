(** The end of an update with hooks: what they do not name stays as the folders left it. *)
From Coq Require Import Ascii.
From stdpp Require Import base list strings gmap.
From Coq Require Import ZArith Lia.
From Verif Require Import GoStr PathModel InventoryModel ObjectModel InventorySpec InventoryProofs ObjectSpec ObjectProofs LookupProofs AddProofs
  ClaimsInventory ClaimsInventory2 CrashSpec LoadModel PathProofs CrashProofs LoadProofs SessionProofs PublishSpec PublishProofs PublishProofs2
  PublishProofs3 PublishProofs4 AreaModel AreaSpec ExtractProofs InheritProofs IngestModel IngestSpec IngestProofs IngestProofs2 IngestProofs3 IngestProofs4
  IngestProofs5 IngestProofs6 JsonlProofs2 HookSpec HookProofs.

(** * Guards *)
Lemma guarded_sops_and E G1 G2 ops o : guarded_sops E G1 ops o → guarded_sops E G2 ops o → guarded_sops E (λ orc op o, G1 orc op o ∧ G2 orc op o) ops o.
Proof.
  revert o. induction ops as [|[orc op|orc op|msg] ops IH]; intros o; cbn [guarded_sops]; [done|..|done].
  - intros [A1 A2] [B1 B2]. split; [done|]. destruct (sop_step E orc op o) as [o' []]; cbn [after_ok] in *; [by apply IH|done..].
  - intros [A1 A2] [B1 B2]. split; [done|]. destruct (sop_step E orc op o) as [o' []]; [by apply IH|by apply IH|done].
Qed.
Lemma guarded_end_and E G1 G2 orc h o : guarded_end E G1 (λ _, True) orc h o → guarded_end E G2 (λ _, True) orc h o →
  guarded_end E (λ orc op o, G1 orc op o ∧ G2 orc op o) (λ _, True) orc h o.
Proof.
  revert orc o. induction h as [a|a nw auto rest IH]; intros orc o [_ A] [_ B]; cbn [guarded_end]; (split; [done|]);
    destruct (if ob_echo o then _ else _) as [o1 []]; cbn [after_ok] in *; try done; destruct A as [A1 A2], B as [B1 B2]; (split; [by apply guarded_sops_and|]);
    destruct (sops_run E a o1) as [o2 []]; cbn [after_ok] in *; try done; destruct (store_inventory E true false o2) as [o3 []]; cbn [after_ok] in *; try done;
    destruct (ob_start nw _ _ _ false o3) as [o4 []]; cbn [after_ok] in *; try done. destruct A2 as [A2 A3], B2 as [B2 B3].
  split; [by apply guarded_sops_and|]. destruct (sops_run E auto o4) as [o5 []]; cbn [after_ok] in *; try done. by apply IH.
Qed.
Lemma guarded_sops_mono E (G G' : oracle → sop → object → Prop) ops o : (∀ orc op o, G orc op o → G' orc op o) → guarded_sops E G ops o → guarded_sops E G' ops o.
Proof.
  intros HG. revert o. induction ops as [|[orc op|orc op|msg] ops IH]; intros o; cbn [guarded_sops]; [done|..|done].
  - intros [A1 A2]. split; [by apply HG|]. destruct (sop_step E orc op o) as [o' []]; cbn [after_ok] in *; [by apply IH|done..].
  - intros [A1 A2]. split; [by apply HG|]. destruct (sop_step E orc op o) as [o' []]; [by apply IH|by apply IH|done].
Qed.
Lemma guarded_end_mono E (G G' : oracle → sop → object → Prop) orc h o : (∀ orc op o, G orc op o → G' orc op o) →
  guarded_end E G (λ _, True) orc h o → guarded_end E G' (λ _, True) orc h o.
Proof.
  intros HG. revert orc o. induction h as [a|a nw auto rest IH]; intros orc o [_ A]; cbn [guarded_end]; (split; [done|]);
    destruct (if ob_echo o then _ else _) as [o1 []]; cbn [after_ok] in *; try done; destruct A as [A1 A2]; (split; [by eapply guarded_sops_mono|]);
    destruct (sops_run E a o1) as [o2 []]; cbn [after_ok] in *; try done; destruct (store_inventory E true false o2) as [o3 []]; cbn [after_ok] in *; try done;
    destruct (ob_start nw _ _ _ false o3) as [o4 []]; cbn [after_ok] in *; try done. destruct A2 as [A2 A3].
  split; [by eapply guarded_sops_mono|]. destruct (sops_run E auto o4) as [o5 []]; cbn [after_ok] in *; try done. by apply IH.
Qed.

(** * What stays *)
Record view (X : xenv) (area : string) (T : string → Prop) (s : storage) (o0 o : object) : Prop := View {
  vw_alg : inv_alg (ob_inv o) = inv_alg (ob_inv o0);
  vw_pad : inv_padding (ob_inv o) = inv_padding (ob_inv o0);
  vw_cdir : inv_contentdir (ob_inv o) = inv_contentdir (ob_inv o0);
  vw_man : ∀ d ps, inv_manifest (ob_inv o0) !! d = Some ps → ∃ ext, inv_manifest (ob_inv o) !! d = Some (ps ++ ext);
  vw_content : ∀ c d, lists (inv_manifest (ob_inv o0)) c d → now s o !! c = now s o0 !! c;
  vw_current : ∀ np d q, x_path X np area = XPath q → ¬ T q → current (ob_inv o) np d ↔ current (ob_inv o0) np d;
  vw_09 : inv09 (ob_inv o)
}.

Section rest.
  Context (E : env) (s : storage) (Hhex : hex_hash (e_hash E)) (X : xenv) (area : string) (T : string → Prop).
  Context (o0 : object) (n0 : N) (Hw0 : working E s n0 o0).
  Notation view := (view X area T s o0).
  Notation working := (working E s).
  Notation settled := (settled E s).
  Notation G := (λ orc op o, orderly E orc op o ∧ stays_in E X area T orc op o).

  Lemma view_lists o c d : view o → lists (inv_manifest (ob_inv o0)) c d → lists (inv_manifest (ob_inv o)) c d.
  Proof using.
    intros Hv (ps & Hps & Hin). destruct (vw_man _ _ _ _ _ _ Hv d ps Hps) as [ext He]. exists (ps ++ ext). split; [done|]. apply elem_of_app. by left.
  Qed.
  Lemma sop_view n orc op o : G orc op o → working n o → view o → view (sop_step E orc op o).1.
  Proof using Hhex.
    intros [[Hp Hnc] Hst] Hwk Hv. pose proof (ef_ext _ _ _ _ (sop_effect E orc op o)) as He.
    assert (nonempty_hash E) as Hne by (intros alg data d H; by destruct (Hhex _ _ _ H) as [[? _] _]).
    pose proof (inv09_sop E orc op o Hne Hnc (vw_09 _ _ _ _ _ _ Hv)) as H9.
    pose proof (sop_local E orc op o) as Hloc.
    assert (∀ c d, lists (inv_manifest (ob_inv o)) c d → now s (sop_step E orc op o).1 !! c = now s o !! c) as Hcont.
    { intros c d Hl. destruct Hp as (_ & _ & Hf). destruct (sop_step E orc op o) as [o' st] eqn:Es. exact (JsonlProofs2.sop_stable E orc op o o' st s c d Es Hf Hl). }
    destruct Hv as [V1 V2 V3 V4 V5 V6 V7]. split.
    - by rewrite (er_alg _ _ He).
    - by rewrite (er_pad _ _ He).
    - by rewrite (er_cdir _ _ He).
    - intros d ps Hps. destruct (V4 d ps Hps) as [e1 H1]. destruct (er_man _ _ He _ _ H1) as [e2 H2]. exists (e1 ++ e2). by rewrite app_assoc.
    - intros c d Hl. rewrite <- (V5 c d Hl). destruct Hl as (ps & Hps & Hin). destruct (V4 d ps Hps) as [ext Hx]. apply (Hcont c d).
      exists (ps ++ ext). split; [done|]. apply elem_of_app. by left.
    - intros np d q Hq Hn. rewrite <- (V6 np d q Hq Hn). apply Hloc. intros Ht. apply Hn. by eapply Hst.
    - done.
  Qed.
  Lemma sops_view n ops o : guarded_sops E G ops o → working n o → view o → view (sops_run E ops o).1 ∧ working n (sops_run E ops o).1.
  Proof using Hhex.
    revert o; induction ops as [|[orc op|orc op|msg] ops IH]; intros o Hg Hw Hv; cbn [sops_run]; [done|..|done].
    - cbn [guarded_sops] in Hg. destruct Hg as [Hp Hg]. pose proof (sop_working E s Hhex n orc op o (proj1 (proj1 Hp)) Hw) as H. pose proof (sop_view n orc op o Hp Hw Hv) as H'.
      destruct (sop_step E orc op o) as [o' []]; cbn [andThen fst after_ok] in *; [by apply IH|done..].
    - cbn [guarded_sops] in Hg. destruct Hg as [Hp Hg]. pose proof (sop_working E s Hhex n orc op o (proj1 (proj1 Hp)) Hw) as H. pose proof (sop_view n orc op o Hp Hw Hv) as H'.
      destruct (sop_step E orc op o) as [o' []]; cbn [fst] in *; [by apply IH|by apply IH|done].
  Qed.
  Lemma sops_echo ops o : ob_echo (sops_run E ops o).1 = ob_echo o.
  Proof using.
    clear. revert o; induction ops as [|[orc op|orc op|msg] ops IH]; intros o; cbn [sops_run]; [done|..|done];
      pose proof (ef_echo _ _ _ _ (sop_effect E orc op o)) as H; destruct (sop_step E orc op o) as [o' []]; cbn [andThen fst] in *; rewrite ?IH; done.
  Qed.
  Lemma store_view n o o' : store_inventory E true false o = (o', SOk) → working n o → view o → view o'.
  Proof using Hw0.
    unfold store_inventory. intros Hst ([fam Hk] & _ & Hw) [V1 V2 V3 V4 V5 V6 V7]. rewrite Hw in Hst.
    destruct (e_hash E _ _) as [dg|] eqn:Hd; [|done]. apply (f_equal fst) in Hst. cbn [fst] in Hst. subst o'. rewrite app_nil_l.
    assert (inv_head (ob_inv o) = version_name (inv_padding (ob_inv o)) (n + 1)) as Hh.
    { rewrite (proj1 (g_contig _ _ _ _ (kp_good _ _ _ _ _ _ Hk))). by rewrite decide_False by lia. }
    split; try done. intros c d Hl. rewrite <- (V5 c d Hl). destruct Hw0 as ([fam0 Hk0] & _).
    destruct (g_paths _ _ _ _ (kp_good _ _ _ _ _ _ Hk0) _ _ Hl) as (k & r & _ & _ & ->).
    unfold PublishProofs2.now. unfold emit. cbn [ob_trace]. rewrite (apply_evs_app (ob_trace o)), apply_evs_app, !apply_write, Hh.
    rewrite <- (cpath_same (ob_inv o0) (ob_inv o)) by done. apply lookup_two; apply cpath_vfile; [done|]. apply sidecar_slash, (kp_alg _ _ _ _ _ _ Hk).
  Qed.
  Lemma start_view n nw msg un ua e o o' : ob_start nw msg un ua e o = (o', SOk) → settled n o → view o → view o'.
  Proof using.
    intros Es ((fam & Hk & _) & _ & _ & _ & Hn1) [V1 V2 V3 V4 V5 V6 V7]. pose proof (inv09_start nw msg un ua e o V7) as H9. rewrite Es in H9. cbn [fst] in H9.
    revert Es H9. unfold ob_start, on_inv. cbn [ob_inv set_echo]. destruct (new_version nw msg un ua (ob_inv o)) as [i' st] eqn:Ei. intros Es H9.
    apply (f_equal fst) in Es as Eo. apply (f_equal snd) in Es as Est. cbn [fst snd] in Eo, Est. subst o' st. cbn [ob_inv set_inv] in H9.
    pose proof (contiguous_is _ _ (g_contig _ _ _ _ (kp_good _ _ _ _ _ _ Hk))) as Hh.
    destruct (new_version_spec (ob_inv o) n nw msg un ua Hh) as (st & Eq & Hnone & _ & Hs1). rewrite Eq in Ei. apply (f_equal fst) in Ei. cbn [fst] in Ei. subst i'.
    split; try done. intros np d q Hq HT. rewrite <- (V6 np d q Hq HT). destruct (Hs1 ltac:(lia)) as (old & Hold & ->).
    unfold current, recorded. cbn [inv_versions inv_head set_inv ob_inv set_writeable set_versions set_head]. rewrite lookup_insert.
    split.
    - intros (v & [= <-] & Hl). by exists old.
    - intros (v & Hv & Hl). rewrite Hold in Hv. injection Hv as <-. by eexists.
  Qed.
  Lemma end_view n orc h o o1 o' : (if ob_echo o then ob_echo_delete E orc o else (o, SOk)) = (o1, SOk) → ob_end E orc h o = (o', SOk) →
    guarded_end E G (λ _, True) orc h o → working n o → inv_modified (ob_inv o) = true → view o1 → ∃ n', settled n' o' ∧ view o'.
  Proof using Hhex Hw0.
    revert n orc o o1; induction h as [a|a nw auto rest IH]; intros n orc o o1 E1; rewrite ob_end_unfold; intros He Hg Hwk Hm Hv1;
      (pose proof Hwk as (_ & _ & Hw); rewrite Hw, Hm in He; cbn [negb] in He; cbn [guarded_end] in Hg; destruct Hg as [_ Hg];
       assert (working n o1 ∧ inv_modified (ob_inv o1) = true) as [W1 M1];
       [revert E1; destruct (ob_echo o); [|by intros [= <-]]; pose proof (echo_working E s n orc o Hwk) as HW; pose proof (echo_modified E orc o Hm) as HM;
        destruct (ob_echo_delete E orc o) as [o2 []]; intros [= <-]; done|];
       rewrite E1 in He, Hg; cbn [andThen after_ok] in He, Hg; destruct Hg as [Hga Hg];
       destruct (sops_view n _ o1 Hga W1 Hv1) as [Hv2 W2]; pose proof (sops_modified E a o1 M1) as M2;
       destruct (sops_run E a o1) as [o2 []]; cbn [andThen after_ok fst] in He, Hg, W2, M2, Hv2; [|done..];
       destruct (store_inventory E true false o2) as [o3 []] eqn:Est; cbn [andThen after_ok] in He, Hg; [|done..];
       pose proof (store_settled E s n o2 o3 Est W2 M2) as S3; pose proof (store_view n o2 o3 Est W2 Hv2) as Hv3).
    - injection He as <-. by eexists.
    - destruct (ob_start nw _ _ _ false o3) as [o4 []] eqn:E4; cbn [andThen after_ok] in He, Hg; [|done..]. destruct Hg as [Hgb Hg].
      destruct (start_working E s _ _ _ _ _ _ _ _ E4 (settled_base E s _ _ S3)) as [W4 _].
      pose proof (start_view _ _ _ _ _ _ _ _ E4 S3 Hv3) as Hv4.
      assert (inv_modified (ob_inv o4) = true ∧ ob_echo o4 = false) as [M4 EC4].
      { destruct S3 as (_ & _ & _ & M3 & _). unfold ob_start, on_inv in E4. cbn [ob_inv set_echo] in E4.
        destruct (new_version _ _ _ _ (ob_inv o3)) as [i4 st] eqn:Ei. injection E4 as <- ->. cbn [ob_inv ob_echo set_inv]. split; [|done].
        unfold new_version in Ei. destruct (next_head _); [|done]. destruct (decide _); [by injection Ei as <-|]. destruct (_ !! _); [|done]. by injection Ei as <-. }
      destruct (sops_view _ _ o4 Hgb W4 Hv4) as [Hv5 W5]. pose proof (sops_modified E auto o4 M4) as M5. pose proof (sops_echo auto o4) as EC5.
      destruct (sops_run E auto o4) as [o5 []]; cbn [andThen after_ok fst] in He, Hg, W5, M5, Hv5, EC5; [|done..].
      apply (IH (n + 1)%N (shift_oracle orc) o5 o5); try done. by rewrite EC5, EC4.
  Qed.
End rest.
