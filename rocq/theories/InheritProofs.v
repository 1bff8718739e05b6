(** What a complete update session keeps of the object before: versions, manifest entries, and the bytes at the content paths. *)
From Coq Require Import Ascii.
From stdpp Require Import base list strings gmap.
From Coq Require Import ZArith Lia.
From Verif Require Import GoStr PathModel InventoryModel ObjectModel InventorySpec InventoryProofs ObjectSpec ObjectProofs LookupProofs AddProofs
  CrashSpec LoadModel PathProofs CrashProofs LoadProofs SessionProofs PublishSpec PublishProofs PublishProofs2 PublishProofs3 PublishProofs4.

Record inherits (s : storage) (i : inventory) (s' : storage) (i' : inventory) : Prop := Inherits {
  ih_pad : inv_padding i' = inv_padding i;
  ih_cdir : inv_contentdir i' = inv_contentdir i;
  ih_alg : inv_alg i' = inv_alg i;
  ih_vers : ∀ ver v, inv_versions i !! ver = Some v → inv_versions i' !! ver = Some v;
  ih_man : ∀ d ps, inv_manifest i !! d = Some ps → ∃ ext, inv_manifest i' !! d = Some (ps ++ ext);
  ih_content : ∀ d p, lists (inv_manifest i) p d → s' !! p = s !! p
}.

Section inherit.
  Context (E : env) (s : storage) (Hhex : hex_hash (e_hash E)) (i : inventory) (n0 : N) (fam0 : N → inventory) (Hk0 : kept E s i n0 n0 fam0).
  Definition holds (n : N) (o : object) : Prop :=
    (n0 <= n)%N ∧ inherits s i (now s o) (ob_inv o) ∧ ∀ k r, (1 <= k <= n0)%N → now s o !! cpath i k r = s !! cpath i k r.
  Notation working := (working E s).
  Notation settled := (settled E s).

  Lemma content_of_frame (s' : storage) : (∀ k r, (1 <= k <= n0)%N → s' !! cpath i k r = s !! cpath i k r) → ∀ d p, lists (inv_manifest i) p d → s' !! p = s !! p.
  Proof using Hk0.
    intros H d p Hl. destruct (g_paths _ _ _ _ (kp_good _ _ _ _ _ _ Hk0) _ _ Hl) as (k & r & Hk & _ & ->). by apply H.
  Qed.
  Lemma old_not_head n o : working n o → (n0 <= n)%N → inv_padding (ob_inv o) = inv_padding i → ∀ ver, is_Some (inv_versions i !! ver) → ver ≠ inv_head (ob_inv o).
  Proof using Hk0.
    intros ([fam Hk] & _ & _) Hn Hp ver Hv. apply (proj2 (g_contig _ _ _ _ (kp_good _ _ _ _ _ _ Hk0))) in Hv as (k & Hkn & ->).
    rewrite (proj1 (g_contig _ _ _ _ (kp_good _ _ _ _ _ _ Hk))), decide_False by lia. rewrite Hp. intros Eq%version_name_inj. lia.
  Qed.
  Lemma holds_step n o o' : step_ok E s (n + 1) o o' → working n o → holds n o → holds n o'.
  Proof using Hk0.
    intros (_ & He & _ & Hfr) Hw (Hn & [] & Hc). split; [done|].
    assert (∀ k r, (1 <= k <= n0)%N → now s o' !! cpath i k r = s !! cpath i k r) as Hc'.
    { intros k r Hk. rewrite Hfr; [by apply Hc|]. intros r' Eq. rewrite (cpath_same i (ob_inv o)) in Eq by done. apply cpath_inj in Eq. lia. }
    split; [|done]. split.
    - by rewrite (er_pad _ _ He).
    - by rewrite (er_cdir _ _ He).
    - by rewrite (er_alg _ _ He).
    - intros ver v Hv. rewrite (er_vers _ _ He); [by apply ih_vers0|]. by eapply old_not_head.
    - intros d ps Hd. destruct (ih_man0 d ps Hd) as [e1 H1]. destruct (er_man _ _ He _ _ H1) as [e2 H2]. exists (e1 ++ e2). by rewrite app_assoc.
    - by apply content_of_frame.
  Qed.
  Lemma sop_holds n orc op o : proper E orc op o → working n o → holds n o → holds n (sop_step E orc op o).1.
  Proof using Hhex Hk0.
    intros Hp Hwk. pose proof Hwk as ([fam Hk] & Hs & Hw). apply holds_step; [|exact Hwk].
    apply sop_ok; try done; [lia|apply (kp_pad _ _ _ _ _ _ Hk)|apply (kp_cdir _ _ _ _ _ _ Hk)|apply (kp_good _ _ _ _ _ _ Hk)].
  Qed.
  Lemma echo_holds n orc o : working n o → holds n o → holds n (ob_echo_delete E orc o).1.
  Proof using Hk0.
    intros Hwk. pose proof Hwk as ([fam Hk] & Hs & Hw). apply holds_step; [|exact Hwk]. apply echo_ok, (kp_good _ _ _ _ _ _ Hk).
  Qed.
  Lemma sops_holds n ops o : guarded_sops E (proper E) ops o → working n o → holds n o → holds n (sops_run E ops o).1.
  Proof using Hhex Hk0.
    revert o; induction ops as [|[orc op|orc op|msg] ops IH]; intros o Hg Hw Hh; cbn [sops_run]; [done|..|done].
    - cbn [guarded_sops] in Hg. destruct Hg as [Hp Hg]. pose proof (sop_working E s Hhex n orc op o Hp Hw) as H. pose proof (sop_holds n orc op o Hp Hw Hh) as H'.
      destruct (sop_step E orc op o) as [o' []]; cbn [andThen fst after_ok] in *; [by apply IH|done..].
    - cbn [guarded_sops] in Hg. destruct Hg as [Hp Hg]. pose proof (sop_working E s Hhex n orc op o Hp Hw) as H. pose proof (sop_holds n orc op o Hp Hw Hh) as H'.
      destruct (sop_step E orc op o) as [o' []]; cbn [fst] in *; [by apply IH|by apply IH|done].
  Qed.
  Lemma calls_holds n o o' : calls E o o' → working n o → holds n o → holds n o'.
  Proof using Hhex Hk0.
    induction 1 as [|orc op o o1 st o2 Hin Hg Hstep Hst Hrest IH]; [done|]. intros Hw Hh.
    assert (working n o1 ∧ holds n o1) as [H1 H2]; [|by apply IH]. clear IH.
    destruct op; cbn [in_update guarded_op ostep] in *; try done.
    - pose proof (sop_working E s Hhex n orc op o Hg Hw) as H. pose proof (sop_holds n orc op o Hg Hw Hh) as H'. by rewrite Hstep in H, H'.
    - injection Hstep as <- <-. split; [by apply upd_working|done].
    - unfold ob_end_area in Hstep. destruct (ob_echo o).
      + pose proof (echo_working E s n orc o Hw) as H. pose proof (echo_holds n orc o Hw Hh) as H'.
        destruct (ob_echo_delete E orc o) as [o3 []]; cbn [andThen fst] in *; injection Hstep as <- <-; done.
      + cbn [andThen] in Hstep. by injection Hstep as <- <-.
  Qed.
  Lemma start_holds n nw msg un ua e o o' : ob_start nw msg un ua e o = (o', SOk) → base E s n o → holds n o → holds n o'.
  Proof using Hk0.
    unfold ob_start, on_inv. cbn [ob_inv set_echo]. destruct (new_version nw msg un ua (ob_inv o)) as [i' st] eqn:Ei.
    intros [= <- ->] [[fam Hk] _] (Hn & [] & Hc). pose proof (contiguous_is _ _ (g_contig _ _ _ _ (kp_good _ _ _ _ _ _ Hk))) as Hh.
    destruct (new_version_spec (ob_inv o) n nw msg un ua Hh) as (st & Eq & Hnone & _). rewrite Eq in Ei. injection Ei as <-.
    split; [done|]. split; [|done]. split; try done. intros ver v Hv. apply ih_vers0 in Hv.
    cbn [inv_versions set_inv ob_inv set_writeable set_versions set_head]. rewrite lookup_insert_ne; [done|]. intros <-. congruence.
  Qed.
  Lemma store_holds n o o' : store_inventory E true false o = (o', SOk) → working n o → holds n o → holds (n + 1) o'.
  Proof using Hk0.
    unfold store_inventory. intros Hst ([fam Hk] & _ & Hw) (Hn & [] & Hc). rewrite Hw in Hst.
    destruct (e_hash E _ _) as [dg|] eqn:Hd; [|done]. apply (f_equal fst) in Hst. cbn [fst] in Hst. subst o'. rewrite app_nil_l.
    assert (inv_head (ob_inv o) = version_name (inv_padding (ob_inv o)) (n + 1)) as Hh.
    { rewrite (proj1 (g_contig _ _ _ _ (kp_good _ _ _ _ _ _ Hk))). by rewrite decide_False by lia. }
    set (o' := emit _ o).
    assert (∀ k r, now s o' !! cpath i k r = now s o !! cpath i k r) as Hfr.
    { intros k r. unfold o', PublishProofs2.now. unfold emit. cbn [ob_trace]. rewrite (apply_evs_app (ob_trace o)), apply_evs_app, !apply_write, Hh.
      rewrite <- (cpath_same i (ob_inv o)) by done. apply lookup_two; apply cpath_vfile; [done|]. apply sidecar_slash, (kp_alg _ _ _ _ _ _ Hk). }
    split; [lia|].
    assert (∀ k r, (1 <= k <= n0)%N → now s o' !! cpath i k r = s !! cpath i k r) as Hc' by (intros k r H; rewrite Hfr; by apply Hc).
    split; [|done]. split; try done. by apply content_of_frame.
  Qed.
  Lemma end_holds n orc h o o' : ob_end E orc h o = (o', SOk) → guarded_end E (proper E) (λ _, True) orc h o → working n o →
    inv_modified (ob_inv o) = true → holds n o → ∃ n', settled n' o' ∧ holds n' o'.
  Proof using Hhex Hk0.
    revert n orc o; induction h as [a|a nw auto rest IH]; intros n orc o; rewrite ob_end_unfold; intros He Hg Hwk Hm Hh;
      (pose proof Hwk as (_ & _ & Hw); rewrite Hw, Hm in He; cbn [negb] in He; cbn [guarded_end] in Hg; destruct Hg as [_ Hg];
       assert (∃ o1, (if ob_echo o then ob_echo_delete E orc o else (o, SOk)) = (o1, SOk) ∧ working n o1 ∧ inv_modified (ob_inv o1) = true ∧ holds n o1)
         as (o1 & E1 & W1 & M1 & Hh1);
       [destruct (ob_echo o); [|by exists o]; pose proof (echo_working E s n orc o Hwk) as HW; pose proof (echo_modified E orc o Hm) as HM;
        pose proof (echo_holds n orc o Hwk Hh) as HH;
        destruct (ob_echo_delete E orc o) as [o1 []]; cbn [andThen] in He; [by exists o1|done|done]|];
       rewrite E1 in He, Hg; cbn [andThen after_ok] in He, Hg; destruct Hg as [Hga Hg];
       pose proof (sops_working E s Hhex n _ o1 Hga W1) as W2; pose proof (sops_modified E a o1 M1) as M2; pose proof (sops_holds n _ o1 Hga W1 Hh1) as Hh2;
       destruct (sops_run E a o1) as [o2 []]; cbn [andThen after_ok fst] in He, Hg, W2, M2, Hh2; [|done..];
       destruct (store_inventory E true false o2) as [o3 []] eqn:Est; cbn [andThen after_ok] in He, Hg; [|done..];
       pose proof (store_settled E s n o2 o3 Est W2 M2) as S3; pose proof (store_holds n o2 o3 Est W2 Hh2) as Hh3).
    - injection He as <-. by eexists.
    - destruct (ob_start nw _ _ _ false o3) as [o4 []] eqn:E4; cbn [andThen after_ok] in He, Hg; [|done..]. destruct Hg as [Hgb Hg].
      destruct (start_working E s _ _ _ _ _ _ _ _ E4 (settled_base E s _ _ S3)) as [W4 _].
      pose proof (start_holds _ _ _ _ _ _ _ _ E4 (settled_base E s _ _ S3) Hh3) as Hh4.
      assert (inv_modified (ob_inv o4) = true) as M4.
      { destruct S3 as (_ & _ & _ & M3 & _). unfold ob_start, on_inv in E4. cbn [ob_inv set_echo] in E4.
        destruct (new_version _ _ _ _ (ob_inv o3)) as [i4 st] eqn:Ei. injection E4 as <- ->. cbn [ob_inv set_inv].
        unfold new_version in Ei. destruct (next_head _); [|done]. destruct (decide _); [by injection Ei as <-|]. destruct (_ !! _); [|done]. by injection Ei as <-. }
      pose proof (sops_working E s Hhex _ _ o4 Hgb W4) as W5. pose proof (sops_modified E auto o4 M4) as M5. pose proof (sops_holds _ _ o4 Hgb W4 Hh4) as Hh5.
      destruct (sops_run E auto o4) as [o5 []]; cbn [andThen after_ok fst] in He, Hg, W5, M5, Hh5; [|done..]. by eapply (IH (n + 1)%N).
  Qed.
  Lemma update_holds n o o' : update E o o' → base E s n o → holds n o → ∃ n', settled n' o' ∧ holds n' o'.
  Proof using Hhex Hk0.
    intros [nw msg un ua echo orc h ? o1 o2 o3 Hst Hc Hm Hg He] Hb Hh. destruct (start_working E s _ _ _ _ _ _ _ _ Hst Hb) as [W1 _].
    pose proof (start_holds _ _ _ _ _ _ _ _ Hst Hb Hh) as H1. pose proof (calls_working E s Hhex _ _ _ Hc W1) as W2. pose proof (calls_holds _ _ _ Hc W1 H1) as H2.
    by eapply end_holds.
  Qed.
  Lemma updates_holds n o o' : updates E o o' → base E s n o → holds n o → ∃ n', settled n' o' ∧ holds n' o'.
  Proof using Hhex Hk0.
    intros H; revert n; induction H as [o o' H|o o1 o' H _ IH]; intros n Hb Hh; destruct (update_holds _ _ _ H Hb Hh) as (n1 & H1 & Hh1); [by exists n1|].
    apply (IH n1); [|done]. by apply settled_base.
  Qed.
  Lemma complete_inherits s' i' : supported E i → complete E s i s' i' → inherits s i s' i'.
  Proof using Hhex Hk0.
    intros Hs [o1 orc o2 Hu Hc -> ->].
    destruct (updates_holds n0 (open_object i) o1 Hu) as (n' & ((fam' & Hk' & Hf) & Hs' & Hw & Hm & Hn') & Hn & Hi & Hfr).
    { split; [|done]. exists fam0. unfold now, open_object. cbn [ob_trace ob_inv apply_evs foldl]. eapply kept_same; [apply same_flags|done]. }
    { split; [lia|]. unfold now, open_object. cbn [ob_trace ob_inv apply_evs foldl]. split; [|done]. split; try done. intros d ps Hd. exists []. by rewrite app_nil_r. }
    destruct (close_spec E orc o1 o2 Hw Hm Hc) as (dg & Hd & Hi2 & Ht). rewrite Hi2. destruct Hi. split; try done.
    apply content_of_frame. intros k r Hk. rewrite Ht, apply_evs_app. fold (now s o1). rewrite <- Hfr by done.
    rewrite apply_evs_app, apply_evs_other.
    - rewrite apply_evs_app, !apply_write. apply lookup_two; apply (slash_ne _ _ (cpath_slash _ _ _)); [done|].
      apply sidecar_slash, (kp_alg _ _ _ _ _ _ Hk').
    - eapply Forall_impl; [apply ext_events_below|]. intros e Hb He. cbv beta in Hb. rewrite He in Hb.
      by apply (cpath_not_below _ _ _ "extensions") in Hb; [|left].
  Qed.
End inherit.
