(** Proofs about complete update sessions: updates and sessions. *)
From Coq Require Import Ascii.
From stdpp Require Import base list strings gmap.
From Coq Require Import ZArith Lia.
From Verif Require Import GoStr PathModel InventoryModel ObjectModel InventorySpec InventoryProofs ObjectSpec ObjectProofs LookupProofs AddProofs
  CrashSpec LoadModel PathProofs CrashProofs LoadProofs SessionProofs PublishSpec PublishProofs PublishProofs2 PublishProofs3.

Lemma supported_ext E i i' : ext_rel i i' → supported E i → supported E i'.
Proof. intros He H alg x. rewrite (er_alg _ _ He), (er_fixalgs _ _ He). apply H. Qed.

Section runs.
  Context (E : env) (s0 : storage) (Hhex : hex_hash (e_hash E)).
  Notation now := (now s0).

  Definition base (n : N) (o : object) : Prop := (∃ fam, kept E (now o) (ob_inv o) n n fam) ∧ supported E (ob_inv o).
  Definition working (n : N) (o : object) : Prop :=
    (∃ fam, kept E (now o) (ob_inv o) n (n + 1) fam) ∧ supported E (ob_inv o) ∧ inv_writeable (ob_inv o) = true.
  Definition settled (n : N) (o : object) : Prop :=
    (∃ fam, kept E (now o) (ob_inv o) n n fam ∧ fam n = ob_inv o) ∧ supported E (ob_inv o) ∧ inv_writeable (ob_inv o) = true ∧
    inv_modified (ob_inv o) = true ∧ (1 <= n)%N.
  Lemma settled_base n o : settled n o → base n o.
  Proof using. intros ((fam & Hk & _) & Hs & _). split; [by exists fam|done]. Qed.

  Lemma working_step n o o' : step_ok E s0 (n + 1) o o' → working n o → working n o'.
  Proof using.
    intros Hst ([fam Hk] & Hs & Hw). pose proof Hst as (_ & He & _). split; [|split].
    - exists fam. by eapply kept_step.
    - by eapply supported_ext.
    - by rewrite (er_wr _ _ He).
  Qed.
  Lemma sop_working n orc op o : proper E orc op o → working n o → working n (sop_step E orc op o).1.
  Proof using Hhex.
    intros Hp Hwk. pose proof Hwk as ([fam Hk] & Hs & Hw). eapply working_step; [|exact Hwk].
    apply sop_ok; try done; [lia|apply (kp_pad _ _ _ _ _ _ Hk)|apply (kp_cdir _ _ _ _ _ _ Hk)|apply (kp_good _ _ _ _ _ _ Hk)].
  Qed.
  Lemma echo_working n orc o : working n o → working n (ob_echo_delete E orc o).1.
  Proof using.
    intros Hwk. pose proof Hwk as ([fam Hk] & Hs & Hw). eapply working_step; [|exact Hwk]. apply echo_ok, (kp_good _ _ _ _ _ _ Hk).
  Qed.
  Lemma sops_working n ops o : guarded_sops E (proper E) ops o → working n o → working n (sops_run E ops o).1.
  Proof using Hhex.
    revert o; induction ops as [|[orc op|orc op|msg] ops IH]; intros o Hg Hw; cbn [sops_run]; [done|..|done].
    - cbn [guarded_sops] in Hg. destruct Hg as [Hp Hg]. pose proof (sop_working n orc op o Hp Hw) as H.
      destruct (sop_step E orc op o) as [o' []]; cbn [andThen fst after_ok] in *; [by apply IH|done..].
    - cbn [guarded_sops] in Hg. destruct Hg as [Hp Hg]. pose proof (sop_working n orc op o Hp Hw) as H.
      destruct (sop_step E orc op o) as [o' []]; cbn [fst] in *; [by apply IH|by apply IH|done].
  Qed.
  Lemma upd_working n u o : working n o → working n (set_upd u o).
  Proof using. done. Qed.
  Lemma calls_working n o o' : calls E o o' → working n o → working n o'.
  Proof using Hhex.
    induction 1 as [|orc op o o1 st o2 Hin Hg Hstep Hst _ IH]; [done|]. intros Hw. apply IH. clear IH.
    destruct op; cbn [in_update guarded_op ostep] in *; try done.
    - pose proof (sop_working n orc op o Hg Hw) as H. by rewrite Hstep in H.
    - injection Hstep as <- <-. by apply upd_working.
    - unfold ob_end_area in Hstep. destruct (ob_echo o).
      + pose proof (echo_working n orc o Hw) as H. destruct (ob_echo_delete E orc o) as [o3 []]; cbn [andThen fst] in *; injection Hstep as <- <-; done.
      + cbn [andThen] in Hstep. by injection Hstep as <- <-.
  Qed.
  Lemma start_working n nw msg un ua e o o' : ob_start nw msg un ua e o = (o', SOk) → base n o → working n o' ∧ ob_trace o' = ob_trace o.
  Proof using.
    unfold ob_start, on_inv. cbn [ob_inv set_echo]. destruct (new_version nw msg un ua (ob_inv o)) as [i' st] eqn:Ei.
    intros [= <- ->] [[fam Hk] Hs]. destruct (kept_start E _ _ _ _ _ _ _ _ _ Hk Ei) as (Hk' & Hf & Ha & Hw). split; [|done].
    split; [by exists fam|]. split; [|done]. intros alg x. cbn [ob_inv set_inv]. rewrite Hf, Ha. apply Hs.
  Qed.
  Lemma store_settled n o o' : store_inventory E true false o = (o', SOk) → working n o → inv_modified (ob_inv o) = true → settled (n + 1) o'.
  Proof using.
    unfold store_inventory. intros Hst ([fam Hk] & Hs & Hw) Hm. rewrite Hw in Hst.
    destruct (e_hash E _ _) as [dg|] eqn:Hd; [|done]. apply (f_equal fst) in Hst. cbn [fst] in Hst. subst o'. rewrite app_nil_l.
    assert (inv_head (ob_inv o) = version_name (inv_padding (ob_inv o)) (n + 1)) as Hh.
    { rewrite (proj1 (g_contig _ _ _ _ (kp_good _ _ _ _ _ _ Hk))). by rewrite decide_False by lia. }
    split; [|split; [done|split; [done|split; [done|lia]]]].
    exists (λ k, if decide (k = n + 1)%N then ob_inv o else fam k). split; [|by rewrite decide_True].
    change (ob_inv (emit _ o)) with (ob_inv o). unfold PublishProofs2.now. unfold emit at 1. cbn [ob_trace].
    rewrite (apply_evs_app (ob_trace o)), apply_evs_app, !apply_write, Hh. by apply kept_store.
  Qed.
  Lemma end_settled n orc h o o' : ob_end E orc h o = (o', SOk) → guarded_end E (proper E) (λ _, True) orc h o → working n o →
    inv_modified (ob_inv o) = true → ∃ n', settled n' o'.
  Proof using Hhex.
    revert n orc o; induction h as [a|a nw auto rest IH]; intros n orc o; rewrite ob_end_unfold; intros He Hg Hwk Hm;
      (pose proof Hwk as (_ & _ & Hw); rewrite Hw, Hm in He; cbn [negb] in He; cbn [guarded_end] in Hg; destruct Hg as [_ Hg];
       assert (∃ o1, (if ob_echo o then ob_echo_delete E orc o else (o, SOk)) = (o1, SOk) ∧ working n o1 ∧ inv_modified (ob_inv o1) = true)
         as (o1 & E1 & W1 & M1);
       [destruct (ob_echo o); [|by exists o]; pose proof (echo_working n orc o Hwk) as HW; pose proof (echo_modified E orc o Hm) as HM;
        destruct (ob_echo_delete E orc o) as [o1 []]; cbn [andThen] in He; [by exists o1|done|done]|];
       rewrite E1 in He, Hg; cbn [andThen after_ok] in He, Hg; destruct Hg as [Hga Hg];
       pose proof (sops_working n _ o1 Hga W1) as W2; pose proof (sops_modified E a o1 M1) as M2;
       destruct (sops_run E a o1) as [o2 []]; cbn [andThen after_ok fst] in He, Hg, W2, M2; [|done..];
       destruct (store_inventory E true false o2) as [o3 []] eqn:Est; cbn [andThen after_ok] in He, Hg; [|done..];
       pose proof (store_settled n o2 o3 Est W2 M2) as S3).
    - injection He as <-. by eexists.
    - destruct (ob_start nw _ _ _ false o3) as [o4 []] eqn:E4; cbn [andThen after_ok] in He, Hg; [|done..]. destruct Hg as [Hgb Hg].
      destruct (start_working _ _ _ _ _ _ _ _ E4 (settled_base _ _ S3)) as [W4 _].
      assert (inv_modified (ob_inv o4) = true) as M4.
      { destruct S3 as (_ & _ & _ & M3 & _). unfold ob_start, on_inv in E4. cbn [ob_inv set_echo] in E4.
        destruct (new_version _ _ _ _ (ob_inv o3)) as [i4 st] eqn:Ei. injection E4 as <- ->. cbn [ob_inv set_inv].
        unfold new_version in Ei. destruct (next_head _); [|done]. destruct (decide _); [by injection Ei as <-|]. destruct (_ !! _); [|done]. by injection Ei as <-. }
      pose proof (sops_working _ _ o4 Hgb W4) as W5. pose proof (sops_modified E auto o4 M4) as M5.
      destruct (sops_run E auto o4) as [o5 []]; cbn [andThen after_ok fst] in He, Hg, W5, M5; [|done..]. by eapply (IH (n + 1)%N).
  Qed.
  Lemma update_settled n o o' : update E o o' → base n o → ∃ n', settled n' o'.
  Proof using Hhex.
    intros [nw msg un ua echo orc h ? o1 o2 o3 Hst Hc Hm Hg He] Hb. destruct (start_working _ _ _ _ _ _ _ _ Hst Hb) as [W1 _].
    pose proof (calls_working _ _ _ Hc W1) as W2. by eapply end_settled.
  Qed.
  Lemma updates_settled n o o' : updates E o o' → base n o → ∃ n', settled n' o'.
  Proof using Hhex.
    intros H; revert n; induction H as [o o' H|o o1 o' H _ IH]; intros n Hb; destruct (update_settled _ _ _ H Hb) as [n1 H1]; [by exists n1|].
    apply (IH n1). by apply settled_base.
  Qed.
End runs.

(** The stored object after a complete session. *)
Record closed (E : env) (s : storage) (i : inventory) (n : N) (fam : N → inventory) : Prop := Closed {
  cl_kept : kept E s i n n fam;
  cl_newest : fam n = i;
  cl_some : (1 <= n)%N;
  cl_known : ∀ x, ∃ d, e_hash E (inv_alg i) x = Some d;
  cl_root : s !! "inventory.json" = Some (e_json E i);
  cl_side : ∃ dg, e_hash E (inv_alg i) (e_json E i) = Some dg ∧ s !! sidecar_name (inv_alg i) = Some (sidecar_text dg)
}.

Lemma complete_closed E s i s' i' n fam :
  hex_hash (e_hash E) → kept E s i n n fam → supported E i → complete E s i s' i' → ∃ n' fam', closed E s' i' n' fam'.
Proof.
  intros Hhex Hk Hs [o1 orc o2 Hu Hc -> ->].
  destruct (updates_settled E s Hhex n (open_object i) o1 Hu) as (n' & (fam' & Hk' & Hf) & Hs' & Hw & Hm & Hn').
  { split; [|done]. exists fam. unfold now, open_object. cbn [ob_trace ob_inv apply_evs foldl]. eapply kept_same; [apply same_flags|done]. }
  destruct (close_spec E orc o1 o2 Hw Hm Hc) as (dg & Hd & Hi & Ht). exists n', fam'. rewrite Hi.
  rewrite Ht, apply_evs_app. fold (now s o1).
  destruct (pair_written (now s o1) _ "" (e_json E (ob_inv o1)) (inv_alg (ob_inv o1)) (sidecar_text dg) (ext_events E)
    (sidecar_ne _) (ext_apart "inventory.json" eq_refl E) (ext_apart _ (sidecar_slash _ (kp_alg _ _ _ _ _ _ Hk')) E) eq_refl) as [P1 P2].
  split; try done.
  - eapply kept_root; [exact Hk'|]. intros p H1 H2 H3. apply apply_evs_other. apply Forall_app. split.
    + repeat constructor; cbn [ev_path]; by apply not_eq_sym.
    + eapply Forall_impl; [apply ext_events_below|]. intros e Hb He. apply H3. by rewrite <- He.
  - intros x. apply Hs'. by left.
  - exists dg. done.
Qed.

Lemma fresh_kept E s i : fresh i → declared s → kept E s i 0 0 (λ _, i).
Proof.
  intros [(Hh & Hv & Hm & Hf) Hp Hc Ha] Hd.
  assert (∀ p x, s !! p = Some x → ∀ k r, p ≠ cpath i k r) as Hnc.
  { intros p x Hx k r ->. destruct (Hd _ _ Hx) as [H|[H|H]].
    - pose proof (cpath_slash i k r) as Hs. rewrite !elem_of_cons, elem_of_nil in H. destruct H as [H|[H|[]]]; by rewrite H in Hs.
    - by apply (cpath_not_below i k r "logs"); [right; left|].
    - by apply (cpath_not_below i k r "extensions"); [left|]. }
  split; try done.
  - split.
    + split; [done|]. intros ver. rewrite Hv, lookup_empty. split; [by intros ?%is_Some_None|]. intros (k & Hk & _). lia.
    + intros ver v d. by rewrite Hv, lookup_empty.
    + intros d. rewrite Hm, lookup_empty. by intros ?%is_Some_None.
    + intros d ps. by rewrite Hm, lookup_empty.
    + intros d p (ps & H & _). by rewrite Hm, lookup_empty in H.
    + intros d p (ps & H & _). by rewrite Hm, lookup_empty in H.
    + intros a b e ps H. by rewrite Hf, lookup_empty in H.
    + intros a e p (b & ps & H & _). by rewrite Hf, lookup_empty in H.
    + intros a. rewrite Hf, lookup_empty. by intros ?%is_Some_None.
    + intros k r x Hk. lia.
  - intros k Hk. lia.
  - intros p x Hx. destruct (Hd _ _ Hx) as [H|[H|H]]; auto. left. rewrite !elem_of_cons, elem_of_nil in *. tauto.
Qed.

Lemma published_closed E P parse s i :
  hex_hash (e_hash E) → json_ok P (e_json E) parse → published E P parse s i → P i ∧ ∃ n fam, closed E s i n fam.
Proof.
  intros Hhex Hj. induction 1 as [s i s' i' Hf Hd Hs Hc HP|s i0 i s' i' _ (HP0 & n & fam & IH) Hl Hs Hc HP]; (split; [done|]).
  - eapply complete_closed; [done| |done|done]. by apply fresh_kept.
  - eapply complete_closed; [done| |done|done]. eapply kept_same; [|apply IH].
    unfold load_inventory in Hl. cbv zeta in Hl. change ("" +:+ "inventory.json") with "inventory.json" in Hl. rewrite (cl_root _ _ _ _ _ IH) in Hl.
    destruct (jo_decode _ _ _ Hj i0 HP0) as (i1 & Hp & Hr). rewrite Hp in Hl. cbv zeta in Hl.
    assert (i = i1) as ->; [|done]. repeat (case_match; try done; try congruence).
Qed.
