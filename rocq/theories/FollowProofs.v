(** Proofs about automatic follow-up versions. *)
From Coq Require Import Ascii.
From stdpp Require Import base list strings gmap.
From Coq Require Import ZArith Lia.
From Verif Require Import GoStr PathModel InventoryModel InventorySpec InventoryProofs ObjectModel ObjectSpec ObjectProofs
  RunProofs CrashProofs FollowModel FollowSpec.

(** * Calls in sequence *)
Lemma sops_run_app E cs1 cs2 o : sops_run E (cs1 ++ cs2) o = andThen (sops_run E cs1 o) (sops_run E cs2).
Proof.
  revert o; induction cs1 as [|[orc op|orc op|msg] cs1 IH]; intros o; simpl; [done| | |done].
  - destruct (sop_step E orc op o) as [o' [| |]]; simpl; auto.
  - destruct (sop_step E orc op o) as [o' [| |]]; simpl; auto.
Qed.

(** The calls of a hook that returns an error, as calls whose errors are dropped. *)
Lemma sops_run_tried E G cs o o' m :
  Forall (all_hcall G) cs → sops_run E cs o = (o', SErr m) →
  ∃ cs', Forall (all_hcall G) cs' ∧ sops_run E cs' o = (o', SOk).
Proof.
  revert o; induction cs as [|[orc op|orc op|msg] cs IH]; intros o HG; simpl; [done| | |].
  - inversion HG; subst. destruct (sop_step E orc op o) as [o1 [| |]] eqn:Hs; simpl; [..|done].
    + intros H. destruct (IH o1) as (cs' & HG' & H'); auto. exists (HCall orc op :: cs'). simpl. rewrite Hs. simpl.
      split; [by constructor|done].
    + intros [= -> ->]. exists [HTry orc op]. simpl. rewrite Hs. split; [|done]. by constructor.
  - inversion HG; subst. destruct (sop_step E orc op o) as [o1 [| |]] eqn:Hs; simpl; [..|done];
      intros H; (destruct (IH o1) as (cs' & HG' & H'); auto); exists (HTry orc op :: cs'); simpl; rewrite Hs;
      (split; [by constructor|done]).
  - intros [= -> ->]. exists []. split; [constructor|done].
Qed.

Section follow.
  Context {X : Type} (E : env) (M : manager X) (clk : object → string).
  Notation run_all := (run_all E M).
  Notation do_new := (do_new E M).
  Notation need_new := (need_new M).
  Notation fstart := (fstart E M).
  Notation fend := (fend E M clk).
  Notation fstep := (fstep E M clk).
  Notation frun := (frun E M clk).

  (** ** Every step is a step of the model with explicit hooks *)
  Lemma run_all_calls G f l s o :
    (∀ k x o, Forall (all_hcall G) (f (mg_ext M k) x o).2) →
    ∃ cs, Forall (all_hcall G) cs ∧ sops_run E cs o = ((run_all f l s o).1.2, (run_all f l s o).2).
  Proof.
    intros HG. revert s o; induction l as [|k l IH]; intros s o; simpl.
    { exists []. split; [constructor|done]. }
    pose proof (HG k (s k) o) as Hk. destruct (f (mg_ext M k) (s k) o) as [x cs]. simpl in Hk.
    destruct (sops_run E cs o) as [o1 [| |]] eqn:Hs.
    - destruct (IH (set_ext k x s) o1) as (cs' & Hc & Hr). exists (cs ++ cs'). split; [by apply Forall_app|].
      rewrite sops_run_app, Hs. simpl. done.
    - destruct (sops_run_tried E G cs o o1 _ Hk Hs) as (cs1 & H1 & Hs1).
      destruct (IH (set_ext k x s) o1) as (cs' & Hc & Hr).
      destruct (run_all f l (set_ext k x s) o1) as [[s2 o2] [| |]] eqn:Hl; simpl in *.
      + exists ((cs1 ++ cs') ++ [HFail msg]). split.
        * apply Forall_app; split; [by apply Forall_app|]. by repeat constructor.
        * by rewrite !sops_run_app, Hs1; simpl; rewrite Hr.
      + exists (cs1 ++ cs'). split; [by apply Forall_app|]. by rewrite sops_run_app, Hs1; simpl; rewrite Hr.
      + exists (cs1 ++ cs'). split; [by apply Forall_app|]. by rewrite sops_run_app, Hs1; simpl; rewrite Hr.
    - exists cs. split; [done|]. by rewrite Hs.
  Qed.
  Lemma do_new_calls G l s o :
    (∀ k x o, Forall (all_hcall G) (x_do (mg_ext M k) x o).2) →
    ∃ cs, Forall (all_hcall G) cs ∧ sops_run E cs o = ((do_new l s o).1.2, (do_new l s o).2).
  Proof.
    intros HG. revert s o; induction l as [|k l IH]; intros s o; simpl.
    { exists []. split; [constructor|done]. }
    pose proof (HG k (s k) o) as Hk. destruct (x_do (mg_ext M k) (s k) o) as [x cs]. simpl in Hk.
    destruct (sops_run E cs o) as [o1 [| |]] eqn:Hs.
    - destruct (IH (set_ext k x s) o1) as (cs' & Hc & Hr). exists (cs ++ cs'). split; [by apply Forall_app|].
      rewrite sops_run_app, Hs. simpl. done.
    - exists cs. by rewrite Hs.
    - exists cs. by rewrite Hs.
  Qed.

  (** The result of EndUpdate with extensions is a result of EndUpdate with given hooks. *)
  Lemma fend_hooks G n orc s o s' o' st :
    ext_calls M G → fend n orc s o = Some (s', o', st) →
    ∃ h, all_hooks G h ∧ (ob_end E orc h o).1 = o' ∧
      ((ob_end E orc h o).2 = SPanic ↔ st = SPanic) ∧ (st = SOk → (ob_end E orc h o).2 = SOk).
  Proof.
    intros HG. revert orc s o; induction n as [|n IH]; intros orc s o; [done|]. cbn [FollowModel.fend].
    assert (Forall (all_hcall G) []) as Hnil by constructor.
    destruct (inv_writeable (ob_inv o)) eqn:Hw; cbn [negb].
    2:{ intros [= <- <- <-]. exists (HDone []). simpl. by rewrite Hw. }
    destruct (inv_modified (ob_inv o)) eqn:Hm; cbn [negb].
    2:{ intros [= <- <- <-]. exists (HDone []). simpl. by rewrite Hw, Hm. }
    destruct (if ob_echo o then _ else _) as [o1 st1] eqn:He.
    destruct st1.
    2,3: intros [= <- <- <-]; exists (HDone []); cbn [ob_end]; rewrite Hw, Hm; cbn [negb]; rewrite He; done.
    destruct (run_all_calls G x_after (mg_change M) s o1) as (ca & HGa & Ha).
    { intros k x o2. apply HG. }
    destruct (run_all x_after (mg_change M) s o1) as [[s2 o2] st2] eqn:Hra. cbn [fst snd] in Ha.
    destruct st2.
    2,3: intros [= <- <- <-]; exists (HDone ca); cbn [ob_end]; rewrite Hw, Hm; cbn [negb]; rewrite He;
      cbn [andThen]; rewrite Ha; done.
    destruct (on_inv (clean orc) o2) as [o2' st2] eqn:Hcl.
    destruct st2.
    2,3: cbn [andThen]; intros [= <- <- <-]; exists (HDone ca); cbn [ob_end]; rewrite Hw, Hm; cbn [negb]; rewrite He;
      cbn [andThen]; rewrite Ha; cbn [andThen]; rewrite Hcl; done.
    cbn [andThen].
    destruct (store_inventory E true false o2') as [o3 st3] eqn:Hst.
    destruct st3.
    2,3: intros [= <- <- <-]; exists (HDone ca); cbn [ob_end]; rewrite Hw, Hm; cbn [negb]; rewrite He;
      cbn [andThen]; rewrite Ha; cbn [andThen]; rewrite Hcl; cbn [andThen]; rewrite Hst; done.
    destruct (need_new (mg_new M) s2 o3) as [[|]|].
    2,3: intros [= <- <- <-]; exists (HDone ca); cbn [ob_end]; rewrite Hw, Hm; cbn [negb]; rewrite He;
      cbn [andThen]; rewrite Ha; cbn [andThen]; rewrite Hcl; cbn [andThen]; rewrite Hst; done.
    unfold FollowModel.fstart.
    destruct (ob_start (clk o3) _ _ _ _ o3) as [o4 st4] eqn:Hs4. destruct st4.
    2,3: intros [= <- <- <-]; exists (HMore ca (clk o3) [] (HDone [])); cbn [ob_end]; rewrite Hw, Hm; cbn [negb];
      rewrite He; cbn [andThen]; rewrite Ha; cbn [andThen]; rewrite Hcl; cbn [andThen]; rewrite Hst; cbn [andThen];
      rewrite Hs4; split; [by split_and!|done].
    destruct (run_all_calls G x_before (mg_change M) s2 o4) as (cb & HGb & Hb).
    { intros k x o5. apply HG. }
    destruct (run_all x_before (mg_change M) s2 o4) as [[s5 o5] st5] eqn:Hrb. cbn [fst snd] in Hb.
    destruct st5.
    2,3: intros [= <- <- <-]; exists (HMore ca (clk o3) cb (HDone [])); cbn [ob_end]; rewrite Hw, Hm; cbn [negb];
      rewrite He; cbn [andThen]; rewrite Ha; cbn [andThen]; rewrite Hcl; cbn [andThen]; rewrite Hst; cbn [andThen];
      rewrite Hs4; cbn [andThen]; rewrite Hb; split; [by split_and!|done].
    destruct (do_new_calls G (mg_new M) s5 o5) as (cd & HGd & Hd).
    { intros k x o6. apply HG. }
    destruct (do_new (mg_new M) s5 o5) as [[s6 o6] st6] eqn:Hrd. cbn [fst snd] in Hd.
    destruct st6.
    2,3: intros [= <- <- <-]; exists (HMore ca (clk o3) (cb ++ cd) (HDone [])); cbn [ob_end]; rewrite Hw, Hm; cbn [negb];
      rewrite He; cbn [andThen]; rewrite Ha; cbn [andThen]; rewrite Hcl; cbn [andThen]; rewrite Hst; cbn [andThen];
      rewrite Hs4; cbn [andThen]; rewrite sops_run_app, Hb; cbn [andThen]; rewrite Hd;
      split; [split_and!; [done|by apply Forall_app|done]|done].
    intros Hf. destruct (IH _ _ _ Hf) as (h & Hh & Hr). exists (HMore ca (clk o3) (cb ++ cd) h).
    cbn [ob_end]. rewrite Hw, Hm; cbn [negb].
    rewrite He; cbn [andThen]; rewrite Ha; cbn [andThen]; rewrite Hcl; cbn [andThen]; rewrite Hst; cbn [andThen];
      rewrite Hs4; cbn [andThen]; rewrite sops_run_app, Hb; cbn [andThen]; rewrite Hd; cbn [andThen].
    split; [|exact Hr]. cbn [all_hooks]. split_and!; [done|by apply Forall_app|done].
  Qed.

  (** A list of hook calls outside EndUpdate is a list of calls of a client. *)
  Lemma sops_orun G cs o :
    Forall (all_hcall G) cs →
    ∃ l, Forall (λ p : oracle * sop, G p.1 p.2) l ∧
      ∀ k, orun E (((λ p : oracle * sop, (p.1, OSimple p.2)) <$> l) ++ k) o =
        match sops_run E cs o with
        | (o', SPanic) => o'
        | (o', _) => orun E k o'
        end.
  Proof.
    revert o; induction cs as [|[orc op|orc op|msg] cs IH]; intros o HG; simpl.
    - exists []. split; [constructor|done].
    - inversion HG; subst. destruct (sop_step E orc op o) as [o1 [| |]] eqn:Hs; simpl.
      + destruct (IH o1) as (l & Hl & Hk); [done|]. exists ((orc, op) :: l). split; [by constructor|].
        intros k. simpl. rewrite Hs. apply Hk.
      + exists [(orc, op)]. split; [by apply Forall_singleton|]. intros k. simpl. by rewrite Hs.
      + exists [(orc, op)]. split; [by apply Forall_singleton|]. intros k. simpl. by rewrite Hs.
    - inversion HG; subst. destruct (sop_step E orc op o) as [o1 [| |]] eqn:Hs; simpl.
      + destruct (IH o1) as (l & Hl & Hk); [done|]. exists ((orc, op) :: l). split; [by constructor|].
        intros k. simpl. rewrite Hs. apply Hk.
      + destruct (IH o1) as (l & Hl & Hk); [done|]. exists ((orc, op) :: l). split; [by constructor|].
        intros k. simpl. rewrite Hs. apply Hk.
      + exists [(orc, op)]. split; [by apply Forall_singleton|]. intros k. simpl. by rewrite Hs.
    - exists []. split; [constructor|done].
  Qed.

  Lemma frun_history G G0 n ops s o s' o' l :
    ext_calls M G → Forall (λ p, all_fop G G0 p.1 p.2) ops → frun n ops s o = Some (s', o', l) →
    ∃ ops', all_ops G G0 ops' ∧ orun E ops' o = o'.
  Proof.
    intros HG. revert s o s' o' l; induction ops as [|[orc op] ops IH]; intros s o s' o' l Hops; simpl.
    { intros [= <- <- <-]. exists []. split; [constructor|done]. }
    inversion Hops as [|? ? Hop Hops']; subst. cbn [fst snd] in Hop.
    destruct (fstep n orc op s o) as [[[s1 o1] st]|] eqn:Hst; [|done].
    assert (∃ pre, all_ops G G0 pre ∧
              ∀ k, orun E (pre ++ k) o = match st with SPanic => o1 | _ => orun E k o1 end) as (pre & Hpre & Hk).
    { destruct op as [op|now msg un ua echo| | | |]; cbn [FollowModel.fstep] in Hst.
      - exists [(orc, OSimple op)]. split; [by apply Forall_singleton|]. intros k. simpl.
        destruct (sop_step E orc op o) as [o2 st2]. injection Hst as <- <- <-. by destruct st2.
      - unfold FollowModel.fstart in Hst. destruct (ob_start now msg un ua echo o) as [o2 st2] eqn:Hs2.
        destruct st2.
        2,3: injection Hst as <- <- <-; exists [(orc, OStart now msg un ua echo)];
          (split; [by apply Forall_singleton|]); intros k; simpl; by rewrite Hs2.
        destruct (run_all_calls G x_before (mg_change M) s o2) as (cb & HGb & Hb).
        { intros k x o5. apply HG. }
        destruct (run_all x_before (mg_change M) s o2) as [[s5 o5] st5] eqn:Hrb. cbn [fst snd] in Hb.
        injection Hst as <- <- <-.
        destruct (sops_orun G cb o2 HGb) as (lc & HGl & Hlc).
        exists ((orc, OStart now msg un ua echo) :: ((λ p : oracle * sop, (p.1, OSimple p.2)) <$> lc)). split.
        + apply Forall_cons. split; [done|]. apply Forall_fmap. eapply Forall_impl; [exact HGl|]. by intros [].
        + intros k. simpl. rewrite Hs2. rewrite Hlc, Hb. by destruct st5.
      - destruct (fend_hooks G n orc s o s1 o1 st HG Hst) as (h & Hh & H1 & H2 & _).
        exists [(orc, OEnd h)]. split; [by apply Forall_singleton|]. intros k. simpl.
        destruct (ob_end E orc h o) as [o2 st2]. cbn [fst snd] in *. subst o2.
        destruct st2, st; try done; exfalso; by (destruct H2 as [H2a H2b]; (discriminate (H2a eq_refl) || discriminate (H2b eq_refl))).
      - exists [(orc, OBeginArea)]. split; [by apply Forall_singleton|]. intros k. simpl in *. by injection Hst as <- <- <-.
      - exists [(orc, OEndArea)]. split; [by apply Forall_singleton|]. intros k. simpl in *.
        destruct (ob_end_area E orc o) as [o2 st2]. injection Hst as <- <- <-. by destruct st2.
      - exists [(orc, OClose)]. split; [by apply Forall_singleton|]. intros k. simpl in *.
        destruct (ob_close E orc o) as [o2 st2]. injection Hst as <- <- <-. by destruct st2. }
    destruct st.
    3:{ intros [= <- <- <-]. exists pre. split; [done|]. specialize (Hk []). by rewrite app_nil_r in Hk. }
    all: destruct (frun n ops s1 o1) as [[[s2 o2] l2]|] eqn:Hf; [|done]; intros [= <- <- <-];
      destruct (IH _ _ _ _ _ Hops' Hf) as (ops' & Ho' & Hr'); exists (pre ++ ops');
      (split; [by apply Forall_app|]); by rewrite Hk.
  Qed.
End follow.

(** * Number of versions *)
Lemma ext_rel_size i i' : ext_rel i i' → size (inv_versions i') = size (inv_versions i).
Proof.
  intros H. rewrite <- !(size_dom (D := gset string)). f_equal. apply set_eq. intros v. rewrite !elem_of_dom.
  destruct (decide (v = inv_head i)) as [->|Hv].
  - destruct (inv_versions i !! inv_head i) as [x|] eqn:Hx.
    + destruct (er_headv _ _ H x Hx) as [t Ht]. rewrite Ht. split; intros _; by eexists.
    + by rewrite (er_none _ _ H Hx).
  - by rewrite (er_vers _ _ H v Hv).
Qed.
Lemma sop_nversions E orc op o : nversions (sop_step E orc op o).1 = nversions o.
Proof. apply ext_rel_size. apply (ef_ext _ _ _ _ (sop_effect E orc op o)). Qed.
Lemma echo_nversions E orc o : nversions (ob_echo_delete E orc o).1 = nversions o.
Proof. apply ext_rel_size. apply (ef_ext _ _ _ _ (echo_effect E (SDelete "" "") orc o)). Qed.
Lemma echo_if_nversions E orc o :
  nversions (if ob_echo o then ob_echo_delete E orc o else (o, SOk)).1 = nversions o.
Proof. destruct (ob_echo o); [apply echo_nversions|done]. Qed.
Lemma sops_nversions E cs o : nversions (sops_run E cs o).1 = nversions o.
Proof.
  revert o; induction cs as [|[orc op|orc op|msg] cs IH]; intros o; simpl; [done| | |done];
    pose proof (sop_nversions E orc op o); destruct (sop_step E orc op o) as [o' [| |]]; simpl in *; try congruence;
    rewrite IH; congruence.
Qed.
Lemma store_nversions E a b o : nversions (store_inventory E a b o).1 = nversions o.
Proof. unfold store_inventory. destruct (inv_writeable _); [|done]. by destruct (e_hash _ _ _). Qed.
Lemma start_nversions now msg un ua e o : nversions (ob_start now msg un ua e o).1 ≤ S (nversions o).
Proof.
  unfold ob_start, on_inv, new_version, nversions. change (ob_inv (set_echo e o)) with (ob_inv o).
  assert (∀ h (v : version) (m : gmap string version), size (<[h := v]> m) ≤ S (size m)) as Hs.
  { intros h v m. destruct (m !! h) eqn:Hh; [rewrite map_size_insert_Some by eauto; lia|].
    by rewrite map_size_insert_None. }
  destruct (next_head (ob_inv o)) as [h|]; [|simpl; lia].
  destruct (decide _); [simpl; apply Hs|]. simpl.
  destruct (_ !! inv_head _); simpl; [|apply Hs].
  rewrite insert_insert. apply Hs.
Qed.

Section count.
  Context {X : Type} (E : env) (M : manager X) (clk : object → string).
  Context (d : nat → X → Prop) (Hd : ∀ k, k ∈ mg_new M → flagged (mg_ext M k) (d k)).
  Notation run_all := (run_all E M).
  Notation do_new := (do_new E M).
  Notation need_new := (need_new M).
  Notation fstart := (fstart E M).
  Notation fend := (fend E M clk).
  Notation fstep := (fstep E M clk).
  Notation frun := (frun E M clk).

  (** All flags are up. *)
  Definition up (s : nat → X) : Prop := ∀ k, k ∈ mg_new M → d k (s k).

  Lemma run_all_nversions f l s o : nversions (run_all f l s o).1.2 = nversions o.
  Proof.
    revert s o; induction l as [|k l IH]; intros s o; simpl; [done|].
    destruct (f (mg_ext M k) (s k) o) as [x cs].
    pose proof (sops_nversions E cs o) as Hc. destruct (sops_run E cs o) as [o1 [| |]]; simpl in *.
    - by rewrite IH.
    - specialize (IH (set_ext k x s) o1). destruct (run_all f l _ o1) as [[s2 o2] [| |]]; simpl in *; congruence.
    - done.
  Qed.
  Lemma do_new_nversions l s o : nversions (do_new l s o).1.2 = nversions o.
  Proof.
    revert s o; induction l as [|k l IH]; intros s o; simpl; [done|].
    destruct (x_do (mg_ext M k) (s k) o) as [x cs].
    pose proof (sops_nversions E cs o) as Hc. destruct (sops_run E cs o) as [o1 [| |]]; simpl in *; [by rewrite IH|done..].
  Qed.
  Lemma run_all_up (f : ext X → X → object → X * list hcall) l s o :
    (∀ k x o, k ∈ mg_new M → d k x → d k (f (mg_ext M k) x o).1) → up s → up (run_all f l s o).1.1.
  Proof.
    intros Hf. revert s o; induction l as [|k l IH]; intros s o Hs; simpl; [done|].
    assert (up (set_ext k (f (mg_ext M k) (s k) o).1 s)) as Hs'.
    { intros j Hj. unfold set_ext. destruct (decide (j = k)) as [->|]; [|by apply Hs]. apply Hf; [done|]. by apply Hs. }
    destruct (f (mg_ext M k) (s k) o) as [x cs]. simpl in Hs'.
    destruct (sops_run E cs o) as [o1 [| |]]; simpl.
    - by apply IH.
    - specialize (IH (set_ext k x s) o1 Hs'). by destruct (run_all f l _ o1) as [[s2 o2] [| |]].
    - done.
  Qed.
  Lemma do_new_up l s o :
    l ⊆ mg_new M → (do_new l s o).2 = SOk → (∀ k, k ∈ mg_new M → k ∉ l → d k (s k)) → up (do_new l s o).1.1.
  Proof.
    revert s o; induction l as [|k l IH]; intros s o Hl; simpl.
    { intros _ H j Hj. apply H; [done|]. apply not_elem_of_nil. }
    pose proof (fl_do _ _ (Hd k (Hl k (elem_of_list_here _ _))) (s k) o) as Hx.
    destruct (x_do (mg_ext M k) (s k) o) as [x cs]. simpl in Hx.
    destruct (sops_run E cs o) as [o1 [| |]]; simpl; [|done..].
    intros H1 H2. apply IH; [|done|].
    - intros j Hj. apply Hl. by apply elem_of_list_further.
    - intros j Hj Hn. unfold set_ext. destruct (decide (j = k)) as [->|Hjk]; [done|]. apply H2; [done|].
      rewrite elem_of_cons. intros [?|?]; contradiction.
  Qed.
  Lemma do_new_keeps_up l s o : up s → up (do_new l s o).1.1.
  Proof.
    revert s o; induction l as [|k l IH]; intros s o Hs; simpl; [done|].
    assert (up (set_ext k (x_do (mg_ext M k) (s k) o).1 s)) as Hs'.
    { intros j Hj. unfold set_ext. destruct (decide (j = k)) as [->|]; [|by apply Hs]. by apply (fl_do _ _ (Hd k Hj)). }
    destruct (x_do (mg_ext M k) (s k) o) as [x cs]. simpl in Hs'.
    destruct (sops_run E cs o) as [o1 [| |]]; simpl; [by apply IH|done..].
  Qed.
  Lemma need_new_up l s o : l ⊆ mg_new M → up s → need_new l s o ≠ Some true.
  Proof.
    induction l as [|k l IH]; intros Hl Hs; simpl; [done|].
    pose proof (Hl k (elem_of_list_here _ _)) as Hk. pose proof (fl_need _ _ (Hd k Hk) (s k) o (Hs k Hk)) as Hn.
    destruct (x_need (mg_ext M k) (s k) o) as [[|]|]; [done| |done]. apply IH; [|done].
    intros j Hj. apply Hl. by apply elem_of_list_further.
  Qed.
  Lemma after_up l s o : up s → up (run_all x_after l s o).1.1.
  Proof. apply run_all_up. intros k x o1 Hk. by apply (fl_after _ _ (Hd k Hk)). Qed.
  Lemma before_up l s o : up s → up (run_all x_before l s o).1.1.
  Proof. apply run_all_up. intros k x o1 Hk. by apply (fl_before _ _ (Hd k Hk)). Qed.
  Lemma fstart_up now msg un ua e s o : up s → up (fstart now msg un ua e s o).1.1.
  Proof.
    intros Hs. unfold FollowModel.fstart. destruct (ob_start _ _ _ _ _ o) as [o1 [| |]]; [|done..]. by apply before_up.
  Qed.
  Lemma fstart_nversions now msg un ua e s o : nversions (fstart now msg un ua e s o).1.2 ≤ S (nversions o).
  Proof.
    unfold FollowModel.fstart. pose proof (start_nversions now msg un ua e o) as H.
    destruct (ob_start _ _ _ _ _ o) as [o1 [| |]]; simpl in *; [|done..]. by rewrite run_all_nversions.
  Qed.

  Lemma clean_store_nversions orc o :
    nversions (andThen (on_inv (clean orc) o) (store_inventory E true false)).1 ≤ nversions o ∨
    inv_modified (ob_inv o) = false.
  Proof.
    destruct (inv_modified (ob_inv o)) eqn:Hm; [left|by right]. rewrite clean_ob by done. simpl. by rewrite store_nversions.
  Qed.
  Lemma run_all_modified f l s o :
    inv_modified (ob_inv o) = true → inv_modified (ob_inv (run_all f l s o).1.2) = true.
  Proof.
    revert s o; induction l as [|k l IH]; intros s o Hm; simpl; [done|].
    destruct (f (mg_ext M k) (s k) o) as [x cs].
    pose proof (sops_modified E cs o Hm) as Hc. destruct (sops_run E cs o) as [o1 [| |]]; simpl in *.
    - by apply IH.
    - specialize (IH (set_ext k x s) o1 Hc). destruct (run_all f l _ o1) as [[s2 o2] [| |]]; simpl in *; done.
    - done.
  Qed.

  (** With the flags up EndUpdate finishes in one call, adds no version and leaves the flags up. *)
  Lemma fend_up n orc s o :
    up s → ∃ s' o' st, fend (S n) orc s o = Some (s', o', st) ∧ up s' ∧ nversions o' ≤ nversions o.
  Proof.
    intros Hs. cbn [FollowModel.fend].
    destruct (inv_writeable (ob_inv o)) eqn:Hw; cbn [negb]; [|by eauto 10].
    destruct (inv_modified (ob_inv o)) eqn:Hm; cbn [negb]; [|by eauto 10].
    pose proof (echo_if_nversions E orc o) as H1.
    assert (inv_modified (ob_inv (if ob_echo o then ob_echo_delete E orc o else (o, SOk)).1) = true) as Hm1.
    { destruct (ob_echo o); [by apply echo_modified|done]. }
    destruct (if ob_echo o then _ else _) as [o1 st1]. cbn [fst] in H1, Hm1.
    destruct st1; [|eexists _, _, _; split; [done|]; split; [done|lia]..].
    pose proof (run_all_nversions x_after (mg_change M) s o1) as H2.
    pose proof (after_up (mg_change M) s o1 Hs) as Hs2.
    pose proof (run_all_modified x_after (mg_change M) s o1 Hm1) as Hm2.
    destruct (run_all x_after (mg_change M) s o1) as [[s2 o2] st2]. cbn [fst snd] in H2, Hs2, Hm2.
    destruct st2; [|eexists _, _, _; split; [done|]; split; [done|lia]..].
    destruct (clean_store_nversions orc o2) as [H3|H3]; [|congruence].
    destruct (andThen _ _) as [o3 st3]. cbn [fst] in H3.
    destruct st3; [|eexists _, _, _; split; [done|]; split; [done|lia]..].
    pose proof (need_new_up (mg_new M) s2 o3 (reflexivity _) Hs2) as Hn.
    destruct (need_new (mg_new M) s2 o3) as [[|]|]; [done|..]; eexists _, _, _; (split; [done|]); (split; [done|lia]).
  Qed.

  (** In general it finishes in two calls. *)
  Lemma fend_two n orc s o :
    ∃ s' o' st, fend (S (S n)) orc s o = Some (s', o', st) ∧ nversions o' ≤ S (nversions o) ∧
      (st = SOk → nversions o' ≤ nversions o ∨ up s').
  Proof.
    remember (S n) as n1 eqn:Hn1. cbn [FollowModel.fend].
    assert (∀ s' o' st, nversions o' ≤ nversions o →
      ∃ s1 o1 st1, Some (s', o', st) = Some (s1, o1, st1) ∧ nversions o1 ≤ S (nversions o) ∧
        (st1 = SOk → nversions o1 ≤ nversions o ∨ up s1)) as Hstop.
    { intros s' o' st H. exists s', o', st. split; [done|]. split; [lia|]. intros _. by left. }
    destruct (inv_writeable (ob_inv o)) eqn:Hw; cbn [negb]; [|by apply Hstop].
    destruct (inv_modified (ob_inv o)) eqn:Hm; cbn [negb]; [|by apply Hstop].
    pose proof (echo_if_nversions E orc o) as H1.
    assert (inv_modified (ob_inv (if ob_echo o then ob_echo_delete E orc o else (o, SOk)).1) = true) as Hm1.
    { destruct (ob_echo o); [by apply echo_modified|done]. }
    destruct (if ob_echo o then _ else _) as [o1 st1]. cbn [fst] in H1, Hm1.
    destruct st1; [|apply Hstop; lia..].
    pose proof (run_all_nversions x_after (mg_change M) s o1) as H2.
    pose proof (run_all_modified x_after (mg_change M) s o1 Hm1) as Hm2.
    destruct (run_all x_after (mg_change M) s o1) as [[s2 o2] st2]. cbn [fst snd] in H2, Hm2.
    destruct st2; [|apply Hstop; lia..].
    destruct (clean_store_nversions orc o2) as [H3|H3]; [|congruence].
    destruct (andThen _ _) as [o3 st3]. cbn [fst] in H3.
    destruct st3; [|apply Hstop; lia..].
    destruct (need_new (mg_new M) s2 o3) as [[|]|]; [|apply Hstop; lia..].
    pose proof (fstart_nversions (clk o3) "automated version" "gocfl" "https://github.com/je4/gocfl" false s2 o3) as H4.
    destruct (fstart _ _ _ _ _ s2 o3) as [[s4 o4] st4]. cbn [fst snd] in H4.
    destruct st4.
    2,3: eexists _, _, _; split; [done|]; split; [lia|done].
    pose proof (do_new_nversions (mg_new M) s4 o4) as H5.
    pose proof (do_new_up (mg_new M) s4 o4 (reflexivity _)) as Hup.
    destruct (do_new (mg_new M) s4 o4) as [[s5 o5] st5]. cbn [fst snd] in H5, Hup.
    destruct st5.
    2,3: eexists _, _, _; split; [done|]; split; [lia|done].
    assert (up s5) as Hs5 by (apply Hup; [done|]; intros k Hk Hn; contradiction).
    subst n1. destruct (fend_up n (shift_oracle orc) s5 o5 Hs5) as (s6 & o6 & st6 & H6 & Hs6 & Hv6).
    exists s6, o6, st6. split; [exact H6|]. split; [lia|]. by right.
  Qed.
  Lemma fend_same n orc s o : fend (S (S n)) orc s o = fend 2 orc s o.
  Proof.
    remember (S n) as n1 eqn:Hn1. remember 1 as n2 eqn:Hn2. cbn [FollowModel.fend].
    destruct (negb _); [done|]. destruct (negb _); [done|]. destruct (if ob_echo o then _ else _) as [o1 [| |]]; [|done..].
    destruct (run_all x_after (mg_change M) s o1) as [[s2 o2] [| |]]; [|done..].
    destruct (andThen _ _) as [o3 [| |]]; [|done..].
    destruct (need_new (mg_new M) s2 o3) as [[|]|]; [|done..].
    destruct (fstart _ _ _ _ _ s2 o3) as [[s4 o4] [| |]]; [|done..].
    pose proof (do_new_up (mg_new M) s4 o4 (reflexivity _)) as Hup.
    destruct (do_new (mg_new M) s4 o4) as [[s5 o5] [| |]]; [|done..]. cbn [fst snd] in Hup.
    assert (up s5) as Hs5 by (apply Hup; [done|]; intros k Hk Hn; contradiction). subst n1 n2. clear -Hs5 Hd.
    cbn [FollowModel.fend].
    destruct (negb _); [done|]. destruct (negb _); [done|]. destruct (if ob_echo o5 then _ else _) as [p1 [| |]]; [|done..].
    pose proof (after_up (mg_change M) s5 p1 Hs5) as Hs6.
    destruct (run_all x_after (mg_change M) s5 p1) as [[s6 o6] [| |]]; [|done..]. cbn [fst snd] in Hs6.
    destruct (andThen _ _) as [o7 [| |]]; [|done..].
    pose proof (need_new_up (mg_new M) s6 o7 (reflexivity _) Hs6) as Hn.
    by destruct (need_new (mg_new M) s6 o7) as [[|]|].
  Qed.

  (** ** Histories *)
  Lemma fstep_other n orc op s o :
    is_end op = false → ∃ s' o' st, fstep n orc op s o = Some (s', o', st) ∧ (up s → up s') ∧
      nversions o' ≤ nversions o + match op with FStart _ _ _ _ _ => 1 | _ => 0 end.
  Proof.
    destruct op as [op|now msg un ua echo| | | |]; cbn [FollowModel.fstep is_end]; intros Hop; try done.
    - pose proof (sop_nversions E orc op o) as H. destruct (sop_step E orc op o) as [o1 st]. cbn [fst] in H.
      eexists _, _, _. split; [done|]. split; [done|lia].
    - pose proof (fstart_nversions now msg un ua echo s o) as H. pose proof (fstart_up now msg un ua echo s o) as Hs.
      destruct (fstart _ _ _ _ _ s o) as [[s1 o1] st]. cbn [fst snd] in *.
      eexists _, _, _. split; [done|]. split; [done|lia].
    - eexists _, _, _. split; [done|]. split; [done|]. unfold nversions. simpl. lia.
    - unfold ob_end_area. pose proof (echo_if_nversions E orc o) as H1.
      destruct (if ob_echo o then _ else _) as [o1 [| |]]; cbn [fst andThen] in *;
        eexists _, _, _; (split; [done|]); (split; [done|]); unfold nversions in *; simpl in *; lia.
    - unfold ob_close. destruct (negb (inv_writeable _)) eqn:Hw; [eexists _, _, _; split; [done|]; split; [done|lia]|].
      destruct (inv_modified (ob_inv o)) eqn:Hm; cbn [negb]; [|eexists _, _, _; split; [done|]; split; [done|lia]].
      rewrite clean_ob by done. cbn [andThen]. pose proof (store_nversions E false true o) as H.
      destruct (store_inventory E false true o) as [o1 [| |]]; cbn [andThen fst] in *;
        eexists _, _, _; (split; [done|]); (split; [done|]); unfold nversions in *; simpl in *; lia.
  Qed.

  Lemma frun_up n ops s o :
    up s → ∃ s' o' l, frun (S n) ops s o = Some (s', o', l) ∧ nversions o' ≤ nversions o + starts ops.
  Proof.
    revert s o; induction ops as [|[orc op] ops IH]; intros s o Hs; cbn [FollowModel.frun].
    { eexists _, _, _. split; [done|]. lia. }
    assert (∃ s' o' st, fstep (S n) orc op s o = Some (s', o', st) ∧ up s' ∧
      nversions o' ≤ nversions o + match op with FStart _ _ _ _ _ => 1 | _ => 0 end) as (s1 & o1 & st & H1 & Hs1 & Hv).
    { destruct (is_end op) eqn:Hop.
      - destruct op; try done. destruct (fend_up n orc s o Hs) as (s1 & o1 & st & H1 & Hs1 & Hv).
        exists s1, o1, st. split; [exact H1|]. split; [done|lia].
      - destruct (fstep_other (S n) orc op s o Hop) as (s1 & o1 & st & H1 & Hs1 & Hv). exists s1, o1, st. auto. }
    rewrite H1. destruct (IH s1 o1 Hs1) as (s2 & o2 & l & H2 & Hv2). rewrite H2.
    assert (starts ((orc, op) :: ops) = match op with FStart _ _ _ _ _ => 1 | _ => 0 end + starts ops) as Hst
      by (by destruct op).
    destruct st; eexists _, _, _; (split; [done|]); rewrite Hst; lia.
  Qed.
  Lemma frun_two n ops s o :
    ∃ s' o' l, frun (S (S n)) ops s o = Some (s', o', l) ∧
      nversions o' ≤ nversions o + starts ops + failed_ends ops l + 1.
  Proof.
    revert s o; induction ops as [|[orc op] ops IH]; intros s o; cbn [FollowModel.frun].
    { eexists _, _, _. split; [done|]. lia. }
    assert (starts ((orc, op) :: ops) = match op with FStart _ _ _ _ _ => 1 | _ => 0 end + starts ops) as Hst
      by (by destruct op).
    destruct (is_end op) eqn:Hop.
    - destruct op; try done. clear Hop. cbn [FollowModel.fstep].
      destruct (fend_two n orc s o) as (s1 & o1 & st & H1 & Hv & Hok). rewrite H1.
      destruct (IH s1 o1) as (s2 & o2 & l & H2 & Hv2).
      destruct st.
      + destruct (Hok eq_refl) as [Hv'|Hup].
        * rewrite H2. eexists _, _, _. split; [done|]. cbn [failed_ends starts]. lia.
        * destruct (frun_up (S n) ops s1 o1 Hup) as (s3 & o3 & l3 & H3 & Hv3). rewrite H3.
          eexists _, _, _. split; [done|]. cbn [failed_ends starts]. lia.
      + rewrite H2. eexists _, _, _. split; [done|]. cbn [failed_ends starts]. lia.
      + eexists _, _, _. split; [done|]. cbn [failed_ends starts]. lia.
    - destruct (fstep_other (S (S n)) orc op s o Hop) as (s1 & o1 & st & H1 & _ & Hv). rewrite H1.
      destruct (IH s1 o1) as (s2 & o2 & l & H2 & Hv2). rewrite H2.
      assert (∀ st l, failed_ends ((orc, op) :: ops) (st :: l) = failed_ends ops l) as Hfe by (by destruct op).
      destruct st; eexists _, _, _; (split; [done|]); rewrite Hst, Hfe; lia.
  Qed.
End count.

(** * The extensions of the project *)
Lemma mig_flagged meta todo : flagged (mig_ext meta todo) (λ x, m_done x = true).
Proof.
  split; simpl; try done.
  - intros s o H. rewrite H. rewrite andb_false_r. done.
  - intros s o H. destruct (meta o) as [[old cand]|]; done.
Qed.
Lemma fs_flagged {X} after : flagged (X := X) (fs_ext after) (λ _, True).
Proof. by split. Qed.

(** * An extension that always asks *)
Definition greedy_ext : ext unit := Ext (λ x _, (x, [])) (λ x _, (x, [])) (λ _ _, Some true) (λ x _, (x, [])).
Definition greedy : manager unit := Manager (λ _, greedy_ext) [0] [0].
Lemma greedy_never E clk n orc s o :
  (∀ alg data, is_Some (e_hash E alg data)) → head_newest (ob_inv o) → ob_echo o = false →
  inv_writeable (ob_inv o) = true → inv_modified (ob_inv o) = true → fend E greedy clk n orc s o = None.
Proof.
  intros Hh. revert orc s o; induction n as [|n IH]; intros orc s o Hn He Hw Hm; [done|].
  cbn [fend]. rewrite Hw, Hm, He. cbn [negb].
  cbn [greedy mg_change mg_new mg_ext greedy_ext x_after x_before x_need x_do run_all sops_run].
  rewrite clean_ob by done. cbn [andThen]. unfold store_inventory. rewrite Hw.
  destruct (Hh (inv_alg (ob_inv o)) (e_json E (ob_inv o))) as [dg ->].
  cbn [need_new mg_new mg_ext greedy greedy_ext x_need]. unfold fstart.
  match goal with |- context [ob_start ?t ?a ?b ?c ?e ?o] =>
    assert (∃ o4, ob_start t a b c e o = (o4, SOk) ∧ head_newest (ob_inv o4) ∧ ob_echo o4 = false ∧
      inv_writeable (ob_inv o4) = true ∧ inv_modified (ob_inv o4) = true) as (o4 & -> & H4n & H4e & H4w & H4m) end.
  { apply head_newest_is in Hn as [k Hk]. unfold ob_start, on_inv.
    cbn [ob_inv set_echo set_inv emit].
    match goal with |- context [new_version ?a ?b ?c ?e (ob_inv o)] =>
      destruct (new_version_spec (ob_inv o) k a b c e Hk) as (s4 & Hs & _);
      pose proof (new_version_head_is (ob_inv o) k a b c e Hk) as Hh4 end.
    rewrite Hs in *. cbn [fst] in Hh4. eexists. split; [done|].
    split; [apply head_newest_is; eexists; exact Hh4|]. repeat split; done. }
  cbn [run_all mg_change mg_ext greedy greedy_ext x_before sops_run].
  cbn [do_new mg_new mg_ext greedy greedy_ext x_do sops_run]. by apply IH.
Qed.
