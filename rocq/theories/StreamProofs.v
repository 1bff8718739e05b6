(** Proofs about streams. *)
From Coq Require Import Ascii.
From stdpp Require Import base list strings gmap relations.
From Coq Require Import Lia.
From Verif Require Import StreamModel StreamSpec.

(** * What is written *)

(** The data written to pipe [i]. *)
Fixpoint proj (i : nat) (l : list (nat * bytes)) : bytes :=
  match l with
  | [] => []
  | (j, w) :: l' => (if decide (j = i) then w else []) ++ proj i l'
  end.
Lemma proj_app i l1 l2 : proj i (l1 ++ l2) = proj i l1 ++ proj i l2.
Proof. induction l1 as [|[j w] l1 IH]; simpl; [done|]. by rewrite IH, app_assoc. Qed.
Lemma proj_same i l : proj i ((λ w, (i, w)) <$> l) = concat l.
Proof. induction l as [|w l IH]; [done|]. rewrite fmap_cons. cbn [proj concat]. rewrite decide_True by done. f_equal. exact IH. Qed.
Lemma proj_other i j l : j ≠ i → proj i ((λ w, (j, w)) <$> l) = [].
Proof. intros H. induction l as [|w l IH]; [done|]. rewrite fmap_cons. cbn [proj]. rewrite decide_False by done. exact IH. Qed.

Lemma bwrite_data cap buf p : concat (bwrite cap buf p).1 ++ (bwrite cap buf p).2 = buf ++ p.
Proof.
  unfold bwrite. destruct (decide _); [done|]. destruct (decide _) as [->|]; simpl; [by rewrite !app_nil_r|].
  destruct (decide _); simpl; rewrite ?app_nil_r, <- ?app_assoc, take_drop; done.
Qed.
Lemma bwrite_ne cap buf p : Forall (λ w, w ≠ []) (bwrite cap buf p).1.
Proof.
  unfold bwrite. destruct (decide _) as [|H1]; simpl; [constructor|]. destruct (decide _) as [->|H2]; simpl.
  - apply Forall_singleton. intros ->. simpl in H1. lia.
  - assert (buf ++ take (cap - length buf) p ≠ []) by (by destruct buf).
    destruct (decide _) as [|H3]; simpl; [by apply Forall_singleton|].
    apply Forall_cons. split; [done|]. apply Forall_singleton. intros H4. rewrite H4 in H3. simpl in H3. lia.
Qed.
Lemma mwrite_data cap k bufs p i buf :
  bufs !! i = Some buf →
  ∃ buf', (mwrite cap k bufs p).2 !! i = Some buf' ∧ proj (k + i) (mwrite cap k bufs p).1 ++ buf' = buf ++ p.
Proof.
  revert k i; induction bufs as [|b bufs IH]; intros k i; [done|]. simpl.
  pose proof (bwrite_data cap b p) as Hb. destruct (bwrite cap b p) as [outs b1]. simpl in Hb.
  destruct i as [|i]; simpl.
  - intros [= ->]. destruct (mwrite cap (S k) bufs p) as [rest bufs1] eqn:Hm. simpl. exists b1. split; [done|].
    rewrite Nat.add_0_r, proj_app, proj_same, <- app_assoc.
    assert (∀ j bs q, j ≤ k → proj j (mwrite cap (S k) bs q).1 = []) as Ho.
    { clear. intros j bs. assert (∀ n q, j < n → proj j (mwrite cap n bs q).1 = []) as H.
      { induction bs as [|b bs IH]; intros n q Hn; simpl; [done|]. destruct (bwrite cap b q) as [o b1].
        specialize (IH (S n) q). destruct (mwrite cap (S n) bs q) as [r bs1]. simpl in *.
        rewrite proj_app, proj_other by lia. apply IH. lia. }
      intros q Hj. apply H. lia. }
    specialize (Ho k bufs p (le_n _)). rewrite Hm in Ho. simpl in Ho. rewrite Ho. done.
  - intros Hi. destruct (IH (S k) i Hi) as (buf' & H1 & H2). destruct (mwrite cap (S k) bufs p) as [rest bufs1].
    simpl in *. exists buf'. split; [done|]. rewrite proj_app, proj_other by lia.
    replace (k + S i) with (S k + i) by lia. done.
Qed.
Lemma mwrite_len cap k bufs p : length (mwrite cap k bufs p).2 = length bufs.
Proof.
  revert k; induction bufs as [|b bufs IH]; intros k; simpl; [done|]. destruct (bwrite cap b p) as [o b1].
  specialize (IH (S k)). destruct (mwrite cap (S k) bufs p) as [r bs1]. simpl in *. by rewrite IH.
Qed.
Definition puts_ok (m : nat) (l : list (nat * bytes)) : Prop := Forall (λ p : nat * bytes, p.1 < m ∧ p.2 ≠ []) l.
Lemma mwrite_ok cap k bufs p : puts_ok (k + length bufs) (mwrite cap k bufs p).1.
Proof.
  revert k; induction bufs as [|b bufs IH]; intros k; simpl; [constructor|].
  pose proof (bwrite_ne cap b p) as Hb. destruct (bwrite cap b p) as [o b1]. simpl in Hb.
  specialize (IH (S k)). destruct (mwrite cap (S k) bufs p) as [r bs1]. simpl in *. apply Forall_app. split.
  - apply Forall_fmap. eapply Forall_impl; [exact Hb|]. intros w Hw. simpl. split; [lia|done].
  - replace (k + S (length bufs)) with (S (k + length bufs)) by lia. exact IH.
Qed.
Lemma mcopy_data cap bufs chunks i buf :
  bufs !! i = Some buf →
  ∃ buf', (mcopy cap bufs chunks).2 !! i = Some buf' ∧ proj i (mcopy cap bufs chunks).1 ++ buf' = buf ++ concat chunks.
Proof.
  revert bufs buf; induction chunks as [|c chunks IH]; intros bufs buf Hi; simpl.
  - exists buf. by rewrite app_nil_r.
  - destruct (mwrite_data cap 0 bufs c i buf Hi) as (b1 & H1 & H2). destruct (mwrite cap 0 bufs c) as [outs bufs1]. simpl in *.
    destruct (IH bufs1 b1 H1) as (b2 & H3 & H4). destruct (mcopy cap bufs1 chunks) as [rest bufs2]. simpl in *.
    exists b2. split; [done|]. by rewrite proj_app, <- app_assoc, H4, app_assoc, H2, app_assoc.
Qed.
Lemma mcopy_len cap bufs chunks : length (mcopy cap bufs chunks).2 = length bufs.
Proof.
  revert bufs; induction chunks as [|c chunks IH]; intros bufs; simpl; [done|].
  pose proof (mwrite_len cap 0 bufs c) as H. destruct (mwrite cap 0 bufs c) as [outs bufs1]. simpl in *.
  specialize (IH bufs1). destruct (mcopy cap bufs1 chunks) as [rest bufs2]. simpl in *. congruence.
Qed.
Lemma mcopy_ok cap bufs chunks : puts_ok (length bufs) (mcopy cap bufs chunks).1.
Proof.
  revert bufs; induction chunks as [|c chunks IH]; intros bufs; simpl; [constructor|].
  pose proof (mwrite_ok cap 0 bufs c) as H. pose proof (mwrite_len cap 0 bufs c) as Hl.
  destruct (mwrite cap 0 bufs c) as [outs bufs1]. simpl in *.
  specialize (IH bufs1). destruct (mcopy cap bufs1 chunks) as [rest bufs2]. simpl in *. apply Forall_app. split; [done|].
  by rewrite Hl in IH.
Qed.
Lemma flush_ok k bufs : puts_ok (k + length bufs) (flush k bufs).
Proof.
  revert k; induction bufs as [|b bufs IH]; intros k; simpl; [constructor|]. apply Forall_app. split.
  - destruct (decide _); [constructor|]. apply Forall_singleton. simpl. split; [lia|done].
  - replace (k + S (length bufs)) with (S k + length bufs) by lia. apply IH.
Qed.
Lemma flush_data k bufs i buf : bufs !! i = Some buf → proj (k + i) (flush k bufs) = buf.
Proof.
  assert (∀ bs n j, j < n → proj j (flush n bs) = []) as Ho.
  { induction bs as [|b bs IH]; intros n j Hj; simpl; [done|]. rewrite proj_app, IH by lia.
    destruct (decide (b = [])); [done|]. simpl. rewrite decide_False by lia. done. }
  revert k i; induction bufs as [|b bufs IH]; intros k i; [done|]. destruct i as [|i]; simpl.
  - intros [= ->]. rewrite Nat.add_0_r, proj_app, Ho by lia. rewrite app_nil_r.
    destruct (decide (buf = [])) as [->|]; [done|]. simpl. rewrite decide_True by done. apply app_nil_r.
  - intros Hi. rewrite proj_app. replace (k + S i) with (S k + i) by lia. rewrite (IH (S k) i Hi).
    destruct (decide (b = [])); [done|]. simpl. rewrite decide_False by lia. done.
Qed.
Lemma all_puts_data cap m chunks i : i < m → proj i (all_puts cap m chunks) = concat chunks.
Proof.
  intros Hi. unfold all_puts.
  destruct (mcopy_data cap (replicate m []) chunks i []) as (b & H1 & H2).
  { by apply lookup_replicate_2. }
  destruct (mcopy cap (replicate m []) chunks) as [outs bufs]. simpl in *.
  rewrite proj_app. pose proof (flush_data 0 bufs i b H1) as H3. cbn in H3. rewrite H3. done.
Qed.
Lemma all_puts_ok cap m chunks : puts_ok m (all_puts cap m chunks).
Proof.
  unfold all_puts. pose proof (mcopy_ok cap (replicate m []) chunks) as H1.
  pose proof (mcopy_len cap (replicate m []) chunks) as H2. rewrite replicate_length in *.
  destruct (mcopy cap (replicate m []) chunks) as [outs bufs]. simpl in *. apply Forall_app. split; [done|].
  pose proof (flush_ok 0 bufs) as H3. by rewrite H2 in H3.
Qed.

Section stream.
  Context {X : Type} (exts : list (sext X)) (dsize cap : nat) (src_err : bool) (chunks : list bytes).
  Notation step := (step exts dsize src_err).
  Notation data := (concat chunks).

  Lemma after_read_proj n w i todo j : proj j (after_read n w i todo) = proj j ((i, drop n w) :: todo).
  Proof.
    unfold after_read. destruct (drop n w) as [|b l] eqn:Hd; [|done]. simpl. by destruct (decide (i = j)).
  Qed.
  Lemma after_read_ok m n w i todo : puts_ok m ((i, w) :: todo) → puts_ok m (after_read n w i todo).
  Proof.
    intros H. inversion H as [|? ? [H1 H2] H3]; subst. unfold after_read. destruct (drop n w) as [|b l] eqn:Hd; [done|].
    apply Forall_cons. split; [|done]. simpl in *. split; [done|]. done.
  Qed.

  (** ** The invariant *)
  Definition rd_ok (s : sst X) (i : nat) (r : rd X) : Prop :=
    match r_phase r with
    | PRun _ => r_got r ++ proj i (s_todo s) = data ∧ r_err r = None
    | _ => ∃ rest, r_got r ++ rest = data
    end ∧ (r_eof r = true → r_got r = data ∧ closed (s_main s) i) ∧ (r_phase r = PDone → closed (s_main s) i).
  Record inv (s : sst X) : Prop := Inv {
    iv_len : length (s_rd s) = length exts;
    iv_puts : puts_ok (length exts) (s_todo s);
    iv_rd : ∀ i r, s_rd s !! i = Some r → rd_ok s i r;
    iv_todo : s_main s ≠ MRun → s_todo s = [];
    iv_close : ∀ k, s_main s = MClose k → k ≤ length exts;
    iv_ch : s_ch s ≡ₚ errors_of (s_rd s);
    iv_src : match s_main s with
             | MWait => src_err = false
             | MRet OCopyError => src_err = true
             | MRet (OErrors l) => src_err = false ∧ l ≡ₚ errors_of (s_rd s) ∧ ∀ r, r ∈ s_rd s → r_phase r = PDone
             | _ => True
             end
  }.
  Lemma closed_todo s i : inv s → closed (s_main s) i → s_todo s = [].
  Proof. intros Hi Hc. apply (iv_todo _ Hi). intros Hm. by rewrite Hm in Hc. Qed.
  Lemma inv_init : inv (sinit exts cap chunks).
  Proof.
    split; simpl; try done.
    - by rewrite fmap_length.
    - apply all_puts_ok.
    - intros i r Hr. rewrite list_lookup_fmap in Hr. destruct (exts !! i) as [e|] eqn:He; [|done].
      injection Hr as <-. split; [|done]. simpl. split; [|done]. apply all_puts_data. by apply lookup_lt_Some in He.
    - clear. induction exts as [|e l IH]; simpl; [done|]. exact IH.
  Qed.
  Lemma errors_insert_same (rds : list (rd X)) i r r' :
    rds !! i = Some r → r_err r' = r_err r → errors_of (<[i := r']> rds) = errors_of rds.
  Proof.
    revert i; induction rds as [|q rds IH]; intros i; [done|]. destruct i as [|i].
    - cbn. intros [= ->] H. by rewrite H.
    - intros Hi H. change (<[S i:=r']> (q :: rds)) with (q :: <[i:=r']> rds). cbn [errors_of]. by rewrite (IH i Hi H).
  Qed.
  Lemma errors_insert_new (rds : list (rd X)) i r r' :
    rds !! i = Some r → r_err r = None →
    errors_of (<[i := r']> rds) ≡ₚ errors_of rds ++ match r_err r' with Some t => [t] | None => [] end.
  Proof.
    revert i; induction rds as [|q rds IH]; intros i; [done|]. destruct i as [|i].
    - cbn. intros [= ->] ->. destruct (r_err r') as [t|]; [|by rewrite app_nil_r]. apply Permutation_cons_append.
    - intros Hi H. specialize (IH i Hi H). change (<[S i:=r']> (q :: rds)) with (q :: <[i:=r']> rds). cbn [errors_of]. destruct (r_err q) as [t|]; cbn [app]; [|done]. by rewrite IH.
  Qed.
  (** Changing one reader. *)
  Lemma inv_insert todo m rds ch ch' i r r' :
    inv (Sst todo m rds ch) → rds !! i = Some r → r_phase r ≠ PDone →
    rd_ok (Sst todo m rds ch) i r' → ch' ≡ₚ errors_of (<[i := r']> rds) →
    inv (Sst todo m (<[i := r']> rds) ch').
  Proof.
    intros [H1 H2 H3 H4 H5 H6 H7] Hr Hp Hok Hch. cbn in *. split; cbn; try done.
    - by rewrite insert_length.
    - intros j q Hq. destruct (decide (j = i)) as [->|Hj].
      + rewrite list_lookup_insert in Hq by (by apply lookup_lt_Some in Hr). injection Hq as <-. exact Hok.
      + rewrite list_lookup_insert_ne in Hq by done. exact (H3 j q Hq).
    - destruct m as [| | |[|l]]; try done. exfalso. destruct H7 as (_ & _ & H7). apply Hp.
      apply H7. by eapply elem_of_list_lookup_2.
  Qed.
  Lemma inv_step s s' : inv s → step s s' → inv s'.
  Proof.
    intros Hi Hs. destruct Hs as
      [i e x got eof err n w todo rds ch He Hr Ha|i e x got eof err n todo m rds ch He Hr Ha Hc
      |i e x got eof err r todo m rds ch He Hr Ha|i got eof err w todo rds ch Hr
      |i got eof err todo m rds ch Hr Hc|rds ch|k todo rds ch Hk|todo rds ch Hse|todo rds ch Hse|todo rds ch Hall].
    - (* read *)
      destruct Hi as [H1 H2 H3 H4 H5 H6 H7]. cbn in *.
      destruct (H3 i _ Hr) as ([Hg Herr] & Heof & _). cbn in Hg, Herr, Heof. rewrite decide_True in Hg by done.
      split; cbn; try done.
      + by rewrite insert_length.
      + by apply after_read_ok.
      + intros j q Hq. destruct (decide (j = i)) as [->|Hj].
        * rewrite list_lookup_insert in Hq by (by apply lookup_lt_Some in Hr). injection Hq as <-.
          split; [|split; [|done]]; cbn; [|intros Ht; destruct (Heof Ht) as [_ []]]. split; [|done].
          rewrite after_read_proj. cbn [proj]. rewrite decide_True by done.
          rewrite <- app_assoc, (app_assoc (take _ _)), take_drop. exact Hg.
        * rewrite list_lookup_insert_ne in Hq by done. destruct (H3 j q Hq) as [Hq1 Hq2]. split; [|exact Hq2].
          destruct (r_phase q); [|done..]. cbn [s_todo] in *. rewrite after_read_proj. cbn [proj] in *.
          rewrite decide_False in Hq1 |- * by done. exact Hq1.
      + by rewrite (errors_insert_same _ _ _ _ Hr).
    - (* end of file *)
      pose proof (closed_todo _ i Hi Hc) as Ht. cbn in Ht. subst todo.
      destruct (iv_rd _ Hi i _ Hr) as ([Hg Herr] & _). cbn in Hg, Herr. rewrite app_nil_r in Hg.
      eapply inv_insert; [exact Hi|exact Hr|done| |].
      + split; [|split]; cbn; [by rewrite app_nil_r|done|done].
      + rewrite (errors_insert_same _ _ _ _ Hr); [|done]. exact (iv_ch _ Hi).
    - (* return *)
      destruct (iv_rd _ Hi i _ Hr) as ([Hg Herr] & Heof & _). cbn in Hg, Herr, Heof. subst err.
      eapply inv_insert; [exact Hi|exact Hr|done| |].
      + split; [|split]; cbn; [eauto|done|done].
      + rewrite (errors_insert_new _ _ _ _ Hr); [|done]. cbn. apply Permutation_app; [exact (iv_ch _ Hi)|done].
    - (* drain *)
      destruct Hi as [H1 H2 H3 H4 H5 H6 H7]. cbn in *. split; cbn; try done.
      + by apply after_read_ok.
      + intros j q Hq. destruct (H3 j q Hq) as [Hq1 Hq2]. split; [|exact Hq2].
        destruct (r_phase q) as [x| |] eqn:Hp; [|done..]. cbn [s_todo] in *. rewrite after_read_proj. cbn [proj] in *.
        destruct (decide (i = j)) as [->|]; [|done]. rewrite Hr in Hq. injection Hq as <-. done.
    - (* drained *)
      destruct (iv_rd _ Hi i _ Hr) as (Hg & Heof & _). cbn in Hg, Heof.
      eapply inv_insert; [exact Hi|exact Hr|done| |].
      + split; [|split]; cbn; [done|exact Heof|done].
      + rewrite (errors_insert_same _ _ _ _ Hr); [|done]. exact (iv_ch _ Hi).
    - destruct Hi as [H1 H2 H3 H4 H5 H6 H7]. cbn in *. split; cbn; try done.
      + intros j q Hq. destruct (H3 j q Hq) as (Hq1 & Hq2 & Hq3). split; [exact Hq1|].
        split; [intros Ht; destruct (Hq2 Ht) as [_ []]|intros Ht; destruct (Hq3 Ht)].
      + intros k [= <-]. lia.
    - destruct Hi as [H1 H2 H3 H4 H5 H6 H7]. cbn in *. split; cbn; try done.
      + intros j q Hq. destruct (H3 j q Hq) as (Hq1 & Hq2 & Hq3). split; [exact Hq1|]. split.
        * intros Ht. destruct (Hq2 Ht) as [Hd Hc]. split; [done|]. cbn in *. lia.
        * intros Ht. specialize (Hq3 Ht). cbn in *. lia.
      + intros _. by apply H4.
      + intros k' [= <-]. lia.
    - destruct Hi as [H1 H2 H3 H4 H5 H6 H7]. cbn in *. split; cbn; try done.
      + intros j q Hq. destruct (H3 j q Hq) as (Hq1 & Hq2 & Hq3). split; [exact Hq1|]. split; [|done].
        intros Ht. destruct (Hq2 Ht) as [Hd _]. by split.
      + intros _. by apply H4.
    - destruct Hi as [H1 H2 H3 H4 H5 H6 H7]. cbn in *. split; cbn; try done.
      + intros j q Hq. destruct (H3 j q Hq) as (Hq1 & Hq2 & Hq3). split; [exact Hq1|]. split; [|done].
        intros Ht. destruct (Hq2 Ht) as [Hd _]. by split.
      + intros _. by apply H4.
    - destruct Hi as [H1 H2 H3 H4 H5 H6 H7]. cbn in *. split; cbn; try done.
      intros _. by apply H4.
  Qed.
  Lemma reachable_inv s : reachable exts dsize cap src_err chunks s → inv s.
  Proof.
    unfold reachable. intros H. assert (∀ a b, rtc step a b → inv a → inv b) as Hr.
    { clear. intros a b. induction 1 as [|x y z Hxy _ IH]; [done|]. intros Hx. apply IH. by eapply inv_step. }
    eapply Hr; [exact H|]. apply inv_init.
  Qed.

  (** ** No deadlock *)

  (** ** No deadlock *)
  Lemma not_done (rds : list (rd X)) :
    (∀ r, r ∈ rds → r_phase r = PDone) ∨ ∃ i r, rds !! i = Some r ∧ r_phase r ≠ PDone.
  Proof.
    induction rds as [|r rds IH]; [left; by intros r ?%elem_of_nil|].
    destruct IH as [IH|(i & q & Hi & Hq)]; [|right; by exists (S i), q].
    destruct (r_phase r) as [x| |] eqn:Hr; [right; exists 0, r; by rewrite Hr|right; exists 0, r; by rewrite Hr|].
    left. intros q [->|Hq]%elem_of_cons; auto.
  Qed.
  Lemma ext_of s i r : inv s → s_rd s !! i = Some r → ∃ e, exts !! i = Some e.
  Proof.
    intros Hi Hr. apply lookup_lt_Some in Hr. rewrite (iv_len _ Hi) in Hr. apply lookup_lt_is_Some_2 in Hr as [e He]. eauto.
  Qed.
  (** A goroutine whose pipe is closed can go on. *)
  Lemma reader_moves s i r :
    inv s → s_rd s !! i = Some r → r_phase r ≠ PDone → closed (s_main s) i → ∃ s', step s s'.
  Proof.
    intros Hi Hr Hp Hc. destruct (ext_of s i r Hi Hr) as [e He]. destruct s as [todo m rds ch]. cbn in *.
    destruct r as [[x| |] got eof err]; cbn in *; [| |done].
    - destruct (sx_act e x) as [n|rr] eqn:Ha; eexists; [by eapply st_eof|by eapply st_return].
    - eexists. by eapply st_drained.
  Qed.
  Lemma progress s : inv s → (∃ s', step s s') ∨ finished s.
  Proof.
    intros Hi. destruct (s_main s) as [|k| |res] eqn:Hm.
    - left. destruct s as [todo m rds ch]. cbn in *. subst m. destruct todo as [|[i w] todo].
      { eexists. apply st_written. }
      pose proof (iv_puts _ Hi) as Hp. inversion Hp as [|? ? [Hlt Hne] _]; subst. cbn in Hlt, Hne.
      destruct (lookup_lt_is_Some_2 exts i Hlt) as [e He].
      destruct (lookup_lt_is_Some_2 rds i) as [r Hr]; [pose proof (iv_len _ Hi) as Hl; cbn in Hl; lia|].
      destruct (iv_rd _ Hi i r Hr) as (_ & _ & Hd). cbn in Hd.
      destruct r as [[x| |] got eof err]; cbn in Hd.
      + destruct (sx_act e x) as [n|rr] eqn:Ha; eexists; [by eapply st_read|by eapply st_return].
      + eexists. by eapply st_drain.
      + destruct (Hd eq_refl).
    - left. destruct s as [todo m rds ch]. cbn in *. subst m.
      pose proof (iv_close _ Hi k eq_refl) as Hk. destruct (decide (k = length exts)) as [->|Hne].
      + destruct src_err eqn:Hse; eexists; [by apply st_copy_error|by apply st_wait].
      + eexists. apply st_close. lia.
    - left. destruct (not_done (s_rd s)) as [Hall|(i & r & Hr & Hp)].
      + destruct s as [todo m rds ch]. cbn in *. subst m. eexists. by apply st_result.
      + eapply reader_moves; [done|exact Hr|done|]. by rewrite Hm.
    - destruct (not_done (s_rd s)) as [Hall|(i & r & Hr & Hp)]; [right; split; eauto|left].
      eapply reader_moves; [done|exact Hr|done|]. by rewrite Hm.
  Qed.

  (** ** Termination *)

  (** At most [k] more reads until the extension returns. *)
  Inductive takes (e : sext X) : X → bytes → nat → Prop :=
  | tk_ret x w k r : sx_act e x = ARet r → takes e x w k
  | tk_read x w k n :
      sx_act e x = ARead n →
      (∀ a b, w = a ++ b → a ≠ [] → length a ≤ S n → takes e (sx_feed e x (Some a)) b k) →
      (w = [] → takes e (sx_feed e x None) [] k) → takes e x w (S k).
  Lemma takes_mono e x w k k' : takes e x w k → k ≤ k' → takes e x w k'.
  Proof.
    intros H. revert k'. induction H as [x w k r Hr|x w k n Hn Ha IHa He IHe]; intros k' Hk; [by eapply tk_ret|].
    destruct k' as [|k']; [lia|]. eapply tk_read; [exact Hn| |].
    - intros a b Hw Hne Hl. apply IHa; [done..|lia].
    - intros Hw. apply IHe; [done|lia].
  Qed.
  Lemma bounded_max (P : nat → nat → Prop) m :
    (∀ j k k', P j k → k ≤ k' → P j k') → (∀ j, j < m → ∃ k, P j k) → ∃ k, ∀ j, j < m → P j k.
  Proof.
    intros Hmono. induction m as [|m IH]; intros H; [exists 0; lia|].
    destruct IH as [k Hk]; [intros j Hj; apply H; lia|]. destruct (H m) as [k' Hk']; [lia|].
    exists (k + k'). intros j Hj. destruct (decide (j = m)) as [->|]; [eapply Hmono; [exact Hk'|lia]|].
    eapply Hmono; [apply Hk; lia|lia].
  Qed.
  Lemma finishes_takes e x w : finishes e x w → ∃ k, takes e x w k.
  Proof.
    induction 1 as [x w r Hr|x w n Hn Ha IHa He IHe]; [exists 0; by eapply tk_ret|].
    destruct (bounded_max (λ j k, j ≠ 0 → j ≤ S n → takes e (sx_feed e x (Some (take j w))) (drop j w) k) (S (length w)))
      as [k1 Hk1].
    { intros j k k' H Hk H1 H2. eapply takes_mono; [by apply H|done]. }
    { intros j Hj. destruct (decide (j = 0 ∨ ¬ j ≤ S n)) as [Hz|Hz]; [exists 0; intros; lia|].
      destruct (IHa (take j w) (drop j w)) as [k Hk]; [by rewrite take_drop| | |by exists k].
      - intros Ht. assert (length (take j w) = 0) as Hl by (by rewrite Ht). rewrite take_length in Hl. lia.
      - rewrite take_length. lia. }
    assert (∃ k2, w = [] → takes e (sx_feed e x None) [] k2) as [k2 Hk2].
    { destruct w; [destruct (IHe eq_refl) as [k Hk]; by exists k|by exists 0]. }
    exists (S (k1 + k2)). eapply tk_read; [exact Hn| |].
    - intros a b -> Hne Hl.
      assert (takes e (sx_feed e x (Some (take (length a) (a ++ b)))) (drop (length a) (a ++ b)) k1) as H1.
      { apply Hk1; [rewrite app_length; lia|destruct a; [done|simpl; lia]|done]. }
      rewrite take_app, drop_app in H1. eapply takes_mono; [exact H1|lia].
    - intros Hw. eapply takes_mono; [by apply Hk2|lia].
  Qed.

  (** Work left for a goroutine, the main goroutine, and the bytes to be written. *)
  Definition rd_work (s : sst X) (i : nat) (r : rd X) (n : nat) : Prop :=
    match r_phase r with
    | PRun x => ∃ e k, exts !! i = Some e ∧ takes e x (proj i (s_todo s)) k ∧ n = k + 2
    | PDrain => n = 1
    | PDone => n = 0
    end.
  Definition main_work (m : main) : nat :=
    match m with MRun => length exts + 3 | MClose k => length exts + 2 - k | MWait => 1 | MRet _ => 0 end.
  Fixpoint todo_work (l : list (nat * bytes)) : nat :=
    match l with [] => 0 | (_, w) :: l' => length w + todo_work l' end.
  Definition work (s : sst X) (n : nat) : Prop :=
    ∃ ns, length ns = length (s_rd s) ∧
      (∀ i r x, s_rd s !! i = Some r → ns !! i = Some x → rd_work s i r x) ∧
      n = sum_list ns + main_work (s_main s) + todo_work (s_todo s).

  Lemma sum_insert (l : list nat) i x y : l !! i = Some x → sum_list (<[i := y]> l) + x = sum_list l + y.
  Proof.
    revert i; induction l as [|z l IH]; intros i; [done|]. destruct i as [|i].
    - intros [= ->]. simpl. lia.
    - intros Hi. specialize (IH i Hi). change (<[S i:=y]> (z :: l)) with (z :: <[i:=y]> l). simpl. simpl in IH. lia.
  Qed.
  Lemma after_read_work n w i todo : w ≠ [] → todo_work (after_read (S n) w i todo) < length w + todo_work todo.
  Proof.
    intros Hw. unfold after_read. destruct (drop (S n) w) as [|b l] eqn:Hd.
    - destruct w; [done|]. simpl. lia.
    - cbn [todo_work]. rewrite <- Hd, drop_length. destruct w; [done|]. simpl. lia.
  Qed.
  (** One reader changes, nothing else. *)
  Lemma work_insert todo m rds ch ch' i r r' n :
    rds !! i = Some r → work (Sst todo m rds ch) n →
    (∀ x, rd_work (Sst todo m rds ch) i r x → ∃ y, y < x ∧ rd_work (Sst todo m rds ch) i r' y) →
    ∃ n', n' < n ∧ work (Sst todo m (<[i := r']> rds) ch') n'.
  Proof.
    intros Hr (ns & Hl & Hw & ->) Hlt. cbn in *.
    destruct (lookup_lt_is_Some_2 ns i) as [x Hx]; [rewrite Hl; by eapply lookup_lt_Some|].
    destruct (Hlt x (Hw i r x Hr Hx)) as (y & Hy & Hyw).
    pose proof (sum_insert ns i x y Hx) as Hs.
    eexists. split; [|exists (<[i := y]> ns); cbn; split; [by rewrite !insert_length|]; split; [|reflexivity]]; [lia|].
    intros j q z Hq Hz. destruct (decide (j = i)) as [->|Hj].
    - rewrite list_lookup_insert in Hq by (by eapply lookup_lt_Some). rewrite list_lookup_insert in Hz by (by eapply lookup_lt_Some).
      injection Hq as <-. injection Hz as <-. exact Hyw.
    - rewrite list_lookup_insert_ne in Hq by done. rewrite list_lookup_insert_ne in Hz by done. exact (Hw j q z Hq Hz).
  Qed.
  Lemma work_step s s' n : inv s → work s n → step s s' → ∃ n', n' < n ∧ work s' n'.
  Proof.
    intros Hi Hn Hs. destruct Hs as
      [i e x got eof err m w todo rds ch He Hr Ha|i e x got eof err m todo mm rds ch He Hr Ha Hc
      |i e x got eof err r todo mm rds ch He Hr Ha|i got eof err w todo rds ch Hr
      |i got eof err todo mm rds ch Hr Hc|rds ch|k todo rds ch Hk|todo rds ch Hse|todo rds ch Hse|todo rds ch Hall].
    - (* read *)
      pose proof (iv_puts _ Hi) as Hp. inversion Hp as [|? ? [_ Hne] _]; subst. cbn in Hne.
      destruct Hn as (ns & Hl & Hw & ->). cbn in *.
      destruct (lookup_lt_is_Some_2 ns i) as [x0 Hx0]; [rewrite Hl; by eapply lookup_lt_Some|].
      destruct (Hw i _ x0 Hr Hx0) as (e' & k & He' & Ht & ->). rewrite He in He'. injection He' as <-.
      cbn in Ht. rewrite decide_True in Ht by done.
      inversion Ht as [|? ? k' n Hn Hfa Hfe]; subst; [congruence|]. rewrite Ha in Hn. injection Hn as <-. rename k' into k.
      pose proof (sum_insert ns i (S k + 2) (k + 2) Hx0) as Hs. pose proof (after_read_work m w i todo Hne) as Hb.
      eexists. split; [|exists (<[i := k + 2]> ns); cbn; split; [by rewrite !insert_length|]; split; [|reflexivity]]; [lia|].
      intros j q z Hq Hz. destruct (decide (j = i)) as [->|Hj].
      + rewrite list_lookup_insert in Hq by (by eapply lookup_lt_Some). rewrite list_lookup_insert in Hz by (by eapply lookup_lt_Some).
        injection Hq as <-. injection Hz as <-. cbn. exists e, k. split; [done|]. split; [|done].
        rewrite after_read_proj. cbn [proj]. rewrite decide_True by done. apply Hfa.
        * by rewrite app_assoc, take_drop.
        * destruct w; [done|]. simpl. done.
        * rewrite take_length. lia.
      + rewrite list_lookup_insert_ne in Hq by done. rewrite list_lookup_insert_ne in Hz by done.
        specialize (Hw j q z Hq Hz). unfold rd_work in *. destruct (r_phase q); [|done..]. cbn [s_todo] in *.
        destruct Hw as (e' & k' & H1 & H2 & H3). exists e', k'. split; [done|]. split; [|done].
        rewrite after_read_proj. cbn [proj] in *. rewrite decide_False in H2 |- * by done. exact H2.
    - (* end of file *)
      pose proof (closed_todo _ i Hi Hc) as Ht0. cbn in Ht0. subst todo.
      eapply work_insert; [exact Hr|exact Hn|]. intros y (e' & k & He' & Ht & ->). cbn in *. rewrite He in He'.
      injection He' as <-. inversion Ht as [|? ? k' m' Hm' Hfa Hfe]; subst; [congruence|].
      exists (k' + 2). split; [lia|]. exists e, k'. split; [done|]. split; [|done]. by apply Hfe.
    - eapply work_insert; [exact Hr|exact Hn|]. intros y (e' & k & He' & Ht & ->). exists 1. split; [lia|done].
    - (* drain *)
      pose proof (iv_puts _ Hi) as Hp. inversion Hp as [|? ? [_ Hne] _]; subst. cbn in Hne.
      destruct Hn as (ns & Hl & Hw & ->). cbn in *. pose proof (after_read_work dsize w i todo Hne) as Hb.
      eexists. split; [|exists ns; cbn; split; [done|]; split; [|reflexivity]]; [lia|].
      intros j q z Hq Hz. specialize (Hw j q z Hq Hz). unfold rd_work in *.
      destruct (r_phase q) as [x| |] eqn:Hpq; [|done..]. cbn [s_todo] in *.
      destruct Hw as (e' & k' & H1 & H2 & H3). exists e', k'. split; [done|]. split; [|done].
      rewrite after_read_proj. cbn [proj] in *. destruct (decide (i = j)) as [->|]; [|done].
      rewrite Hr in Hq. injection Hq as <-. done.
    - eapply work_insert; [exact Hr|exact Hn|]. intros y ->. exists 0. split; [lia|done].
    - destruct Hn as (ns & Hl & Hw & ->). cbn in *. eexists. split; [|exists ns; cbn; split; [done|]; split; [exact Hw|reflexivity]].
      lia.
    - destruct Hn as (ns & Hl & Hw & ->). cbn in *. eexists. split; [|exists ns; cbn; split; [done|]; split; [exact Hw|reflexivity]].
      lia.
    - destruct Hn as (ns & Hl & Hw & ->). cbn in *. eexists. split; [|exists ns; cbn; split; [done|]; split; [exact Hw|reflexivity]].
      lia.
    - destruct Hn as (ns & Hl & Hw & ->). cbn in *. eexists. split; [|exists ns; cbn; split; [done|]; split; [exact Hw|reflexivity]].
      lia.
    - destruct Hn as (ns & Hl & Hw & ->). cbn in *. eexists. split; [|exists ns; cbn; split; [done|]; split; [exact Hw|reflexivity]].
      lia.
  Qed.
  Lemma list_choice (P : nat → nat → Prop) m :
    (∀ i, i < m → ∃ n, P i n) → ∃ ns, length ns = m ∧ ∀ i n, ns !! i = Some n → P i n.
  Proof.
    induction m as [|m IH]; intros H; [by exists []|].
    destruct IH as (ns & Hl & Hns); [intros i Hi; apply H; lia|]. destruct (H m) as [n Hn]; [lia|].
    exists (ns ++ [n]). split; [rewrite app_length; simpl; lia|]. intros i k Hk.
    apply lookup_app_Some in Hk as [Hk|[Hi Hk]]; [by apply Hns|].
    rewrite Hl in *. destruct (i - m) as [|j] eqn:Hj; [|done]. injection Hk as <-. by replace i with m by lia.
  Qed.
  Lemma work_init :
    (∀ e, e ∈ exts → finishes e (sx_init e) data) → ∃ n, work (sinit exts cap chunks) n.
  Proof.
    intros Hf.
    destruct (list_choice (λ i n, ∀ e, exts !! i = Some e →
      ∃ k, takes e (sx_init e) data k ∧ n = k + 2) (length exts)) as (ns & Hl & Hns).
    { intros i Hi. destruct (lookup_lt_is_Some_2 exts i Hi) as [e He].
      destruct (finishes_takes e (sx_init e) data) as [k Hk]; [apply Hf; by eapply elem_of_list_lookup_2|].
      exists (k + 2). intros e' He'. rewrite He in He'. injection He' as <-. eauto. }
    eexists. exists ns. split; [cbn; by rewrite fmap_length|]. split; [|reflexivity].
    intros i r x Hr Hx. cbn in Hr. rewrite list_lookup_fmap in Hr. destruct (exts !! i) as [e|] eqn:He; [|done].
    injection Hr as <-. cbn. destruct (Hns i x Hx e He) as (k & Hk & ->). exists e, k. split; [done|]. split; [|done].
    rewrite all_puts_data by (by eapply lookup_lt_Some). exact Hk.
  Qed.
  Lemma work_nsteps k s s' n : inv s → work s n → nsteps step k s s' → k ≤ n.
  Proof.
    intros Hi Hn Hk. revert n Hi Hn. induction Hk as [s|k x y z Hxy Hyz IH]; intros n Hi Hn; [lia|].
    destruct (work_step x y n Hi Hn Hxy) as (n' & Hlt & Hn'). specialize (IH n' (inv_step _ _ Hi Hxy) Hn'). lia.
  Qed.
  Lemma terminates :
    (∀ e, e ∈ exts → finishes e (sx_init e) data) →
    ∃ n, ∀ k s, nsteps step k (sinit exts cap chunks) s → k ≤ n.
  Proof.
    intros Hf. destruct (work_init Hf) as [n Hn]. exists n. intros k s Hk. eapply work_nsteps; [apply inv_init|exact Hn|exact Hk].
  Qed.
End stream.

(** * Running a schedule *)
Section exec.
  Context {X : Type} (exts : list (sext X)) (dsize : nat) (src_err : bool).
  Definition closedb (m : main) (i : nat) : bool :=
    match m with MRun => false | MClose k => bool_decide (i < k) | _ => true end.
  Definition all_done (l : list (rd X)) : bool := forallb (λ r, match r_phase r with PDone => true | _ => false end) l.
  (** [c] = 0: the main goroutine, [c] = i + 1: the goroutine of extension i. *)
  Definition exec (c : nat) (s : sst X) : option (sst X) :=
    match c with
    | 0 =>
        match s_main s with
        | MRun => match s_todo s with [] => Some (Sst [] (MClose 0) (s_rd s) (s_ch s)) | _ => None end
        | MClose k =>
            if bool_decide (k < length exts) then Some (Sst (s_todo s) (MClose (S k)) (s_rd s) (s_ch s))
            else if bool_decide (k = length exts) then
              Some (Sst (s_todo s) (if src_err then MRet OCopyError else MWait) (s_rd s) (s_ch s))
            else None
        | MWait => if all_done (s_rd s) then Some (Sst (s_todo s) (MRet (OErrors (s_ch s))) (s_rd s) (s_ch s)) else None
        | MRet _ => None
        end
    | S i =>
        match exts !! i, s_rd s !! i with
        | Some e, Some (Rd (PRun x) got eof err) =>
            match sx_act e x with
            | ARet r =>
                Some (Sst (s_todo s) (s_main s) (<[i := Rd PDrain got eof r]> (s_rd s))
                        (s_ch s ++ match r with Some t => [t] | None => [] end))
            | ARead n =>
                if closedb (s_main s) i then
                  Some (Sst (s_todo s) (s_main s) (<[i := Rd (PRun (sx_feed e x None)) got true err]> (s_rd s)) (s_ch s))
                else
                  match s_main s, s_todo s with
                  | MRun, (j, w) :: todo =>
                      if bool_decide (j = i) then
                        Some (Sst (after_read (S n) w i todo) MRun
                          (<[i := Rd (PRun (sx_feed e x (Some (take (S n) w)))) (got ++ take (S n) w) eof err]> (s_rd s)) (s_ch s))
                      else None
                  | _, _ => None
                  end
            end
        | Some e, Some (Rd PDrain got eof err) =>
            if closedb (s_main s) i then
              Some (Sst (s_todo s) (s_main s) (<[i := Rd PDone got eof err]> (s_rd s)) (s_ch s))
            else
              match s_main s, s_todo s with
              | MRun, (j, w) :: todo =>
                  if bool_decide (j = i) then Some (Sst (after_read (S dsize) w i todo) MRun (s_rd s) (s_ch s)) else None
              | _, _ => None
              end
        | _, _ => None
        end
    end.
  Lemma closedb_closed m i : closedb m i = true → closed m i.
  Proof. destruct m; simpl; try done. apply bool_decide_eq_true. Qed.
  Lemma exec_step c s s' : exec c s = Some s' → step exts dsize src_err s s'.
  Proof.
    destruct s as [todo m rds ch]. destruct c as [|i]; cbn [exec s_main s_todo s_rd s_ch].
    - destruct m as [|k| |]; try done.
      + destruct todo; [|done]. intros [= <-]. apply st_written.
      + destruct (bool_decide (k < length exts)) eqn:H1.
        * intros [= <-]. apply st_close. by apply bool_decide_eq_true in H1.
        * destruct (bool_decide (k = length exts)) eqn:H2; [|done]. apply bool_decide_eq_true in H2 as ->.
          intros [= <-]. destruct src_err eqn:Hs; [by apply st_copy_error|by apply st_wait].
      + destruct (all_done rds) eqn:Hd; [|done]. intros [= <-]. apply st_result. intros r Hr.
        unfold all_done in Hd. rewrite forallb_forall in Hd. specialize (Hd r). rewrite <- elem_of_list_In in Hd.
        specialize (Hd Hr). by destruct (r_phase r).
    - destruct (exts !! i) as [e|] eqn:He; [|done]. destruct (rds !! i) as [[[x| |] got eof err]|] eqn:Hr; try done.
      + destruct (sx_act e x) as [n|r] eqn:Ha; [|intros [= <-]; by eapply st_return].
        destruct (closedb m i) eqn:Hc; [intros [= <-]; eapply st_eof; eauto; by apply closedb_closed|].
        destruct m; try done. destruct todo as [|[j w] todo]; [done|]. case_bool_decide; [|done]. subst j.
        intros [= <-]. by eapply st_read.
      + destruct (closedb m i) eqn:Hc; [intros [= <-]; eapply st_drained; eauto; by apply closedb_closed|].
        destruct m; try done. destruct todo as [|[j w] todo]; [done|]. case_bool_decide; [|done]. subst j.
        intros [= <-]. by eapply st_drain.
  Qed.
  (** Choices that are not possible are skipped. *)
  Fixpoint execs (cs : list nat) (s : sst X) : sst X :=
    match cs with
    | [] => s
    | c :: cs' => match exec c s with Some s' => execs cs' s' | None => execs cs' s end
    end.
  Lemma execs_rtc cs s : rtc (step exts dsize src_err) s (execs cs s).
  Proof.
    revert s; induction cs as [|c cs IH]; intros s; simpl; [done|].
    destruct (exec c s) as [s'|] eqn:He; [|apply IH]. eapply rtc_l; [by eapply exec_step|apply IH].
  Qed.
End exec.

(** An extension that reads to the end in portions of up to [S n] bytes, and one that returns at once. *)
Definition reader_ext (n : nat) (err : option string) : sext bool :=
  Sext (λ x : bool, if x then ARet err else ARead n) (λ (_ : bool) (o : option bytes), match o with None => true | Some _ => false end) false.
Definition stopper_ext (err : option string) : sext bool := Sext (λ _, ARet err) (λ x _, x) false.
Lemma reader_finishes n err w : finishes (reader_ext n err) false w.
Proof.
  remember (length w) as k eqn:Hk. revert w Hk. induction (lt_wf k) as [k _ IH]; intros w ->.
  apply fin_read with (n := n); [reflexivity| |].
  - intros a b -> Ha _. simpl. apply (IH (length b)); [|done]. rewrite app_length. destruct a; [done|simpl; lia].
  - intros _. by apply fin_ret with (r := err).
Qed.
Lemma stopper_finishes err w : finishes (stopper_ext err) false w.
Proof. by apply fin_ret with (r := err). Qed.
