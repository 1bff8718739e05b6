(** The loop over the contents. *)
From Coq Require Import Ascii.
From stdpp Require Import base list strings gmap.
From Coq Require Import ZArith Lia.
From Verif Require Import GoStr PathModel InventoryModel InventorySpec ObjectModel ObjectSpec CrashSpec PublishSpec InventoryProofs ObjectProofs
  ClaimsInventory2 CrashProofs LoadModel LoadProofs AreaModel ValidateModel JsonlModel MigrateModel MigrateSpec MigrateProofs MigrateProofs2.

Definition also (D : string → mfun → Prop) (cs : string) (f : mfun) : string → mfun → Prop := λ c g, D c g ∨ c = cs ∧ g = f.

Section loop.
  Context (E : env) (S : surroundings) (i : inventory) (n : N) (metas : string → Prop) (T : string → mfun → Prop).
  Context (Hau : automated i n) (Hma : migratable E S i n metas T) (Hfun : ∀ cs f f', T cs f → T cs f' → f = f').
  Context (Hhex : hex_hash (e_hash E)) (Hne : nonempty_hash E) (Hsup : supported E i).
  Notation progress := (progress E S i n).
  Notation product := (product E S i n).
  Notation planned := (planned i n).

  Lemma migrated_skip D cs f np d : (∀ y, ¬ product cs f y) → migrated E S i n (also D cs f) np d ↔ migrated E S i n D np d.
  Proof.
    intros Hno. unfold migrated.
    assert (∀ d, made E S i n (also D cs f) np d ↔ made E S i n D np d) as H1.
    { intros e. split; intros (c & g & p & y & [Hp Hr] & Hy & Hz); exists c, g, p, y; (split; [split; [|done]|by split]).
      - destruct Hp as [Hp|[-> ->]]; [done|]. by apply Hno in Hy.
      - by left. }
    assert (∀ d, moved E S i n (also D cs f) np d ↔ moved E S i n D np d) as H2.
    { intros e. split; intros (g & p & y & [Hp Hr] & Hy & Hs & Hq & Hz).
      - destruct Hp as [Hp|[-> ->]]; [|by apply Hno in Hy]. exists g, p, y. split; [by split|]. split; [done|]. split; [done|]. split; [|done].
        intros q [Hq1 Hq2]. apply Hq. split; [by left|done].
      - exists g, p, y. split; [by split; [left|]|]. split; [done|]. split; [done|]. split; [|done].
        intros q [[Hq1|[-> ->]] Hq2]; [by apply Hq|by apply Hno in Hy]. }
    assert (given_up E S i n (also D cs f) np ↔ given_up E S i n D np) as H3.
    { split; intros (c & g & p & y & [Hp Hr] & Hy & Hz); exists c, g, p, y; (split; [split; [|done]|by split]).
      - destruct Hp as [Hp|[-> ->]]; [done|]. by apply Hno in Hy.
      - by left. }
    rewrite H1, H2, H3. done.
  Qed.

  Lemma planned_in (D : string → mfun → Prop) cs f p : (∀ cs f, D cs f → T cs f) → planned D cs f p → planned T cs f p.
  Proof using. intros HD [H1 H2]. split; [by apply HD|done]. Qed.

  (** The newest version after one more content was converted to [dy]. *)
  Lemma migrated_also (D : string → mfun → Prop) cs f y dy (srcs : list string) np d :
    (∀ cs f, D cs f → T cs f) → T cs f → (∀ f', ¬ D cs f') → (∀ p, p ∈ srcs ↔ recorded i (earlier i n) p cs) →
    (∀ y', product cs f y' ↔ y' = y) → e_hash E (inv_alg i) y = Some dy →
    let targets := converted_name f i <$> srcs in
    migrated E S i n (also D cs f) np d ↔
      (np ∈ targets ∧ d = dy) ∨
      (np ∉ targets ∧
       match mf_strategy f with
       | Add => migrated E S i n D np d
       | Replace => np ∉ srcs ∧ migrated E S i n D np d
       | Folder => (∃ p, p ∈ srcs ∧ p ∉ targets ∧ np = kept_name p ∧ d = cs) ∨ (np ∉ srcs ∧ migrated E S i n D np d)
       end).
  Proof using Hau Hma Hfun.
    intros HD HT Hno Hsrcs Hprod Hdy targets.
    assert (∀ p, p ∈ srcs → planned T cs f p) as Hpl by (intros p Hp; split; [done|by apply Hsrcs]).
    assert (∀ q, q ∈ targets ↔ ∃ p, p ∈ srcs ∧ q = converted_name f i p) as Htg by (intros q; unfold targets; rewrite elem_of_list_fmap; naive_solver).
    assert (∀ c g p, planned D c g p → converted_name g i p ∉ targets) as Ht1.
    { intros c g p Hp Hin. apply Htg in Hin as (q & Hq & Heq). pose proof (ma_targets _ _ _ _ _ _ Hma _ _ _ _ _ _ (planned_in _ _ _ _ HD Hp) (Hpl q Hq) Heq) as ->.
      destruct Hp as [Hp _]. by apply Hno in Hp. }
    assert (∀ c g p, planned D c g p → converted_name g i p ∉ srcs) as Ht2.
    { intros c g p Hp Hin. pose proof (ma_originals _ _ _ _ _ _ Hma _ _ _ _ _ _ (planned_in _ _ _ _ HD Hp) (Hpl _ Hin) eq_refl) as ->.
      destruct Hp as [Hp _]. by apply Hno in Hp. }
    assert (∀ c g p, planned D c g p → p ∉ targets) as Ht3.
    { intros c g p Hp Hin. apply Htg in Hin as (q & Hq & Heq).
      pose proof (ma_originals _ _ _ _ _ _ Hma _ _ _ _ _ _ (Hpl q Hq) (planned_in _ _ _ _ HD Hp) (eq_sym Heq)) as <-.
      destruct Hp as [Hp _]. by apply Hno in Hp. }
    assert (∀ c g p, planned D c g p → p ∉ srcs) as Ht4.
    { intros c g p Hp Hin. pose proof (planned_unique _ _ _ Hau _ _ _ _ _ (planned_in _ _ _ _ HD Hp) (Hpl _ Hin)) as ->.
      destruct Hp as [Hp _]. by apply Hno in Hp. }
    assert (∀ p, p ∈ srcs → current i p cs) as Hcur by (intros p Hp; by apply (au_copy _ _ Hau), Hsrcs).
    assert (∀ c g p, planned D c g p → mf_strategy g = Folder → kept_name p ∉ targets ∧ kept_name p ∉ srcs) as Ht5.
    { intros c g p Hp Hg. destruct (ma_moved _ _ _ _ _ _ Hma _ _ _ (planned_in _ _ _ _ HD Hp) Hg) as (K1 & K2 & K3). split; intros Hin.
      - apply Htg in Hin as (q & Hq & Heq). by apply (K2 cs f q (Hpl q Hq)).
      - apply (K1 cs). by apply Hcur. }
    assert (∀ p c f', planned (also D cs f) c f' p ↔ planned D c f' p ∨ c = cs ∧ f' = f ∧ p ∈ srcs) as Hal.
    { intros p c f'. unfold MigrateSpec.planned, also. split.
      - intros [[H|[-> ->]] Hr]; [by left|right]. by rewrite Hsrcs.
      - intros [[H Hr]|(-> & -> & Hp)]; [by split; [left|]|]. split; [by right|by apply Hsrcs]. }
    assert (∀ e, made E S i n (also D cs f) np e ↔ made E S i n D np e ∨ np ∈ targets ∧ e = dy) as Hmade.
    { intros e. unfold made. split.
      - intros (c & g & p & y' & Hp & Hy & Hz & He). apply Hal in Hp as [Hp|(-> & -> & Hp)]; [left; by exists c, g, p, y'|].
        right. apply Hprod in Hy as ->. split; [apply Htg; by exists p|congruence].
      - intros [(c & g & p & y' & Hp & Hr)|[Hin ->]].
        + exists c, g, p, y'. split; [apply Hal; by left|done].
        + apply Htg in Hin as (p & Hp & ->). exists cs, f, p, y. split; [apply Hal; by right|]. split; [by apply Hprod|done]. }
    assert (∀ e, moved E S i n (also D cs f) np e ↔ moved E S i n D np e ∨
              mf_strategy f = Folder ∧ e = cs ∧ ∃ p, p ∈ srcs ∧ p ∉ targets ∧ np = kept_name p) as Hmoved.
    { intros e. unfold moved. split.
      - intros (g & p & y' & Hp & Hy & Hs & Hq & Hz). apply Hal in Hp as [Hp|(-> & -> & Hp)].
        + left. exists g, p, y'. split; [done|]. split; [done|]. split; [done|]. split; [|done]. intros q Hqq. apply Hq, Hal. by left.
        + right. split; [done|]. split; [done|]. exists p. split; [done|]. split; [|done]. intros Hin. apply Htg in Hin as (q & Hqq & Heq).
          apply (Hq q); [|done]. apply Hal. by right.
      - intros [(g & p & y' & Hp & Hy & Hs & Hq & Hz)|(Hs & -> & p & Hp & Hpt & ->)].
        + exists g, p, y'. split; [apply Hal; by left|]. split; [done|]. split; [done|]. split; [|done]. intros q Hqq.
          apply Hal in Hqq as [Hqq|(-> & -> & Hqq)]; [by apply Hq|]. destruct Hp as [Hp _]. by apply Hno in Hp.
        + exists f, p, y. split; [apply Hal; by right|]. split; [by apply Hprod|]. split; [done|]. split; [|done].
          intros q Hqq Heq. apply Hpt, Htg. exists q. split; [|done]. apply Hal in Hqq as [[Hqq _]|(_ & _ & Hqq)]; [by apply Hno in Hqq|done]. }
    assert (given_up E S i n (also D cs f) np ↔ given_up E S i n D np ∨ np ∈ targets ∨ np ∈ srcs ∧ mf_strategy f ≠ Add) as Hgiven.
    { unfold given_up. split.
      - intros (c & g & p & y' & Hp & Hy & Hz). apply Hal in Hp as [Hp|(-> & -> & Hp)]; [left; by exists c, g, p, y'|]. right.
        destruct Hz as [->|[-> Hz]]; [left; apply Htg; by exists p|by right].
      - intros [(c & g & p & y' & Hp & Hr)|[Hin|[Hin Hs]]].
        + exists c, g, p, y'. split; [apply Hal; by left|done].
        + apply Htg in Hin as (p & Hp & ->). exists cs, f, p, y. split; [apply Hal; by right|]. split; [by apply Hprod|]. by left.
        + exists cs, f, np, y. split; [apply Hal; by right|]. split; [by apply Hprod|]. by right. }
    assert (np ∈ targets → (∀ e, ¬ made E S i n D np e) ∧ (∀ e, ¬ moved E S i n D np e)) as Hin1.
    { intros Hin. split.
      - intros e (c & g & p & y' & Hp & _ & -> & _). by apply Ht1 in Hp.
      - intros e (g & p & y' & Hp & _ & Hs & _ & ->). destruct (Ht5 _ _ _ Hp Hs) as [K _]. by apply K. }
    assert (np ∈ srcs → (∀ e, ¬ made E S i n D np e) ∧ (∀ e, ¬ moved E S i n D np e)) as Hin2.
    { intros Hin. split.
      - intros e (c & g & p & y' & Hp & _ & -> & _). by apply Ht2 in Hp.
      - intros e (g & p & y' & Hp & _ & Hs & _ & ->). destruct (Ht5 _ _ _ Hp Hs) as [_ K]. by apply K. }
    assert (∀ p, mf_strategy f = Folder → p ∈ srcs → np = kept_name p → np ∉ targets ∧ (∀ e, ¬ current i np e) ∧ ∀ e, ¬ made E S i n (also D cs f) np e) as Hin3.
    { intros p Hs Hp ->. destruct (ma_moved _ _ _ _ _ _ Hma _ _ _ (Hpl p Hp) Hs) as (K1 & K2 & K3).
      assert (kept_name p ∉ targets) as K4. { intros Hin. apply Htg in Hin as (q & Hq & Heq). by apply (K2 cs f q (Hpl q Hq)). }
      split; [done|]. split; [done|]. intros e. rewrite Hmade. intros [(c & g & q & y' & Hq & _ & Heq & _)|[Hin _]]; [|done].
      by apply (K2 c g q (planned_in _ _ _ _ HD Hq)). }
    unfold migrated. rewrite Hmade, Hmoved, Hgiven.
    destruct (decide (np ∈ targets)) as [Hin|Hin].
    - destruct (Hin1 Hin) as [G1 G2]. split; [|tauto].
      intros [[H|[_ H]]|[[H|(Hs & _ & p & Hp & _ & Hk)]|[_ H]]]; [by apply G1 in H|by left|by apply G2 in H| |tauto].
      destruct (Hin3 p Hs Hp Hk) as [H _]. done.
    - destruct (mf_strategy f) eqn:Hs.
      + split; [|tauto]. intros H. right. split; [done|]. split; [|naive_solver].
        intros Hin'. destruct (Hin2 Hin') as [G1 G2]. destruct H as [[H|[H _]]|[[H|(H & _)]|[_ H]]]; [by apply G1 in H|done|by apply G2 in H|done|].
        apply H. right. right. by split.
      + split; [naive_solver|]. intros [[H _]|[_ [H|[H|[H1 H2]]]]]; [done|tauto|tauto|]. right. right. split; [done|]. intros [H|[H|[_ H]]]; [done..|]. by apply H.
      + split.
        * intros H. right. split; [done|]. destruct (decide (np ∈ srcs)) as [Hin'|Hin'].
          -- destruct (Hin2 Hin') as [G1 G2]. destruct H as [[H|[H _]]|[[H|(_ & -> & p & Hp & Hpt & ->)]|[_ H]]]; [by apply G1 in H|done|by apply G2 in H| |].
             ++ left. by exists p.
             ++ exfalso. apply H. right. right. by split.
          -- destruct H as [[H|[H _]]|[[H|(_ & -> & p & Hp & Hpt & ->)]|[H1 H2]]]; [right; tauto|done|right; tauto|left; by exists p|]. right. tauto.
        * intros [[H _]|[_ [(p & Hp & Hpt & -> & ->)|[H1 H2]]]]; [done| |].
          -- right. left. right. split; [done|]. split; [done|]. by exists p.
          -- destruct H2 as [H2|[H2|[H2 H3]]]; [tauto|tauto|]. right. right. split; [done|]. tauto.
  Qed.

  Lemma job_step (D : string → mfun → Prop) s o0 o cs f b orcs : (∀ j, oracle_ok (orcs j)) →
    progress s o0 D o → (∀ cs f, D cs f → T cs f) → T cs f → (∀ f', ¬ D cs f') → (b = true → metas cs) →
    ∃ p0 ps x srcs exts m e0 o1 err, job E S (earlier i n) b (ob_inv o) cs f = JMarked p0 (JRun srcs (converted_name f i <$> srcs) exts p0 m x) ∧
      inv_manifest i !! cs = Some (p0 :: ps) ∧ head (default [] (inv_manifest (ob_inv o) !! cs)) = Some p0 ∧ new_place E S i n cs f e0 m ∧
      run_job E orcs b cs f srcs (converted_name f i <$> srcs) exts p0 x o = (o1, err, SOk) ∧
      (err = "" ↔ ∃ y, product cs f y) ∧ progress s o0 (also D cs f) o1.
  Proof using Hau Hma Hfun Hhex Hne Hsup.
    intros Ho Hpr HD HT Hno Hb.
    destruct (job_runs E S i n metas T Hau Hma D s o0 o cs f b Hpr HT Hb) as (p0 & ps & x & srcs & exts & m & e0 & v & Hjob & Hman & Hx & Hv & Hsrcs & Hsn & Hbn & He0 & Hnp & Hprod & Hhead).
    pose proof (pr_ext _ _ _ _ _ _ _ _ Hpr) as Hext. pose proof (pr_inv _ _ _ _ _ _ _ _ Hpr) as H09.
    assert (∀ p, p ∈ srcs ↔ recorded i (earlier i n) p cs) as Hin.
    { intros p. split; [intros Hp; exists v; split; [done|]; by exists srcs|]. intros (v' & Hv' & ps' & Hps' & Hp). rewrite Hv in Hv'. injection Hv' as <-.
      rewrite Hsrcs in Hps'. by injection Hps' as <-. }
    destruct (mf_run f p0 e0 x) as [y|] eqn:Hrun.
    2:{ exists p0, ps, x, srcs, exts, m, e0, o, "cannot migrate file". split; [done|]. split; [done|]. split; [done|]. split; [done|]. split.
        { unfold run_job. rewrite He0. change (default "" (Some e0)) with e0. by rewrite Hrun. }
        assert (∀ y, ¬ product cs f y) as Hnoy by (intros y Hy; by apply Hprod in Hy).
        split; [naive_solver|]. split; [done|done| | |].
        - intros np d. rewrite migrated_skip by done. apply Hpr.
        - intros c g y e m' [Hc|[-> ->]] Hy Hm'; [by eapply (pr_stored _ _ _ _ _ _ _ _ Hpr)|]. by apply Hnoy in Hy.
        - intros q Hq. apply Hpr. intros c g y e m' Hc Hy Hm'. eapply Hq; [by left|done..]. }
    assert (∀ y', product cs f y' ↔ y' = y) as Hprod'. { intros y'. rewrite Hprod. naive_solver. }
    destruct (Hsup (inv_alg i) y (or_introl eq_refl)) as [dy Hdy].
    pose proof (λ np d, migrated_also D cs f y dy srcs np d HD HT Hno Hin Hprod' Hdy) as Hnew. cbv zeta in Hnew.
    assert (inv_writeable (ob_inv o) = true) as Hw by (rewrite (er_wr _ _ Hext); apply Hau).
    set (targets := converted_name f i <$> srcs) in *.
    assert (∀ p, p ∈ srcs → planned T cs f p) as Hpl by (intros p Hp; split; [done|by apply Hin]).
    assert (∀ q, q ∈ targets ↔ ∃ p, p ∈ srcs ∧ q = converted_name f i p) as Htg by (intros q; unfold targets; rewrite elem_of_list_fmap; naive_solver).
    assert (∀ p, p ∈ srcs → current (ob_inv o) p cs) as Hsc.
    { intros p Hp. apply Hpr. right. right. split; [by apply (au_copy _ _ Hau), Hin|]. intros (c & g & q & y' & Hq & _ & Hz).
      assert (c = cs) as ->.
      { destruct Hz as [Hz|[-> _]].
        - by apply (ma_originals _ _ _ _ _ _ Hma _ _ _ _ _ _ (planned_in _ _ _ _ HD Hq) (Hpl p Hp)).
        - by apply (planned_unique _ _ _ Hau _ _ _ _ _ (planned_in _ _ _ _ HD Hq) (Hpl _ Hp)). }
      destruct Hq as [Hq _]. by apply Hno in Hq. }
    assert (∀ q, q ∈ targets → ready (ob_inv o) q) as Hready.
    { intros q Hq. apply Htg in Hq as (p & Hp & ->).
      assert (∀ e, made E S i n D (converted_name f i p) e → False) as M1.
      { intros e (c & g & p' & y' & Hp' & _ & Heq & _).
        pose proof (ma_targets _ _ _ _ _ _ Hma _ _ _ _ _ _ (Hpl p Hp) (planned_in _ _ _ _ HD Hp') Heq) as <-. destruct Hp' as [Hp' _]. by apply Hno in Hp'. }
      assert (∀ e, moved E S i n D (converted_name f i p) e → False) as M2.
      { intros e (g & p' & y' & Hp' & _ & Hs & _ & Heq).
        destruct (ma_moved _ _ _ _ _ _ Hma _ _ _ (planned_in _ _ _ _ HD Hp') Hs) as (_ & K2 & _). by apply (K2 cs f p (Hpl p Hp)). }
      destruct (ma_free _ _ _ _ _ _ Hma cs f p (Hpl p Hp)) as [(d & Hd)|Hfree].
      - left. exists d. apply Hpr. right. right. split; [done|]. intros (c & g & p' & y' & Hp' & _ & Hz).
        assert (c = cs) as ->.
        { destruct Hz as [Hz|[Hz _]].
          - symmetry. by apply (ma_targets _ _ _ _ _ _ Hma _ _ _ _ _ _ (Hpl p Hp) (planned_in _ _ _ _ HD Hp')).
          - symmetry. by apply (ma_originals _ _ _ _ _ _ Hma _ _ _ _ _ _ (Hpl p Hp) (planned_in _ _ _ _ HD Hp')). }
        destruct Hp' as [Hp' _]. by apply Hno in Hp'.
      - right. intros ver e Hr. destruct (decide (ver = inv_head i)) as [->|Hver].
        + rewrite <- (er_head _ _ Hext) in Hr. apply Hpr in Hr as [H|[H|[H _]]]; [by eapply M1|by eapply M2|by apply Hfree in H].
        + apply (Hfree ver e). destruct Hr as (w & Hw' & Hl). exists w. by rewrite <- (er_vers _ _ Hext). }
    destruct (add_reader_current E (orcs 0) y exts "content" o dy targets m (Ho 0) Hw H09 Hhex Hne) as (o1 & Hadd & St1 & Hl1 & Ht1 & Hc1).
    { intros a z. rewrite (er_alg _ _ Hext), (er_fixalgs _ _ Hext). apply Hsup. }
    { done. }
    { done. }
    { by rewrite (er_alg _ _ Hext). }
    assert (inv_writeable (ob_inv o1) = true) as Hw1 by (by rewrite (er_wr _ _ (st_ext _ _ St1))).
    destruct (ma_source _ _ _ _ _ _ Hma cs f HT) as [Hcs _].
    set (rest := filter (λ p, p ∉ targets) srcs).
    assert (∀ p, p ∈ rest ↔ p ∈ srcs ∧ p ∉ targets) as Hrest by (intros p; unfold rest; rewrite elem_of_list_filter; tauto).
    assert (NoDup rest) as Hnd.
    { unfold rest. apply NoDup_filter. destruct (au_unique _ _ Hau _ _ Hv) as [_ Hu]. by apply (Hu cs). }
    assert (∀ p, p ∈ rest → current (ob_inv o1) p cs) as Hrc. { intros p [Hp1 Hp2]%Hrest. apply Hc1. right. split; [done|]. by apply Hsc. }
    assert (∃ o2, on_originals orcs (mf_strategy f) b cs rest o1 = (o2, SOk) ∧ step o1 o2 ∧ ob_trace o2 = ob_trace o1 ∧
      ∀ np d, current (ob_inv o2) np d ↔ migrated E S i n (also D cs f) np d) as (o2 & Horig & St2 & Htr2 & Hc2).
    { setoid_rewrite Hnew. unfold on_originals. destruct (mf_strategy f) eqn:Hs.
      - destruct (originals_delete orcs 1 cs rest o1 Ho Hw1 (st_inv _ _ St1) Hcs Hnd Hrc) as (o2 & Heq & St2 & Htr & Hc2).
        exists o2. split; [done|]. split; [done|]. split; [done|]. intros np d. rewrite Hc2, Hc1, Hrest.
        rewrite <- (pr_state _ _ _ _ _ _ _ _ Hpr). tauto.
      - exists o1. split; [done|]. split; [by apply step_refl, St1|]. split; [done|]. intros np d. rewrite Hc1. by rewrite <- (pr_state _ _ _ _ _ _ _ _ Hpr).
      - assert (b = false) as ->. { destruct b; [|done]. exfalso. by apply (ma_first _ _ _ _ _ _ Hma cs f HT Hs), Hb. }
        destruct (originals_rename orcs 1 cs (moved_name false) rest o1 Ho Hw1 (st_inv _ _ St1) Hcs Hnd Hrc) as (o2 & Heq & St2 & Htr & Hc2).
        { intros p e [Hp1 Hp2]%Hrest. change (moved_name false p) with (kept_name p).
          destruct (ma_moved _ _ _ _ _ _ Hma _ _ _ (Hpl p Hp1) Hs) as (K1 & K2 & K3). rewrite Hc1. intros [[H _]|[_ H]].
          - apply Htg in H as (q & Hq & Heq). by apply (K2 cs f q (Hpl q Hq)).
          - apply Hpr in H as [(c & g & q & y' & Hq & _ & Heq & _)|[(g & q & y' & Hq & _ & Hsg & _ & Heq)|[H _]]].
            + by apply (K2 c g q (planned_in _ _ _ _ HD Hq)).
            + pose proof (K3 e g q (planned_in _ _ _ _ HD Hq) Heq) as <-.
              pose proof (planned_unique _ _ _ Hau _ _ _ _ _ (planned_in _ _ _ _ HD Hq) (Hpl p Hp1)) as ->. destruct Hq as [Hq _]. by apply Hno in Hq.
            + by apply K1 in H. }
        { intros p p' [Hp1 Hp2]%Hrest [Hp1' Hp2']%Hrest Heq. destruct (ma_moved _ _ _ _ _ _ Hma _ _ _ (Hpl p Hp1) Hs) as (_ & _ & K3). by apply (K3 cs f p' (Hpl p' Hp1')). }
        exists o2. split; [done|]. split; [done|]. split; [done|]. intros np d. rewrite Hc2, Hc1. rewrite <- (pr_state _ _ _ _ _ _ _ _ Hpr).
        change (moved_name false) with kept_name. setoid_rewrite Hrest. split.
        + intros [(p & [Hp1 Hp2] & -> & ->)|[H1 [H2|[H2 H3]]]].
          * right. split; [|left; by exists p]. destruct (ma_moved _ _ _ _ _ _ Hma _ _ _ (Hpl p Hp1) Hs) as (_ & K2 & _).
            intros H. apply Htg in H as (q & Hq & Heq'). by apply (K2 cs f q (Hpl q Hq)).
          * by left.
          * right. split; [done|]. right. split; [|done]. tauto.
        + intros [H|[H1 [(p & Hp1 & Hp2 & -> & ->)|[H2 H3]]]].
          * right. split; [tauto|by left].
          * left. by exists p.
          * right. split; [tauto|by right]. }
    pose proof (st_ext _ _ (step_trans _ _ _ St1 St2)) as He2.
    exists p0, ps, x, srcs, exts, m, e0, o2, "". split; [done|]. split; [done|]. split; [done|]. split; [done|]. split.
    { unfold run_job. rewrite He0. change (default "" (Some e0)) with e0. rewrite Hrun, Hadd. fold targets. fold rest. by rewrite Horig. }
    split; [split; [intros _; exists y; by apply Hprod'|done]|].
    assert (∀ c g e m', T c g → new_place E S i n c g e m' → m' = m → c = cs) as Hplaces.
    { intros c g e m' Hc Hm' ->. by eapply (ma_places _ _ _ _ _ _ Hma). }
    assert (∀ q, now s o2 !! q = if decide (q = m) then Some y else now s o !! q) as Hnow.
    { intros q. unfold now. rewrite Htr2, Ht1, apply_evs_app, apply_write. destruct (decide (q = m)) as [->|]; [apply lookup_insert|by rewrite lookup_insert_ne]. }
    split.
    - apply St2.
    - by transitivity (ob_inv o).
    - done.
    - intros c g y' e m' [Hc|[-> ->]] Hy Hm'.
      + destruct (pr_stored _ _ _ _ _ _ _ _ Hpr c g y' e m' Hc Hy Hm') as (d & Hd & Hl & Hst). exists d. split; [done|]. split.
        * destruct Hl as (ps' & Hps' & Hin'). apply (er_man _ _ He2) in Hps' as [ex Hps']. eexists. split; [done|]. set_solver.
        * rewrite Hnow, decide_False; [done|]. intros ->. assert (c = cs) as -> by (eapply Hplaces; [by apply HD|done|done]). by apply Hno in Hc.
      + apply Hprod' in Hy as ->. destruct (new_place_unique _ _ _ _ _ _ _ _ _ _ Hnp Hm') as [<- <-]. exists dy. split; [done|]. split.
        * destruct Hl1 as (ps' & Hps' & Hin'). apply (er_man _ _ (st_ext _ _ St2)) in Hps' as [ex Hps']. eexists. split; [done|]. set_solver.
        * by rewrite Hnow, decide_True.
    - intros q Hq. rewrite Hnow, decide_False.
      + apply Hpr. intros c g y' e m' Hc Hy Hm'. eapply Hq; [by left|done..].
      + intros ->. eapply (Hq cs f y e0 m); [by right|by apply Hprod'|done|done].
  Qed.
End loop.
