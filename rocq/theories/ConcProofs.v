From Coq Require Import Ascii ZArith Lia.
From stdpp Require Import base list strings.
From Verif Require Import GoStr PathModel Utf8Model LayoutModel ConcModel.

Lemma buildD_prepare h c id :
  buildD h c id = match prepare c id with inl r => r | inr x => fallback h c x end.
Proof.
  unfold buildD, prepare. destruct (clean_elems _ _) as [l|]; [|done]. by destruct (_ <? _)%N.
Qed.
Lemma finish_fallback h c x : finish c (h x) = fallback h c x.
Proof. done. Qed.

Definition critical (p : pc) : Prop := p = PLocked ∨ p = PReset ∨ p = PWritten.
Record inv (inside : bool) (h : string → string) (c : confD) (ids : list string) (m : mach) : Prop := {
  i_len : length (m_pcs m) = length ids;
  i_lock : ∀ i p, m_pcs m !! i = Some p → critical p → m_lock m = Some i;
  i_held : ∀ i, m_lock m = Some i → ∃ p, m_pcs m !! i = Some p ∧ critical p;
  i_reset : ∀ i, m_pcs m !! i = Some PReset → m_buf m = "";
  i_written : ∀ i id x, m_pcs m !! i = Some PWritten → ids !! i = Some id → prepare c id = inr x → m_buf m = x;
  i_buf : m_buf m = "" ∨ ∃ i id, ids !! i = Some id ∧ prepare c id = inr (m_buf m);
  i_direct : ∀ i id r p, ids !! i = Some id → prepare c id = inl r → m_pcs m !! i = Some p → p = PStart ∨ p = PDone r;
  i_out : ∀ i, m_pcs m !! i = Some PUnlocked → inside = false;
  i_done : ∀ i id x r, ids !! i = Some id → prepare c id = inr x → returned m i r →
    (inside = true → r = finish c (h x)) ∧
    ∃ y, r = finish c (h y) ∧ (y = "" ∨ ∃ j jd, ids !! j = Some jd ∧ prepare c jd = inr y)
}.
Lemma inv_start inside h c ids : inv inside h c ids (start ids).
Proof.
  assert (∀ i p, m_pcs (start ids) !! i = Some p → p = PStart) as H.
  { intros i p. cbn. rewrite list_lookup_fmap. destruct (ids !! i); cbn; [by intros [= <-]|done]. }
  split.
  - cbn. by rewrite fmap_length.
  - intros i p Hp. rewrite (H _ _ Hp). by intros [?|[?|?]].
  - done.
  - intros i Hp. by apply H in Hp.
  - intros i ? ? Hp. by apply H in Hp.
  - by left.
  - intros i id r p _ _ Hp. left. by apply H in Hp.
  - intros i Hp. by apply H in Hp.
  - intros i id x r _ _ Hp. by apply H in Hp.
Qed.
Lemma insert_case {A} (l : list A) i j x y :
  <[i := x]> l !! j = Some y → (j = i ∧ y = x) ∨ (j ≠ i ∧ l !! j = Some y).
Proof.
  destruct (decide (i = j)) as [->|Hn].
  - destruct (decide (j < length l)) as [Hl|Hl].
    + rewrite list_lookup_insert by done. intros [= ->]. by left.
    + rewrite list_insert_ge by lia. rewrite lookup_ge_None_2 by lia. done.
  - rewrite list_lookup_insert_ne by done. by right.
Qed.
Lemma inv_move inside h c ids i m : inv inside h c ids m → inv inside h c ids (move inside h c ids i m).
Proof.
  intros I. pose proof I as [Hlen Hlock Hheld Hreset Hwr Hbuf Hdir Hout Hdone]. unfold move.
  destruct (ids !! i) as [id|] eqn:Eid; [|done].
  destruct (m_pcs m !! i) as [p|] eqn:Ep; [|done].
  assert (i < length (m_pcs m)) as Hi by (by eapply lookup_lt_Some).
  destruct (prepare c id) as [r|x] eqn:Ex.
  { destruct (Hdir i id r p Eid Ex Ep) as [-> | ->]; [|done]. unfold set_pc. split; cbn.
    - by rewrite insert_length.
    - intros j q [[-> ->]|[Hn Hq]]%insert_case; [by intros [?|[?|?]]|by apply Hlock].
    - intros j Hj. destruct (Hheld j Hj) as (q & Hq & Hc). exists q. split; [|done].
      rewrite list_lookup_insert_ne; [done|]. intros <-. rewrite Ep in Hq. injection Hq as <-.
      by destruct Hc as [?|[?|?]].
    - intros j [[_ ?]|[Hn Hq]]%insert_case; [done|]. by eapply Hreset.
    - intros j jd y [[_ ?]|[Hn Hq]]%insert_case; [done|]. by apply (Hwr j).
    - exact Hbuf.
    - intros j jd r' q Hj Hp [[-> ->]|[Hn Hq]]%insert_case.
      + right. rewrite Eid in Hj. injection Hj as <-. rewrite Ex in Hp. by injection Hp as <-.
      + by apply (Hdir j jd).
    - intros j [[_ ?]|[Hn Hq]]%insert_case; [done|]. by eapply Hout.
    - unfold returned. cbn. intros j jd y r' Hj Hp [[-> ?]|[Hn Hq]]%insert_case.
      + rewrite Eid in Hj. injection Hj as <-. rewrite Ex in Hp. done.
      + by apply (Hdone j jd). }
  assert (∀ q, critical q → ∀ b, m_lock m = Some i → m_buf m = b → b = b) as _ by done.
  destruct p.
  - (* lock *)
    destruct (m_lock m) as [k|] eqn:El; [done|]. split; cbn.
    + by rewrite insert_length.
    + intros j q [[-> ->]|[Hn Hq]]%insert_case Hc; [done|]. by specialize (Hlock j q Hq Hc).
    + intros j [= <-]. exists PLocked. rewrite list_lookup_insert by done. split; [done|by left].
    + intros j [[_ ?]|[Hn Hq]]%insert_case; [done|]. by eapply Hreset.
    + intros j jd y [[_ ?]|[Hn Hq]]%insert_case; [done|]. by apply (Hwr j).
    + exact Hbuf.
    + intros j jd r' q Hj Hp [[-> ->]|[Hn Hq]]%insert_case; [|by apply (Hdir j jd)].
      rewrite Eid in Hj. injection Hj as <-. congruence.
    + intros j [[_ ?]|[Hn Hq]]%insert_case; [done|]. by eapply Hout.
    + unfold returned. cbn. intros j jd y r' Hj Hp [[_ ?]|[Hn Hq]]%insert_case; [done|]. by apply (Hdone j jd).
  - (* reset *)
    assert (m_lock m = Some i) as El by (apply (Hlock i PLocked); [done|by left]). split; cbn.
    + by rewrite insert_length.
    + intros j q [[-> ->]|[Hn Hq]]%insert_case Hc; [done|]. by apply (Hlock j q).
    + intros j Hj. assert (j = i) as -> by congruence. exists PReset. rewrite list_lookup_insert by done.
      split; [done|by right; left].
    + done.
    + intros j jd y [[_ ?]|[Hn Hq]]%insert_case Hj Hp; [done|].
      assert (m_lock m = Some j) by (apply (Hlock j PWritten); [done|by right; right]). congruence.
    + by left.
    + intros j jd r' q Hj Hp [[-> ->]|[Hn Hq]]%insert_case; [|by apply (Hdir j jd)].
      rewrite Eid in Hj. injection Hj as <-. congruence.
    + intros j [[_ ?]|[Hn Hq]]%insert_case; [done|]. by eapply Hout.
    + unfold returned. cbn. intros j jd y r' Hj Hp [[_ ?]|[Hn Hq]]%insert_case; [done|]. by apply (Hdone j jd).
  - (* write *)
    assert (m_lock m = Some i) as El by (apply (Hlock i PReset); [done|by right; left]).
    assert (m_buf m +:+ x = x) as Eb by (by rewrite (Hreset i Ep), str_app_nil_l). split; cbn.
    + by rewrite insert_length.
    + intros j q [[-> ->]|[Hn Hq]]%insert_case Hc; [done|]. by apply (Hlock j q).
    + intros j Hj. assert (j = i) as -> by congruence. exists PWritten. rewrite list_lookup_insert by done.
      split; [done|by right; right].
    + intros j [[_ ?]|[Hn Hq]]%insert_case; [done|].
      assert (m_lock m = Some j) by (apply (Hlock j PReset); [done|by right; left]). congruence.
    + intros j jd y [[-> _]|[Hn Hq]]%insert_case Hj Hp.
      * rewrite Eid in Hj. injection Hj as <-. rewrite Ex in Hp. injection Hp as <-. done.
      * assert (m_lock m = Some j) by (apply (Hlock j PWritten); [done|by right; right]). congruence.
    + right. exists i, id. by rewrite Eb.
    + intros j jd r' q Hj Hp [[-> ->]|[Hn Hq]]%insert_case; [|by apply (Hdir j jd)].
      rewrite Eid in Hj. injection Hj as <-. congruence.
    + intros j [[_ ?]|[Hn Hq]]%insert_case; [done|]. by eapply Hout.
    + unfold returned. cbn. intros j jd y r' Hj Hp [[_ ?]|[Hn Hq]]%insert_case; [done|]. by apply (Hdone j jd).
  - (* unlock *)
    assert (m_lock m = Some i) as El by (apply (Hlock i PWritten); [done|by right; right]).
    pose proof (Hwr i id x Ep Eid Ex) as Eb.
    destruct inside; split; cbn.
    1, 10: by rewrite insert_length.
    1, 9: intros j q [[-> ->]|[Hn Hq]]%insert_case Hc; [by destruct Hc as [?|[?|?]]|];
      specialize (Hlock j q Hq Hc); congruence.
    1, 8: done.
    1, 7: intros j [[_ ?]|[Hn Hq]]%insert_case; [done|by eapply Hreset].
    1, 6: intros j jd y [[_ ?]|[Hn Hq]]%insert_case; [done|by apply (Hwr j)].
    1, 5: exact Hbuf.
    1, 4: intros j jd r' q Hj Hp [[-> ->]|[Hn Hq]]%insert_case; [|by apply (Hdir j jd)];
      rewrite Eid in Hj; injection Hj as <-; congruence.
    + intros j [[_ ?]|[Hn Hq]]%insert_case; [done|]. by eapply Hout.
    + unfold returned. cbn. intros j jd y r' Hj Hp [[-> [= ->]]|[Hn Hq]]%insert_case; [|by apply (Hdone j jd)].
      rewrite Eid in Hj. injection Hj as <-. rewrite Ex in Hp. injection Hp as <-. rewrite Eb.
      split; [done|]. exists x. split; [done|]. right. by exists i, id.
    + done.
    + unfold returned. cbn. intros j jd y r' Hj Hp [[_ ?]|[Hn Hq]]%insert_case; [done|]. by apply (Hdone j jd).
  - (* sum *)
    assert (inside = false) as Ei by (by apply (Hout i)). unfold set_pc. split; cbn.
    + by rewrite insert_length.
    + intros j q [[-> ->]|[Hn Hq]]%insert_case Hc; [by destruct Hc as [?|[?|?]]|by apply (Hlock j q)].
    + intros j Hj. destruct (Hheld j Hj) as (q & Hq & Hc). exists q. split; [|done].
      rewrite list_lookup_insert_ne; [done|]. intros <-. rewrite Ep in Hq. injection Hq as <-.
      by destruct Hc as [?|[?|?]].
    + intros j [[_ ?]|[Hn Hq]]%insert_case; [done|]. by eapply Hreset.
    + intros j jd y [[_ ?]|[Hn Hq]]%insert_case; [done|]. by apply (Hwr j).
    + exact Hbuf.
    + intros j jd r' q Hj Hp [[-> ->]|[Hn Hq]]%insert_case; [|by apply (Hdir j jd)].
      rewrite Eid in Hj. injection Hj as <-. congruence.
    + intros j [[_ ?]|[Hn Hq]]%insert_case; [done|]. by eapply Hout.
    + unfold returned. cbn. intros j jd y r' Hj Hp [[-> [= ->]]|[Hn Hq]]%insert_case; [|by apply (Hdone j jd)].
      split; [congruence|]. exists (m_buf m). split; [done|exact Hbuf].
  - done.
Qed.
Lemma inv_schedule inside h c ids s : inv inside h c ids (schedule inside h c ids s).
Proof.
  unfold schedule. pose proof (inv_start inside h c ids) as H. revert H. generalize (start ids).
  induction s as [|i s IH]; intros m H; [done|]. cbn. apply IH. by apply inv_move.
Qed.

(** ** one fallback only *)
Definition lonely (c : confD) (ids : list string) : Prop :=
  ∀ i j a b x y, ids !! i = Some a → ids !! j = Some b → prepare c a = inr x → prepare c b = inr y → i = j.
Record inv1 (h : string → string) (c : confD) (ids : list string) (m : mach) : Prop := {
  j_inv : inv false h c ids m;
  j_buf : ∀ i id x, m_pcs m !! i = Some PUnlocked → ids !! i = Some id → prepare c id = inr x → m_buf m = x;
  j_done : ∀ i id r, ids !! i = Some id → returned m i r → r = buildD h c id
}.
Lemma inv1_move h c ids i m : lonely c ids → inv1 h c ids m → inv1 h c ids (move false h c ids i m).
Proof.
  intros HL [I Hb Hd]. split; [by apply inv_move| |].
  - pose proof I as [Hlen Hlock Hheld Hreset Hwr Hbuf Hdir Hout Hdone]. unfold move.
    destruct (ids !! i) as [id|] eqn:Eid; [|done]. destruct (m_pcs m !! i) as [p|] eqn:Ep; [|done].
    intros j jd y. destruct (prepare c id) as [r|x] eqn:Ex.
    { destruct p; try apply Hb. unfold set_pc. cbn. intros [[_ ?]|[Hn Hq]]%insert_case; [done|by apply (Hb j)]. }
    destruct (decide (j = i)) as [->|Hn].
    + destruct p; [destruct (m_lock m)|..]; cbn; try (by apply Hb);
        intros [[_ ?]|[? ?]]%insert_case; try done. intros Hj Hp. by apply (Hwr i jd).
    + intros Hq Hj Hp. exfalso. apply Hn. by eapply HL.
  - intros j jd r Hj Hr. rewrite buildD_prepare.
    destruct (prepare c jd) as [r0|x] eqn:Ex.
    { destruct (i_direct _ _ _ _ _ (inv_move false h c ids i m I) j jd r0 _ Hj Ex Hr); by simplify_eq. }
    assert (returned m j r → r = fallback h c x) as H by (intros Hm; by rewrite (Hd j jd r Hj Hm), buildD_prepare, Ex).
    revert Hr. unfold move.
    destruct (ids !! i) as [id|] eqn:Eid; [|exact H]. destruct (m_pcs m !! i) as [p|] eqn:Ep; [|exact H].
    destruct (prepare c id) as [r1|x1] eqn:Ex1.
    { destruct p; try exact H. unfold returned, set_pc. cbn. intros [[-> _]|[Hn Hq]]%insert_case; [congruence|by apply H]. }
    destruct p; [destruct (m_lock m)|..]; try exact H; unfold returned; cbn;
      intros [[-> Hq]|[Hn Hq]]%insert_case; try done; try (by apply H).
    assert (id = jd) as -> by congruence. injection Hq as ->. by rewrite (Hb i jd x).
Qed.
Lemma inv1_schedule h c ids s : lonely c ids → inv1 h c ids (schedule false h c ids s).
Proof.
  intros HL. unfold schedule.
  assert (inv1 h c ids (start ids)) as H.
  { assert (∀ i p, m_pcs (start ids) !! i = Some p → p = PStart) as H.
    { intros i p. cbn. rewrite list_lookup_fmap. destruct (ids !! i); cbn; [by intros [= <-]|done]. }
    split; [apply inv_start| |].
    - intros i ? ? Hp. by apply H in Hp.
    - intros i id r _ Hp. by apply H in Hp. }
  revert H. generalize (start ids). induction s as [|i s IH]; intros m H; [done|]. cbn. apply IH. by apply inv1_move.
Qed.

Lemma locked_independent h c ids s i id r :
  ids !! i = Some id → returned (schedule true h c ids s) i r → r = buildD h c id.
Proof.
  intros Hi Hr. pose proof (inv_schedule true h c ids s) as I. rewrite buildD_prepare.
  destruct (prepare c id) as [r0|x] eqn:Ex.
  - destruct (i_direct _ _ _ _ _ I i id r0 _ Hi Ex Hr); by simplify_eq.
  - destruct (i_done _ _ _ _ _ I i id x r Hi Ex Hr) as [H _]. by apply H.
Qed.
Lemma any_schedule h c ids s i id r :
  ids !! i = Some id → returned (schedule false h c ids s) i r →
  r = buildD h c id ∨
  ∃ y, r = fallback (λ _, h y) c "" ∧ (y = "" ∨ ∃ j jd, ids !! j = Some jd ∧ buildD h c jd = fallback h c y).
Proof.
  intros Hi Hr. pose proof (inv_schedule false h c ids s) as I.
  destruct (prepare c id) as [r0|x] eqn:Ex.
  - left. rewrite buildD_prepare, Ex. destruct (i_direct _ _ _ _ _ I i id r0 _ Hi Ex Hr); by simplify_eq.
  - right. destruct (i_done _ _ _ _ _ I i id x r Hi Ex Hr) as [_ (y & -> & Hy)]. exists y. split; [done|].
    destruct Hy as [?|(j & jd & Hj & Hp)]; [by left|]. right. exists j, jd. split; [done|].
    by rewrite buildD_prepare, Hp.
Qed.
(** Every goroutine can always finish: while one has not returned, some goroutine can make a move. *)
Lemma never_stuck h c ids s i p :
  m_pcs (schedule false h c ids s) !! i = Some p → (∀ r, p ≠ PDone r) →
  ∃ j, move false h c ids j (schedule false h c ids s) ≠ schedule false h c ids s.
Proof.
  intros Hp Hnd. pose proof (inv_schedule false h c ids s) as I. set (m := schedule false h c ids s) in *.
  assert (∀ j q q', m_pcs m !! j = Some q → q ≠ q' → <[j := q']> (m_pcs m) ≠ m_pcs m) as Hne.
  { intros j q q' Hq Hn E. assert (<[j:=q']> (m_pcs m) !! j = Some q) as H by (by rewrite E).
    rewrite list_lookup_insert in H by (by eapply lookup_lt_Some). congruence. }
  assert (∀ j q, m_pcs m !! j = Some q → critical q → move false h c ids j m ≠ m) as Hcrit.
  { intros j q Hq Hc. assert (j < length ids) as [jd Hj]%lookup_lt_is_Some_2.
    { rewrite <- (i_len _ _ _ _ _ I). by eapply lookup_lt_Some. }
    unfold move. rewrite Hj, Hq. destruct (prepare c jd) as [r|x] eqn:Ex.
    - destruct (i_direct _ _ _ _ _ I j jd r q Hj Ex Hq) as [-> | ->]; by destruct Hc as [?|[?|?]].
    - destruct Hc as [-> |[-> | ->]]; intros E; apply (f_equal m_pcs) in E; cbn in E; by eapply Hne in E. }
  destruct (m_lock m) as [k|] eqn:El.
  - destruct (i_held _ _ _ _ _ I k El) as (q & Hq & Hc). exists k. by eapply Hcrit.
  - assert (i < length ids) as [id Hi]%lookup_lt_is_Some_2.
    { rewrite <- (i_len _ _ _ _ _ I). by eapply lookup_lt_Some. }
    exists i. unfold move. rewrite Hi, Hp. intros E.
    destruct (prepare c id) as [r|x] eqn:Ex.
    + destruct (i_direct _ _ _ _ _ I i id r p Hi Ex Hp) as [-> | ->]; [|by apply (Hnd r)].
      apply (f_equal m_pcs) in E. cbn in E. by eapply Hne in E.
    + destruct p; [rewrite El in E|..]; try (apply (f_equal m_pcs) in E; cbn in E; by eapply Hne in E).
      by apply (Hnd r).
Qed.

(** ** paths which do not depend on the hash function *)
Definition unhashed (c : confD) (id : string) : Prop := ∀ h h', buildD h c id = buildD h' c id.
Lemma one_hashed h c ids s i id r :
  (∀ i j a b, i ≠ j → ids !! i = Some a → ids !! j = Some b → unhashed c a ∨ unhashed c b) →
  ids !! i = Some id → returned (schedule false h c ids s) i r → r = buildD h c id.
Proof.
  intros Hu Hi Hr. pose proof (any_schedule h c ids s i id r Hi Hr) as Hany.
  destruct (prepare c id) as [r0|x] eqn:Ex.
  { pose proof (inv_schedule false h c ids s) as I. rewrite buildD_prepare, Ex.
    destruct (i_direct _ _ _ _ _ I i id r0 _ Hi Ex Hr); by simplify_eq. }
  assert (∀ a y, prepare c a = inr y → unhashed c a → ∀ d d', finish c d = finish c d') as Hconst.
  { intros a y Ha H d d'. specialize (H (λ _, d) (λ _, d')). rewrite !buildD_prepare, Ha in H. exact H. }
  destruct (decide (Exists (λ j, j ≠ i ∧ match ids !! j with Some b => match prepare c b with inr _ => true | inl _ => false end | None => false end = true)
    (seq 0 (length ids)))) as [H|H].
  - apply Exists_exists in H as (j & _ & Hj & H). destruct (ids !! j) as [b|] eqn:Eb; [|done]. destruct (prepare c b) as [|y] eqn:Ey; [done|].
    assert (∀ d d', finish c d = finish c d') as HC.
    { destruct (Hu i j id b (not_eq_sym Hj) Hi Eb) as [HU|HU]; [by apply (Hconst id x)|by apply (Hconst b y)]. }
    destruct Hany as [?|(z & -> & _)]; [done|]. rewrite buildD_prepare, Ex. apply (HC (h z) (h x)).
  - assert (lonely c ids) as HL.
    { assert (∀ j b y, ids !! j = Some b → prepare c b = inr y → j = i) as H1.
      { intros j b y Hb Hy. destruct (decide (j = i)); [done|]. exfalso. apply H. apply Exists_exists. exists j. split.
        - apply elem_of_list_In, in_seq. apply lookup_lt_Some in Hb. lia.
        - split; [done|]. by rewrite Hb, Hy. }
      intros j k a b y z Ha Hb Hy Hz. rewrite (H1 j a y), (H1 k b z) by done. done. }
    by apply (j_done _ _ _ _ (inv1_schedule h c ids s HL) i id r).
Qed.
