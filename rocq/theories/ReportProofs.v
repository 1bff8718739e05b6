From Coq Require Import Ascii ZArith Lia.
From stdpp Require Import base list strings gmap sorting.
From Verif Require Import GoStr ReportModel ReportSpec.

Lemma same_spec a b : same_finding a b = true ↔ says a = says b.
Proof. unfold same_finding, says. rewrite bool_decide_eq_true. split; [by intros (-> & -> & ->)|]. by intros [= -> -> ->]. Qed.
Lemma same_false a b : same_finding a b = false ↔ says a ≠ says b.
Proof. rewrite <- same_spec. by destruct (same_finding a b). Qed.
Global Instance says_dec a b : Decision (says a = says b).
Proof. unfold says. apply _. Defined.

(** * CompactFunc *)
Lemma compact_from_sub p l : compact_from p l ⊆ l.
Proof.
  revert p. induction l as [|e l IH]; intros p x; cbn [compact_from]; [done|]. destruct (same_finding p e).
  - intros H. apply elem_of_list_further. by apply (IH e).
  - intros H. apply elem_of_cons in H as [-> |H]; [apply elem_of_list_here|]. apply elem_of_list_further. by apply (IH e).
Qed.
Lemma compact_from_says p l t : t ∈ says <$> l → t = says p ∨ t ∈ says <$> compact_from p l.
Proof.
  revert p. induction l as [|e l IH]; intros p; [intros H; by apply elem_of_nil in H|]. cbn [compact_from].
  rewrite fmap_cons, elem_of_cons. destruct (same_finding p e) eqn:E.
  - apply same_spec in E. intros [-> |H]; [by left|]. destruct (IH e H) as [-> |H']; [by left|by right].
  - rewrite fmap_cons, elem_of_cons. intros [-> |H]; [right; by left|]. destruct (IH e H) as [-> |H']; [right; by left|right; by right].
Qed.
Lemma compact_sub l : compact_func l ⊆ l.
Proof.
  destruct l as [|e l]; [done|]. intros x H. cbn [compact_func] in H. apply elem_of_cons in H as [-> |H]; [apply elem_of_list_here|].
  apply elem_of_list_further. by apply (compact_from_sub e).
Qed.
Lemma compact_says l t : t ∈ says <$> compact_func l ↔ t ∈ says <$> l.
Proof.
  split.
  - intros H. apply elem_of_list_fmap in H as (x & -> & Hx). apply elem_of_list_fmap. exists x. split; [done|]. by apply compact_sub.
  - destruct l as [|e l]; [done|]. cbn [compact_func]. rewrite !fmap_cons, !elem_of_cons. intros [-> |H]; [by left|].
    destruct (compact_from_says e l t H) as [-> |H']; [by left|by right].
Qed.
(** Equal findings stand together. *)
Fixpoint grouped (l : list verr) : Prop :=
  match l with
  | [] => True
  | e :: l' => (says e ∈ says <$> l' → ∃ h t, l' = h :: t ∧ says h = says e) ∧ grouped l'
  end.
Lemma compact_from_fresh p l : grouped (p :: l) → says p ∉ says <$> compact_from p l.
Proof.
  revert p. induction l as [|e l IH]; intros p; cbn [grouped compact_from].
  - intros _ H. by apply elem_of_nil in H.
  - intros [H1 [H2 H3]]. destruct (same_finding p e) eqn:E.
    + apply same_spec in E. rewrite E. apply IH. by split.
    + apply same_false in E. rewrite fmap_cons, elem_of_cons. intros [H|H]; [done|].
      destruct H1 as (h & t & [= <- <-] & Hh); [|by rewrite Hh in E].
      rewrite fmap_cons. apply elem_of_list_further. apply elem_of_list_fmap in H as (x & Hx & Hx'). apply elem_of_list_fmap.
      exists x. split; [done|]. by apply (compact_from_sub e).
Qed.
Lemma compact_from_nodup p l : grouped (p :: l) → NoDup (says <$> compact_from p l).
Proof.
  revert p. induction l as [|e l IH]; intros p; cbn [compact_from]; [intros _; apply NoDup_nil_2|]. intros [H1 H2].
  destruct (same_finding p e); [by apply IH|]. rewrite fmap_cons. apply NoDup_cons. split; [by apply compact_from_fresh|by apply IH].
Qed.
Lemma compact_nodup l : grouped l → NoDup (says <$> compact_func l).
Proof.
  destruct l as [|e l]; [intros _; apply NoDup_nil_2|]. intros H. cbn [compact_func]. rewrite fmap_cons. apply NoDup_cons.
  split; [by apply compact_from_fresh|by apply compact_from_nodup].
Qed.

(** * the comparison *)
Global Instance str_lt_dec a b : Decision (str_lt a b).
Proof. unfold str_lt. apply _. Defined.
Lemma str_lt_compare a b : String.compare a b = Lt ↔ str_lt a b.
Proof. unfold str_lt, String.ltb. by destruct (String.compare a b). Qed.
Lemma sort_neg a b : (validation_sort a b < 0)%Z ↔ is_root a ≠ is_root b ∨ str_lt (sort_key a) (sort_key b).
Proof.
  unfold validation_sort. destruct (Bool.eqb (is_root a) (is_root b)) eqn:E.
  - apply eqb_prop in E. rewrite <- str_lt_compare. destruct (String.compare _ _); split; try lia; try tauto; try (intros [?|?]; [done|done]).
  - apply eqb_false_iff in E. split; [by left|lia].
Qed.
Lemma says_root a b : says a = says b → is_root a = is_root b.
Proof. unfold says, is_root. by intros [= -> _ _]. Qed.
Lemma says_key a b : says a = says b → sort_key a = sort_key b.
Proof. unfold says, sort_key. by intros [= -> -> ->]. Qed.
Lemma lt_irrefl a : ¬ str_lt a a.
Proof. rewrite str_lt_le. tauto. Qed.
Lemma le_antisym a b : str_le a b → str_le b a → a = b.
Proof. intros H1 H2. destruct (decide (a = b)) as [|Hn]; [done|]. unfold str_le in *. by apply String.leb_antisym. Qed.
Lemma le_total a b : str_le a b ∨ str_le b a.
Proof. unfold str_le. apply String.leb_total. Qed.
Lemma not_lt a b : ¬ str_lt a b ↔ str_le b a.
Proof.
  rewrite str_lt_le. split.
  - intros H. destruct (le_total a b) as [Hab|Hba]; [|done]. destruct (decide (a = b)) as [-> |Hn]; [done|]. by contradiction H.
  - intros H [H1 H2]. apply H2. by apply le_antisym.
Qed.
Lemma le_trans a b c : str_le a b → str_le b c → str_le a c.
Proof.
  intros H1 H2. destruct (decide (str_le a c)) as [|Hn]; [done|]. exfalso.
  assert (str_lt c a) as H3. { destruct (decide (str_lt c a)) as [|Hx]; [done|]. by apply not_lt in Hx. }
  apply str_leb_compare in H1. unfold str_lt, String.ltb in H3. destruct (String.compare c a) eqn:E; try done.
  pose proof (compare_trans_lt c a b E) as HT.
  destruct (String.compare a b) eqn:E1; [|specialize (HT eq_refl)|done].
  - apply String.compare_eq_iff in E1 as ->. apply (proj2 (not_lt c b)) in H2. apply H2. by apply str_lt_compare.
  - apply (proj2 (not_lt c b)) in H2. apply H2. by apply str_lt_compare.
Qed.
Lemma lt_trans a b c : str_lt a b → str_lt b c → str_lt a c.
Proof. rewrite <- !str_lt_compare. apply compare_trans_lt. Qed.

(** * insertion sort *)
(** The state of the insertion sort, from right to left. *)
Fixpoint good (l : list verr) : Prop :=
  match l with
  | [] => True
  | e :: l' => (∀ x, x ∈ l' → is_root x = is_root e → str_le (sort_key x) (sort_key e)) ∧
               (says e ∈ says <$> l' → ∃ h t, l' = h :: t ∧ says h = says e) ∧ good l'
  end.
Lemma good_grouped l : good l → grouped l.
Proof. induction l as [|e l IH]; [done|]. intros (_ & H & HG). split; [done|auto]. Qed.
Lemma insert_left_perm x l : insert_left x l ≡ₚ x :: l.
Proof.
  induction l as [|y l IH]; [done|]. cbn [insert_left]. destruct (validation_sort x y <? 0)%Z; [|done].
  rewrite IH. apply Permutation_swap.
Qed.
Lemma insert_left_good x l : (∀ y, y ∈ l → sort_key y = sort_key x → says y = says x) → good l → good (insert_left x l).
Proof.
  induction l as [|y l IH]; intros Hu HG.
  - cbn. split; [intros ? H; by apply elem_of_nil in H|]. split; [intros H; by apply elem_of_nil in H|done].
  - cbn [insert_left]. destruct HG as (H1 & H2 & H3). destruct (validation_sort x y <? 0)%Z eqn:E.
    + apply Z.ltb_lt, sort_neg in E.
      assert (good (insert_left x l)) as IH' by (apply IH; [|done]; intros z Hz; apply Hu; by apply elem_of_list_further).
      assert (says x ≠ says y) as Hxy.
      { intros Hs. destruct E as [E|E]; [by apply E, says_root|]. rewrite (says_key _ _ Hs) in E. by apply lt_irrefl in E. }
      cbn [good]. split; [|split; [|done]].
      * intros z Hz Hr. rewrite insert_left_perm in Hz. apply elem_of_cons in Hz as [-> |Hz]; [|auto].
        destruct E as [E|E]; [done|]. by apply str_lt_le in E as [? _].
      * intros Hin. assert (says y ∈ says <$> l) as Hin'.
        { apply elem_of_list_fmap in Hin as (z & Hz & Hz'). rewrite insert_left_perm in Hz'.
          apply elem_of_cons in Hz' as [-> |Hz']; [by rewrite Hz in Hxy|]. apply elem_of_list_fmap. by exists z. }
        destruct (H2 Hin') as (h & t & -> & Hh). cbn [insert_left].
        destruct (validation_sort x h <? 0)%Z eqn:E2; [by exists h, (insert_left x t)|].
        exfalso. apply Z.ltb_ge in E2. assert (¬ (validation_sort x h < 0)%Z) as E3 by lia. apply E3, sort_neg.
        by rewrite (says_root _ _ Hh), (says_key _ _ Hh).
    + apply Z.ltb_ge in E. assert (¬ (validation_sort x y < 0)%Z) as E' by lia. rewrite sort_neg in E'.
      assert (is_root x = is_root y) as Er by (destruct (is_root x), (is_root y); try done; exfalso; apply E'; by left).
      assert (str_le (sort_key y) (sort_key x)) as Ek by (apply not_lt; intros H; apply E'; by right).
      cbn [good]. split; [|split; [|done]].
      * intros z Hz Hr. apply elem_of_cons in Hz as [-> |Hz]; [done|]. eapply le_trans; [|exact Ek]. apply H1; [done|congruence].
      * intros Hin. exists y, l. split; [done|]. rewrite fmap_cons, elem_of_cons in Hin. destruct Hin as [Hin|Hin]; [done|].
        apply elem_of_list_fmap in Hin as (z & Hz & Hz').
        assert (str_le (sort_key z) (sort_key y)) as Hzy. { apply H1; [done|]. rewrite <- Er. symmetry. by apply says_root. }
        apply Hu; [apply elem_of_list_here|]. apply le_antisym; [done|]. by rewrite (says_key _ _ Hz).
Qed.
Lemma insertion_inv l acc : (∀ a b, a ∈ acc ++ l → b ∈ acc ++ l → sort_key a = sort_key b → says a = says b) → good acc →
  good (foldl (λ acc x, insert_left x acc) acc l) ∧ foldl (λ acc x, insert_left x acc) acc l ≡ₚ acc ++ l.
Proof.
  revert acc. induction l as [|x l IH]; intros acc Hu HG; cbn [foldl]; [by rewrite app_nil_r|].
  assert (insert_left x acc ++ l ≡ₚ acc ++ x :: l) as HP by (rewrite insert_left_perm; apply Permutation_middle).
  destruct (IH (insert_left x acc)) as [G P].
  - intros a b Ha Hb. apply Hu; [by rewrite <- HP|by rewrite <- HP].
  - apply insert_left_good; [|done]. intros y Hy. apply Hu; apply elem_of_app; [by left|right; apply elem_of_list_here].
  - split; [done|]. by rewrite P, HP.
Qed.
(** The definition of grouping by positions, which is symmetric. *)
Definition together (l : list verr) : Prop :=
  ∀ i k j a b c, i < k → k < j → l !! i = Some a → l !! k = Some b → l !! j = Some c → says a = says c → says b = says a.
Lemma grouped_together l : grouped l → together l.
Proof.
  induction l as [|e l IH]; [intros _ i k j a b c _ _ H; by rewrite lookup_nil in H|]. intros [H1 H2] i k j a b c Hik Hkj Ha Hb Hc Hac.
  destruct k as [|k]; [lia|]. destruct j as [|j]; [lia|]. cbn in Hb, Hc. destruct i as [|i].
  - cbn in Ha. injection Ha as <-.
    assert (says e ∈ says <$> l) as Hin by (rewrite Hac; apply elem_of_list_fmap; exists c; split; [done|by eapply elem_of_list_lookup_2]).
    destruct (H1 Hin) as (h & t & -> & Hh). destruct k as [|k]; [cbn in Hb; by injection Hb as <-|].
    rewrite <- Hh. apply (IH H2 0 (S k) j h b c); [lia|lia|done|done|done|by rewrite Hh].
  - cbn in Ha. by apply (IH H2 i k j a b c); [lia|lia|..].
Qed.
Lemma together_grouped l : together l → grouped l.
Proof.
  induction l as [|e l IH]; [done|]. intros H. split.
  - intros Hin. apply elem_of_list_fmap in Hin as (c & Hc & Hin). apply elem_of_list_lookup in Hin as [j Hj].
    destruct l as [|h t]; [done|]. exists h, t. split; [done|]. destruct j as [|j]; [cbn in Hj; by injection Hj as <-|].
    by apply (H 0 1 (S (S j)) e h c); [lia|lia|..].
  - apply IH. intros i k j a b c Hik Hkj Ha Hb Hc Hac. by apply (H (S i) (S k) (S j) a b c); [lia|lia|..].
Qed.
Lemma lookup_reverse (l : list verr) i a : reverse l !! i = Some a → i < length l ∧ l !! (length l - S i) = Some a.
Proof.
  intros H. assert (i < length l) as Hi by (apply lookup_lt_Some in H; by rewrite reverse_length in H). split; [done|].
  by rewrite reverse_lookup in H.
Qed.
Lemma together_reverse l : together l → together (reverse l).
Proof.
  intros H i k j a b c Hik Hkj Ha Hb Hc Hac.
  apply lookup_reverse in Ha as [Hi Ha]. apply lookup_reverse in Hb as [Hk Hb]. apply lookup_reverse in Hc as [Hj Hc].
  rewrite Hac. by apply (H (length l - S j) (length l - S k) (length l - S i) c b a); [lia|lia|..].
Qed.
Lemma insertion_once l : unambiguous l → NoDup (says <$> compact insertion_sort l).
Proof.
  intros Hu. destruct (insertion_inv l []) as [HG _]; [exact Hu|done|]. apply compact_nodup, together_grouped, together_reverse, grouped_together, good_grouped, HG.
Qed.
Lemma insertion_perm l : unambiguous l → insertion_sort l ≡ₚ l.
Proof. intros Hu. unfold insertion_sort. rewrite reverse_Permutation. by apply (insertion_inv l []). Qed.

(** * any sort *)
Lemma uniform_root l a b : uniform l → a ∈ l → b ∈ l → is_root a = is_root b.
Proof.
  intros H Ha Hb. unfold is_root. destruct (has_prefix "storage root" (e_ctx a)) eqn:Ea, (has_prefix "storage root" (e_ctx b)) eqn:Eb; try done.
  - apply has_prefix_spec in Ea as [t Ea]. destruct (H a b t Ha Hb Ea) as [u Hu]. assert (has_prefix "storage root" (e_ctx b) = true) as HT by (apply has_prefix_spec; by exists u). congruence.
  - apply has_prefix_spec in Eb as [t Eb]. destruct (H b a t Hb Ha Eb) as [u Hu]. assert (has_prefix "storage root" (e_ctx a) = true) as HT by (apply has_prefix_spec; by exists u). congruence.
Qed.
Lemma uniform_consistent l : uniform l → consistent l.
Proof.
  intros H.
  assert (∀ a b, a ∈ l → b ∈ l → (validation_sort a b < 0)%Z ↔ str_lt (sort_key a) (sort_key b)) as HS.
  { intros a b Ha Hb. rewrite sort_neg. pose proof (uniform_root l a b H Ha Hb). tauto. }
  split; [|split].
  - intros a Ha. rewrite (HS a a Ha Ha). apply lt_irrefl.
  - intros a b c Ha Hb Hc. rewrite (HS a b Ha Hb), (HS b c Hb Hc), (HS a c Ha Hc). apply lt_trans.
  - intros a b c Ha Hb Hc. rewrite (HS a b Ha Hb), (HS b a Hb Ha), (HS b c Hb Hc), (HS c b Hc Hb), (HS a c Ha Hc), (HS c a Hc Ha), !not_lt.
    intros H1 H2 H3 H4. split; by eapply le_trans.
Qed.
Lemma consistent_uniform l a b : consistent l → a ∈ l → b ∈ l → is_root a = is_root b.
Proof.
  intros (H1 & H2 & _) Ha Hb. destruct (decide (is_root a = is_root b)) as [|Hn]; [done|]. exfalso. apply (H1 a Ha).
  apply (H2 a b a Ha Hb Ha); apply sort_neg; left; [done|by apply not_eq_sym].
Qed.
Lemma sorted_once srt l : sort_contract srt → uniform l → unambiguous l → NoDup (says <$> compact srt l).
Proof.
  intros HS Hun Hu. destruct (HS l) as [HP HO]. specialize (HO (uniform_consistent l Hun)).
  apply compact_nodup, together_grouped. intros i k j a b c Hik Hkj Ha Hb Hc Hac.
  assert (a ∈ l) as Ia by (rewrite <- HP; by eapply elem_of_list_lookup_2).
  assert (b ∈ l) as Ib by (rewrite <- HP; by eapply elem_of_list_lookup_2).
  assert (c ∈ l) as Ic by (rewrite <- HP; by eapply elem_of_list_lookup_2).
  assert (∀ x y, ¬ (validation_sort y x < 0)%Z → str_le (sort_key x) (sort_key y)) as HL.
  { intros x y Hxy. apply not_lt. intros HH. apply Hxy, sort_neg. by right. }
  pose proof (HL _ _ (HO i k a b Hik Ha Hb)) as L1. pose proof (HL _ _ (HO k j b c Hkj Hb Hc)) as L2.
  rewrite <- (says_key _ _ Hac) in L2. apply Hu; [done|done|]. by apply le_antisym.
Qed.
Definition key_sort (l : list verr) : list verr := merge_sort (λ a b, str_le (sort_key a) (sort_key b)) l.
Lemma key_sort_contract : sort_contract key_sort.
Proof.
  intros l. split; [apply merge_sort_Permutation|]. intros Hc i j a b Hij Ha Hb.
  assert (StronglySorted (λ a b, str_le (sort_key a) (sort_key b)) (key_sort l)) as HS.
  { apply StronglySorted_merge_sort; [intros x y z; apply le_trans|]. intros x y. apply le_total. }
  assert (str_le (sort_key a) (sort_key b)) as HL.
  { revert i j Hij Ha Hb. induction HS as [|x r HS IH HF]; intros i j Hij Ha Hb; [by rewrite lookup_nil in Ha|].
    destruct j as [|j]; [lia|]. cbn in Hb. destruct i as [|i].
    - cbn in Ha. injection Ha as <-. by apply (Forall_lookup_1 _ _ _ _ HF Hb).
    - cbn in Ha. apply (IH i j); [lia|done|done]. }
  assert (key_sort l ≡ₚ l) as HP by apply merge_sort_Permutation.
  rewrite sort_neg. intros [H|H].
  - apply H. apply (consistent_uniform l); [done| |]; rewrite <- HP; by eapply elem_of_list_lookup_2.
  - by apply not_lt in HL.
Qed.

(** * counting *)
Lemma count_defined l : (∀ e, e ∈ l → e_code e ≠ "") → ∃ n, count_errors l = Some n ∧ (n = 0 ↔ ∀ e, e ∈ l → ¬ is_error (e_code e)).
Proof.
  induction l as [|e l IH]; intros H.
  - exists 0. split; [done|]. split; [|done]. intros _ e He. by apply elem_of_nil in He.
  - destruct IH as (n & Hn & HI); [intros x Hx; apply H; by apply elem_of_list_further|]. cbn [count_errors].
    pose proof (H e (elem_of_list_here _ _)) as He. destruct (e_code e) as [|c r] eqn:E; [done|]. rewrite Hn. cbn.
    destruct (decide (c = "E"%char)) as [->|Hc].
    + exists (S n). split; [done|]. split; [done|]. intros HA. exfalso. apply (HA e (elem_of_list_here _ _)). rewrite E. by exists r.
    + exists n. split; [done|]. rewrite HI. split.
      * intros HA x Hx. apply elem_of_cons in Hx as [-> |Hx]; [|auto]. rewrite E. intros [r' [= ]]. done.
      * intros HA x Hx. apply HA. by apply elem_of_list_further.
Qed.
Lemma codes_class known code : known = codes10 ∨ known = codes11 → code ∈ known → is_error code ∨ is_warning code.
Proof.
  assert (∀ k, forallb (λ c, match c with String c _ => bool_decide (c = "E"%char) || bool_decide (c = "W"%char) | _ => false end) k = true →
    code ∈ k → is_error code ∨ is_warning code) as H.
  { intros k Hk Hi. apply elem_of_list_In in Hi. apply (proj1 (forallb_forall _ _) Hk) in Hi. destruct code as [|c r]; [done|].
    apply orb_true_iff in Hi as [Hi|Hi]; apply bool_decide_eq_true in Hi as ->; [left|right]; by exists r. }
  intros [-> | ->]; apply H; by vm_compute.
Qed.
Lemma code_class version code :
  (is_error code → is_error (validation_code version code)) ∧ (is_warning code → is_warning (validation_code version code)) ∧
  validation_code version code ≠ "".
Proof.
  unfold validation_code. set (known := if decide (version = "1.1") then codes11 else codes10).
  assert (known = codes10 ∨ known = codes11) as Hk by (unfold known; destruct (decide _); auto).
  destruct (decide (code ∈ known)) as [Hi|_].
  { split; [done|]. split; [done|]. intros ->. destruct (codes_class known "" Hk Hi) as [[r [=]]|[r [=]]]. }
  destruct (decide (version ≠ "1.1" ∧ code = "E104")) as [[_ ->]|_].
  { split; [intros _; by eexists|]. split; [by intros [r [=]]|done]. }
  destruct code as [|c r]; [split; [by intros [r [=]]|split; [by intros [r [=]]|done]]|].
  destruct (decide (c = "W"%char)) as [->|Hc].
  - split; [by intros [? [=]]|]. split; [intros _; by eexists|done].
  - split; [intros _; by eexists|]. split; [|done]. intros [r' Hr']. by injection Hr' as ->.
Qed.

(** * sorted lists *)
Lemma search_inv fuel l v i j : ordered l → i ≤ j → j ≤ length l → j - i < fuel →
  (∀ k a, k < i → l !! k = Some a → str_lt a v) → (∀ k a, j ≤ k → l !! k = Some a → str_le v a) →
  let r := search_loop fuel l v i j in
  r ≤ length l ∧ (∀ k a, k < r → l !! k = Some a → str_lt a v) ∧ (∀ k a, r ≤ k → l !! k = Some a → str_le v a).
Proof.
  intros Ho. revert i j. induction fuel as [|fuel IH]; intros i j Hij Hj Hf H1 H2; [lia|]. cbn [search_loop].
  destruct (i <? j) eqn:E.
  - apply Nat.ltb_lt in E. set (h := Nat.div2 (i + j)).
    assert (i ≤ h ∧ h < j) as [Hh1 Hh2].
    { unfold h. pose proof (Nat.div2_odd (i + j)) as HD. destruct (Nat.odd (i + j)); cbn [Nat.b2n] in HD; lia. }
    destruct (lookup_lt_is_Some_2 l h) as [m Hm]; [lia|]. rewrite Hm. change (default "" (Some m)) with m. cbv zeta.
    destruct (String.ltb m v) eqn:EL.
    + apply IH; [lia|lia|lia| |done]. intros k a Hk Ha. destruct (decide (k = h)) as [->|Hn]; [rewrite Hm in Ha; by injection Ha as <-|].
      assert (str_le a m) as Ham by (apply (Ho k h a m); [lia|done|done]).
      destruct (decide (str_lt a v)) as [|Hx]; [done|]. apply not_lt in Hx. exfalso.
      assert (str_le v m) as Hvm by (by eapply le_trans). apply not_lt in Hvm. by apply Hvm.
    + apply IH; [lia|lia|lia|done|]. intros k a Hk Ha. assert (str_le v m) as Hvm. { apply not_lt. unfold str_lt. by rewrite EL. }
      destruct (decide (k = h)) as [->|Hn]; [rewrite Hm in Ha; by injection Ha as <-|].
      eapply le_trans; [exact Hvm|]. apply (Ho h k m a); [lia|done|done].
  - apply Nat.ltb_ge in E. assert (i = j) as -> by lia. split; [lia|]. by split.
Qed.
Lemma search_spec l v : ordered l →
  let i := fst (binary_search l v) in
  i ≤ length l ∧ (∀ k a, k < i → l !! k = Some a → str_lt a v) ∧ (∀ k a, i ≤ k → l !! k = Some a → str_le v a) ∧
  (snd (binary_search l v) = true ↔ v ∈ l).
Proof.
  intros Ho. cbn [binary_search fst snd].
  destruct (search_inv (S (length l)) l v 0 (length l) Ho) as (H1 & H2 & H3); [lia|lia|lia|intros; lia| |].
  { intros k a Hk Ha. apply lookup_lt_Some in Ha. lia. }
  set (i := search_loop (S (length l)) l v 0 (length l)) in *. split; [done|]. split; [done|]. split; [done|].
  rewrite bool_decide_eq_true. split; [by apply elem_of_list_lookup_2|].
  intros Hv. apply elem_of_list_lookup in Hv as [k Hk]. destruct (decide (k < i)) as [Hlt|Hge].
  { specialize (H2 k v Hlt Hk). by apply lt_irrefl in H2. }
  assert (i < length l) as Hi by (apply lookup_lt_Some in Hk; lia). destruct (lookup_lt_is_Some_2 l i Hi) as [m Hm]. rewrite Hm. f_equal.
  apply le_antisym; [|by apply (H3 i m)]. destruct (decide (i = k)) as [->|Hn]; [rewrite Hk in Hm; injection Hm as <-; apply not_lt, lt_irrefl|].
  apply (Ho i k m v); [lia|done|done].
Qed.
Lemma insert_shape l v i : i ≤ length l →
  <[i := v]> (take (S i) (l ++ [""]) ++ take (length (l ++ [""]) - S i) (drop i (l ++ [""]))) = take i l ++ v :: drop i l.
Proof.
  intros Hi. rewrite app_length. cbn [length].
  assert (take (length l + 1 - S i) (drop i (l ++ [""])) = drop i l) as ->.
  { rewrite drop_app_le by done. rewrite take_app_le by (rewrite drop_length; lia). apply take_ge. rewrite drop_length. lia. }
  destruct (lookup_lt_is_Some_2 (l ++ [""]) i) as [m Hm]; [rewrite app_length; cbn; lia|].
  rewrite (take_S_r _ _ _ Hm). rewrite take_app_le by done. rewrite <- app_assoc. cbn [app].
  rewrite insert_app_r_alt by (rewrite take_length; lia). rewrite take_length.
  replace (i - i `min` length l) with 0 by lia. done.
Qed.
Lemma insert_sorted_eq l v : ordered l → insert_sorted l v = take (fst (binary_search l v)) l ++ v :: drop (fst (binary_search l v)) l.
Proof. intros Ho. unfold insert_sorted. apply insert_shape. by apply search_spec. Qed.
Lemma insert_sorted_perm l v : ordered l → insert_sorted l v ≡ₚ v :: l.
Proof. intros Ho. rewrite insert_sorted_eq by done. rewrite <- Permutation_middle. by rewrite take_drop. Qed.
Lemma insert_sorted_ordered l v : ordered l → ordered (insert_sorted l v).
Proof.
  intros Ho. rewrite insert_sorted_eq by done. destruct (search_spec l v Ho) as (H1 & H2 & H3 & _).
  set (i := fst (binary_search l v)) in *. intros p q a b Hpq Ha Hb.
  assert (∀ k x, (take i l ++ v :: drop i l) !! k = Some x →
    (k < i ∧ l !! k = Some x) ∨ (k = i ∧ x = v) ∨ (i < k ∧ l !! (k - 1) = Some x)) as HL.
  { intros k x Hk. destruct (decide (k < i)) as [Hlt|Hge].
    - left. split; [done|]. rewrite lookup_app_l in Hk by (rewrite take_length; lia). by rewrite lookup_take in Hk.
    - right. rewrite lookup_app_r in Hk by (rewrite take_length; lia). rewrite take_length in Hk.
      replace (i `min` length l) with i in Hk by lia. destruct (decide (k = i)) as [->|Hn].
      + left. rewrite Nat.sub_diag in Hk. cbn in Hk. by injection Hk as <-.
      + right. split; [lia|]. destruct (k - i) as [|m] eqn:E; [lia|]. assert (drop i l !! m = Some x) as Hk' by exact Hk. rewrite lookup_drop in Hk'. by replace (k - 1) with (i + m) by lia. }
  destruct (HL p a Ha) as [[Hp Pa]|[[Hp Pa]|[Hp Pa]]], (HL q b Hb) as [[Hq Qb]|[[Hq Qb]|[Hq Qb]]]; try lia; subst.
  - by apply (Ho p q).
  - apply (H2 p a Hp) in Pa. by apply str_lt_le in Pa as [? _].
  - destruct (decide (p = q - 1)) as [E|Hn]; [rewrite <- E, Pa in Qb; injection Qb as ->; apply not_lt, lt_irrefl|]. apply (Ho p (q - 1)); [lia|done|done].
  - apply (H3 (q - 1)); [lia|done].
  - apply (Ho (p - 1) (q - 1)); [lia|done|done].
Qed.
Lemma insert_at_spec l i v : insert_at l i v = if decide (i ≤ length l) then Some (take i l ++ v :: drop i l) else None.
Proof.
  unfold insert_at. destruct (decide (i = length l)) as [->|Hn].
  - destruct (decide _); [|lia]. rewrite take_ge by done. by rewrite drop_ge by done.
  - destruct (length l <? i) eqn:E; [apply Nat.ltb_lt in E|apply Nat.ltb_ge in E]; destruct (decide _); try lia; [done|]. f_equal.
    destruct (lookup_lt_is_Some_2 l i) as [m Hm]; [lia|]. rewrite (take_S_r _ _ _ Hm), <- app_assoc. cbn [app].
    rewrite insert_app_r_alt by (rewrite take_length; lia). rewrite take_length. by replace (i - i `min` length l) with 0 by lia.
Qed.
Lemma duplicates_spec l d : ∀ seen, ordered seen →
  d ∈ duplicate_digests seen l ↔ (d ∈ l ∧ d ∈ seen) ∨ ∃ i j, i < j ∧ l !! i = Some d ∧ l !! j = Some d.
Proof.
  induction l as [|x l IH]; intros seen Ho; cbn [duplicate_digests].
  - split; [intros H; by apply elem_of_nil in H|]. intros [[H _]|(i & j & _ & H & _)]; [by apply elem_of_nil in H|by rewrite lookup_nil in H].
  - assert ((∃ i j, i < j ∧ (x :: l) !! i = Some d ∧ (x :: l) !! j = Some d) ↔
      (x = d ∧ d ∈ l ∨ ∃ i j, i < j ∧ l !! i = Some d ∧ l !! j = Some d)) as HE.
    { split.
      - intros (i & j & Hij & Hi & Hj). destruct j as [|j]; [lia|]. cbn in Hj. destruct i as [|i].
        + cbn in Hi. injection Hi as ->. left. split; [done|by eapply elem_of_list_lookup_2].
        + right. exists i, j. split; [lia|done].
      - intros [[-> H]|(i & j & Hij & H)].
        + apply elem_of_list_lookup in H as [j Hj]. exists 0, (S j). split; [lia|done].
        + exists (S i), (S j). split; [lia|done]. }
    destruct (search_spec seen x Ho) as (_ & _ & _ & HB). destruct (snd (binary_search seen x)) eqn:E.
    + assert (x ∈ seen) as Hx by (by apply HB). rewrite !elem_of_cons, (IH seen Ho).
      rewrite HE. split.
      * intros [-> |[[H1 H2]|H]]; [left; split; [by left|done]|left; split; [by right|done]|right; by right].
      * intros [[[-> |H1] H2]|[[-> H]|H]]; [by left|right; by left|by left|right; by right].
    + assert (x ∉ seen) as Hx by (intros H; apply HB in H; congruence). rewrite (IH _ (insert_sorted_ordered _ _ Ho)).
      rewrite HE, (insert_sorted_perm seen x Ho), !elem_of_cons. split.
      * intros [[H1 [-> |H2]]|H]; [right; by left|left; split; [by right|done]|right; by right].
      * intros [[[-> |H1] H2]|[[-> H]|H]]; [done|left; split; [done|by right]|left; split; [done|by left]|by right].
Qed.
