From Coq Require Import Ascii Lia.
From stdpp Require Import base list strings gmap.
From Verif Require Import ManagerModel ManagerSpec.

(** ** ranks *)
Lemma rank_from_none num cur l n : n ∉ l → rank_from num cur l n = cur.
Proof.
  revert num cur. induction l as [|x l IH]; intros num cur H; [done|]. rewrite not_elem_of_cons in H. destruct H as [Hx H]. cbn.
  destruct (decide (x = n)) as [->|_]; [done|]. by apply IH.
Qed.
Lemma rank_from_some num cur l n i : NoDup l → l !! i = Some n → rank_from num cur l n = num + i.
Proof.
  revert num cur i. induction l as [|x l IH]; intros num cur i Hnd Hi; [done|]. apply NoDup_cons in Hnd as [Hx Hnd]. cbn.
  destruct i as [|i].
  - injection Hi as ->. destruct (decide (n = n)); [|done]. rewrite rank_from_none by done. lia.
  - cbn in Hi. destruct (decide (x = n)) as [->|_]; [by apply elem_of_list_lookup_2 in Hi|].
    rewrite (IH _ _ i) by done. lia.
Qed.
Lemma rank_some l e i : NoDup l → l !! i = Some (fst e) → rank l e = i.
Proof. intros H1 H2. unfold rank. by rewrite (rank_from_some _ _ _ _ i). Qed.

(** ** deletion *)
Fixpoint keep (names : list string) (first : bool) (l : list ext) : list ext :=
  match l with
  | [] => []
  | e :: l' =>
      if decide (fst e ∈ names) then if first then e :: keep names false l' else keep names first l'
      else e :: keep names first l'
  end.
Lemma collect_ge names first num l : Forall (λ i, num ≤ i) (collect names first num l).
Proof.
  revert first num. induction l as [|e l IH]; intros first num; cbn; [by apply Forall_nil|].
  assert (∀ f, Forall (λ i, num ≤ i) (collect names f (S num) l)) as H.
  { intros f. eapply Forall_impl; [apply IH|]. cbn. lia. }
  destruct (decide _); [destruct first|]; try apply H. apply Forall_cons. split; [lia|apply H].
Qed.
Lemma delete_behind rm a l : Forall (λ i, length a ≤ i) rm →
  delete_from_back rm (a ++ l) = a ++ delete_from_back ((λ i, i - length a) <$> rm) l.
Proof.
  intros H. unfold delete_from_back. induction rm as [|i rm IH]; [done|].
  apply Forall_cons in H as [Hi H]. cbn [fmap list_fmap rev]. rewrite !foldl_app. rewrite IH by done. cbn.
  generalize (foldl (λ (l0 : list ext) (i0 : nat), delete i0 l0) l (rev ((λ i0, i0 - length a) <$> rm))). intros l0.
  clear -Hi. revert i Hi. induction a as [|x a IH]; intros i Hi; [by rewrite Nat.sub_0_r|].
  destruct i as [|i]; cbn in *; [lia|]. f_equal. apply IH. lia.
Qed.
Lemma delete_keep names first num l :
  delete_from_back ((λ i, i - num) <$> collect names first num l) l = keep names first l.
Proof.
  revert first num. induction l as [|e l IH]; intros first num; [done|].
  assert (∀ f, delete_from_back ((λ i, i - num) <$> collect names f (S num) l) (e :: l) = e :: keep names f l) as H.
  { intros f. pose proof (collect_ge names f (S num) l) as Hge.
    change (e :: l) with ([e] ++ l). rewrite delete_behind.
    - cbn [app length]. f_equal. rewrite <- list_fmap_compose, <- (IH f (S num)). f_equal.
      apply list_fmap_ext. intros j i _. cbn. lia.
    - apply Forall_fmap. eapply Forall_impl; [exact Hge|]. cbn. lia. }
  cbn [collect keep]. destruct (decide (fst e ∈ names)); [destruct first|]; try apply H.
  rewrite fmap_cons. unfold delete_from_back in *. cbn [rev]. rewrite foldl_app, H. cbn. by rewrite Nat.sub_diag.
Qed.
Lemma exclude_keep srt l names : exclude_extensions srt l names = keep names true (srt (rank names) l).
Proof.
  unfold exclude_extensions. rewrite <- (delete_keep names true 0). f_equal.
  rewrite <- (list_fmap_id (collect _ _ _ _)) at 1. apply list_fmap_ext. intros i x _. cbn. lia.
Qed.

(** ** exclusion *)
Lemma keep_false names l : keep names false l = filter (λ e, fst e ∉ names) l.
Proof.
  induction l as [|e l IH]; [done|]. cbn [keep]. rewrite filter_cons. rewrite IH.
  destruct (decide (fst e ∈ names)), (decide (fst e ∉ names)); done.
Qed.
Lemma keep_others names first l : filter (λ e, fst e ∉ names) (keep names first l) = filter (λ e, fst e ∉ names) l.
Proof.
  revert first. induction l as [|e l IH]; intros first; [done|]. cbn [keep]. rewrite (filter_cons _ e l).
  destruct (decide (fst e ∈ names)), (decide (fst e ∉ names)); try done.
  - destruct first; [|apply IH]. rewrite filter_cons. destruct (decide (fst e ∉ names)); [done|]. apply IH.
  - rewrite filter_cons. destruct (decide (fst e ∉ names)); [|done]. f_equal. apply IH.
Qed.
Lemma members_keep names l : members names (keep names true l) = take 1 (members names l).
Proof.
  unfold members. induction l as [|e l IH]; [done|]. cbn [keep]. rewrite (filter_cons _ e l).
  destruct (decide (fst e ∈ names)) as [H|H]; rewrite filter_cons.
  - destruct (decide (fst e ∈ names)); [|done]. cbn [take]. f_equal. rewrite keep_false.
    clear. induction l as [|x l IH]; [done|]. rewrite filter_cons. destruct (decide (fst x ∉ names)) as [H|H]; [|done].
    rewrite filter_cons. by destruct (decide (fst x ∈ names)).
  - by destruct (decide (fst e ∈ names)).
Qed.
Lemma filter_first {A} (P : A → Prop) `{∀ x, Decision (P x)} l a r :
  filter P l = a :: r → ∃ i, l !! i = Some a ∧ P a ∧ ∀ j b, l !! j = Some b → P b → i ≤ j.
Proof.
  revert r. induction l as [|x l IH]; intros r; [done|]. rewrite filter_cons. destruct (decide (P x)) as [Hx|Hx].
  - intros [= -> _]. exists 0. split; [done|]. split; [done|]. intros. lia.
  - intros (i & Hi & Ha & Hmin)%IH. exists (S i). split; [done|]. split; [done|]. intros [|j] b Hj Hb.
    + injection Hj as ->. done.
    + cbn in Hj. specialize (Hmin j b Hj Hb). lia.
Qed.
Lemma members_perm g l l' : l ≡ₚ l' → members g l ≡ₚ members g l'.
Proof. intros H. unfold members. by rewrite H. Qed.
Lemma earliest_perm g l l' a : l ≡ₚ l' → earliest g l a → earliest g l' a.
Proof.
  intros H (Ha & i & Hi & Hmin). split; [by rewrite <- H|]. exists i. split; [done|].
  intros b j Hb. apply Hmin. by rewrite H.
Qed.
Lemma earliest_members g l l' a : members g l ≡ₚ members g l' → earliest g l a → earliest g l' a.
Proof.
  intros H (Ha & i & Hi & Hmin). pose proof (elem_of_list_lookup_2 _ _ _ Hi) as Hin.
  split.
  - assert (a ∈ members g l') as Hm by (rewrite <- H; by apply elem_of_list_filter).
    by apply elem_of_list_filter in Hm as [_ Hm].
  - exists i. split; [done|]. intros b j Hb Hj. pose proof (elem_of_list_lookup_2 _ _ _ Hj).
    apply (Hmin b); [|done].
    assert (b ∈ members g l) as Hm by (rewrite H; by apply elem_of_list_filter).
    by apply elem_of_list_filter in Hm as [_ Hm].
Qed.

Lemma exclude_others srt l g : sorts srt →
  filter (λ e, fst e ∉ g) (exclude_extensions srt l g) ≡ₚ filter (λ e, fst e ∉ g) l.
Proof. intros Hs. rewrite exclude_keep, keep_others. destruct (Hs (rank g) l) as [Hp _]. by rewrite Hp. Qed.
Lemma exclude_members srt l g : sorts srt → NoDup g →
  (members g l = [] ∧ members g (exclude_extensions srt l g) = []) ∨
  ∃ a, earliest g l a ∧ members g (exclude_extensions srt l g) = [a].
Proof.
  intros Hs Hg. rewrite exclude_keep, members_keep. destruct (Hs (rank g) l) as [Hp Hsorted].
  pose proof (members_perm g _ _ Hp) as Hm. destruct (members g (srt (rank g) l)) as [|a r] eqn:E.
  - left. split; [|done]. by apply Permutation_nil in Hm.
  - right. exists a. split; [|done]. apply (earliest_perm g _ _ _ Hp).
    apply filter_first in E as (i & Hi & Ha & Hmin).
    split; [by eapply elem_of_list_lookup_2|].
    apply elem_of_list_lookup in Ha as [k Hk]. exists k. split; [done|].
    intros b j Hb Hj. apply elem_of_list_lookup in Hb as [m Hb].
    pose proof (Hmin m b Hb (elem_of_list_lookup_2 _ _ _ Hj)) as Hle.
    pose proof (Hsorted i m a b Hle Hi Hb) as Hr.
    by rewrite (rank_some g a k), (rank_some g b j) in Hr.
Qed.
(** Members of another, disjoint group are untouched. *)
Lemma exclude_disjoint srt l g g' : sorts srt → disjoint g' g →
  members g' (exclude_extensions srt l g) ≡ₚ members g' l.
Proof.
  intros Hs Hd.
  assert (∀ l, members g' l = members g' (filter (λ e, fst e ∉ g) l)) as H.
  { intros k. unfold members. symmetry. apply list_filter_filter_l. intros e. apply Hd. }
  rewrite (H (exclude_extensions _ _ _)), (H l). apply members_perm. by apply exclude_others.
Qed.

Definition settled (g : list string) (l l' : list ext) : Prop :=
  (members g l = [] ∧ members g l' = []) ∨ ∃ a, earliest g l a ∧ members g l' = [a].
Lemma settled_before g l0 l l' : members g l0 ≡ₚ members g l → settled g l l' → settled g l0 l'.
Proof.
  intros H [[H1 H2]|(a & Ha & H2)].
  - left. split; [|done]. rewrite H1 in H. by apply Permutation_nil_r in H.
  - right. exists a. split; [|done]. by apply (earliest_members g l).
Qed.
Lemma settled_after g l l' l'' : members g l'' ≡ₚ members g l' → settled g l l' → settled g l l''.
Proof.
  intros H [[H1 H2]|(a & Ha & H2)]; rewrite H2 in H.
  - left. split; [done|]. by apply Permutation_nil_r in H.
  - right. exists a. split; [done|]. by apply Permutation_singleton_r in H.
Qed.
Lemma fold_disjoint srt gs g l : sorts srt → Forall (disjoint g) gs →
  members g (foldl (exclude_extensions srt) l gs) ≡ₚ members g l.
Proof.
  intros Hs. revert l. induction gs as [|g1 gs IH]; intros l HF; [done|]. apply Forall_cons in HF as [Hd HF]. cbn [foldl].
  rewrite IH by done. by apply exclude_disjoint.
Qed.
Lemma fold_settled srt gs l g : sorts srt → Forall (NoDup (A:=string)) gs →
  (∀ i j a b, gs !! i = Some a → gs !! j = Some b → i ≠ j → disjoint a b) → g ∈ gs →
  settled g l (foldl (exclude_extensions srt) l gs).
Proof.
  intros Hs HN HD Hg. apply elem_of_list_split in Hg as (g1 & g2 & ->).
  rewrite foldl_app. cbn [foldl].
  assert (Forall (disjoint g) g1) as H1.
  { apply Forall_forall. intros x [i Hi]%elem_of_list_lookup. apply (HD (length g1) i).
    - by rewrite list_lookup_middle.
    - rewrite lookup_app_l; [done|]. by eapply lookup_lt_Some.
    - apply lookup_lt_Some in Hi. lia. }
  assert (Forall (disjoint g) g2) as H2.
  { apply Forall_forall. intros x [i Hi]%elem_of_list_lookup. apply (HD (length g1) (length g1 + S i)).
    - by rewrite list_lookup_middle.
    - rewrite lookup_app_r by lia. replace (length g1 + S i - length g1) with (S i) by lia. done.
    - lia. }
  eapply settled_after; [by apply fold_disjoint|].
  eapply settled_before; [symmetry; by apply (fold_disjoint srt g1)|].
  apply exclude_members; [done|]. rewrite Forall_forall in HN. apply HN. set_solver.
Qed.
Lemma fold_others srt gs l : sorts srt →
  filter (λ e, Forall (λ g, fst e ∉ g) gs) (foldl (exclude_extensions srt) l gs) ≡ₚ
  filter (λ e, Forall (λ g, fst e ∉ g) gs) l.
Proof.
  intros Hs. enough (∀ P : ext → Prop, ∀ (HP : ∀ x, Decision (P x)), (∀ e g, P e → g ∈ gs → fst e ∉ g) →
    filter P (foldl (exclude_extensions srt) l gs) ≡ₚ filter P l) as H.
  { apply H. intros e g Hf Hg. rewrite Forall_forall in Hf. by apply Hf. }
  intros P HP. revert l. induction gs as [|g gs IH]; intros l Hall; [done|]. cbn [foldl].
  rewrite IH by (intros e g' He Hg'; apply (Hall e); [done|by right]).
  assert (∀ k : list ext, filter P k = filter P (filter (λ e, fst e ∉ g) k)) as H.
  { intros k. symmetry. apply list_filter_filter_l. intros e He. apply (Hall e g He). by left. }
  rewrite (H (exclude_extensions _ _ _)), (H l). by rewrite (exclude_others srt l g Hs).
Qed.
Lemma organize_excl srt gs sort l : sorts srt →
  organize srt (Some gs) sort l ≡ₚ foldl (exclude_extensions srt) l gs.
Proof.
  intros Hs. destruct l as [|e l].
  - cbn [organize]. clear sort. induction gs as [|g gs IH]; [done|]. cbn [foldl].
    assert (exclude_extensions srt [] g = []) as ->; [|done].
    rewrite exclude_keep. destruct (Hs (rank g) []) as [Hp _]. by apply Permutation_nil_r in Hp as ->.
  - unfold organize. destruct sort as [s|]; [|done]. apply Hs.
Qed.
Lemma organize_sort srt sort l : sorts srt → organize srt None sort l ≡ₚ l.
Proof. intros Hs. destruct l as [|e l]; [done|]. unfold organize. destruct sort; [apply Hs|done]. Qed.
Lemma organize_sorted srt excl s l i j a b n m : sorts srt → NoDup s → l ≠ [] → 
  organize srt excl (Some s) l !! i = Some a → organize srt excl (Some s) l !! j = Some b →
  s !! n = Some (fst a) → s !! m = Some (fst b) → n < m → i < j.
Proof.
  intros Hs Hnd Hl Ha Hb Hn Hm Hnm. destruct (decide (i < j)) as [|Hij]; [done|]. exfalso.
  destruct l as [|e l]; [done|]. unfold organize, sort_extensions in Ha, Hb.
  destruct (Hs (rank s) (match excl with Some gs => foldl (exclude_extensions srt) (e :: l) gs | None => e :: l end)) as [_ H].
  specialize (H j i b a ltac:(lia) Hb Ha). rewrite (rank_some s b m), (rank_some s a n) in H by done. lia.
Qed.

(** A sorting function, for examples: insertion sort. *)
Fixpoint ins (f : ext → nat) (x : ext) (l : list ext) : list ext :=
  match l with
  | [] => [x]
  | y :: l' => if f x <=? f y then x :: l else y :: ins f x l'
  end.
Definition isort : sorter := λ f l, foldr (ins f) [] l.
Lemma ins_perm f x l : ins f x l ≡ₚ x :: l.
Proof.
  induction l as [|y l IH]; [done|]. cbn. destruct (f x <=? f y); [done|]. rewrite IH. apply Permutation_swap.
Qed.
Fixpoint sorted (f : ext → nat) (l : list ext) : Prop :=
  match l with [] => True | x :: l' => Forall (λ y, f x ≤ f y) l' ∧ sorted f l' end.
Lemma ins_sorted f x l : sorted f l → sorted f (ins f x l).
Proof.
  induction l as [|y l IH]; [done|]. cbn. intros [Hy Hl]. destruct (Nat.leb_spec (f x) (f y)) as [H|H]; cbn.
  - split; [|done]. apply Forall_cons. split; [done|]. eapply Forall_impl; [exact Hy|]. cbn. lia.
  - split; [|by apply IH]. rewrite ins_perm. apply Forall_cons. split; [lia|done].
Qed.
Lemma sorted_lookup f l i j a b : sorted f l → i ≤ j → l !! i = Some a → l !! j = Some b → f a ≤ f b.
Proof.
  revert i j. induction l as [|x l IH]; intros i j; [done|]. intros [Hx Hl] Hij Ha Hb.
  destruct i as [|i], j as [|j]; cbn in *; try lia.
  - injection Ha as ->. injection Hb as ->. lia.
  - injection Ha as ->. rewrite Forall_forall in Hx. apply Hx. by eapply elem_of_list_lookup_2.
  - eapply IH; [done| |done|done]. lia.
Qed.
Lemma isort_sorts : sorts isort.
Proof.
  intros f l. split.
  - unfold isort. induction l as [|x l IH]; [done|]. cbn. rewrite ins_perm. by constructor.
  - intros i j a b. apply sorted_lookup. unfold isort. induction l as [|x l IH]; [done|]. cbn. by apply ins_sorted.
Qed.
