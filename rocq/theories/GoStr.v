(** Go string functions used by the modelled code, over Coq byte strings.
    A Coq [string] is a list of bytes, as a Go [string]. *)
From Coq Require Import Ascii.
From Coq Require Import Decimal DecimalString DecimalN DecimalFacts.
From stdpp Require Import base list strings sorting.
From Coq Require Import ZArith Lia.

(** Membership of a byte in a string (the cutset of [strings.TrimLeft]). *)
Fixpoint str_mem (c : ascii) (s : string) : bool :=
  match s with
  | EmptyString => false
  | String d s' => if decide (c = d) then true else str_mem c s'
  end.

(** [strings.HasPrefix(s, p)]. *)
Fixpoint has_prefix (p s : string) : bool :=
  match p, s with
  | EmptyString, _ => true
  | String a p', String b s' => if decide (a = b) then has_prefix p' s' else false
  | String _ _, EmptyString => false
  end.

(** [strings.TrimPrefix(s, p)]. *)
Fixpoint drop_prefix (p s : string) : option string :=
  match p, s with
  | EmptyString, _ => Some s
  | String a p', String b s' => if decide (a = b) then drop_prefix p' s' else None
  | String _ _, EmptyString => None
  end.
Definition trim_prefix (s p : string) : string :=
  match drop_prefix p s with Some t => t | None => s end.

(** [strings.TrimLeft(s, cutset)] for an ASCII cutset. *)
Fixpoint trim_left (s cut : string) : string :=
  match s with
  | EmptyString => EmptyString
  | String c s' => if str_mem c cut then trim_left s' cut else s
  end.

(** [strings.TrimRight(s, cutset)] for an ASCII cutset. *)
Fixpoint trim_right (s cut : string) : string :=
  match s with
  | EmptyString => EmptyString
  | String c s' =>
      match trim_right s' cut with
      | EmptyString => if str_mem c cut then EmptyString else String c EmptyString
      | t => String c t
      end
  end.

(** Last byte of a string, if any ([s[len(s)-1]]). *)
Fixpoint str_last (s : string) : option ascii :=
  match s with
  | EmptyString => None
  | String c EmptyString => Some c
  | String _ s' => str_last s'
  end.
Definition str_head (s : string) : option ascii :=
  match s with EmptyString => None | String c _ => Some c end.

(** [strings.TrimSuffix(s, "/")]. *)
Fixpoint trim_suffix_char (c : ascii) (s : string) : string :=
  match s with
  | EmptyString => EmptyString
  | String d EmptyString => if decide (d = c) then EmptyString else s
  | String d s' => String d (trim_suffix_char c s')
  end.

(** [strings.Split(s, sep)] for a one byte separator: never empty. *)
Fixpoint split_on (c : ascii) (s : string) : list string :=
  match s with
  | EmptyString => [EmptyString]
  | String d s' =>
      if decide (d = c) then EmptyString :: split_on c s'
      else match split_on c s' with
           | [] => [String d EmptyString]
           | w :: ws => String d w :: ws
           end
  end.

(** [strings.Join(l, sep)]. *)
Fixpoint str_join (sep : string) (l : list string) : string :=
  match l with
  | [] => EmptyString
  | [w] => w
  | w :: ws => w +:+ (sep +:+ str_join sep ws)
  end.

Definition slash : ascii := "/"%char.
Definition split_slash : string → list string := split_on slash.
Definition join_slash : list string → string := str_join "/".

(** [strings.ToLower], ASCII letters only. *)
Definition lower_ascii (c : ascii) : ascii :=
  let n := N_of_ascii c in
  if ((65 <=? n) && (n <=? 90))%N then ascii_of_N (n + 32) else c.
Fixpoint to_lower (s : string) : string :=
  match s with
  | EmptyString => EmptyString
  | String c s' => String (lower_ascii c) (to_lower s')
  end.

(** Decimal digits: [fmt.Sprintf("%d", n)] and [strconv.Atoi] on digit strings.
    Integers are unbounded here (Go: 64 bit). *)
Definition dec_of_N (n : N) : string := NilZero.string_of_uint (N.to_uint n).
Definition N_of_dec (s : string) : option N :=
  N.of_uint <$> NilZero.uint_of_string s.

(** [strconv.Atoi] including an optional sign. *)
Definition atoi (s : string) : option Z :=
  match s with
  | String "+" s' => Z.of_N <$> N_of_dec s'
  | String "-" s' => (λ n, (- Z.of_N n)%Z) <$> N_of_dec s'
  | _ => Z.of_N <$> N_of_dec s
  end%char.
Definition dec_of_Z (z : Z) : string :=
  match z with
  | Z0 => "0"
  | Zpos p => dec_of_N (Npos p)
  | Zneg p => "-" +:+ dec_of_N (Npos p)
  end.

Fixpoint str_repeat (c : ascii) (n : nat) : string :=
  match n with O => EmptyString | S n' => String c (str_repeat c n') end.

(** [fmt.Sprintf("%0<w>d", z)]: zero padded to width [w], the sign first. *)
Definition dec_pad (w : nat) (z : Z) : string :=
  match z with
  | Zneg p =>
      let d := dec_of_N (Npos p) in
      "-" +:+ (str_repeat "0" (w - 1 - String.length d) +:+ d)
  | _ =>
      let d := dec_of_Z z in str_repeat "0" (w - String.length d) +:+ d
  end.

(** Byte-lexicographic order: Go's [<] on strings. *)
Definition str_le (a b : string) : Prop := String.leb a b = true.
Definition str_lt (a b : string) : Prop := String.ltb a b = true.
Global Instance str_le_dec a b : Decision (str_le a b).
Proof. unfold str_le; apply _. Defined.
Definition str_sort : list string → list string := merge_sort str_le.

(** * Lemmas *)

Lemma str_app_nil_l s : "" +:+ s = s.
Proof. reflexivity. Qed.
Lemma str_app_nil_r s : s +:+ "" = s.
Proof. induction s as [|c s IH]; [reflexivity|]. unfold String.append; fold String.append. by rewrite IH. Qed.
Lemma str_app_cons c s t : String c s +:+ t = String c (s +:+ t).
Proof. reflexivity. Qed.
Lemma str_app_assoc a b c : a +:+ (b +:+ c) = (a +:+ b) +:+ c.
Proof. induction a as [|x a IH]; [reflexivity|]. rewrite !str_app_cons. by rewrite IH. Qed.
Lemma str_app_inv_l a b c : a +:+ b = a +:+ c → b = c.
Proof. induction a as [|x a IH]; [done|]. rewrite !str_app_cons. intros H; injection H; auto. Qed.
Lemma str_length_app a b : String.length (a +:+ b) = String.length a + String.length b.
Proof. induction a as [|x a IH]; [reflexivity|]. rewrite str_app_cons. simpl. by rewrite IH. Qed.
Lemma str_app_inv_len a b c d :
  String.length a = String.length c → a +:+ b = c +:+ d → a = c ∧ b = d.
Proof.
  revert c; induction a as [|x a IH]; intros [|y c] Hl; simpl in Hl; try lia; intros H.
  - done.
  - rewrite !str_app_cons in H. injection H as -> H. destruct (IH c) as [-> ->]; auto.
Qed.
Lemma str_app_inv_r a b c : a +:+ c = b +:+ c → a = b.
Proof.
  intros H. apply (str_app_inv_len a c b c); [|done].
  assert (String.length (a +:+ c) = String.length (b +:+ c)) by congruence.
  rewrite !str_length_app in *. lia.
Qed.

Lemma has_prefix_spec p s : has_prefix p s = true ↔ ∃ t, s = p +:+ t.
Proof.
  revert s; induction p as [|a p IH]; intros s; simpl.
  - split; [intros _; by exists s|done].
  - destruct s as [|b s].
    + split; [done|]. intros [t Ht]. discriminate.
    + destruct (decide (a = b)) as [->|Hne].
      * rewrite IH. split; intros [t Ht]; exists t.
        -- by rewrite Ht.
        -- rewrite str_app_cons in Ht. by injection Ht.
      * split; [done|]. intros [t Ht]. rewrite str_app_cons in Ht. injection Ht; congruence.
Qed.

Lemma drop_prefix_spec p s t : drop_prefix p s = Some t ↔ s = p +:+ t.
Proof.
  revert s; induction p as [|a p IH]; intros s; simpl.
  - rewrite str_app_nil_l. split; congruence.
  - destruct s as [|b s]; [split; [done|by rewrite str_app_cons]|].
    rewrite str_app_cons. destruct (decide (a = b)) as [->|Hne].
    + rewrite IH. split; [by intros ->|]. intros H; by injection H.
    + split; [done|]. intros H; injection H; congruence.
Qed.
Lemma trim_prefix_app p s : trim_prefix (p +:+ s) p = s.
Proof. unfold trim_prefix. by rewrite (proj2 (drop_prefix_spec p (p +:+ s) s)). Qed.

Lemma str_mem_spec c s : str_mem c s = true ↔ c ∈ list_ascii_of_string s.
Proof.
  induction s as [|d s IH]; simpl.
  - split; [done|]. intros H; by apply elem_of_nil in H.
  - rewrite elem_of_cons, <- IH. destruct (decide (c = d)); naive_solver.
Qed.
Lemma str_mem_app c a b : str_mem c (a +:+ b) = str_mem c a || str_mem c b.
Proof.
  induction a as [|d a IH]; [done|]. rewrite str_app_cons. simpl.
  destruct (decide (c = d)); auto.
Qed.

(** ** split / join *)

Lemma split_on_nonempty c s : split_on c s ≠ [].
Proof.
  destruct s as [|d s]; simpl; [done|]. destruct (decide (d = c)); [done|].
  destruct (split_on c s); done.
Qed.

Lemma join_split c s : str_join (String c "") (split_on c s) = s.
Proof.
  induction s as [|d s IH]; simpl; [done|].
  pose proof (split_on_nonempty c s) as Hne.
  destruct (decide (d = c)) as [->|Hd].
  - destruct (split_on c s) as [|w ws] eqn:E; [done|].
    change (str_join (String c "") ("" :: w :: ws)) with
      ("" +:+ (String c "" +:+ str_join (String c "") (w :: ws))).
    by rewrite IH.
  - destruct (split_on c s) as [|w ws] eqn:E; [done|].
    destruct ws as [|w' ws].
    + simpl in *. by rewrite IH.
    + change (str_join (String c "") (String d w :: w' :: ws)) with
      (String d w +:+ (String c "" +:+ str_join (String c "") (w' :: ws))).
      rewrite str_app_cons. f_equal. exact IH.
Qed.

Lemma split_on_no_sep c s : str_mem c s = false → split_on c s = [s].
Proof.
  induction s as [|d s IH]; simpl; [done|].
  destruct (decide (c = d)) as [->|Hne]; [done|]. intros H.
  destruct (decide (d = c)) as [->|_]; [done|]. by rewrite IH.
Qed.

Lemma split_on_elem_no_sep c s : Forall (λ w, str_mem c w = false) (split_on c s).
Proof.
  induction s as [|d s IH]; simpl; [by repeat constructor|].
  destruct (decide (d = c)) as [->|Hne]; [by constructor|].
  destruct (split_on c s) as [|w ws]; inversion IH as [|?? H1 H2]; subst;
    repeat constructor; simpl; destruct (decide (c = d)); congruence.
Qed.

Lemma split_on_app c w s :
  str_mem c w = false → split_on c (w +:+ String c s) = w :: split_on c s.
Proof.
  induction w as [|d w IH]; intros H.
  - simpl. by destruct (decide (c = c)).
  - rewrite str_app_cons. simpl in *. destruct (decide (c = d)) as [->|Hne]; [done|].
    destruct (decide (d = c)) as [->|_]; [done|]. by rewrite IH.
Qed.

Lemma split_join c l :
  l ≠ [] → Forall (λ w, str_mem c w = false) l →
  split_on c (str_join (String c "") l) = l.
Proof.
  induction l as [|w ws IH]; intros Hne Hall; [done|].
  inversion Hall as [|?? Hw Hws]; subst.
  destruct ws as [|w' ws].
  - simpl. by apply split_on_no_sep.
  - change (str_join (String c "") (w :: w' :: ws)) with
      (w +:+ (String c "" +:+ str_join (String c "") (w' :: ws))).
    change (String c "" +:+ str_join (String c "") (w' :: ws)) with
      (String c (str_join (String c "") (w' :: ws))).
    rewrite split_on_app by done. by rewrite IH.
Qed.

Lemma str_join_cons sep w ws :
  ws ≠ [] → str_join sep (w :: ws) = w +:+ (sep +:+ str_join sep ws).
Proof. by destruct ws. Qed.

Lemma str_join_app sep l1 l2 :
  l1 ≠ [] → l2 ≠ [] → str_join sep (l1 ++ l2) = str_join sep l1 +:+ (sep +:+ str_join sep l2).
Proof.
  intros H1 H2. induction l1 as [|w ws IH]; [done|].
  destruct ws as [|w' ws].
  - simpl app. by rewrite str_join_cons.
  - change ((w :: w' :: ws) ++ l2) with (w :: ((w' :: ws) ++ l2)).
    rewrite (str_join_cons sep w ((w' :: ws) ++ l2)) by done.
    rewrite (str_join_cons sep w (w' :: ws)) by done.
    rewrite IH by done. by rewrite <- !str_app_assoc.
Qed.

Lemma split_slash_join l :
  l ≠ [] → Forall (λ w, str_mem slash w = false) l → split_slash (join_slash l) = l.
Proof. apply split_join. Qed.

Lemma split_slash_inj a b : split_slash a = split_slash b → a = b.
Proof. intros H. rewrite <- (join_split slash a), <- (join_split slash b). by rewrite <- H at 1. Qed.

(** ** order *)

Lemma compare_refl a : String.compare a a = Eq.
Proof. induction a as [|c a IH]; simpl; [done|]. unfold Ascii.compare. by rewrite N.compare_refl. Qed.

Lemma compare_trans_lt a : ∀ b c,
  String.compare a b = Lt → String.compare b c = Lt → String.compare a c = Lt.
Proof.
  induction a as [|x a IH]; intros [|y b] [|z c]; simpl; try done.
  unfold Ascii.compare.
  destruct (N.compare_spec (N_of_ascii x) (N_of_ascii y)) as [E1|E1|E1];
  destruct (N.compare_spec (N_of_ascii y) (N_of_ascii z)) as [E2|E2|E2]; try done;
  destruct (N.compare_spec (N_of_ascii x) (N_of_ascii z)) as [E3|E3|E3]; try done; try lia.
  apply IH.
Qed.

Lemma str_leb_compare a b : String.leb a b = true ↔ String.compare a b ≠ Gt.
Proof. unfold String.leb. destruct (String.compare a b); naive_solver. Qed.

Lemma compare_le_lt a b c :
  String.compare a b ≠ Gt → String.compare b c ≠ Gt → String.compare a c ≠ Gt.
Proof.
  destruct (String.compare a b) eqn:E1; [|destruct (String.compare b c) eqn:E2|done].
  - apply String.compare_eq_iff in E1; by subst.
  - apply String.compare_eq_iff in E2; subst. by rewrite E1.
  - rewrite (compare_trans_lt a b c); done.
  - done.
Qed.

Global Instance str_le_refl : Reflexive str_le.
Proof. intros a. unfold str_le. destruct (String.leb_total a a); done. Qed.
Global Instance str_le_trans : Transitive str_le.
Proof. intros a b c. unfold str_le. rewrite !str_leb_compare. apply compare_le_lt. Qed.
Global Instance str_le_antisymm : AntiSymm (=) str_le.
Proof. intros a b. apply String.leb_antisym. Qed.
Global Instance str_le_total : Total str_le.
Proof. intros a b. apply String.leb_total. Qed.

Lemma str_lt_le a b : str_lt a b ↔ str_le a b ∧ a ≠ b.
Proof.
  unfold str_lt, str_le, String.ltb, String.leb.
  destruct (String.compare a b) eqn:E.
  - apply String.compare_eq_iff in E. naive_solver.
  - split; [|done]. intros _. split; [done|]. intros ->.
    pose proof (compare_refl b). congruence.
  - naive_solver.
Qed.

Lemma str_le_cons c a b : str_le (String c a) (String c b) ↔ str_le a b.
Proof.
  unfold str_le. rewrite !str_leb_compare. simpl.
  unfold Ascii.compare. by rewrite N.compare_refl.
Qed.
Lemma str_le_cons_lt c d a b :
  (N_of_ascii c < N_of_ascii d)%N → str_le (String c a) (String d b).
Proof.
  intros H. unfold str_le. rewrite str_leb_compare. simpl. unfold Ascii.compare.
  apply N.compare_lt_iff in H. by rewrite H.
Qed.
Lemma str_le_cons_inv c d a b :
  str_le (String c a) (String d b) →
  (N_of_ascii c < N_of_ascii d)%N ∨ (c = d ∧ str_le a b).
Proof.
  unfold str_le. rewrite !str_leb_compare. simpl. unfold Ascii.compare.
  destruct (N.compare_spec (N_of_ascii c) (N_of_ascii d)) as [E|E|E]; try done.
  - intros H. right. split; [|done].
    rewrite <- (ascii_N_embedding c), <- (ascii_N_embedding d). by rewrite E.
  - by left.
Qed.
Lemma str_le_nil a : str_le "" a.
Proof. by destruct a. Qed.
Lemma str_le_prefix a b : str_le a (a +:+ b).
Proof.
  induction a as [|c a IH]; [apply str_le_nil|].
  rewrite str_app_cons. by apply str_le_cons.
Qed.

Lemma str_sort_perm l : str_sort l ≡ₚ l.
Proof. apply merge_sort_Permutation. Qed.
Lemma str_sort_sorted l : StronglySorted str_le (str_sort l).
Proof. apply StronglySorted_merge_sort; apply _. Qed.

(** ** decimals *)

Lemma N_to_uint_nonnil n : N.to_uint n ≠ Nil.
Proof.
  intros H. pose proof (DecimalN.Unsigned.of_to n) as E. rewrite H in E.
  simpl in E. subst n. vm_compute in H. discriminate.
Qed.

Lemma N_of_dec_of_N n : N_of_dec (dec_of_N n) = Some n.
Proof.
  unfold N_of_dec, dec_of_N. rewrite NilZero.usu by apply N_to_uint_nonnil.
  simpl. f_equal. apply DecimalN.Unsigned.of_to.
Qed.

Lemma dec_of_N_inj n m : dec_of_N n = dec_of_N m → n = m.
Proof. intros H. pose proof (N_of_dec_of_N n) as E. rewrite H, N_of_dec_of_N in E. by injection E. Qed.

Lemma dec_of_N_digit n :
  ∃ c s, dec_of_N n = String c s ∧ (48 <= N_of_ascii c <= 57)%N ∧ (n ≠ 0%N → c ≠ "0"%char).
Proof.
  unfold dec_of_N.
  pose proof (N_to_uint_nonnil n) as Hnn.
  assert (n ≠ 0%N → ∀ d, N.to_uint n ≠ D0 d) as Hnz.
  { intros Hn d Hd.
    assert (unorm (N.to_uint n) = N.to_uint n) as Hu.
    { rewrite <- DecimalN.Unsigned.to_of, DecimalN.Unsigned.of_to. done. }
    rewrite Hd in Hu. unfold unorm in Hu. simpl in Hu.
    destruct (nzhead d) eqn:En; try discriminate.
    - injection Hu as <-. apply Hn. rewrite <- (DecimalN.Unsigned.of_to n), Hd. reflexivity.
    - by apply nzhead_nonzero in En. }
  destruct (N.to_uint n) as [|d|d|d|d|d|d|d|d|d|d] eqn:E; [done|..]; simpl;
    eexists _, _; (split; [reflexivity|]; split; [vm_compute; split; congruence|]); try done;
    intros H; exfalso; by eapply Hnz.
Qed.

Lemma dec_of_Z_pos n : dec_of_Z (Z.of_N n) = dec_of_N n.
Proof. destruct n; reflexivity. Qed.

Lemma atoi_dec_of_N n : atoi (dec_of_N n) = Some (Z.of_N n).
Proof.
  pose proof (N_of_dec_of_N n) as H.
  destruct (dec_of_N_digit n) as (c & s & E & Hc & _). rewrite E in *.
  unfold atoi. assert (c ≠ "+"%char ∧ c ≠ "-"%char) as [H1 H2].
  { split; intros ->; vm_compute in Hc; destruct Hc as [Hc _]; by apply Hc. }
  destruct c as [[] [] [] [] [] [] [] []]; try (by exfalso; apply H1); try (by exfalso; apply H2);
    rewrite H; reflexivity.
Qed.

Lemma N_of_dec_0 s n : N_of_dec s = Some n → N_of_dec (String "0" s) = Some n.
Proof.
  unfold N_of_dec. unfold NilZero.uint_of_string.
  destruct s as [|c s]; [done|].
  destruct (NilEmpty.uint_of_string (String c s)) as [d|] eqn:E; [|done].
  intros H. simpl in H. injection H as <-.
  change (NilEmpty.uint_of_string (String "0" (String c s))) with
    (option_map D0 (NilEmpty.uint_of_string (String c s))).
  rewrite E. reflexivity.
Qed.
Lemma N_of_dec_zeros k s n : N_of_dec s = Some n → N_of_dec (str_repeat "0" k +:+ s) = Some n.
Proof.
  intros H. induction k as [|k IH]; [done|].
  change (str_repeat "0" (S k) +:+ s) with (String "0" (str_repeat "0" k +:+ s)).
  by apply N_of_dec_0.
Qed.

Lemma str_length_repeat c n : String.length (str_repeat c n) = n.
Proof. induction n; simpl; auto. Qed.
