(** Layouts 0002, 0006, 0007 and pairtree; configurations after a reload. *)
From Coq Require Import Ascii ZArith Lia.
From stdpp Require Import base list strings gmap.
From Verif Require Import GoStr PathModel Utf8Model Utf8Proofs LayoutModel LayoutSpec LayoutProofs.

Lemma inside_slash p q : inside p q → str_mem slash q = true.
Proof.
  intros [r ->]. rewrite str_mem_app. change ("/" +:+ r) with (String slash r).
  apply orb_true_iff. right. cbn. by destruct (decide _).
Qed.

(** ** 0006 *)
Lemma after_last_some d s r : after_last d s = Some r →
  (∃ a, s = a +:+ (d +:+ r)) ∧
  ∀ a' r', s = a' +:+ (d +:+ r') → String.length r ≤ String.length r'.
Proof.
  revert r. induction s as [|c s IH]; intros r H; cbn [after_last] in H.
  - apply drop_prefix_spec in H. split; [by exists ""|].
    intros a' r' E. apply (f_equal String.length) in H, E. rewrite !str_length_app in *. cbn in *. lia.
  - destruct (after_last d s) as [r0|] eqn:E.
    + injection H as <-. destruct (IH _ eq_refl) as [[a Ha] Hmin]. split.
      * exists (String c a). by rewrite Ha.
      * intros [|x a'] r' E'.
        -- rewrite str_app_nil_l in E'. apply (f_equal String.length) in E', Ha.
           rewrite !str_length_app in *. cbn in *. lia.
        -- rewrite str_app_cons in E'. injection E' as -> E'. by apply (Hmin a').
    + apply drop_prefix_spec in H. split; [by exists ""|].
      assert (∀ a' r', s ≠ a' +:+ (d +:+ r')) as Hno.
      { clear -E. induction s as [|x s IH]; intros a' r' E'.
        - cbn in E. destruct (drop_prefix d "") eqn:Ed; [done|].
          destruct a'; [|done]. rewrite str_app_nil_l in E'.
          by rewrite (proj2 (drop_prefix_spec d "" r') E') in Ed.
        - cbn in E. destruct (after_last d s) eqn:E1; [done|]. destruct a' as [|y a'].
          + rewrite str_app_nil_l in E'.
            by rewrite (proj2 (drop_prefix_spec d (String x s) r') E') in E.
          + rewrite str_app_cons in E'. injection E' as -> E'. by apply (IH eq_refl a' r'). }
      intros [|x a'] r' E'.
      * rewrite str_app_nil_l in E'. rewrite H in E'. apply str_app_inv_l in E'. by subst.
      * rewrite str_app_cons in E'. injection E' as -> E'. by apply Hno in E'.
Qed.
Lemma after_last_none d s : after_last d s = None ↔ ∀ a r, s ≠ a +:+ (d +:+ r).
Proof.
  split.
  - intros E. induction s as [|x s IH]; intros a' r' E'.
    + cbn in E. destruct (drop_prefix d "") eqn:Ed; [done|].
      destruct a'; [|done]. rewrite str_app_nil_l in E'.
      by rewrite (proj2 (drop_prefix_spec d "" r') E') in Ed.
    + cbn in E. destruct (after_last d s) eqn:E1; [done|]. destruct a' as [|y a'].
      * rewrite str_app_nil_l in E'.
        by rewrite (proj2 (drop_prefix_spec d (String x s) r') E') in E.
      * rewrite str_app_cons in E'. injection E' as -> E'. by apply (IH eq_refl a' r').
  - intros H. destruct (after_last d s) as [r|] eqn:E; [|done].
    apply after_last_some in E as [[a Ha] _]. by apply H in Ha.
Qed.

(** [p] is what remains of [id] after the last occurrence of the delimiter. *)
Lemma suffix_unique (a b p q : string) :
  a +:+ p = b +:+ q → String.length p = String.length q → p = q.
Proof.
  intros E L. apply (str_app_inv_len a p b q); [|done].
  apply (f_equal String.length) in E. rewrite !str_length_app in E. lia.
Qed.
Lemma build6_iff d id p : build6 d id = POk p ↔ omit_prefix d id p.
Proof.
  unfold build6, omit_prefix. destruct (after_last d id) as [r|] eqn:E.
  - pose proof (after_last_some _ _ _ E) as [[a Ha] Hmin]. split.
    + intros [= <-]. left. split; [by exists a|done].
    + intros [[[a' Ha'] Hmin']|[Hno _]]; [|by apply Hno in Ha].
      f_equal. pose proof (Hmin _ _ Ha'). pose proof (Hmin' _ _ Ha).
      assert (d +:+ r = d +:+ p) as X%str_app_inv_l; [|done].
      apply (suffix_unique a a').
      * by rewrite <- Ha, <- Ha'.
      * rewrite !str_length_app. lia.
  - rewrite after_last_none in E. split.
    + intros [= <-]. right. done.
    + intros [[[a Ha] _]|[_ ->]]; [by apply E in Ha|done].
Qed.

(** ** 0007 *)
Lemma strip7_spec c id : c7_delim c ≠ "" → omit_prefix (c7_delim c) id (strip7 c id).
Proof.
  intros H. apply build6_iff. unfold strip7, build6. destruct (decide _); [done|].
  by destruct (after_last _ _).
Qed.
Lemma str_repeat_encode n : str_repeat "0" n = encode (replicate n 48%N).
Proof. induction n as [|n IH]; [done|]. cbn. by rewrite IH. Qed.

Lemma encode_rune_length n : 1 ≤ String.length (encode_rune n).
Proof. unfold encode_rune. repeat destruct (_ <? _)%N; repeat case_bool_decide; cbn; lia. Qed.
Lemma encode_length_rev l : String.length (encode (rev l)) = String.length (encode l).
Proof.
  induction l as [|n l IH]; [done|]. cbn [rev encode]. rewrite encode_app, !str_length_app, IH.
  cbn [encode]. rewrite str_app_nil_r. lia.
Qed.

Lemma runes_length s : String.length s ≤ String.length (encode (runes s)).
Proof.
  unfold runes.
  remember (String.length s) as k eqn:Hk. revert s Hk.
  induction (lt_wf k) as [k _ IH]. intros s ->.
  assert (∀ t, String.length t < String.length s →
    String.length t ≤ String.length (encode ((λ o, default rune_error o) <$> decode t))) as IH'.
  { intros t Ht. by apply (IH (String.length t)). }
  clear IH. destruct s as [|a s1]; [done|]. cbn [decode].
  assert (∀ o t, 1 ≤ String.length (encode_rune (default rune_error o)) →
    String.length t ≤ String.length s1 →
    S (String.length t) ≤ String.length (encode ((λ o, default rune_error o) <$> (o :: decode t)))) as H1.
  { intros o t Ho Ht. rewrite fmap_cons. cbn [encode]. rewrite str_length_app.
    specialize (IH' t). cbn [String.length] in IH'. lia. }
  destruct (N.ltb_spec (N_of_ascii a) 128) as [H|H].
  { apply H1; [|done]. apply encode_rune_length. }
  destruct s1 as [|b s2]; [vm_compute; lia|].
  destruct (two_ok a b) eqn:E2.
  { rewrite fmap_cons. cbn [encode]. rewrite str_length_app.
    unfold two_ok, byte_in in E2.
    repeat match goal with X : _ && _ = true |- _ => apply andb_prop in X as [??] end.
    repeat match goal with X : (_ <=? _)%N = true |- _ => apply N.leb_le in X end.
    specialize (IH' s2). cbn [String.length] in *.
    cbn [from_option]. unfold id at 1. unfold encode_rune at 1.
    rewrite (proj2 (N.ltb_ge _ _)) by lia. rewrite (proj2 (N.ltb_lt _ _)) by lia. cbn. lia. }
  destruct s2 as [|c s3].
  { apply H1; [apply encode_rune_length|done]. }
  destruct (three_ok a b c) eqn:E3.
  { pose proof (decode_scalar (String a (String b (String c s3)))) as Hsc. cbn [decode] in Hsc.
    rewrite (proj2 (N.ltb_ge _ _) H), E2, E3 in Hsc. apply Forall_cons in Hsc as [Hsc _].
    rewrite fmap_cons. cbn [encode]. rewrite str_length_app.
    specialize (IH' s3). cbn [String.length] in *.
    cbn [from_option]. unfold id at 1. unfold encode_rune at 1.
    assert (2048 ≤ (N_of_ascii a - 224) * 4096 + (N_of_ascii b - 128) * 64 + (N_of_ascii c - 128))%N as Hge.
    { unfold three_ok in E3. apply andb_prop in E3 as [E3 Ec].
      repeat match goal with X : _ || _ = true |- _ => apply orb_prop in X as [X|X] end;
      unfold byte_in in *;
      repeat match goal with X : _ && _ = true |- _ => apply andb_prop in X as [??] end;
      repeat match goal with X : (_ <=? _)%N = true |- _ => apply N.leb_le in X end; lia. }
    rewrite (proj2 (N.ltb_ge _ _)) by lia. rewrite (proj2 (N.ltb_ge _ _)) by lia.
    rewrite bool_decide_eq_false_2 by (intros X; by apply X).
    destruct (_ <? _)%N; cbn; lia. }
  destruct s3 as [|d s4].
  { apply H1; [apply encode_rune_length|done]. }
  destruct (four_ok a b c d) eqn:E4.
  { pose proof (decode_scalar (String a (String b (String c (String d s4))))) as Hsc. cbn [decode] in Hsc.
    rewrite (proj2 (N.ltb_ge _ _) H), E2, E3, E4 in Hsc. apply Forall_cons in Hsc as [Hsc _].
    rewrite fmap_cons. cbn [encode]. rewrite str_length_app.
    specialize (IH' s4). cbn [String.length] in *.
    cbn [from_option]. unfold id at 1. unfold encode_rune at 1.
    assert (65536 ≤ (N_of_ascii a - 240) * 262144 + (N_of_ascii b - 128) * 4096 +
      (N_of_ascii c - 128) * 64 + (N_of_ascii d - 128))%N as Hge.
    { unfold four_ok in E4. apply andb_prop in E4 as [E4 Ed]. apply andb_prop in E4 as [E4 Ec].
      repeat match goal with X : _ || _ = true |- _ => apply orb_prop in X as [X|X] end;
      unfold byte_in in *;
      repeat match goal with X : _ && _ = true |- _ => apply andb_prop in X as [??] end;
      repeat match goal with X : (_ <=? _)%N = true |- _ => apply N.leb_le in X end; lia. }
    rewrite (proj2 (N.ltb_ge _ _)) by lia. rewrite (proj2 (N.ltb_ge _ _)) by lia.
    rewrite bool_decide_eq_false_2 by (intros X; by apply X).
    rewrite (proj2 (N.ltb_ge _ _)) by lia. cbn. lia. }
  apply H1; [apply encode_rune_length|done].
Qed.
Lemma reverse_length s : String.length s ≤ String.length (reverse s).
Proof. unfold reverse. rewrite encode_length_rev. apply runes_length. Qed.

Lemma base7_length c id :
  (c7_pad c = "right" ∨ c7_pad c = "left") → c7_t c * c7_n c ≤ String.length (base7 c id).
Proof.
  intros Hp. unfold base7.
  assert (c7_t c * c7_n c ≤ String.length
    ((if decide (c7_pad c = "right") then id else "") +:+
     (str_repeat "0" (c7_t c * c7_n c - String.length id) +:+
      (if decide (c7_pad c = "left") then id else "")))) as H.
  { rewrite !str_length_app, str_length_repeat.
    destruct Hp as [-> | ->]; cbn [decide]; repeat destruct (decide _); cbn; try done; lia. }
  destruct (c7_rev c); [|done]. etransitivity; [exact H|apply reverse_length].
Qed.

Lemma build7_ok c id : 0 < c7_t c → (c7_pad c = "right" ∨ c7_pad c = "left") →
  build7 c id = POk (join_slash (tuples (c7_t c) (c7_n c) (base7 c (strip7 c id)) ++ [strip7 c id])).
Proof.
  intros Ht Hp. unfold build7. rewrite (proj2 (Nat.eqb_neq _ _)) by lia.
  rewrite (Nat.mul_comm (c7_t c)), Nat.div_mul by lia.
  pose proof (base7_length c (strip7 c id) Hp).
  rewrite (proj2 (Nat.ltb_ge _ _)) by lia. done.
Qed.

Lemma reverse_zeros n : reverse (str_repeat "0" n) = str_repeat "0" n.
Proof.
  unfold reverse. rewrite str_repeat_encode, runes_encode.
  - f_equal. induction n as [|n IH]; [done|]. cbn [replicate rev]. rewrite IH.
    clear IH. induction n as [|n IH]; [done|]. cbn [replicate app]. by rewrite IH.
  - apply Forall_replicate. left. lia.
Qed.
Lemma build7_panic c id :
  build7 c id = PPanic ↔
    c7_t c = 0 ∨ (c7_pad c ≠ "right" ∧ c7_pad c ≠ "left" ∧ 0 < c7_n c ∧ strip7 c id ≠ "").
Proof.
  destruct (decide (c7_t c = 0)) as [Ht|Ht].
  { unfold build7. rewrite Ht. cbn. split; [by left|done]. }
  destruct (decide (c7_pad c = "right")) as [Hr|Hr].
  { rewrite build7_ok by (first [lia|by left]). split; [done|]. intros [?|[? _]]; done. }
  destruct (decide (c7_pad c = "left")) as [Hl|Hl].
  { rewrite build7_ok by (first [lia|by right]). split; [done|]. intros [?|(_&?&_)]; done. }
  unfold build7. rewrite (proj2 (Nat.eqb_neq _ _)) by lia.
  rewrite (Nat.mul_comm (c7_t c)), Nat.div_mul by lia.
  assert (String.length (base7 c (strip7 c id)) = c7_t c * c7_n c - String.length (strip7 c id)) as ->.
  { unfold base7. destruct (decide _) as [|_]; [done|]. destruct (decide _) as [|_]; [done|].
    rewrite str_app_nil_l, str_app_nil_r.
    destruct (c7_rev c); [rewrite reverse_zeros|]; by rewrite str_length_repeat. }
  destruct (Nat.ltb_spec (c7_t c * c7_n c - String.length (strip7 c id)) (c7_n c * c7_t c)) as [H|H].
  - split; [|done]. intros _. right. split; [done|]. split; [done|].
    split; [destruct (c7_n c); lia|]. intros E. rewrite E in H. cbn in H. lia.
  - split; [done|]. intros [?|(_&_&Hn&Hne)]; [done|]. exfalso.
    destruct (strip7 c id) as [|x s]; [done|]. cbn [String.length] in H.
    assert (0 < c7_n c * c7_t c) by (destruct (c7_n c), (c7_t c); try lia). lia.
Qed.

(** The padded and optionally reversed identifier part, by its runes. *)
Definition padded7 (c : conf7) (l : list N) : list N :=
  padded (bool_decide (c7_pad c = "left")) (c7_rev c) (c7_t c * c7_n c) l.
Lemma base7_encode c l : Forall scalar l → (c7_pad c = "right" ∨ c7_pad c = "left") →
  base7 c (encode l) = encode (padded7 c l).
Proof.
  intros Hl Hp. unfold base7, padded7, padded. rewrite str_repeat_encode.
  set (z := replicate _ _).
  assert (Forall scalar z) as Hz by (apply Forall_replicate; left; lia).
  clearbody z.
  destruct Hp as [E|E]; rewrite E.
  - destruct (decide ("right" = "right")); [|done]. destruct (decide ("right" = "left")); [done|].
    rewrite str_app_nil_r, <- encode_app.
    destruct (c7_rev c); [|done]. unfold reverse. rewrite runes_encode; [done|].
    apply Forall_app; by split.
  - destruct (decide ("left" = "right")); [done|]. destruct (decide ("left" = "left")); [|done].
    rewrite str_app_nil_l, <- encode_app.
    destruct (c7_rev c); [|done]. unfold reverse. rewrite runes_encode; [done|].
    apply Forall_app; by split.
Qed.

Lemma build7_follows c id l :
  0 < c7_t c → (c7_pad c = "right" ∨ c7_pad c = "left") → Forall scalar l → strip7 c id = encode l →
  ∃ es rest p, build7 c id = POk p ∧ path_of (es ++ [strip7 c id]) p ∧
    length es = c7_n c ∧ Forall (λ e, String.length e = c7_t c) es ∧
    cat es +:+ rest = encode (padded7 c l).
Proof.
  intros Ht Hp Hl E. pose proof (base7_length c (strip7 c id) Hp) as Hlen.
  rewrite build7_ok by done. set (b := base7 c (strip7 c id)) in *.
  eexists (tuples (c7_t c) (c7_n c) b), (substring (c7_n c * c7_t c) (String.length b - c7_n c * c7_t c) b), _.
  split; [done|]. split; [apply path_of_join; [apply snoc_ne|done]|].
  split; [apply tuples_length|]. split; [apply tuples_each; lia|].
  rewrite tuples_cat, <- (substring_split 0).
  replace (c7_n c * c7_t c + (String.length b - c7_n c * c7_t c)) with (String.length b) by lia.
  rewrite substring_all. unfold b. rewrite E. by apply base7_encode.
Qed.

(** ** pairtree *)
Lemma str_map_app f a b : str_map f (a +:+ b) = str_map f a +:+ str_map f b.
Proof. induction a as [|c a IH]; [done|]. rewrite !str_app_cons. cbn. by rewrite IH. Qed.
Lemma str_map_length f a : String.length (str_map f a) = String.length a.
Proof. induction a as [|c a IH]; [done|]. cbn. by rewrite IH. Qed.
Lemma convert_no_slash s : str_mem slash (str_map convert s) = false.
Proof.
  induction s as [|c s IH]; [done|]. cbn. destruct (decide (slash = convert c)) as [E|_]; [|done].
  exfalso. unfold convert in E. repeat destruct (decide _); try done; congruence.
Qed.

(** Parts of a string. *)
Definition parts (k : nat) (s : string) : list string := tuples k ((String.length s + (k - 1)) / k) s.
Lemma substring_beyond n m a b : String.length a = n → substring n m (a +:+ b) = substring 0 m b.
Proof.
  revert n. induction a as [|c a IH]; intros n <-; [done|]. rewrite str_app_cons. cbn. by apply IH.
Qed.
Lemma substring_short m s : String.length s ≤ m → substring 0 m s = s.
Proof.
  revert m. induction s as [|c s IH]; intros m H; [by destruct m|].
  destruct m as [|m]; cbn in *; [lia|]. f_equal. apply IH. lia.
Qed.
Lemma substring_split_at n s : n ≤ String.length s →
  s = substring 0 n s +:+ substring n (String.length s - n) s.
Proof.
  intros H. rewrite <- (substring_split 0 n). replace (n + (String.length s - n)) with (String.length s) by lia.
  by rewrite substring_all.
Qed.
Lemma substring_shift n m k s : substring (n + k) m s = substring n m (substring k (String.length s - k) s).
Proof.
  revert n m s. induction k as [|k IH]; intros n m s.
  - rewrite Nat.add_0_r, Nat.sub_0_r, substring_all. done.
  - destruct s as [|c s]; [by destruct n, m, k|]. rewrite Nat.add_succ_r. cbn [substring String.length].
    rewrite IH. done.
Qed.
Lemma parts_nil k : 0 < k → parts k "" = [].
Proof. intros H. unfold parts. cbn. by rewrite Nat.div_small by lia. Qed.
Lemma parts_short k s : 0 < k → s ≠ "" → String.length s ≤ k → parts k s = [s].
Proof.
  intros Hk Hs Hl. unfold parts.
  assert ((String.length s + (k - 1)) / k = 1) as ->.
  { symmetry. apply (Nat.div_unique _ _ _ (String.length s - 1)); destruct s; try done; cbn in *; lia. }
  unfold tuples. cbn. by rewrite substring_short.
Qed.
Lemma parts_app k a b : 0 < k → String.length a = k → parts k (a +:+ b) = a :: parts k b.
Proof.
  intros Hk Ha. unfold parts. rewrite str_length_app, Ha.
  replace (k + String.length b + (k - 1)) with (String.length b + (k - 1) + 1 * k) by lia.
  rewrite Nat.div_add by lia. rewrite Nat.add_1_r. unfold tuples.
  cbn [seq fmap list_fmap]. f_equal.
  - rewrite <- Ha. change (0 * String.length a) with 0. clear.
    induction a as [|c a IH]; [by rewrite substring_zero|]. rewrite str_app_cons. cbn. by rewrite IH.
  - rewrite <- fmap_S_seq, <- list_fmap_compose. apply list_fmap_ext. intros i x _. cbn [compose].
    unfold compose. cbn [Nat.mul]. rewrite Nat.add_comm.
    rewrite substring_shift. f_equal. rewrite str_length_app, Ha.
    replace (k + String.length b - k) with (String.length b) by lia.
    rewrite substring_beyond by done. apply substring_all.
Qed.
Lemma parts_ind k (Hk : 0 < k) (P : string → Prop) :
  P "" → (∀ s, s ≠ "" → String.length s ≤ k → P s) →
  (∀ a b, String.length a = k → b ≠ "" → P b → P (a +:+ b)) → ∀ s, P s.
Proof.
  intros H0 H1 H2 s. remember (String.length s) as m eqn:Hm. revert s Hm.
  induction (lt_wf m) as [m _ IH]. intros s ->.
  destruct (decide (s = "")) as [->|Hs]; [done|].
  destruct (decide (String.length s ≤ k)) as [Hl|Hl]; [by apply H1|].
  rewrite (substring_split_at k s) by lia. apply H2.
  - apply substring_length. lia.
  - intros E. apply (f_equal String.length) in E. rewrite substring_length in E by lia. cbn in E. lia.
  - eapply IH; [|done]. rewrite substring_length; lia.
Qed.
Lemma parts_cat k s : 0 < k → cat (parts k s) = s.
Proof.
  intros Hk. induction s as [|s Hs Hl|a b Ha Hb IHs0] using (parts_ind k Hk).
  - by rewrite parts_nil.
  - rewrite parts_short by done. cbn. by rewrite str_app_nil_r.
  - rewrite parts_app by done. cbn. by rewrite IHs0.
Qed.
Lemma parts_ne k s : 0 < k → s ≠ "" → parts k s ≠ [].
Proof.
  intros Hk Hs E. apply Hs. rewrite <- (parts_cat k s Hk), E. done.
Qed.
Lemma parts_nonempty k s : 0 < k → Forall (λ e, e ≠ "" ∧ String.length e ≤ k) (parts k s).
Proof.
  intros Hk. induction s as [|s Hs Hl|a b Ha Hb IH] using (parts_ind k Hk).
  - by rewrite parts_nil.
  - rewrite parts_short by done. by apply Forall_singleton.
  - rewrite parts_app by done. apply Forall_cons. split; [|done].
    split; [|lia]. intros ->. cbn in Ha. lia.
Qed.
Lemma parts_no_slash k s : str_mem slash s = false → Forall (λ e, str_mem slash e = false) (parts k s).
Proof. apply tuples_no_slash. Qed.

Lemma parts_prefix k a b : 0 < k → a ≠ "" →
  (∃ l, l ≠ [] ∧ parts k b = parts k a ++ l) ↔
  (∃ x, x ≠ "" ∧ b = a +:+ x ∧ Nat.divide k (String.length a)).
Proof.
  intros Hk Ha. split.
  - intros (l & Hl & E).
    assert (∃ x, x ≠ "" ∧ cat l = x ∧ b = a +:+ x) as (x & Hx & Hlx & ->).
    { exists (cat l). split; [|split; [done|]].
      - destruct l as [|e l]; [done|]. pose proof (parts_nonempty k b Hk) as HF.
        rewrite E in HF. apply Forall_app in HF as [_ HF]. apply Forall_cons in HF as [[He _] _].
        cbn. destruct e; done.
      - rewrite <- (parts_cat k b Hk), E, cat_app, parts_cat; done. }
    exists x. split; [done|]. split; [done|]. clear Hlx.
    revert l x Hl Hx E. induction a as [|s Hs Hs'|c d Hc Hd IH] using (parts_ind k Hk); intros l x Hl Hx E.
    + done.
    + rewrite (parts_short k s) in E by done. cbn in E.
      assert (String.length s = k) as ->; [|by exists 1; lia].
      destruct (decide (String.length s = k)) as [|Hne]; [done|]. exfalso.
      destruct (decide (String.length (s +:+ x) ≤ k)) as [Hsx|Hsx].
      * rewrite parts_short in E; [|done| |done].
        -- injection E as E El. by subst l.
        -- destruct s; done.
      * rewrite str_length_app in Hsx.
        rewrite (substring_split_at k (s +:+ x)) in E by (rewrite str_length_app; lia).
        rewrite parts_app in E; [|done|apply substring_length; rewrite str_length_app; lia].
        injection E as E _. apply (f_equal String.length) in E.
        rewrite substring_length in E by (rewrite str_length_app; lia). lia.
    + rewrite (parts_app k c d) in E by done. rewrite <- str_app_assoc in E.
      rewrite parts_app in E by done. cbn in E. injection E as E.
      rewrite str_length_app, Hc. apply Nat.divide_add_r; [done|].
      by apply (IH Hd l x).
  - intros (x & Hx & -> & Hd). exists (parts k x). split; [by apply parts_ne|].
    revert Hd. induction a as [|s Hs Hs'|c d Hc Hdd IH] using (parts_ind k Hk); intros Hd.
    + done.
    + assert (String.length s = k) as E.
      { destruct Hd as [z Hz]. destruct s; [done|]. cbn in *. destruct z as [|[|z]]; lia. }
      rewrite (parts_short k s) by done. by rewrite parts_app.
    + rewrite <- str_app_assoc, (parts_app k c d), (parts_app k c (d +:+ x)) by done. cbn [app]. f_equal. apply IH; [done|].
      rewrite str_length_app, Hc in Hd. apply Nat.divide_add_cancel_r in Hd; done.
Qed.

Lemma buildP_ok c id : 0 < cp_shorty c → buildP c id = POk (join_slash (parts (cp_shorty c) (id_encode id))).
Proof. intros H. unfold buildP, parts. by rewrite (proj2 (Nat.eqb_neq _ _)) by lia. Qed.
Lemma id_encode_no_slash id : str_mem slash (id_encode id) = false.
Proof. apply convert_no_slash. Qed.
Lemma join_parts_ne k s : 0 < k → s ≠ "" → join_slash (parts k s) ≠ "".
Proof.
  intros Hk Hs E. pose proof (parts_ne k s Hk Hs) as Hne. pose proof (parts_nonempty k s Hk) as HF.
  destruct (parts k s) as [|e l]; [done|]. apply Forall_cons in HF as [[He _] _].
  destruct e as [|x e]; [done|]. by destruct l.
Qed.
Lemma pairtree_same c id1 id2 p : 0 < cp_shorty c →
  buildP c id1 = POk p → buildP c id2 = POk p → id_encode id1 = id_encode id2.
Proof.
  intros Hk. rewrite !buildP_ok by done. intros [= <-] [= H].
  destruct (decide (id_encode id1 = "")) as [E1|E1].
  { rewrite E1, parts_nil in H by done. destruct (decide (id_encode id2 = "")) as [E2|E2]; [congruence|].
    by apply join_parts_ne in H. }
  destruct (decide (id_encode id2 = "")) as [E2|E2].
  { rewrite E2, parts_nil in H by done. symmetry in H. by apply join_parts_ne in H. }
  apply join_inj in H; [|by apply parts_ne|by apply parts_ne|apply parts_no_slash, id_encode_no_slash..].
  rewrite <- (parts_cat (cp_shorty c) (id_encode id1)), <- (parts_cat (cp_shorty c) (id_encode id2)) by done.
  by rewrite H.
Qed.
Lemma pairtree_nested c id1 id2 p1 p2 : 0 < cp_shorty c → id_encode id1 ≠ "" →
  buildP c id1 = POk p1 → buildP c id2 = POk p2 →
  inside p1 p2 ↔
    ∃ x, x ≠ "" ∧ id_encode id2 = id_encode id1 +:+ x ∧
         Nat.divide (cp_shorty c) (String.length (id_encode id1)).
Proof.
  intros Hk He. rewrite !buildP_ok by done. intros [= <-] [= <-].
  rewrite <- parts_prefix by done. split.
  - intros H. destruct (decide (id_encode id2 = "")) as [E2|E2].
    { apply inside_slash in H. rewrite E2, parts_nil in H by done. done. }
    apply inside_join in H; [done|by apply parts_ne|by apply parts_ne|
      apply parts_no_slash, id_encode_no_slash..].
  - intros (l & Hl & E). rewrite E. exists (join_slash l). unfold join_slash.
    rewrite str_join_app; [done|by apply parts_ne|done].
Qed.

(** The encoding is reversible for plain ASCII identifiers without comma. *)
Definition unconvert (c : ascii) : ascii :=
  if decide (c = "="%char) then "/"%char else if decide (c = "+"%char) then ":"%char
  else if decide (c = ","%char) then "."%char else c.
Fixpoint id_decode (s : string) : string :=
  match s with
  | String c s' =>
      if decide (c = "^"%char) then
        match s' with
        | String a (String b s'') => String (ascii_of_N (unhex a * 16 + unhex b)) (id_decode s'')
        | _ => ""
        end
      else String (unconvert c) (id_decode s')
  | _ => ""
  end.
Lemma runes_cons_ascii c s : (N_of_ascii c < 128)%N → runes (String c s) = N_of_ascii c :: runes s.
Proof.
  intros H. unfold runes. cbn [decode]. by rewrite (proj2 (N.ltb_lt _ _) H).
Qed.
Lemma pt_char c s : (16 <= N_of_ascii c < 128)%N → c ≠ ","%char →
  id_decode (str_map convert (pt_rune (N_of_ascii c)) +:+ s) = String c (id_decode s).
Proof.
  intros [H1 H2] H3. destruct c as [[] [] [] [] [] [] [] []];
    try (exfalso; by apply H1); try discriminate H2; try (by exfalso; apply H3); reflexivity.
Qed.
Lemma id_decode_encode s : pt_safe s → id_decode (id_encode s) = s.
Proof.
  unfold id_encode. induction s as [|c s IH]; intros H; [done|].
  destruct (H c) as [Hc Hc']; [cbn; by left|].
  rewrite runes_cons_ascii by lia. cbn [pt_runes]. rewrite str_map_app, pt_char by done.
  f_equal. apply IH. intros d Hd. apply H. cbn. by right.
Qed.
Lemma id_encode_inj a b : pt_safe a → pt_safe b → id_encode a = id_encode b → a = b.
Proof. intros Ha Hb E. rewrite <- (id_decode_encode a), <- (id_decode_encode b) by done. by rewrite E. Qed.

(** ** configuration *)
Lemma reload_each hs l :
  reopened hs [l] = match read_config hs (write_config l) with Some l' => [l'] | None => [] end.
Proof. unfold reopened, create_extensions. cbn. by destruct (read_config _ _). Qed.
Lemma read_lay3 hs c : hs "" = None → read_config hs (write_config (Lay3 c)) = None.
Proof.
  intros H. transitivity (Lay3 <$> new3 hs (Conf3 "" 0 0)); [reflexivity|].
  unfold new3. cbn. by rewrite H.
Qed.
Lemma read_lay4 hs c : hs "" = None → read_config hs (write_config (Lay4 c)) = None.
Proof.
  intros H. transitivity (Lay4 <$> new4 hs (Conf4 "" 0 0 false)); [reflexivity|].
  unfold new4. cbn. by rewrite H.
Qed.
Lemma read_layP hs c : hs "" = None → read_config hs (write_config (LayP c)) = None.
Proof.
  intros H. transitivity (LayP <$> newP hs (ConfP "" "" 0 "")); [reflexivity|].
  unfold newP. cbn. by rewrite H.
Qed.
Lemma read_lay6 hs d : read_config hs (write_config (Lay6 d)) = Some (Lay6 "").
Proof. reflexivity. Qed.
Lemma read_lay7 hs c : read_config hs (write_config (Lay7 c)) = Some (Lay7 (Conf7 "" 0 0 "" false)).
Proof. reflexivity. Qed.
Lemma read_flat hs : read_config hs (write_config Flat) = Some Flat.
Proof. reflexivity. Qed.
Lemma read_direct hs : read_config hs (write_config Direct) = Some Direct.
Proof. reflexivity. Qed.

(** What a constructor of the direct-clean layout returns. *)
Definition constructedD (hs : hashes) (c : confD) : Prop := ∃ c0, newD hs (old_conf c0) = Some c.
Lemma newD_normal hs c c' : newD hs c = Some c' →
  cd_maxpath c' ≠ 0%N ∧ cd_maxseg c' ≠ 0%N ∧ cd_alg c' ≠ "" ∧ cd_folder c' ≠ "" ∧ hs (cd_alg c') ≠ None ∧
  cd_ntuples c' = cd_ntuples c ∧ cd_subdirs c' = cd_subdirs c.
Proof.
  unfold newD. cbn [cd_alg].
  destruct (hs (if decide (cd_alg c = "") then "sha512" else cd_alg c)) eqn:E; [|done].
  intros [= <-]. cbn.
  destruct (N.eqb_spec (cd_maxpath c) 0), (N.eqb_spec (cd_maxseg c) 0), (decide (cd_alg c = "")),
    (decide (cd_folder c = "")); repeat split; try done; by rewrite E.
Qed.
Lemma old_subdirs c : 0 < cd_subdirs (old_conf c) → cd_ntuples (old_conf c) ≠ 0.
Proof.
  destruct c as [mp ms r w u a f nt ts mf sd]. unfold old_conf. cbn.
  destruct ((0 <? mf)%N && (mp =? 0)%N); cbn;
    destruct sd, nt; cbn; lia.
Qed.
Lemma newD_id hs c : cd_maxpath c ≠ 0%N → cd_maxseg c ≠ 0%N → cd_alg c ≠ "" → cd_folder c ≠ "" →
  hs (cd_alg c) ≠ None → newD hs c = Some c.
Proof.
  intros H1 H2 H3 H4 H5. unfold newD. destruct c as [mp ms r w u a f nt ts mf sd]; cbn in *.
  destruct (N.eqb_spec mp 0); [done|]. destruct (N.eqb_spec ms 0); [done|].
  destruct (decide (a = "")); [done|]. destruct (decide (f = "")); [done|].
  by destruct (hs a).
Qed.
Lemma old_conf_id c : cd_maxpath c ≠ 0%N → (0 < cd_subdirs c → cd_ntuples c ≠ 0) → old_conf c = c.
Proof.
  intros H1 H2. unfold old_conf. rewrite (proj2 (N.eqb_neq _ _) H1), andb_false_r.
  destruct (Nat.ltb_spec 0 (cd_subdirs c)) as [H|H]; [|done].
  by rewrite (proj2 (Nat.eqb_neq _ _) (H2 H)).
Qed.
Lemma read_layD hs c : constructedD hs c → read_config hs (write_config (LayD c)) = Some (LayD c).
Proof.
  intros [c0 H]. pose proof (newD_normal _ _ _ H) as (H1 & H2 & H3 & H4 & H5 & H6 & H7).
  transitivity (LayD <$> newD hs (old_conf (ConfD (cd_maxpath c) (cd_maxseg c) (cd_repl c) (cd_wrepl c) (cd_utf c)
    (cd_alg c) (cd_folder c) (N.to_nat (N.of_nat (cd_ntuples c))) (N.to_nat (N.of_nat (cd_tsize c)))
    (cd_maxfile c) (N.to_nat (N.of_nat (cd_subdirs c)))))); [reflexivity|].
  rewrite !Nat2N.id.
  replace (ConfD _ _ _ _ _ _ _ _ _ _ _) with c by by destruct c.
  rewrite old_conf_id; [|done|].
  - by rewrite newD_id.
  - rewrite H6, H7. apply old_subdirs.
Qed.

(** Layouts whose parameters are written. *)
Definition survives (hs : hashes) (l : layout) : Prop :=
  match l with Flat | Direct => True | LayD c => constructedD hs c | _ => False end.
Lemma reopened_survives hs ls : Forall (survives hs) ls → reopened hs ls = ls.
Proof.
  unfold reopened, create_extensions. induction 1 as [|l ls Hl _ IH]; [done|].
  cbn [fmap list_fmap omap list_omap].
  assert (read_config hs (write_config l) = Some l) as E.
  { destruct l; try done; by apply read_layD. }
  unfold omap, fmap in IH. cbn in E |- *. rewrite E. by f_equal.
Qed.
