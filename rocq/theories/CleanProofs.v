From Coq Require Import Ascii ZArith Lia.
From stdpp Require Import base list strings gmap.
From Verif Require Import GoStr PathModel Utf8Model Utf8Proofs LayoutModel LayoutProofs2 LayoutProofs3 CleanModel CleanSpec.
Local Open Scope N_scope.

(** An element on which cleaning has nothing to do. *)
Definition settled (l : list N) : Prop :=
  Forall scalar l ∧ 47 ∉ l ∧ Forall (λ n, rule_char n = false) l ∧
  (∀ n r, l = n :: r → leading n = false) ∧ (∀ n r, l = (r ++ [n])%list → n ≠ 32).
Lemma drop_while_suffix f l : ∃ a, l = (a ++ drop_while f l)%list.
Proof.
  induction l as [|n l [a IH]]; [by exists []|]. cbn [drop_while]. destruct (f n); [|by exists []].
  exists (n :: a). cbn [app]. by rewrite <- IH.
Qed.
Lemma drop_while_head f l n r : drop_while f l = n :: r → f n = false.
Proof.
  induction l as [|m l IH]; [done|]. cbn [drop_while]. destruct (f m) eqn:E; [done|]. by intros [= -> ->].
Qed.
Lemma drop_while_id f l : (∀ n r, l = n :: r → f n = false) → drop_while f l = l.
Proof. intros H. destruct l as [|n l]; [done|]. cbn [drop_while]. by rewrite (H n l eq_refl). Qed.
Lemma rule246_prefix l : ∃ a b, drop_while leading l = (rule246 l ++ b)%list ∧ l = (a ++ rule246 l ++ b)%list.
Proof.
  destruct (drop_while_suffix leading l) as [a Ha]. set (m := drop_while leading l) in *.
  destruct (drop_while_suffix (λ n, n =? 32) (rev m)) as [c Hc].
  assert (m = (rule246 l ++ rev c)%list) as Hm.
  { unfold rule246. fold m. rewrite <- rev_app_distr, <- Hc. by rewrite rev_involutive. }
  exists a, (rev c). split; [done|]. by rewrite <- Hm.
Qed.
Lemma rule246_settled l : Forall scalar l → 47 ∉ l → Forall (λ n, rule_char n = false) l → settled (rule246 l).
Proof.
  intros H1 H2 H3. destruct (rule246_prefix l) as (a & b & E1 & E2).
  assert (∀ P : N → Prop, Forall P l → Forall P (rule246 l)) as HP.
  { intros P HF. rewrite E2 in HF. apply Forall_app in HF as [_ HF]. by apply Forall_app in HF as [? _]. }
  split; [auto|]. split; [intros H; apply H2; rewrite E2; apply elem_of_app; right; apply elem_of_app; by left|]. split; [auto|]. split.
  - intros n r E. rewrite E in E1. cbn [app] in E1. by apply drop_while_head in E1.
  - intros n r E. unfold rule246 in E. apply (f_equal (@rev N)) in E. rewrite rev_involutive, rev_app_distr in E. cbn in E.
    apply drop_while_head in E. by apply N.eqb_neq in E.
Qed.
Lemma clean_settled l : Forall scalar l → 47 ∉ l → settled (clean_name l).
Proof.
  intros H1 H2. unfold clean_name, rule15. apply rule246_settled.
  - apply Forall_fmap. eapply Forall_impl; [exact H1|]. intros n Hn. cbn. destruct (rule_char n); [left; lia|done].
  - intros H. apply elem_of_list_fmap in H as (n & Hn & Hi). destruct (rule_char n); [done|]. by subst n.
  - apply Forall_fmap, Forall_forall. intros n _. cbn. destruct (rule_char n) eqn:E; done.
Qed.
Lemma clean_id l : settled l → clean_name l = l.
Proof.
  intros (_ & _ & H3 & H4 & H5). unfold clean_name, rule15, rule246.
  assert ((λ n, if rule_char n then 95 else n) <$> l = l) as ->.
  { clear -H3. induction H3 as [|n l Hn _ IH]; [done|]. rewrite fmap_cons, Hn. by rewrite IH. }
  rewrite (drop_while_id leading l H4). rewrite drop_while_id; [apply rev_involutive|].
  intros n r E. apply N.eqb_neq. apply (H5 n (rev r)). apply (f_equal (@rev N)) in E.
  rewrite rev_involutive in E; cbn in E. exact E.
Qed.
Definition kept (ws : list (list N)) : list (list N) := filter (λ e, e ≠ []) (clean_name <$> ws).
Lemma length_pos w : (0 <? String.length (encode w))%nat = bool_decide (w ≠ []).
Proof.
  case_bool_decide as H.
  - apply Nat.ltb_lt. destruct w as [|n w]; [done|]. cbn [encode]. rewrite str_length_app. pose proof (encode_rune_length n). lia.
  - by subst.
Qed.
Lemma clean_loop_some max ws : ∀ acc r, clean_loop max acc ws = Some r ↔
  r = (acc ++ (encode <$> kept ws))%list ∧ Forall (λ w, (Z.of_nat (String.length (encode (clean_name w))) <= max)%Z) ws.
Proof.
  induction ws as [|w ws IH]; intros acc r; cbn [clean_loop].
  - unfold kept. cbn. rewrite app_nil_r. split; [intros [= ->]; split; [done|apply Forall_nil; done]|by intros [-> _]].
  - destruct (Z.ltb_spec max (Z.of_nat (String.length (encode (clean_name w))))) as [Hl|Hl].
    + split; [done|]. intros [_ HF]. apply Forall_cons in HF as [HF _]. lia.
    + rewrite IH, length_pos, Forall_cons. unfold kept. rewrite fmap_cons, filter_cons.
      destruct (decide (clean_name w ≠ [])) as [Hd|Hd]; case_bool_decide as Hb; try done.
      * rewrite fmap_cons, <- app_assoc. cbn [app]. tauto.
      * tauto.
Qed.
Lemma to_valid_scalar repl s : Forall scalar repl → Forall scalar (to_valid_runes repl s).
Proof.
  intros Hr. unfold to_valid_runes. generalize false. pose proof (decode_scalar s) as HF. induction HF as [|o l Ho _ IH]; intros b; [by apply Forall_nil|].
  cbn [valid_runes]. destruct o as [n|]; [apply Forall_cons; by split|]. destruct b; [apply IH|]. apply Forall_app. by split.
Qed.
Lemma accepted f mn mp p : clean_path f mn mp = COk p →
  ∃ cs, p = join_slash (encode <$> cs) ∧ Forall (λ w, settled w ∧ w ≠ [] ∧ (Z.of_nat (String.length (encode w)) <= mn)%Z) cs ∧
    (Z.of_nat (String.length p) <= mp)%Z ∧ (0 <= mn)%Z.
Proof.
  unfold clean_path. set (R := to_valid_runes [95] f).
  assert (Forall scalar R) as HR by (apply to_valid_scalar, Forall_singleton; left; lia).
  pose proof (split_runes_Forall scalar R HR) as HW. pose proof (split_runes_ne R) as Hne.
  destruct (clean_loop mn [] (split_runes R)) as [r|] eqn:E; [|done]. apply clean_loop_some in E as [-> HL]. cbn [app].
  destruct (Z.ltb_spec mp (Z.of_nat (String.length (join_slash (encode <$> kept (split_runes R)))))) as [|Hp]; [done|]. intros [= <-].
  exists (kept (split_runes R)). split; [done|]. split; [|split; [done|]].
  - apply Forall_forall. intros w Hw. unfold kept in Hw. apply elem_of_list_filter in Hw as [Hn Hw].
    apply elem_of_list_fmap in Hw as (v & -> & Hv). rewrite Forall_forall in HW. specialize (HW v Hv).
    split; [|split; [done|]].
    + apply clean_settled; [eapply Forall_impl; [exact HW|]; by intros ? [? _]|].
      intros Hi. rewrite Forall_forall in HW. by destruct (HW _ Hi).
    + rewrite Forall_forall in HL. by apply HL.
  - destruct (split_runes R) as [|w ws]; [done|]. apply Forall_cons in HL as [HL _]. lia.
Qed.
Lemma idempotent f mn mp p : clean_path f mn mp = COk p → clean_path p mn mp = COk p.
Proof.
  intros H. apply accepted in H as (cs & -> & HF & Hp & Hmn). unfold clean_path.
  rewrite <- join_runes_encode.
  assert (Forall scalar (join_runes cs)) as HS.
  { clear Hp. induction cs as [|w ls IH]; [by apply Forall_nil|]. apply Forall_cons in HF as [[Hw _] HG]. destruct Hw as [Hw _].
    destruct ls as [|w' ls]; [done|]. change (join_runes (w :: w' :: ls)) with (w ++ 47 :: join_runes (w' :: ls))%list.
    apply Forall_app. split; [done|]. apply Forall_cons. split; [left; lia|]. by apply IH. }
  rewrite (to_valid_encode [95] _ HS).
  assert (clean_loop mn [] (split_runes (join_runes cs)) = Some (encode <$> cs)) as ->.
  { apply clean_loop_some. destruct cs as [|w cs'].
    - cbn. split; [done|]. apply Forall_singleton. cbn. lia.
    - rewrite split_join_runes; [|done|eapply Forall_impl; [exact HF|]; by intros v [(_ & ? & _) _]].
      assert (clean_name <$> (w :: cs') = w :: cs') as HC.
      { clear -HF. induction HF as [|v l [Hv _] _ IH]; [done|]. rewrite fmap_cons, IH. by rewrite clean_id. }
      split.
      + unfold kept. rewrite HC, filter_all; [done|]. eapply Forall_impl; [exact HF|]. by intros v (_ & ? & _).
      + eapply Forall_impl; [exact HF|]. intros v (Hv & _ & Hl). by rewrite clean_id. }
  rewrite join_runes_encode in *. destruct (Z.ltb_spec mp (Z.of_nat (String.length (join_slash (encode <$> cs))))); [lia|done].
Qed.
Lemma bad_rule c : bad_char c → N_of_ascii c < 128 ∧ rule_char (N_of_ascii c) = true.
Proof.
  unfold rule_char. intros [H|[H|[H|H]]].
  - split; [lia|]. apply N.leb_le in H. by rewrite H.
  - rewrite H. by split.
  - repeat (apply elem_of_cons in H as [-> |H]; [by vm_compute|]). by apply elem_of_nil in H.
  - rewrite H. by split.
Qed.
Lemma encode_first x l c : N_of_ascii c < 128 → first_char c (encode (x :: l)) → x = N_of_ascii c.
Proof.
  intros Hc [r Hr]. destruct (decide (x = N_of_ascii c)) as [|Hn]; [done|]. exfalso.
  pose proof (encode_rune_ascii x c Hc Hn) as HM. cbn [encode] in Hr.
  pose proof (encode_rune_length x) as HL. destruct (encode_rune x) as [|d t]; [cbn in HL; lia|].
  rewrite str_app_cons in Hr. injection Hr as -> _. cbn [str_mem] in HM. by destruct (decide (c = c)).
Qed.
Lemma last_mem c r t : str_mem c t = false → t ≠ "" → ∀ s, s +:+ t ≠ r +:+ String c "".
Proof.
  induction t as [|d t IH]; intros Hm Ht s E; [done|]. cbn [str_mem] in Hm. destruct (decide (c = d)) as [|Hcd]; [done|].
  destruct t as [|e t].
  - assert (String.length s = String.length r) as HL.
    { apply (f_equal String.length) in E. rewrite !str_length_app in E. cbn in E. lia. }
    apply str_app_inv_len in E as [_ E]; [|done]. by injection E as ->.
  - apply (IH Hm ltac:(done) (s +:+ String d "")). rewrite <- str_app_assoc. exact E.
Qed.
Lemma encode_last x l c : N_of_ascii c < 128 → last_char c (encode (l ++ [x])) → x = N_of_ascii c.
Proof.
  intros Hc [r Hr]. destruct (decide (x = N_of_ascii c)) as [|Hn]; [done|]. exfalso.
  rewrite encode_app in Hr. cbn [encode] in Hr. rewrite str_app_nil_r in Hr.
  apply last_mem in Hr; [done|by apply encode_rune_ascii|]. intros E. pose proof (encode_rune_length x) as HL. rewrite E in HL. cbn in HL. lia.
Qed.
Lemma settled_harmless mn w : settled w → w ≠ [] → (Z.of_nat (String.length (encode w)) <= mn)%Z → harmless mn (encode w).
Proof.
  intros (H1 & H2 & H3 & H4 & H5) Hne Hl.
  assert (∀ c, N_of_ascii c < 128 → leading (N_of_ascii c) = true → ¬ first_char c (encode w)) as HF.
  { intros c Hc Hlead Hf. destruct w as [|x w]; [done|]. apply encode_first in Hf; [|done]. rewrite <- Hf, (H4 x w eq_refl) in Hlead. done. }
  split; [by rewrite encode_nil|]. split; [done|]. split; [|split; [by apply HF|split; [by apply HF|split; [by apply HF|]]]].
  - intros c Hi Hb. apply bad_rule in Hb as [Hc Hb].
    assert (N_of_ascii c ∉ w) as Hn. { intros Hw. rewrite Forall_forall in H3. specialize (H3 _ Hw). congruence. }
    apply str_mem_spec in Hi. by rewrite (encode_ascii w c Hc Hn) in Hi.
  - intros Hf. destruct (exists_last Hne) as (l & x & ->). apply encode_last in Hf; [|done]. by apply (H5 x l eq_refl).
Qed.
Lemma well_formed f mn mp p : clean_path f mn mp = COk p →
  (Z.of_nat (String.length p) <= mp)%Z ∧ (p = "" ∨ Forall (harmless mn) (split_slash p)).
Proof.
  intros H. apply accepted in H as (cs & -> & HF & Hp & Hmn). split; [done|]. destruct cs as [|w cs]; [by left|]. right.
  rewrite split_slash_join.
  - apply Forall_fmap. eapply Forall_impl; [exact HF|]. intros v (Hv & Hn & Hl). by apply settled_harmless.
  - done.
  - apply Forall_fmap. eapply Forall_impl; [exact HF|]. intros v ((_ & Hv & _) & _). cbn. by apply encode_ascii.
Qed.
