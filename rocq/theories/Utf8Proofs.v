(** Lemmas about UTF-8. *)
From Coq Require Import Ascii ZArith Lia ZifyN.
From stdpp Require Import base list strings.
From Verif Require Import GoStr Utf8Model.
Local Open Scope N_scope.

Lemma byte_of_N n : n < 256 → N_of_ascii (byte n) = n.
Proof. apply N_ascii_embedding. Qed.

Ltac nb := repeat match goal with |- context [N_of_ascii (byte ?n)] =>
  rewrite (byte_of_N n) by (Z.div_mod_to_equations; lia) end.

Lemma byte_in_spec lo hi n : n < 256 → byte_in lo hi (byte n) = bool_decide (lo ≤ n ≤ hi).
Proof.
  intros H. unfold byte_in. rewrite byte_of_N by done.
  case_bool_decide; destruct (N.leb_spec lo n), (N.leb_spec n hi); simpl; try done; lia.
Qed.
Lemma byte_in_true lo hi n : n < 256 → lo ≤ n ≤ hi → byte_in lo hi (byte n) = true.
Proof. intros. rewrite byte_in_spec by done. by apply bool_decide_eq_true. Qed.
Lemma byte_in_false lo hi n : n < 256 → (n < lo ∨ hi < n) → byte_in lo hi (byte n) = false.
Proof. intros. rewrite byte_in_spec by done. apply bool_decide_eq_false. lia. Qed.

Ltac Zify.zify_post_hook ::= Z.div_mod_to_equations.

Lemma decode_rune n s : scalar n → decode (encode_rune n +:+ s) = Some n :: decode s.
Proof.
  intros Hs. unfold encode_rune.
  destruct (N.ltb_spec n 128) as [H1|H1].
  { rewrite str_app_cons, str_app_nil_l. cbn [decode]. rewrite byte_of_N by lia.
    by rewrite (proj2 (N.ltb_lt _ _) H1). }
  destruct (N.ltb_spec n 2048) as [H2|H2].
  { rewrite !str_app_cons, str_app_nil_l. cbn [decode].
    rewrite (byte_of_N (192 + n / 64)) by lia. rewrite (byte_of_N (128 + n mod 64)) by lia.
    rewrite (proj2 (N.ltb_ge _ _)) by lia.
    unfold two_ok. rewrite !byte_in_true by lia. cbn. do 2 f_equal. lia. }
  rewrite bool_decide_eq_false_2 by (intros X; by apply X).
  destruct (N.ltb_spec n 65536) as [H3|H3].
  { rewrite !str_app_cons, str_app_nil_l. cbn [decode].
    set (a := 224 + n / 4096). set (b := 128 + (n / 64) mod 64). set (c := 128 + n mod 64).
    assert (224 ≤ a ≤ 239 ∧ 128 ≤ b ≤ 191 ∧ 128 ≤ c ≤ 191) as (Ha & Hb & Hc)
      by (unfold a, b, c; lia).
    assert (n = (a - 224) * 4096 + (b - 128) * 64 + (c - 128)) as Hn by (unfold a, b, c; lia).
    clearbody a b c. unfold scalar in Hs.
    rewrite !byte_of_N by lia. rewrite (proj2 (N.ltb_ge _ _)) by lia.
    unfold two_ok. rewrite (byte_in_false 194 223) by lia. cbn [andb].
    assert (three_ok (byte a) (byte b) (byte c) = true) as ->; [|by rewrite <- Hn].
    unfold three_ok. rewrite !byte_in_spec by lia.
    assert (a = 224 ∨ 225 ≤ a ≤ 236 ∨ a = 237 ∨ 238 ≤ a) as [E|[E|[E|E]]] by lia;
      apply andb_true_intro; (split; [|apply bool_decide_eq_true; lia]);
      repeat case_bool_decide; simpl; try done; lia. }
  { rewrite !str_app_cons, str_app_nil_l. cbn [decode].
    set (a := 240 + n / 262144). set (b := 128 + (n / 4096) mod 64).
    set (c := 128 + (n / 64) mod 64). set (d := 128 + n mod 64).
    unfold scalar in Hs.
    assert (n < 1114112) as Hn1 by lia. clear Hs.
    assert (240 ≤ a ≤ 244 ∧ 128 ≤ b ≤ 191 ∧ 128 ≤ c ≤ 191 ∧ 128 ≤ d ≤ 191) as (Ha & Hb & Hc & Hd)
      by (unfold a, b, c, d; lia).
    assert (n = (a - 240) * 262144 + (b - 128) * 4096 + (c - 128) * 64 + (d - 128)) as Hn
      by (unfold a, b, c, d; lia).
    clearbody a b c d.
    rewrite !byte_of_N by lia. rewrite (proj2 (N.ltb_ge _ _)) by lia.
    unfold two_ok. rewrite (byte_in_false 194 223) by lia. cbn [andb].
    assert (three_ok (byte a) (byte b) (byte c) = false) as ->.
    { unfold three_ok. rewrite !byte_in_spec by lia. repeat case_bool_decide; simpl; try done; lia. }
    assert (four_ok (byte a) (byte b) (byte c) (byte d) = true) as ->; [|by rewrite <- Hn].
    unfold four_ok. rewrite !byte_in_spec by lia.
    assert (a = 240 ∨ 241 ≤ a ≤ 243 ∨ a = 244) as [E|[E|E]] by lia;
      repeat (apply andb_true_intro; (split; [|apply bool_decide_eq_true; lia]));
      repeat case_bool_decide; simpl; try done; lia. }
Qed.

Lemma decode_encode l : Forall scalar l → decode (encode l) = Some <$> l.
Proof.
  induction 1 as [|n l Hn _ IH]; [done|].
  cbn [encode]. rewrite decode_rune by done. by rewrite IH.
Qed.
Lemma runes_encode l : Forall scalar l → runes (encode l) = l.
Proof.
  intros H. unfold runes. rewrite decode_encode by done. rewrite <- list_fmap_compose.
  by apply list_fmap_id.
Qed.
Lemma encode_inj l1 l2 : Forall scalar l1 → Forall scalar l2 → encode l1 = encode l2 → l1 = l2.
Proof. intros H1 H2 E. rewrite <- (runes_encode l1), <- (runes_encode l2) by done. by rewrite E. Qed.
Lemma encode_app l1 l2 : encode (l1 ++ l2) = encode l1 +:+ encode l2.
Proof. induction l1 as [|n l1 IH]; [done|]. cbn [app encode]. by rewrite IH, str_app_assoc. Qed.
Lemma valid_runes_some repl b l : valid_runes repl b (Some <$> l) = l.
Proof. revert b. induction l as [|n l IH]; intros b; [done|]. cbn. by rewrite IH. Qed.
Lemma to_valid_encode repl l : Forall scalar l → to_valid_runes repl (encode l) = l.
Proof. intros. unfold to_valid_runes. by rewrite decode_encode, valid_runes_some. Qed.

(** Every well-formed rune read is a scalar value, and valid strings are the encoded ones. *)
Lemma decode_scalar s : Forall (λ o, match o with Some n => scalar n | None => True end) (decode s).
Proof.
  remember (String.length s) as k eqn:Hk. revert s Hk.
  induction (lt_wf k) as [k _ IH]. intros s ->.
  assert (∀ t, (String.length t < String.length s)%nat →
    Forall (λ o, match o with Some n => scalar n | None => True end) (decode t)) as IH'.
  { intros t Ht. by apply (IH (String.length t)). }
  clear IH. destruct s as [|a s1]; [by apply Forall_nil|]. cbn [decode].
  destruct (N.ltb_spec (N_of_ascii a) 128) as [H|H].
  { apply Forall_cons. split; [left; lia|]. apply IH'. simpl. lia. }
  destruct s1 as [|b s2]; [by repeat constructor|].
  destruct (two_ok a b) eqn:E2.
  { apply Forall_cons. split; [|apply IH'; simpl; lia].
    unfold two_ok, byte_in in E2. repeat (apply andb_prop in E2 as [E2 ?] || idtac).
    repeat match goal with X : _ && _ = true |- _ => apply andb_prop in X as [??] end.
    repeat match goal with X : (_ <=? _) = true |- _ => apply N.leb_le in X end.
    left. lia. }
  destruct s2 as [|c s3].
  { apply Forall_cons. split; [done|]. apply IH'. simpl. lia. }
  destruct (three_ok a b c) eqn:E3.
  { apply Forall_cons. split; [|apply IH'; simpl; lia]. clear IH' E2.
    unfold three_ok in E3. apply andb_prop in E3 as [E3 Ec].
    repeat match goal with X : _ || _ = true |- _ => apply orb_prop in X as [X|X] end;
    unfold byte_in in *;
    repeat match goal with X : _ && _ = true |- _ => apply andb_prop in X as [??] end;
    repeat match goal with X : (_ <=? _) = true |- _ => apply N.leb_le in X end;
    unfold scalar; lia. }
  destruct s3 as [|d s4].
  { apply Forall_cons. split; [done|]. apply IH'. simpl. lia. }
  destruct (four_ok a b c d) eqn:E4.
  { apply Forall_cons. split; [|apply IH'; simpl; lia]. clear IH' E2 E3.
    unfold four_ok in E4. apply andb_prop in E4 as [E4 Ed]. apply andb_prop in E4 as [E4 Ec].
    repeat match goal with X : _ || _ = true |- _ => apply orb_prop in X as [X|X] end;
    unfold byte_in in *;
    repeat match goal with X : _ && _ = true |- _ => apply andb_prop in X as [??] end;
    repeat match goal with X : (_ <=? _) = true |- _ => apply N.leb_le in X end;
    unfold scalar; lia. }
  apply Forall_cons. split; [done|]. apply IH'. simpl. lia.
Qed.
