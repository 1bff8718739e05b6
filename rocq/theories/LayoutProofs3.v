(** The direct-clean layout. *)
From Coq Require Import Ascii ZArith Lia ZifyN.
From stdpp Require Import base list strings gmap.
From Verif Require Import GoStr PathModel PathProofs Utf8Model Utf8Proofs LayoutModel LayoutSpec LayoutProofs LayoutProofs2.
Ltac Zify.zify_post_hook ::= Z.div_mod_to_equations.

(** ** classes *)
Lemma in_class_cons lo hi cl n :
  in_class ((lo, hi) :: cl) n = true ↔ (lo <= n <= hi)%N ∨ in_class cl n = true.
Proof.
  unfold in_class. cbn [existsb]. rewrite orb_true_iff, andb_true_iff, !N.leb_le. done.
Qed.
Lemma in_class_nil n : in_class [] n = true ↔ False.
Proof. done. Qed.
Lemma rule_all_spec n : in_class rule_all n = true ↔ forbidden n.
Proof.
  unfold rule_all, specials. cbn [app]. rewrite !in_class_cons, in_class_nil. unfold forbidden. lia.
Qed.
Lemma white_or_1_5 n : forbidden n → in_class white n = true ∨ in_class rule_1_5 n = true.
Proof.
  unfold white, rule_1_5, specials. cbn [app]. rewrite !in_class_cons, !in_class_nil. unfold forbidden. lia.
Qed.
Lemma rule_all_small n : in_class rule_all n = true → (n < 65536)%N ∧ scalar n ∧ n ≠ 61%N.
Proof. rewrite rule_all_spec. unfold forbidden, scalar. lia. Qed.
Lemma alnum_spec n : alnum n = true ↔ (97 <= n <= 122 ∨ 65 <= n <= 90 ∨ 48 <= n <= 57)%N.
Proof. unfold alnum. rewrite !in_class_cons, in_class_nil. lia. Qed.

(** ** the encoding of an element *)
Definition unhex_upper (n : N) : N := if (n <? 58)%N then (n - 48)%N else (n - 55)%N.
Lemma hex_upper_spec n : (n < 16)%N →
  unhex_upper (hex_upper n) = n ∧ alnum (hex_upper n) = true ∧ ¬ forbidden (hex_upper n) ∧ scalar (hex_upper n) ∧
  (48 ≤ hex_upper n < 71)%N.
Proof.
  intros H. rewrite alnum_spec. unfold unhex_upper, hex_upper, forbidden, scalar.
  destruct (N.ltb_spec n 10).
  - rewrite (proj2 (N.ltb_lt _ _)) by lia. repeat split; lia.
  - rewrite (proj2 (N.ltb_ge _ _)) by lia. repeat split; lia.
Qed.

Fixpoint undc (l : list N) : list N :=
  match l with
  | [] => []
  | x :: l' =>
      if (x =? 61)%N && escape_follows l' then
        match l' with
        | _ :: a :: b :: c :: d :: l'' =>
            (unhex_upper a * 4096 + unhex_upper b * 256 + unhex_upper c * 16 + unhex_upper d)%N :: undc l''
        | _ => []
        end
      else x :: undc l'
  end.
Lemma undc_code n l : (n < 65536)%N → undc (utf_code n ++ l) = n :: undc l.
Proof.
  intros H. unfold utf_code.
  destruct (hex_upper_spec (n / 4096)) as (A1 & A2 & _); [lia|].
  destruct (hex_upper_spec (n / 256 mod 16)) as (B1 & B2 & _); [lia|].
  destruct (hex_upper_spec (n / 16 mod 16)) as (C1 & C2 & _); [lia|].
  destruct (hex_upper_spec (n mod 16)) as (D1 & D2 & _); [lia|].
  cbn [app undc escape_follows]. rewrite A2, B2, C2, D2. cbn [andb].
  change ((61 =? 61)%N && (117 =? 117)%N) with true. cbn [andb N.eqb Pos.eqb].
  rewrite A1, B1, C1, D1. f_equal. lia.
Qed.

Fixpoint enc (l : list N) : list N :=
  match l with
  | [] => []
  | x :: l' =>
      (if (x =? 61)%N && escape_follows l' then [61; 117; 48; 48; 51; 68]%N
       else if in_class rule_all x then utf_code x else [x]) ++ enc l'
  end.
Lemma replace_app cl f a b : replace_class cl f (a ++ b) = replace_class cl f a ++ replace_class cl f b.
Proof. unfold replace_class. apply bind_app. Qed.
Lemma replace_cons cl f x l :
  replace_class cl f (x :: l) = (if in_class cl x then f x else [x]) ++ replace_class cl f l.
Proof. done. Qed.
Lemma enc_spec l : replace_class rule_all utf_code (rule_equal l) = enc l.
Proof.
  induction l as [|x l IH]; [done|]. cbn [rule_equal enc].
  destruct (N.eqb_spec x 61) as [->|Hx]; cbn [andb].
  - destruct (escape_follows l).
    + rewrite replace_app, IH. done.
    + rewrite replace_cons, IH. done.
  - rewrite replace_cons, IH. done.
Qed.
Lemma enc_head l z r : enc l = z :: r → z ≠ 61%N → ∃ l', l = z :: l' ∧ r = enc l'.
Proof.
  destruct l as [|x l]; [done|]. cbn [enc].
  destruct ((x =? 61)%N && escape_follows l); [intros [= <- _]; done|].
  destruct (in_class rule_all x); [intros [= <- _]; done|].
  cbn. intros [= <- <-] _. by exists l.
Qed.
Lemma enc_follows l : escape_follows (enc l) = true → escape_follows l = true.
Proof.
  intros H. destruct (enc l) as [|u [|a [|b [|c [|d r]]]]] eqn:E; try done.
  cbn [escape_follows] in H. apply andb_prop in H as [H Hd]. apply andb_prop in H as [H Hc].
  apply andb_prop in H as [H Hb]. apply andb_prop in H as [Hu Ha].
  pose proof Ha as Ha'. pose proof Hb as Hb'. pose proof Hc as Hc'. pose proof Hd as Hd'.
  apply N.eqb_eq in Hu as ->. rewrite alnum_spec in Ha', Hb', Hc', Hd'.
  apply enc_head in E as (l1 & -> & E); [|done]. symmetry in E.
  apply enc_head in E as (l2 & -> & E); [|lia]. symmetry in E.
  apply enc_head in E as (l3 & -> & E); [|lia]. symmetry in E.
  apply enc_head in E as (l4 & -> & E); [|lia]. symmetry in E.
  apply enc_head in E as (l5 & -> & E); [|lia].
  cbn [escape_follows]. by rewrite Ha, Hb, Hc, Hd.
Qed.
Lemma undc_enc l : undc (enc l) = l.
Proof.
  induction l as [|x l IH]; [done|]. cbn [enc].
  destruct (N.eqb_spec x 61) as [->|Hx]; cbn [andb].
  - destruct (escape_follows l) eqn:E.
    + change [61; 117; 48; 48; 51; 68]%N with (utf_code 61). rewrite undc_code by lia. by rewrite IH.
    + change (in_class rule_all 61) with false. cbn [app undc].
      destruct (escape_follows (enc l)) eqn:E'; [by rewrite (enc_follows _ E') in E|].
      rewrite andb_false_r. by rewrite IH.
  - destruct (in_class rule_all x) eqn:Ec.
    + rewrite undc_code by (by apply rule_all_small in Ec as (? & _)). by rewrite IH.
    + cbn [app undc]. rewrite (proj2 (N.eqb_neq _ _) Hx). cbn [andb]. by rewrite IH.
Qed.

Lemma only_periods_cons x l : only_periods (x :: l) = (x =? 46)%N && forallb (λ n, (n =? 46)%N) l.
Proof. done. Qed.
Lemma undc_clean c n : cd_utf c = true → undc (clean_elem c n) = n.
Proof.
  intros Hu. unfold clean_elem. rewrite Hu, enc_spec.
  destruct (enc n) as [|x l] eqn:E.
  - rewrite <- (undc_enc n), E. done.
  - destruct ((x =? 126)%N || only_periods (x :: l)) eqn:Hx.
    + assert (x = 126 ∨ x = 46)%N as Hx'.
      { apply orb_prop in Hx as [Hx|Hx]; [apply N.eqb_eq in Hx; lia|].
        rewrite only_periods_cons in Hx. apply andb_prop in Hx as [Hx _]. apply N.eqb_eq in Hx. lia. }
      rewrite undc_code by lia.
      assert (undc (x :: l) = x :: undc l) as Hl.
      { cbn [undc]. rewrite (proj2 (N.eqb_neq x 61)) by lia. done. }
      rewrite <- Hl, <- E. apply undc_enc.
    + rewrite <- E. apply undc_enc.
Qed.

(** Properties of the code points of an encoded element. *)
Lemma utf_code_good n : (n < 65536)%N → Forall (λ x, scalar x ∧ ¬ forbidden x ∧ x ≠ 47%N ∧ x ≠ 46%N) (utf_code n).
Proof.
  intros H. unfold utf_code.
  pose proof (hex_upper_spec (n / 4096)) as A. pose proof (hex_upper_spec (n / 256 mod 16)) as B.
  pose proof (hex_upper_spec (n / 16 mod 16)) as C. pose proof (hex_upper_spec (n mod 16)) as D.
  destruct A as (_&_&A1&A2&A3); [lia|]. destruct B as (_&_&B1&B2&B3); [lia|].
  destruct C as (_&_&C1&C2&C3); [lia|]. destruct D as (_&_&D1&D2&D3); [lia|].
  assert (∀ x, scalar x → ¬ forbidden x → (48 ≤ x < 71)%N → scalar x ∧ ¬ forbidden x ∧ x ≠ 47%N ∧ x ≠ 46%N) as Hd.
  { intros x H1 H2 H3. repeat split; try done; lia. }
  apply Forall_cons; split; [unfold scalar, forbidden; lia|].
  apply Forall_cons; split; [unfold scalar, forbidden; lia|].
  do 4 (apply Forall_cons; split; [by apply Hd|]). by apply Forall_nil.
Qed.
Lemma enc_good l : Forall (λ x, scalar x ∧ x ≠ 47%N) l →
  Forall (λ x, scalar x ∧ ¬ forbidden x ∧ x ≠ 47%N) (enc l).
Proof.
  induction 1 as [|x l [Hx Hx'] _ IH]; [by apply Forall_nil|]. cbn [enc].
  apply Forall_app. split; [|done].
  destruct ((x =? 61)%N && escape_follows l).
  { change [61; 117; 48; 48; 51; 68]%N with (utf_code 61).
    eapply Forall_impl; [apply utf_code_good; lia|]. intros y (?&?&?&?). done. }
  destruct (in_class rule_all x) eqn:Ec.
  - eapply Forall_impl; [apply utf_code_good; by apply rule_all_small in Ec as (? & _)|].
    intros y (?&?&?&?). done.
  - apply Forall_singleton. split; [done|]. split; [|done]. intros Hf%rule_all_spec. congruence.
Qed.
Lemma enc_nonempty l : l ≠ [] → enc l ≠ [].
Proof.
  destruct l as [|x l]; [done|]. intros _. cbn [enc].
  destruct ((x =? 61)%N && escape_follows l); [done|]. by destruct (in_class rule_all x).
Qed.

Lemma clean_utf_good c n : cd_utf c = true → n ≠ [] → Forall (λ x, scalar x ∧ x ≠ 47%N) n →
  clean_elem c n ≠ [] ∧ Forall (λ x, scalar x ∧ ¬ forbidden x ∧ x ≠ 47%N) (clean_elem c n) ∧
  head (clean_elem c n) ≠ Some 126%N ∧ only_periods (clean_elem c n) = false.
Proof.
  intros Hu Hn HF. unfold clean_elem. rewrite Hu, enc_spec.
  pose proof (enc_good n HF) as HG. pose proof (enc_nonempty n Hn) as Hne.
  destruct (enc n) as [|x l] eqn:E; [done|].
  destruct ((x =? 126)%N || only_periods (x :: l)) eqn:Hx.
  - assert (x = 126 ∨ x = 46)%N as Hx'.
    { apply orb_prop in Hx as [Hx|Hx]; [apply N.eqb_eq in Hx; lia|].
      rewrite only_periods_cons in Hx. apply andb_prop in Hx as [Hx _]. apply N.eqb_eq in Hx. lia. }
    split; [done|]. split; [|done]. apply Forall_app. split.
    + eapply Forall_impl; [apply utf_code_good; lia|]. intros y (?&?&?&?). done.
    + by apply Forall_cons in HG as [_ HG].
  - apply orb_false_elim in Hx as [Hx1 Hx2]. apply N.eqb_neq in Hx1.
    split; [done|]. split; [done|]. split; [cbn; congruence|done].
Qed.

(** ** splitting *)
Lemma encode_nil l : encode l = "" ↔ l = [].
Proof.
  split; [|by intros ->]. destruct l as [|n l]; [done|]. cbn. intros H.
  apply (f_equal String.length) in H. rewrite str_length_app in H.
  pose proof (encode_rune_length n). cbn in H. lia.
Qed.
Lemma byte_mem b n : (n < 256)%N → byte n = b → N_of_ascii b = n.
Proof. intros H <-. by apply byte_of_N. Qed.
(** An ASCII byte occurs in the encoding of a code point only if it is that code point. *)
Lemma encode_rune_ascii n b : (N_of_ascii b < 128)%N → n ≠ N_of_ascii b →
  str_mem b (encode_rune n) = false.
Proof.
  intros Hb Hn. apply not_true_iff_false. rewrite str_mem_spec. unfold encode_rune.
  destruct (N.ltb_spec n 128) as [H1|H1].
  { cbn. rewrite elem_of_list_singleton. intros ->. apply Hn. symmetry. apply byte_of_N. lia. }
  assert (∀ k, (128 <= k < 256)%N → b ≠ byte k) as Hk.
  { intros k Hk ->. rewrite byte_of_N in Hb by lia. lia. }
  destruct (N.ltb_spec n 2048) as [H2|H2].
  { cbn. rewrite !elem_of_cons, elem_of_nil. intros [H|[H|[]]]; revert H; apply Hk; lia. }
  case_bool_decide as Hs.
  { cbn [list_ascii_of_string]. rewrite !elem_of_cons, elem_of_nil. intros [H|[H|[H|[]]]]; revert H; apply Hk; lia. }
  unfold scalar in Hs.
  destruct (N.ltb_spec n 65536) as [H3|H3].
  { cbn [list_ascii_of_string]. rewrite !elem_of_cons, elem_of_nil.
    intros [H|[H|[H|[]]]]; revert H; apply Hk; lia. }
  cbn [list_ascii_of_string]. rewrite !elem_of_cons, elem_of_nil.
  intros [H|[H|[H|[H|[]]]]]; revert H; apply Hk; lia.
Qed.
Lemma encode_ascii l b : (N_of_ascii b < 128)%N → N_of_ascii b ∉ l → str_mem b (encode l) = false.
Proof.
  intros Hb. induction l as [|n l IH]; intros H; [done|]. cbn. rewrite not_elem_of_cons in H.
  rewrite str_mem_app, encode_rune_ascii, IH; [done|by destruct H|done|]. intros E. by destruct H.
Qed.
Lemma split_prefix a c s : str_mem c a = false →
  split_on c (a +:+ s) = match split_on c s with w :: ws => (a +:+ w) :: ws | [] => [a] end.
Proof.
  induction a as [|d a IH]; intros H.
  - rewrite str_app_nil_l. pose proof (split_on_nonempty c s). by destruct (split_on c s).
  - cbn [str_mem] in H. destruct (decide (c = d)); [done|]. rewrite str_app_cons. cbn [split_on].
    destruct (decide (d = c)); [congruence|]. rewrite IH by done.
    by destruct (split_on c s).
Qed.
Lemma split_runes_ne l : split_runes l ≠ [].
Proof. destruct l as [|n l]; [done|]. cbn. destruct (n =? 47)%N; [done|]. by destruct (split_runes l). Qed.
Lemma split_encode l : split_slash (encode l) = encode <$> split_runes l.
Proof.
  induction l as [|n l IH]; [done|]. cbn [encode split_runes].
  destruct (N.eqb_spec n 47) as [->|Hn].
  - change (encode_rune 47 +:+ encode l) with (String slash (encode l)).
    rewrite fmap_cons. rewrite <- IH. reflexivity.
  - unfold split_slash in *. rewrite split_prefix by (by apply encode_rune_ascii).
    rewrite IH. pose proof (split_runes_ne l). destruct (split_runes l) as [|w ws]; done.
Qed.
Lemma filter_encode (l : list (list N)) :
  filter (λ e, e ≠ "") (encode <$> l) = encode <$> filter (λ e, e ≠ []) l.
Proof.
  induction l as [|w l IH]; [done|]. rewrite fmap_cons, !filter_cons.
  destruct (decide (encode w ≠ "")) as [H1|H1], (decide (w ≠ [])) as [H2|H2].
  - rewrite fmap_cons. by rewrite IH.
  - exfalso. apply H2. intros ->. by apply H1.
  - exfalso. apply H2. apply encode_nil. by apply dec_stable in H1.
  - done.
Qed.
Lemma names_encode l : names (encode l) = encode <$> filter (λ e, e ≠ []) (split_runes l).
Proof. unfold names. rewrite split_encode. apply filter_encode. Qed.
Lemma split_runes_Forall (P : N → Prop) l :
  Forall P l → Forall (λ w, Forall (λ x, P x ∧ x ≠ 47%N) w) (split_runes l).
Proof.
  induction 1 as [|n l Hn _ IH]; [by repeat constructor|]. cbn [split_runes].
  destruct (N.eqb_spec n 47) as [->|Hne]; [by constructor|].
  destruct (split_runes l) as [|w ws]; [by repeat constructor|].
  apply Forall_cons in IH as [IH1 IH2]. apply Forall_cons. split; [|done]. apply Forall_cons. done.
Qed.

Lemma split_join_runes l :
  l ≠ [] → Forall (λ w, 47%N ∉ w) l → split_runes (join_runes l) = l.
Proof.
  induction l as [|w l IH]; intros Hne HF; [done|]. apply Forall_cons in HF as [Hw HF].
  destruct l as [|w' l].
  - cbn [join_runes]. clear -Hw. induction w as [|n w IH]; [done|]. rewrite not_elem_of_cons in Hw.
    destruct Hw as [Hn Hw]. cbn. rewrite (proj2 (N.eqb_neq _ _)) by congruence. by rewrite IH.
  - change (join_runes (w :: w' :: l)) with (w ++ 47%N :: join_runes (w' :: l)).
    specialize (IH ltac:(done) HF). revert IH. generalize (join_runes (w' :: l)). intros j IH.
    clear -Hw IH. induction w as [|n w IHw].
    + cbn. by rewrite IH.
    + rewrite not_elem_of_cons in Hw. destruct Hw as [Hn Hw]. cbn.
      rewrite (proj2 (N.eqb_neq _ _)) by congruence. by rewrite IHw.
Qed.
Lemma join_runes_encode l : encode (join_runes l) = join_slash (encode <$> l).
Proof.
  induction l as [|w l IH]; [done|]. destruct l as [|w' l]; [done|].
  change (join_runes (w :: w' :: l)) with (w ++ 47%N :: join_runes (w' :: l)).
  rewrite encode_app. change (encode (47%N :: join_runes (w' :: l))) with ("/" +:+ encode (join_runes (w' :: l))).
  rewrite IH. done.
Qed.

(** ** build *)
Lemma clean_elems_some c l r : clean_elems c l = Some r →
  r = filter (λ e, e ≠ []) (clean_elem c <$> filter (λ e, e ≠ []) l) ∧
  Forall (λ e, (len8 e <= cd_maxseg c)%N) r.
Proof.
  revert r. induction l as [|n l IH]; intros r H.
  - injection H as <-. split; [done|by apply Forall_nil].
  - destruct n as [|x n].
    + cbn [clean_elems] in H. rewrite filter_cons. destruct (decide ([] ≠ [])); [done|]. by apply IH.
    + cbn [clean_elems] in H. destruct (N.ltb_spec (cd_maxseg c) (len8 (clean_elem c (x :: n)))) as [|Hlen]; [done|].
      destruct (clean_elems c l) as [r0|]; [|done]. destruct (IH _ eq_refl) as [-> HF].
      rewrite filter_cons. destruct (decide (x :: n ≠ [])) as [_|Hx]; [|by apply dec_stable in Hx].
      rewrite fmap_cons, filter_cons.
      destruct (clean_elem c (x :: n)) as [|y e] eqn:E; injection H as <-.
      * destruct (decide ([] ≠ [])); done.
      * destruct (decide (y :: e ≠ [])) as [_|Hy]; [|by apply dec_stable in Hy].
        split; [done|]. apply Forall_cons. done.
Qed.
Lemma filter_all {A} (P : A → Prop) `{∀ x, Decision (P x)} l : Forall P l → filter P l = l.
Proof.
  induction 1 as [|x l Hx _ IH]; [done|]. rewrite filter_cons. destruct (decide (P x)); [|done]. by rewrite IH.
Qed.

(** What the cleaned path of a UTF mode configuration stands for. *)
Definition undirect (p : string) : list string :=
  (λ w, encode (undc w)) <$> filter (λ e, e ≠ []) (split_runes (runes p)).
Lemma Forall_filter_runes (P : list N → Prop) l : Forall P l → Forall (λ w, w ≠ [] ∧ P w) (filter (λ e, e ≠ []) l).
Proof.
  intros HF. apply Forall_forall. intros w [Hw Hl]%elem_of_list_filter. split; [done|].
  rewrite Forall_forall in HF. by apply HF.
Qed.

Lemma undirect_clean c l : Forall scalar l → cd_utf c = true →
  undirect (encode (join_runes (filter (λ e, e ≠ []) (clean_elem c <$> filter (λ e, e ≠ []) (split_runes l))))) =
  names (encode l).
Proof.
  intros Hl Hu.
  pose proof (Forall_filter_runes _ _ (split_runes_Forall scalar l Hl)) as HF.
  rewrite names_encode. set (ws := filter (λ e, e ≠ []) (split_runes l)) in *.
  assert (Forall (λ e, e ≠ [] ∧ Forall (λ x, scalar x ∧ ¬ forbidden x ∧ x ≠ 47%N) e) (clean_elem c <$> ws)) as HG.
  { apply Forall_fmap. eapply Forall_impl; [exact HF|]. intros w [Hw HFw]. cbn.
    destruct (clean_utf_good c w Hu Hw HFw) as (? & ? & _). done. }
  rewrite filter_all by (eapply Forall_impl; [exact HG|]; by intros ? [? _]).
  unfold undirect. rewrite runes_encode.
  2: { clear -HG. induction (clean_elem c <$> ws) as [|w ls IH]; [by apply Forall_nil|].
       apply Forall_cons in HG as [[_ Hw] HG].
       assert (Forall scalar w) as Hw' by (eapply Forall_impl; [exact Hw|]; by intros ? [? _]).
       destruct ls as [|w' ls]; [done|].
       change (join_runes (w :: w' :: ls)) with (w ++ 47%N :: join_runes (w' :: ls)).
       apply Forall_app. split; [done|]. apply Forall_cons. split; [left; lia|]. by apply IH. }
  destruct ws as [|w ws']; [done|].
  rewrite split_join_runes; [|done|].
  2: { eapply Forall_impl; [exact HG|]. intros e [_ He] Hin. rewrite Forall_forall in He.
       by destruct (He _ Hin) as (_ & _ & ?). }
  rewrite filter_all by (eapply Forall_impl; [exact HG|]; by intros ? [? _]).
  rewrite <- list_fmap_compose. apply list_fmap_ext. intros i e _. cbn. by rewrite undc_clean.
Qed.
Lemma buildD_utf h c l p :
  Forall scalar l → cd_utf c = true → buildD h c (encode l) = POk p →
  undirect p = names (encode l) ∨ ∃ x, fallback h c x = POk p.
Proof.
  intros Hl Hu. unfold buildD. rewrite to_valid_encode by done.
  destruct (clean_elems c (split_runes l)) as [r|] eqn:E; [|intros H; right; by eexists].
  destruct (_ <? _)%N; [intros H; right; by eexists|]. intros [= <-]. left.
  apply clean_elems_some in E as [-> _]. by apply undirect_clean.
Qed.

(** ** safety *)
Lemma encode_head x l r : encode (x :: l) = String "~" r → x = 126%N.
Proof.
  cbn [encode]. intros H. destruct (decide (x = 126%N)) as [|Hx]; [done|]. exfalso.
  pose proof (encode_rune_ascii x "~") as Hm. change (N_of_ascii "~") with 126%N in Hm.
  specialize (Hm ltac:(lia) Hx). pose proof (encode_rune_length x) as Hlen.
  destruct (encode_rune x) as [|y s]; [cbn in Hlen; lia|].
  rewrite str_app_cons in H. injection H as -> _. cbn in Hm. done.
Qed.
Lemma only_periods_replicate w : w ≠ [] → Forall (λ x, x = 46%N) w → only_periods w = true.
Proof.
  intros Hw HF. destruct w as [|x w]; [done|]. apply forallb_forall. intros y Hy%elem_of_list_In.
  rewrite Forall_forall in HF. apply N.eqb_eq. by apply HF.
Qed.
Lemma clean_name_intro max w :
  w ≠ [] → Forall (λ x, scalar x ∧ ¬ forbidden x ∧ x ≠ 47%N) w → head w ≠ Some 126%N →
  only_periods w = false → (len8 w <= max)%N → clean_name max (encode w).
Proof.
  intros Hw HF Hh Hp Hlen. split; [|split; [|split]].
  - split; [intros E%encode_nil; done|].
    assert (∀ n, encode w ≠ encode (replicate n 46%N)) as Hdots.
    { intros n E. apply encode_inj in E; [|eapply Forall_impl; [exact HF|]; by intros ? [? _]|].
      - rewrite E in Hp, Hw. rewrite only_periods_replicate in Hp; [done|done|].
        by apply Forall_replicate.
      - apply Forall_replicate. left. lia. }
    split; [apply (Hdots 1)|]. split; [apply (Hdots 2)|].
    intros H%str_mem_spec. rewrite encode_ascii in H; [done|done|].
    intros Hin. rewrite Forall_forall in HF. by destruct (HF _ Hin) as (_ & _ & ?).
  - intros r E. destruct w as [|x w]; [done|]. apply encode_head in E as ->. done.
  - exact Hlen.
  - exists w. split; [eapply Forall_impl; [exact HF|]; by intros ? [? _]|]. split; [done|].
    eapply Forall_impl; [exact HF|]; by intros ? (_ & ? & _).
Qed.

Lemma valid_runes_scalar repl b l : Forall scalar repl →
  Forall (λ o, match o with Some n => scalar n | None => True end) l → Forall scalar (valid_runes repl b l).
Proof.
  intros Hr H. revert b. induction H as [|o l Ho _ IH]; intros b; [by apply Forall_nil|].
  cbn. destruct o as [n|]; [by apply Forall_cons|]. destruct b; [done|]. by apply Forall_app.
Qed.
Lemma to_valid_scalar repl s : Forall scalar repl → Forall scalar (to_valid_runes repl s).
Proof. intros H. apply valid_runes_scalar; [done|]. apply decode_scalar. Qed.

(** Cleaned elements are clean names provided the replacement strings are harmless. *)
Definition good_elem (w : list N) : Prop :=
  Forall (λ x, scalar x ∧ ¬ forbidden x ∧ x ≠ 47%N) w ∧ head w ≠ Some 126%N ∧ only_periods w = false.
Lemma buildD_safe h c id p :
  Forall scalar (cd_repl c) →
  (∀ n, n ≠ [] → Forall (λ x, scalar x ∧ x ≠ 47%N) n → clean_elem c n = [] ∨ good_elem (clean_elem c n)) →
  buildD h c id = POk p →
  p = "" ∨
  ((∃ es, path_of es p ∧ Forall (clean_name (cd_maxseg c)) es) ∧ (N.of_nat (String.length p) <= cd_maxpath c)%N) ∨
  (∃ x, fallback h c x = POk p).
Proof.
  intros Hr Hc. unfold buildD.
  pose proof (to_valid_scalar _ id Hr) as Hl. generalize dependent (to_valid_runes (cd_repl c) id). intros l Hl.
  destruct (clean_elems c (split_runes l)) as [r|] eqn:E; [|intros H; right; right; by eexists].
  destruct (N.ltb_spec (cd_maxpath c) (len8 (join_runes r))) as [|Hlen]; [intros H0; right; right; by eexists|].
  intros [= <-].
  apply clean_elems_some in E as [-> Hlens].
  pose proof (Forall_filter_runes _ _ (split_runes_Forall scalar l Hl)) as HF.
  set (ws := filter (λ e, e ≠ []) (split_runes l)) in *.
  set (es := filter (λ e, e ≠ []) (clean_elem c <$> ws)) in *.
  destruct (decide (es = [])) as [Hes|Hes]; [left; by rewrite Hes|]. right. left.
  split; [|exact Hlen].
  exists (encode <$> es). split.
  - rewrite join_runes_encode. apply path_of_join; [|done]. intros E. by apply fmap_nil_inv in E.
  - apply Forall_fmap, Forall_forall. intros e He. rewrite Forall_forall in Hlens. specialize (Hlens e He).
    apply elem_of_list_filter in He as [Hne He]. apply elem_of_list_fmap in He as (w & -> & Hw).
    rewrite Forall_forall in HF. destruct (HF w Hw) as [Hwne HFw].
    destruct (Hc w Hwne HFw) as [|(G1 & G2 & G3)]; [done|]. by apply clean_name_intro.
Qed.
Lemma utf_good_elem c n : cd_utf c = true → n ≠ [] → Forall (λ x, scalar x ∧ x ≠ 47%N) n →
  clean_elem c n = [] ∨ good_elem (clean_elem c n).
Proof. intros Hu Hn HF. right. destruct (clean_utf_good c n Hu Hn HF) as (_ & ? & ? & ?). done. Qed.

(** Without UTF mode. *)
Lemma replace_Forall (P Q : N → Prop) cl f l :
  (∀ x, P x → in_class cl x = false → Q x) → (∀ x, Forall Q (f x)) → Forall P l → Forall Q (replace_class cl f l).
Proof.
  intros H1 H2. induction 1 as [|x l Hx _ IH]; [by apply Forall_nil|]. rewrite replace_cons.
  apply Forall_app. split; [|done]. destruct (in_class cl x) eqn:E; [done|]. apply Forall_singleton. by apply H1.
Qed.
Lemma drop_while_suffix p l : ∃ a, l = a ++ drop_while p l.
Proof.
  induction l as [|x l [a Ha]]; [by exists []|]. cbn. destruct (p x); [|by exists []].
  exists (x :: a). cbn. by rewrite <- Ha.
Qed.
Lemma drop_while_head p l x : head (drop_while p l) = Some x → p x = false.
Proof. induction l as [|y l IH]; [done|]. cbn. destruct (p y) eqn:E; [done|]. cbn. by intros [= ->]. Qed.
Lemma drop_while_Forall p P l : Forall P l → Forall P (drop_while p l).
Proof. intros H. destruct (drop_while_suffix p l) as [a E]. rewrite E in H. by apply Forall_app in H as [_ H]. Qed.
Lemma trim_ends_prefix l : ∃ b,
  drop_while (λ n, (n =? 45)%N || (n =? 126)%N || in_class white n) l = trim_ends l ++ b.
Proof.
  unfold trim_ends. set (d := drop_while _ l).
  destruct (drop_while_suffix (in_class white_end) (rev d)) as [a Ha].
  exists (rev a). rewrite <- rev_app_distr, <- Ha. by rewrite rev_involutive.
Qed.
Lemma trim_ends_Forall P l : Forall P l → Forall P (trim_ends l).
Proof.
  intros H. destruct (trim_ends_prefix l) as [b Hb].
  apply (drop_while_Forall (λ n, (n =? 45)%N || (n =? 126)%N || in_class white n)) in H.
  rewrite Hb in H. by apply Forall_app in H as [H _].
Qed.
Lemma trim_ends_head l : head (trim_ends l) ≠ Some 126%N.
Proof.
  intros H. destruct (trim_ends_prefix l) as [b Hb].
  assert (head (drop_while (λ n, (n =? 45)%N || (n =? 126)%N || in_class white n) l) = Some 126%N) as H'.
  { rewrite Hb. by destruct (trim_ends l). }
  apply drop_while_head in H'. done.
Qed.

(** Replacement strings which keep the result clean. *)
Definition harmless (l : list N) : Prop := Forall (λ x, scalar x ∧ ¬ forbidden x ∧ x ≠ 47%N) l.
Lemma replace_good_elem c n :
  cd_utf c = false → harmless (cd_wrepl c) → harmless (cd_repl c) →
  (∃ x r, cd_repl c = x :: r ∧ x ≠ 126%N ∧ x ≠ 46%N) →
  Forall (λ x, scalar x ∧ x ≠ 47%N) n → clean_elem c n = [] ∨ good_elem (clean_elem c n).
Proof.
  intros Hu Hw Hr (x & r & Ex & Hx & Hx') HF. unfold clean_elem. rewrite Hu.
  set (n1 := replace_class white _ n). set (n2 := replace_class rule_1_5 _ n1).
  assert (Forall (λ x, (scalar x ∧ x ≠ 47%N) ∧ in_class white x = false) n1) as H1.
  { eapply replace_Forall; [|intros _|exact HF]; [by intros y ? ?|]. eapply Forall_impl; [exact Hw|].
    intros y (? & Hf & ?). split; [done|]. apply not_true_iff_false. intros Hy. apply Hf.
    revert Hy. unfold white. rewrite !in_class_cons, in_class_nil. unfold forbidden. lia. }
  assert (Forall (λ x, scalar x ∧ ¬ forbidden x ∧ x ≠ 47%N) n2) as H2.
  { eapply replace_Forall; [|intros _|exact H1].
    - intros y [[? ?] Hy] Hy'. split; [done|]. split; [|done].
      intros [Hf|Hf]%white_or_1_5; congruence.
    - exact Hr. }
  clearbody n2. clear n1 H1.
  destruct (only_periods (trim_ends n2)) eqn:Ep.
  - right. rewrite Ex. split; [|split].
    + apply Forall_app. split; [by rewrite <- Ex|].
      apply (trim_ends_Forall _ _) in H2. destruct (trim_ends n2); [done|].
      by apply Forall_cons in H2 as [_ H2].
    + cbn. congruence.
    + cbn. by rewrite (proj2 (N.eqb_neq x 46)).
  - destruct (trim_ends n2) as [|y e] eqn:Et; [by left|]. right. rewrite <- Et in *.
    split; [by apply trim_ends_Forall|]. split; [apply trim_ends_head|done].
Qed.

(** ** fallback *)
Lemma plain_conv e : plain_name e ↔ CrashSpec.plain_name e.
Proof.
  unfold plain_name, CrashSpec.plain_name. rewrite <- (not_true_iff_false (str_mem slash e)).
  rewrite str_mem_spec. done.
Qed.
Lemma plain_conv_all es : Forall plain_name es → Forall CrashSpec.plain_name es.
Proof. intros H. eapply Forall_impl; [exact H|]. intros e. apply plain_conv. Qed.
Lemma join_plain_nonempty es : es ≠ [] → Forall plain_name es → join_slash es ≠ "".
Proof. intros H1 H2. apply join_slash_nonempty; [done|]. by apply plain_conv_all. Qed.
Lemma join_two es1 es2 : es1 ≠ [] → es2 ≠ [] → Forall plain_name es1 → Forall plain_name es2 →
  path_join [join_slash es1; join_slash es2] = join_slash (es1 ++ es2).
Proof.
  intros N1 N2 F1 F2. rewrite path_join_plain by (by apply join_plain_nonempty).
  assert (join_slash [join_slash es1; join_slash es2] = join_slash (es1 ++ es2)) as ->.
  { unfold join_slash at 4. rewrite str_join_app by done. done. }
  apply path_clean_plain; [by destruct es1|]. apply plain_conv_all, Forall_app. done.
Qed.
Lemma path_join_nil_l es : es ≠ [] → Forall plain_name es → path_join [""; join_slash es] = join_slash es.
Proof.
  intros Hne HF. cbn [path_join]. destruct (decide ("" = "")); [|done].
  destruct (decide (join_slash es = "")) as [E|_]; [by apply join_plain_nonempty in E|].
  cbn [str_join]. change (join_slash [join_slash es]) with (join_slash es).
  apply path_clean_plain; [done|]. by apply plain_conv_all.
Qed.

(** Strings of hexadecimal digits. *)
Definition hex_string (s : string) : Prop :=
  ∀ c, c ∈ list_ascii_of_string s → (48 <= N_of_ascii c <= 57 ∨ 97 <= N_of_ascii c <= 102)%N.
Lemma hex_string_sub n m s : hex_string s → hex_string (substring n m s).
Proof.
  intros H c Hc. apply H. destruct (decide (c ∈ list_ascii_of_string s)) as [|Hn]; [done|]. exfalso.
  assert (str_mem c s = false) as Hm by (apply not_true_iff_false; by rewrite str_mem_spec).
  apply (substring_mem c n m) in Hm. rewrite <- not_true_iff_false, str_mem_spec in Hm. done.
Qed.
Lemma hex_string_encode s : hex_string s →
  s = encode (N_of_ascii <$> list_ascii_of_string s) ∧
  Forall (λ x, scalar x ∧ ¬ forbidden x ∧ x ≠ 47%N ∧ x ≠ 46%N ∧ x ≠ 126%N) (N_of_ascii <$> list_ascii_of_string s).
Proof.
  induction s as [|c s IH]; intros H; [split; [done|by apply Forall_nil]|].
  destruct IH as [E HF]. { intros d Hd. apply H. cbn. by right. }
  assert (48 <= N_of_ascii c <= 57 ∨ 97 <= N_of_ascii c <= 102)%N as Hc by (apply H; cbn; by left).
  split.
  - cbn [list_ascii_of_string]. rewrite fmap_cons. cbn [encode].
    unfold encode_rune. rewrite (proj2 (N.ltb_lt _ _)) by lia. unfold byte. rewrite ascii_N_embedding.
    rewrite str_app_cons, str_app_nil_l. by rewrite <- E.
  - cbn [list_ascii_of_string]. rewrite fmap_cons. apply Forall_cons. split; [|done].
    unfold scalar, forbidden. lia.
Qed.
Lemma hex_clean_name max s : hex_string s → s ≠ "" → (N.of_nat (String.length s) <= max)%N → clean_name max s.
Proof.
  intros H Hne Hlen. destruct (hex_string_encode s H) as [E HF].
  set (w := N_of_ascii <$> list_ascii_of_string s) in *. rewrite E.
  assert (w ≠ []) as Hw by (intros Hw; apply Hne; by rewrite E, Hw).
  apply clean_name_intro; [done| | | |].
  - eapply Forall_impl; [exact HF|]. by intros y (? & ? & ? & _).
  - destruct w as [|x w]; [done|]. apply Forall_cons in HF as [Hx _]. cbn. intros [= ->].
    by destruct Hx as (_ & _ & _ & _ & ?).
  - destruct w as [|x w]; [done|]. apply Forall_cons in HF as [Hx _].
    rewrite only_periods_cons, (proj2 (N.eqb_neq x 46)); [done|]. by destruct Hx as (_ & _ & _ & ? & _).
  - unfold len8. by rewrite <- E.
Qed.

Lemma substring_nonempty n m s : 0 < m → n < String.length s → substring n m s ≠ "".
Proof.
  revert n m. induction s as [|c s IH]; intros n m Hm Hn; [cbn in Hn; lia|].
  destruct n as [|n]; [by destruct m; [lia|]|]. cbn. apply IH; [done|]. cbn in Hn. lia.
Qed.
Lemma substring_le n m s : String.length (substring n m s) ≤ m.
Proof.
  revert n m. induction s as [|c s IH]; intros n m; [destruct n, m; cbn; lia|].
  destruct n as [|n], m as [|m]; cbn; [lia| |apply IH|apply IH]. specialize (IH 0 m). lia.
Qed.
Lemma digest_parts_clean max s : hex_string s → (0 < max)%N →
  Forall (clean_name max) (digest_parts (N.to_nat max) s) ∧ (s ≠ "" → digest_parts (N.to_nat max) s ≠ []).
Proof.
  intros Hs Hm. unfold digest_parts, tuples. set (m := N.to_nat max). assert (0 < m) by lia.
  set (k := (String.length s + (m - 1)) / m).
  assert (m * k ≤ String.length s + (m - 1)) as Hk by (apply Nat.mul_div_le; lia).
  split.
  - apply Forall_fmap, Forall_forall. intros i [_ Hi]%elem_of_seq. cbn.
    apply hex_clean_name; [by apply hex_string_sub|apply substring_nonempty; [done|nia]|].
    pose proof (substring_le (i * m) m s). lia.
  - intros Hne. assert (0 < k) as Hk0.
    { apply Nat.div_str_pos. destruct s; [done|cbn]. lia. }
    destruct k; [lia|done].
Qed.
Lemma fallback_tuples_clean max n size s : hex_string s →
  n = 0 ∨ (0 < size ∧ (N.of_nat size <= max)%N) → n - 1 + size ≤ String.length s →
  Forall (clean_name max) (fallback_tuples n size s).
Proof.
  intros Hs Hn Hlen. unfold fallback_tuples. apply Forall_fmap, Forall_forall. intros i [_ Hi]%elem_of_seq. cbn.
  destruct Hn as [->|[H1 H2]]; [lia|].
  apply hex_clean_name; [by apply hex_string_sub|apply substring_nonempty; lia|].
  pose proof (substring_le i size s). lia.
Qed.
Lemma clean_plain max es : Forall (clean_name max) es → Forall plain_name es.
Proof. intros H. eapply Forall_impl; [exact H|]. by intros e [? _]. Qed.
Lemma fold_parts es0 es : es0 ≠ [] → Forall plain_name es0 → Forall plain_name es →
  foldl (λ r p, path_join [r; p]) (join_slash es0) es = join_slash (es0 ++ es).
Proof.
  revert es0. induction es as [|e es IH]; intros es0 Hne H0 HF; [by rewrite app_nil_r|].
  apply Forall_cons in HF as [He HF]. cbn [foldl].
  change e with (join_slash [e]) at 1. rewrite join_two; [|done|done|done|by apply Forall_singleton].
  rewrite IH; [by rewrite <- app_assoc|by destruct es0| |done]. apply Forall_app. split; [done|]. by apply Forall_singleton.
Qed.
Lemma fold_tuples es0 es : es0 ≠ [] → Forall plain_name es0 → Forall plain_name es →
  foldr (λ p r, path_join [p; r]) (join_slash es0) es = join_slash (es ++ es0).
Proof.
  intros Hne H0 HF. induction HF as [|e es He HF IH]; [done|]. cbn [foldr]. rewrite IH.
  change e with (join_slash [e]) at 1. rewrite join_two; [done|done|by destruct es|by apply Forall_singleton|].
  apply Forall_app. done.
Qed.
Lemma trim_left_plain es : es ≠ [] → Forall plain_name es → trim_left (join_slash es) "/" = join_slash es.
Proof.
  intros Hne HF. pose proof (str_head_join es Hne (plain_conv_all _ HF)) as Hh.
  destruct (join_slash es) as [|c s]; [done|]. cbn in Hh |- *.
  destruct (decide (c = slash)) as [->|Hc]; [done|].
  by destruct (decide (c = "/"%char)).
Qed.
Lemma fallback_safe h c fs x p :
  fs ≠ [] → Forall plain_name fs → cd_folder c = join_slash fs → (0 < cd_maxseg c)%N →
  cd_ntuples c = 0 ∨ (0 < cd_tsize c ∧ (N.of_nat (cd_tsize c) <= cd_maxseg c)%N) →
  h x ≠ "" → fallback h c x = POk p →
  ∃ es, path_of (fs ++ es) p ∧ Forall (clean_name (cd_maxseg c)) es ∧ (N.of_nat (String.length p) <= cd_maxpath c)%N.
Proof.
  intros Hne Hfs Hf Hm Hn Hx. unfold fallback. set (d := hex_bytes (h x)).
  destruct ((0 <? cd_ntuples c) && _) eqn:Ep; [done|].
  assert (hex_string d) as Hd by (intros a; apply hex_bytes_chars).
  assert (d ≠ "") as Hdne. { subst d. by destruct (h x). }
  destruct (digest_parts_clean _ d Hd Hm) as [P1 P2]. specialize (P2 Hdne).
  assert (Forall (clean_name (cd_maxseg c)) (fallback_tuples (cd_ntuples c) (cd_tsize c) d)) as T.
  { destruct (decide (cd_ntuples c = 0)) as [->|Hnz]; [by apply Forall_nil|].
    apply fallback_tuples_clean; [done|by destruct Hn; [|right]|].
    destruct (Nat.ltb_spec 0 (cd_ntuples c)); [|lia]. cbn in Ep. apply Nat.ltb_ge in Ep. done. }
  set (ps := digest_parts _ d) in *. set (ts := fallback_tuples _ _ d) in *.
  assert (foldl (λ r p, path_join [r; p]) "" ps = join_slash ps) as ->.
  { destruct ps as [|e ps']; [done|]. apply clean_plain in P1. apply Forall_cons in P1 as [Pe P1]. cbn [foldl].
    change e with (join_slash [e]) at 1. rewrite path_join_nil_l by (done || by apply Forall_singleton).
    rewrite fold_parts; [done|done|by apply Forall_singleton|done]. }
  rewrite fold_tuples; [|done|by eapply clean_plain|by eapply clean_plain].
  assert (Forall plain_name (ts ++ ps)) as HF by (apply Forall_app; split; by eapply clean_plain).
  assert (Forall plain_name (fs ++ (ts ++ ps))) as HF' by (by apply Forall_app).
  rewrite Hf, join_two; [|done|by destruct ts|done|done].
  rewrite path_clean_plain; [|by destruct fs|by apply plain_conv_all].
  rewrite trim_left_plain; [|by destruct fs|done].
  destruct (N.ltb_spec (cd_maxpath c) (N.of_nat (String.length (join_slash (fs ++ ts ++ ps))))) as [|Hlen]; [done|].
  intros [= <-]. exists (ts ++ ps). split; [|split; [by apply Forall_app|done]].
  apply path_of_join; [by destruct fs|done].
Qed.

(** ** lengths *)
Lemma len8_app a b : len8 (a ++ b) = (len8 a + len8 b)%N.
Proof. unfold len8. rewrite encode_app, str_length_app. lia. Qed.
Lemma len8_cons x l : len8 (x :: l) = (len8 [x] + len8 l)%N.
Proof. change (x :: l) with ([x] ++ l). apply len8_app. Qed.
Lemma len8_one x : (1 <= len8 [x])%N.
Proof. unfold len8. cbn [encode]. rewrite str_app_nil_r. pose proof (encode_rune_length x). lia. Qed.
Lemma len8_code x : (x < 65536)%N → len8 (utf_code x) = 6%N.
Proof.
  intros H. unfold utf_code.
  destruct (hex_upper_spec (x / 4096)) as (_&_&_&_&A); [lia|].
  destruct (hex_upper_spec (x / 256 mod 16)) as (_&_&_&_&B); [lia|].
  destruct (hex_upper_spec (x / 16 mod 16)) as (_&_&_&_&C); [lia|].
  destruct (hex_upper_spec (x mod 16)) as (_&_&_&_&D); [lia|].
  assert (∀ y, (y < 128)%N → len8 [y] = 1%N) as Hy.
  { intros y Hy. unfold len8. cbn [encode]. unfold encode_rune. by rewrite (proj2 (N.ltb_lt _ _)). }
  do 5 rewrite len8_cons, Hy by lia. by rewrite Hy by lia.
Qed.
Lemma len8_enc l : (len8 (enc l) <= 6 * len8 l)%N.
Proof.
  induction l as [|x l IH]; [done|]. cbn [enc]. rewrite len8_app, (len8_cons x l).
  pose proof (len8_one x).
  destruct ((x =? 61)%N && escape_follows l).
  { change [61; 117; 48; 48; 51; 68]%N with (utf_code 61). rewrite len8_code; lia. }
  destruct (in_class rule_all x) eqn:E; [|lia].
  rewrite len8_code by (by apply rule_all_small in E as (? & _)). lia.
Qed.
Lemma len8_clean c n : cd_utf c = true → (len8 (clean_elem c n) <= 6 * len8 n)%N.
Proof.
  intros Hu. unfold clean_elem. rewrite Hu, enc_spec. pose proof (len8_enc n) as Hn.
  destruct (enc n) as [|x l] eqn:E; [done|].
  destruct ((x =? 126)%N || only_periods (x :: l)) eqn:Hx; [|done].
  assert (x = 126 ∨ x = 46)%N as Hx'.
  { apply orb_prop in Hx as [Hx|Hx]; [apply N.eqb_eq in Hx; lia|].
    rewrite only_periods_cons in Hx. apply andb_prop in Hx as [Hx _]. apply N.eqb_eq in Hx. lia. }
  apply enc_head in E as (n' & -> & ->); [|lia].
  rewrite len8_app, len8_code by lia. rewrite (len8_cons x n'). pose proof (len8_enc n'). pose proof (len8_one x). lia.
Qed.
Definition total (ws : list (list N)) : N := foldr (λ w a, (len8 w + 1 + a)%N) 0%N ws.
Lemma total_split l : total (split_runes l) = (len8 l + 1)%N.
Proof.
  induction l as [|x l IH]; [done|]. cbn [split_runes]. rewrite len8_cons.
  destruct (N.eqb_spec x 47) as [->|Hx].
  - cbn [total foldr]. fold (total (split_runes l)). rewrite IH. change (len8 []) with 0%N.
    change (len8 [47%N]) with 1%N. lia.
  - pose proof (split_runes_ne l). destruct (split_runes l) as [|w ws]; [done|].
    cbn [total foldr] in *. rewrite len8_cons. lia.
Qed.
Lemma total_join ws : ws ≠ [] → total ws = (len8 (join_runes ws) + 1)%N.
Proof.
  induction ws as [|w ws IH]; [done|]. intros _. destruct ws as [|w' ws]; [cbn; lia|].
  change (join_runes (w :: w' :: ws)) with (w ++ 47%N :: join_runes (w' :: ws)).
  change (total (w :: w' :: ws)) with (len8 w + 1 + total (w' :: ws))%N. rewrite IH by done.
  rewrite len8_app, (len8_cons 47). change (len8 [47%N]) with 1%N. lia.
Qed.
Lemma total_clean c ws : cd_utf c = true →
  (total (clean_elem c <$> filter (λ e, e ≠ []) ws) + 5 * N.of_nat (length ws) <= 6 * total ws)%N.
Proof.
  intros Hu. induction ws as [|w ws IH]; [done|]. rewrite filter_cons.
  change (total (w :: ws)) with (len8 w + 1 + total ws)%N. cbn [length].
  destruct (decide (w ≠ [])); [|lia]. rewrite fmap_cons.
  change (total (clean_elem c w :: (clean_elem c <$> filter (λ e, e ≠ []) ws))) with
    (len8 (clean_elem c w) + 1 + total (clean_elem c <$> filter (λ e, e ≠ []) ws))%N.
  pose proof (len8_clean c w Hu). lia.
Qed.
Lemma clean_elems_short c l : cd_utf c = true → Forall (λ w, (6 * len8 w <= cd_maxseg c)%N) l → clean_elems c l ≠ None.
Proof.
  intros Hu. induction 1 as [|w l Hw _ IH]; [done|]. cbn [clean_elems]. destruct w as [|x w]; [done|].
  pose proof (len8_clean c (x :: w) Hu).
  destruct (N.ltb_spec (cd_maxseg c) (len8 (clean_elem c (x :: w)))); [lia|]. by destruct (clean_elems c l).
Qed.
(** Short identifiers never need the fallback. *)
Lemma buildD_utf_short h c l :
  Forall scalar l → cd_utf c = true →
  (6 * N.of_nat (String.length (encode l)) <= cd_maxpath c)%N →
  Forall (λ e, (6 * N.of_nat (String.length e) <= cd_maxseg c)%N) (names (encode l)) →
  ∃ p, buildD h c (encode l) = POk p ∧ undirect p = names (encode l).
Proof.
  intros Hl Hu Hp Hs. unfold buildD. rewrite to_valid_encode by done.
  assert (Forall (λ w, (6 * len8 w <= cd_maxseg c)%N) (split_runes l)) as Hs'.
  { rewrite names_encode, Forall_fmap in Hs. apply Forall_forall. intros w Hw.
    destruct (decide (w = [])) as [->|Hne]; [unfold len8; cbn; lia|].
    rewrite Forall_forall in Hs. apply (Hs w). by apply elem_of_list_filter. }
  pose proof (clean_elems_short c _ Hu Hs') as Hne.
  destruct (clean_elems c (split_runes l)) as [r|] eqn:E; [|done].
  pose proof E as [Er _]%clean_elems_some.
  pose proof (Forall_filter_runes _ _ (split_runes_Forall scalar l Hl)) as HF.
  rewrite filter_all in Er.
  2: { apply Forall_fmap. eapply Forall_impl; [exact HF|]. intros w [Hw HFw]. cbn.
       by destruct (clean_utf_good c w Hu Hw HFw) as (? & _). }
  destruct (N.ltb_spec (cd_maxpath c) (len8 (join_runes r))) as [Hlt|_].
  { exfalso. destruct (decide (r = [])) as [->|Hr]; [cbn in Hlt; lia|].
    pose proof (total_join r Hr) as Ht. rewrite Er in Ht at 1.
    pose proof (total_clean c (split_runes l) Hu) as Hc. rewrite total_split in Hc.
    pose proof (split_runes_ne l). assert (0 < length (split_runes l)) by (destruct (split_runes l); [done|cbn; lia]).
    unfold len8 in Hc at 1. lia. }
  eexists. split; [reflexivity|].
  apply clean_elems_some in E as [-> _]. by apply undirect_clean.
Qed.

(** ** nesting *)
Lemma inside_clean c l1 l2 (r1 r2 : list (list N)) :
  Forall scalar l1 → Forall scalar l2 → cd_utf c = true →
  clean_elems c (split_runes l1) = Some r1 → clean_elems c (split_runes l2) = Some r2 →
  inside (encode (join_runes r1)) (encode (join_runes r2)) →
  ∃ l, l ≠ [] ∧ names (encode l2) = names (encode l1) ++ l.
Proof.
  intros H1 H2 Hu E1 E2 Hin. apply clean_elems_some in E1 as [-> _], E2 as [-> _].
  assert (∀ l, Forall scalar l → Forall (λ w, w ≠ [] ∧ Forall (λ x, scalar x ∧ ¬ forbidden x ∧ x ≠ 47%N) w)
    (clean_elem c <$> filter (λ e, e ≠ []) (split_runes l))) as HG.
  { intros l Hl. apply Forall_fmap. pose proof (Forall_filter_runes _ _ (split_runes_Forall scalar l Hl)) as HF.
    eapply Forall_impl; [exact HF|]. intros w [Hw HFw]. cbn.
    destruct (clean_utf_good c w Hu Hw HFw) as (? & ? & _). done. }
  pose proof (HG l1 H1) as G1. pose proof (HG l2 H2) as G2. clear HG.
  rewrite (filter_all _ (clean_elem c <$> filter _ (split_runes l1))) in Hin
    by (eapply Forall_impl; [exact G1|]; by intros ? [? _]).
  rewrite (filter_all _ (clean_elem c <$> filter _ (split_runes l2))) in Hin
    by (eapply Forall_impl; [exact G2|]; by intros ? [? _]).
  rewrite !names_encode.
  set (w1 := filter (λ e, e ≠ []) (split_runes l1)) in *. set (w2 := filter (λ e, e ≠ []) (split_runes l2)) in *.
  rewrite !join_runes_encode in Hin.
  assert (∀ ws, Forall (λ w, w ≠ [] ∧ Forall (λ x, scalar x ∧ ¬ forbidden x ∧ x ≠ 47%N) w) ws →
    Forall (λ e, str_mem slash e = false) (encode <$> ws)) as Hns.
  { intros ws Hws. apply Forall_fmap. eapply Forall_impl; [exact Hws|]. intros w [_ Hw]. cbn.
    apply encode_ascii; [done|]. intros Hin'. rewrite Forall_forall in Hw. by destruct (Hw _ Hin') as (_ & _ & ?). }
  assert (w2 ≠ []) as Hne2. { intros E. rewrite E in Hin. destruct Hin as [r Hr]. cbn in Hr. by destruct (join_slash _). }
  assert (w1 ≠ []) as Hne1.
  { intros E. rewrite E in Hin. destruct Hin as [r Hr]. change (join_slash (encode <$> (clean_elem c <$> []))) with "" in Hr.
    destruct w2 as [|w w2]; [done|].
    rewrite !fmap_cons in Hr, G2. apply Forall_cons in G2 as [[Gne G2] _].
    pose proof (Hns [clean_elem c w]) as Hw. rewrite !list_fmap_singleton, !Forall_singleton in Hw.
    specialize (Hw (conj Gne G2)).
    destruct (encode (clean_elem c w)) as [|x s] eqn:Ee; [by apply encode_nil in Ee|].
    rewrite fmap_cons, Ee in Hr. destruct (encode <$> (clean_elem c <$> w2)); cbn in Hr; injection Hr as -> _; done. }
  apply inside_join in Hin; [|by destruct w1|by destruct w2|by apply Hns|by apply Hns].
  destruct Hin as (l3 & Hl3 & Hin).
  exists ((λ e, encode (undc (runes e))) <$> l3). split; [by destruct l3|].
  assert (∀ ws, Forall (λ w, w ≠ [] ∧ Forall (λ x, scalar x ∧ ¬ forbidden x ∧ x ≠ 47%N) w) (clean_elem c <$> ws) →
    (λ e, encode (undc (runes e))) <$> (encode <$> (clean_elem c <$> ws)) = encode <$> ws) as Hdec.
  { intros ws Hws. rewrite Forall_fmap in Hws. rewrite <- !list_fmap_compose.
    apply list_fmap_ext. intros i w Hw. cbn. apply elem_of_list_lookup_2 in Hw.
    rewrite Forall_forall in Hws. destruct (Hws _ Hw) as [_ Hs]. rewrite runes_encode.
    - by rewrite undc_clean.
    - eapply Forall_impl; [exact Hs|]. by intros ? [? _]. }
  rewrite <- (Hdec w2 G2), Hin, fmap_app. by rewrite (Hdec w1 G1).
Qed.
Lemma buildD_nested h c l1 l2 p1 p2 :
  Forall scalar l1 → Forall scalar l2 → cd_utf c = true →
  buildD h c (encode l1) = POk p1 → buildD h c (encode l2) = POk p2 → inside p1 p2 →
  (∃ l, l ≠ [] ∧ names (encode l2) = names (encode l1) ++ l) ∨ (∃ x, fallback h c x = POk p1 ∨ fallback h c x = POk p2).
Proof.
  intros H1 H2 Hu. unfold buildD. rewrite !to_valid_encode by done.
  destruct (clean_elems c (split_runes l1)) as [r1|] eqn:E1; [|intros; right; by eexists; left].
  destruct (cd_maxpath c <? len8 (join_runes r1))%N; [intros; right; by eexists; left|].
  destruct (clean_elems c (split_runes l2)) as [r2|] eqn:E2; [|intros; right; by eexists; right].
  destruct (cd_maxpath c <? len8 (join_runes r2))%N; [intros; right; by eexists; right|].
  intros [= <-] [= <-] Hin. left. by eapply inside_clean.
Qed.

(** ** statements over identifiers *)
Lemma hex_byte_length c : String.length (hex_of_N (N_of_ascii c)) ≤ 2.
Proof. destruct c as [[] [] [] [] [] [] [] []]; vm_compute; lia. Qed.
Lemma escape_length s : String.length (escape s) ≤ 3 * String.length s.
Proof.
  induction s as [|c s IH]; [done|]. cbn [escape]. pose proof (hex_byte_length c).
  destruct (keep3 c); cbn [String.length]; [lia|]. rewrite str_length_app. lia.
Qed.
Lemma injective3 h c a b p :
  bytes_from 16 a → bytes_from 16 b →
  (33 < String.length a → 33 < String.length b → h a = h b → a = b) →
  build3 h c a = POk p → build3 h c b = POk p → a = b.
Proof.
  intros Ha Hb Hh [_ H1]%build3_ok [_ H2]%build3_ok. subst p.
  apply join_inj in H2; [|apply snoc_ne|apply snoc_ne|apply elems3_no_slash, hex_bytes_no_slash..].
  apply app_inj_2 in H2 as [_ H2]; [|done]. injection H2 as H2.
  apply last3_inj in H2 as [[H2 _]|(H2 & L1 & L2)]; [by apply escape_inj|].
  pose proof (escape_length a). pose proof (escape_length b). apply Hh; [lia|lia|done].
Qed.
Lemma path_plain_split es p : path_of es p → Forall plain_name es → split_slash p = es.
Proof.
  intros Hp HF. assert (es ≠ []) as Hne by (by destruct es).
  apply path_of_join in Hp; [|done]. subst p. unfold split_slash, join_slash.
  apply split_join; [done|]. eapply Forall_impl; [exact HF|]. intros e (_ & _ & _ & He).
  apply not_true_iff_false. by rewrite str_mem_spec.
Qed.
Lemma not_plain p : "" ∈ split_slash p → ¬ ∃ es, path_of es p ∧ Forall plain_name es.
Proof.
  intros H (es & Hp & HF). rewrite (path_plain_split es p Hp HF) in H.
  rewrite Forall_forall in HF. by destruct (HF _ H) as [? _].
Qed.
Lemma build7_part c id part l :
  0 < c7_t c → (c7_pad c = "right" ∨ c7_pad c = "left") → c7_delim c ≠ "" →
  omit_prefix (c7_delim c) id part → Forall scalar l → part = encode l →
  ∃ es rest p, build7 c id = POk p ∧ path_of (es ++ [part]) p ∧
    length es = c7_n c ∧ Forall (λ e, String.length e = c7_t c) es ∧
    cat es +:+ rest = encode (padded (bool_decide (c7_pad c = "left")) (c7_rev c) (c7_t c * c7_n c) l).
Proof.
  intros Ht Hp Hd Ho Hl ->. pose proof (strip7_spec c id Hd) as Hs.
  apply build6_iff in Ho, Hs. rewrite Hs in Ho. injection Ho as E.
  destruct (build7_follows c id l Ht Hp Hl E) as (es & rest & p & H1 & H2 & H3).
  exists es, rest, p. rewrite <- E. done.
Qed.
Lemma build7_panic_part c id part : c7_delim c ≠ "" → omit_prefix (c7_delim c) id part →
  build7 c id = PPanic ↔
    c7_t c = 0 ∨ (c7_pad c ≠ "right" ∧ c7_pad c ≠ "left" ∧ 0 < c7_n c ∧ part ≠ "").
Proof.
  intros Hd Ho. pose proof (strip7_spec c id Hd) as Hs.
  apply build6_iff in Ho, Hs. rewrite Hs in Ho. injection Ho as <-. apply build7_panic.
Qed.
