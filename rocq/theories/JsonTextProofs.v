(** Every JSON text is read as RFC 8259 says. *)
From Coq Require Import Ascii.
From stdpp Require Import base list strings sets.
From Coq Require Import ZArith Lia ZifyN.
From Verif Require Import GoStr Utf8Model Utf8Proofs LayoutSpec JsonModel JsonSpec JsonProofs JsonTextSpec.
Ltac Zify.zify_post_hook ::= Z.div_mod_to_equations.

(** * Strings *)
Lemma unquote_plain a s : (N_of_ascii a < 128)%N → (N_of_ascii a ≠ 92)%N → unquote (String a s) = String a (unquote s).
Proof. destruct a as [[] [] [] [] [] [] [] []]; intros H1 H2; try (vm_compute in H1; discriminate H1); try (exfalso; by apply H2); reflexivity. Qed.
Lemma scans_plain a : (32 <= N_of_ascii a)%N → (N_of_ascii a ≠ 34)%N → (N_of_ascii a ≠ 92)%N → scans (String a "").
Proof.
  intros H1 H2 H3 raw d. cbn [run step]. unfold is_char. by rewrite (proj2 (N.eqb_neq _ _)), (proj2 (N.eqb_neq _ _)), (proj2 (N.ltb_ge _ _)) by lia.
Qed.
Lemma byte_is n : (n < 256)%N → N_of_ascii (ascii_of_N n) = n.
Proof. apply byte_of_N. Qed.
Lemma bytes_cons n l : bytes (n :: l) = String (ascii_of_N n) (bytes l).
Proof. done. Qed.
Lemma in_true lo hi n : (n < 256)%N → (lo <= n <= hi)%N → byte_in lo hi (ascii_of_N n) = true.
Proof. exact (byte_in_true lo hi n). Qed.
Lemma in_false lo hi n : (n < 256)%N → (n < lo ∨ hi < n)%N → byte_in lo hi (ascii_of_N n) = false.
Proof. exact (byte_in_false lo hi n). Qed.

Lemma two_false a b : (224 <= N_of_ascii a)%N → two_ok a b = false.
Proof. intros H. unfold two_ok, byte_in. assert (N_of_ascii a <=? 223 = false)%N as -> by (apply N.leb_gt; lia). by rewrite andb_false_r. Qed.
Lemma three_false a b c : (240 <= N_of_ascii a)%N → three_ok a b c = false.
Proof.
  intros H. unfold three_ok, byte_in.
  assert (N_of_ascii a <=? 224 = false)%N as -> by (apply N.leb_gt; lia). assert (N_of_ascii a <=? 236 = false)%N as -> by (apply N.leb_gt; lia).
  assert (N_of_ascii a <=? 237 = false)%N as -> by (apply N.leb_gt; lia). assert (N_of_ascii a <=? 239 = false)%N as -> by (apply N.leb_gt; lia).
  by rewrite !andb_false_r.
Qed.
Lemma utf8_read n u t : utf8_of n u → (32 <= n)%N → n ≠ 34%N → n ≠ 92%N → scans u ∧ unquote (u +:+ t) = u +:+ unquote t.
Proof.
  intros Hu H1 H2 H3. destruct Hu as [n H|n H|n H|n H]; rewrite !bytes_cons, ?str_app_cons; change (bytes []) with ""; rewrite ?str_app_cons; change ("" +:+ ?x) with x.
  - split; [apply scans_plain; rewrite byte_is; lia|]. apply unquote_plain; rewrite byte_is; lia.
  - split; [apply scans_cons; apply scans_high; rewrite byte_is; lia|]. rewrite unquote_high by (rewrite byte_is; lia).
    assert (two_ok (ascii_of_N (192 + n / 64)) (ascii_of_N (128 + n mod 64)) = true) as -> by (unfold two_ok; by rewrite !in_true by lia). done.
  - split; [apply scans_cons; [apply scans_high; rewrite byte_is; lia|]; apply scans_cons; apply scans_high; rewrite byte_is; lia|]. rewrite unquote_high by (rewrite byte_is; lia).
    rewrite two_false by (rewrite byte_is; lia).
    assert (three_ok (ascii_of_N (224 + n / 4096)) (ascii_of_N (128 + n / 64 mod 64)) (ascii_of_N (128 + n mod 64)) = true) as ->; [|done].
    unfold three_ok. rewrite (in_true 128 191 (128 + n mod 64)) by lia. rewrite andb_true_r.
    destruct (decide (n < 4096)%N); [by rewrite (in_true 224 224), (in_true 160 191) by lia|].
    destruct (decide (n < 53248)%N); [rewrite (in_true 225 236), (in_true 128 191) by lia; by rewrite orb_true_r|].
    destruct (decide (n < 57344)%N); [rewrite (in_true 237 237), (in_true 128 159) by lia; by rewrite orb_true_r|].
    rewrite (in_true 238 239), (in_true 128 191 (128 + n / 64 mod 64)) by lia. by rewrite orb_true_r.
  - split; [apply scans_cons; [apply scans_high; rewrite byte_is; lia|]; apply scans_cons; [apply scans_high; rewrite byte_is; lia|]; apply scans_cons; apply scans_high; rewrite byte_is; lia|].
    rewrite unquote_high by (rewrite byte_is; lia). rewrite two_false, three_false by (rewrite byte_is; lia).
    assert (four_ok (ascii_of_N (240 + n / 262144)) (ascii_of_N (128 + n / 4096 mod 64)) (ascii_of_N (128 + n / 64 mod 64)) (ascii_of_N (128 + n mod 64)) = true) as ->; [|done].
    unfold four_ok. rewrite (in_true 128 191 (128 + n mod 64)), (in_true 128 191 (128 + n / 64 mod 64)) by lia. rewrite !andb_true_r.
    destruct (decide (n < 262144)%N); [by rewrite (in_true 240 240), (in_true 144 191) by lia|].
    destruct (decide (n < 1048576)%N); [rewrite (in_true 241 243), (in_true 128 191) by lia; by rewrite orb_true_r|].
    rewrite (in_true 244 244), (in_true 128 143) by lia. by rewrite orb_true_r.
Qed.
Lemma utf8_rune n u : utf8_of n u → encode_rune n = u.
Proof.
  unfold encode_rune, byte. intros [m H|m H|m H|m H].
  - by rewrite (proj2 (N.ltb_lt _ _)) by lia.
  - by rewrite (proj2 (N.ltb_ge _ _)), (proj2 (N.ltb_lt _ _)) by lia.
  - rewrite (proj2 (N.ltb_ge m 128)), (proj2 (N.ltb_ge m 2048)), (proj2 (N.ltb_lt m 65536)) by lia. rewrite bool_decide_eq_false_2; [done|]. unfold scalar. lia.
  - rewrite (proj2 (N.ltb_ge m 128)), (proj2 (N.ltb_ge m 2048)), (proj2 (N.ltb_ge m 65536)) by lia. rewrite bool_decide_eq_false_2; [done|]. unfold scalar. lia.
Qed.
Lemma hex_value_v c n : hex_value c n → hexv c = Some n.
Proof.
  unfold hex_value, code, hexv. intros [[H ->]|[[H ->]|[H ->]]].
  - by rewrite (proj2 (N.leb_le 48 _)), (proj2 (N.leb_le _ 57)) by lia.
  - rewrite (proj2 (N.leb_le 48 _)), (proj2 (N.leb_gt _ 57)) by lia. cbn [andb]. rewrite (proj2 (N.leb_gt 97 _)) by lia. cbn [andb].
    by rewrite (proj2 (N.leb_le 65 _)), (proj2 (N.leb_le _ 70)) by lia.
  - rewrite (proj2 (N.leb_le 48 _)), (proj2 (N.leb_gt _ 57)) by lia. cbn [andb]. by rewrite (proj2 (N.leb_le 97 _)), (proj2 (N.leb_le _ 102)) by lia.
Qed.
Lemma v_hex_value c n : hexv c = Some n → hex_value c n.
Proof.
  unfold hexv, hex_value, code.
  destruct ((48 <=? N_of_ascii c)%N && (N_of_ascii c <=? 57)%N) eqn:E1; [intros [= <-]; apply andb_prop in E1 as [?%N.leb_le ?%N.leb_le]; auto|].
  destruct ((97 <=? N_of_ascii c)%N && (N_of_ascii c <=? 102)%N) eqn:E2; [intros [= <-]; apply andb_prop in E2 as [?%N.leb_le ?%N.leb_le]; auto|].
  destruct ((65 <=? N_of_ascii c)%N && (N_of_ascii c <=? 70)%N) eqn:E3; [intros [= <-]; apply andb_prop in E3 as [?%N.leb_le ?%N.leb_le]; auto|done].
Qed.
Lemma hex_unit_4 h n t : hex_unit h n → ∃ a b c d, h +:+ t = String a (String b (String c (String d t))) ∧ hex4 a b c d = Some n ∧
  is_Some (hexv a) ∧ is_Some (hexv b) ∧ is_Some (hexv c) ∧ is_Some (hexv d).
Proof.
  intros [a b c d x y z u Ha%hex_value_v Hb%hex_value_v Hc%hex_value_v Hd%hex_value_v]. exists a, b, c, d. split; [done|]. rewrite Ha, Hb, Hc, Hd. split.
  - unfold hex4. rewrite Ha, Hb, Hc, Hd. f_equal. lia.
  - eauto.
Qed.
Lemma scans_hex h n : hex_unit h n → scans ("\u" +:+ h).
Proof.
  intros Hh raw d. destruct (hex_unit_4 h n "" Hh) as (a & b & c & e & Hs & _ & [x Ha] & [y Hb] & [z Hc] & [u Hd]).
  rewrite str_app_nil_r in Hs. subst h. change ("\u" +:+ ?y) with (String "\" (String "u" y)). rewrite run_cons. cbn [step]. change (is_char 34 "\") with false. change (is_char 92 "\") with true. cbn iota.
  rewrite run_cons. cbn [step]. change (is_char 117 "u") with true. cbn iota. rewrite run_cons. cbn [step]. rewrite Ha. cbn iota. rewrite run_cons. cbn [step]. rewrite Hb. cbn iota.
  rewrite run_cons. cbn [step]. rewrite Hc. cbn iota. rewrite run_cons. cbn [step]. rewrite Hd. cbn iota. done.
Qed.
Lemma short_unesc c n : (c, n) ∈ short_escapes → unesc c = Some (ascii_of_N n) ∧ is_char 117 c = false ∧ c ≠ "u"%char.
Proof. unfold short_escapes. rewrite !elem_of_cons, elem_of_nil. intros H. repeat (destruct H as [H|H]; [injection H as -> ->; by vm_compute|]). done. Qed.
Lemma unesc_short c c' : unesc c = Some c' → ∃ n, (c, n) ∈ short_escapes ∧ c' = ascii_of_N n.
Proof.
  destruct c as [[] [] [] [] [] [] [] []]; intros H; vm_compute in H; try discriminate H; injection H as <-; (match goal with |- ∃ n, _ ∧ ?c = _ => exists (N_of_ascii c) end); (split; [|reflexivity]); unfold short_escapes; apply elem_of_list_In; vm_compute; tauto.
Qed.
Lemma scans_short c n : (c, n) ∈ short_escapes → scans (String "\" (String c "")).
Proof.
  intros (H1 & H2 & _)%short_unesc raw d. rewrite run_cons. cbn [step]. change (is_char 34 "\") with false. change (is_char 92 "\") with true. cbn iota.
  rewrite run_cons. cbn [step]. by rewrite H2, H1.
Qed.
Lemma unquote_short c n t : (c, n) ∈ short_escapes → unquote (String "\" (String c t)) = String (ascii_of_N n) (unquote t).
Proof. unfold short_escapes. rewrite !elem_of_cons, elem_of_nil. intros H. repeat (destruct H as [H|H]; [injection H as -> ->; reflexivity|]). done. Qed.
Lemma unquote_hex a b c d t : unquote (String "\" (String "u" (String a (String b (String c (String d t)))))) =
  match hex4 a b c d with
  | None => ""
  | Some n =>
      if high_surrogate n then
        match t with
        | String "\" (String "u" (String a' (String b' (String c' (String d' s''))))) =>
            match hex4 a' b' c' d' with
            | Some m => if low_surrogate m then encode_rune ((n - 55296) * 1024 + (m - 56320) + 65536)%N +:+ unquote s'' else bad_rune (unquote t)
            | None => bad_rune (unquote t)
            end
        | _ => bad_rune (unquote t)
        end
      else if low_surrogate n then bad_rune (unquote t)
      else encode_rune n +:+ unquote t
  end.
Proof. reflexivity. Qed.
Lemma hex_bound h n : hex_unit h n → (n < 65536)%N.
Proof. intros [a b c d x y z u H1 H2 H3 H4]. unfold hex_value in *. lia. Qed.
Lemma not_surrogate n u : utf8_of n u → high_surrogate n = false ∧ low_surrogate n = false.
Proof.
  intros H. assert (n < 55296 ∨ 57344 <= n)%N as Hn by (destruct H; lia). unfold high_surrogate, low_surrogate. destruct Hn as [Hn|Hn].
  - rewrite (proj2 (N.leb_gt 55296 n)), (proj2 (N.leb_gt 56320 n)) by lia. done.
  - rewrite (proj2 (N.ltb_ge n 56320)), (proj2 (N.ltb_ge n 57344)) by lia. by rewrite !andb_false_r.
Qed.
Lemma utf8_ok n u a t t' : String a t = u +:+ t' → utf8_of n u → (128 <= N_of_ascii a)%N →
  (∃ b s, t = String b s ∧ two_ok a b = true) ∨ (∃ b c s, t = String b (String c s) ∧ three_ok a b c = true) ∨ (∃ b c d s, t = String b (String c (String d s)) ∧ four_ok a b c d = true).
Proof.
  intros E Hu Ha. destruct Hu as [n H|n H|n H|n H]; rewrite !bytes_cons in E; change (bytes []) with "" in E; rewrite ?str_app_cons in E; change ("" +:+ t') with t' in E; injection E as -> ->.
  - rewrite byte_is in Ha; lia.
  - left. eexists _, _. split; [done|]. unfold two_ok. by rewrite !in_true by lia.
  - right. left. eexists _, _, _. split; [done|]. unfold three_ok. rewrite (in_true 128 191 (128 + n mod 64)) by lia. rewrite andb_true_r.
    destruct (decide (n < 4096)%N); [by rewrite (in_true 224 224), (in_true 160 191) by lia|].
    destruct (decide (n < 53248)%N); [rewrite (in_true 225 236), (in_true 128 191) by lia; by rewrite orb_true_r|].
    destruct (decide (n < 57344)%N); [rewrite (in_true 237 237), (in_true 128 159) by lia; by rewrite orb_true_r|].
    rewrite (in_true 238 239), (in_true 128 191 (128 + n / 64 mod 64)) by lia. by rewrite orb_true_r.
  - right. right. eexists _, _, _, _. split; [done|]. unfold four_ok. rewrite (in_true 128 191 (128 + n mod 64)), (in_true 128 191 (128 + n / 64 mod 64)) by lia. rewrite !andb_true_r.
    destruct (decide (n < 262144)%N); [by rewrite (in_true 240 240), (in_true 144 191) by lia|].
    destruct (decide (n < 1048576)%N); [rewrite (in_true 241 243), (in_true 128 191) by lia; by rewrite orb_true_r|].
    rewrite (in_true 244 244), (in_true 128 143) by lia. by rewrite orb_true_r.
Qed.
Lemma byte_in_spec lo hi a : byte_in lo hi a = true → (lo <= N_of_ascii a <= hi)%N.
Proof. unfold byte_in. intros [?%N.leb_le ?%N.leb_le]%andb_prop. lia. Qed.
Lemma ascii_code a n : N_of_ascii a = n → a = ascii_of_N n.
Proof. intros <-. symmetry. apply ascii_N_embedding. Qed.
Lemma two_utf8 a b : two_ok a b = true → ∃ n, utf8_of n (String a (String b "")) ∧ (128 <= n)%N.
Proof.
  unfold two_ok. intros [H1%byte_in_spec H2%byte_in_spec]%andb_prop. set (n := ((N_of_ascii a - 192) * 64 + (N_of_ascii b - 128))%N). exists n. split; [|lia].
  rewrite (ascii_code a (192 + n / 64)), (ascii_code b (128 + n mod 64)) by lia. apply (utf8_two n). lia.
Qed.
Lemma three_utf8 a b c : three_ok a b c = true → ∃ n, utf8_of n (String a (String b (String c ""))) ∧ (128 <= n)%N.
Proof.
  unfold three_ok. intros [H H3%byte_in_spec]%andb_prop.
  assert ((N_of_ascii a = 224 ∧ 160 <= N_of_ascii b <= 191) ∨ (225 <= N_of_ascii a <= 236 ∧ 128 <= N_of_ascii b <= 191) ∨ (N_of_ascii a = 237 ∧ 128 <= N_of_ascii b <= 159) ∨ (238 <= N_of_ascii a <= 239 ∧ 128 <= N_of_ascii b <= 191))%N as Hab.
  { rewrite !orb_true_iff, !andb_true_iff in H. destruct H as [[[[H H']|[H H']]|[H H']]|[H H']]; apply byte_in_spec in H, H'; lia. }
  clear H. set (n := ((N_of_ascii a - 224) * 4096 + (N_of_ascii b - 128) * 64 + (N_of_ascii c - 128))%N). exists n. split; [|lia].
  rewrite (ascii_code a (224 + n / 4096)), (ascii_code b (128 + n / 64 mod 64)), (ascii_code c (128 + n mod 64)) by lia. apply (utf8_three n). lia.
Qed.
Lemma four_utf8 a b c d : four_ok a b c d = true → ∃ n, utf8_of n (String a (String b (String c (String d "")))) ∧ (128 <= n)%N.
Proof.
  unfold four_ok. intros [[H H3%byte_in_spec]%andb_prop H4%byte_in_spec]%andb_prop.
  assert ((N_of_ascii a = 240 ∧ 144 <= N_of_ascii b <= 191) ∨ (241 <= N_of_ascii a <= 243 ∧ 128 <= N_of_ascii b <= 191) ∨ (N_of_ascii a = 244 ∧ 128 <= N_of_ascii b <= 143))%N as Hab.
  { rewrite !orb_true_iff, !andb_true_iff in H. destruct H as [[[H H']|[H H']]|[H H']]; apply byte_in_spec in H, H'; lia. }
  clear H. set (n := ((N_of_ascii a - 240) * 262144 + (N_of_ascii b - 128) * 4096 + (N_of_ascii c - 128) * 64 + (N_of_ascii d - 128))%N). exists n. split; [|lia].
  rewrite (ascii_code a (240 + n / 262144)), (ascii_code b (128 + n / 4096 mod 64)), (ascii_code c (128 + n / 64 mod 64)), (ascii_code d (128 + n mod 64)) by lia. apply (utf8_four n). lia.
Qed.
(** What follows is an escape of four digits, or the reader does not look at it. *)
Lemma escape_ahead t : (∃ a b c d t', t = String "\" (String "u" (String a (String b (String c (String d t')))))) ∨
  ∀ (f : ascii → ascii → ascii → ascii → string → string) (g : string),
    match t with String "\" (String "u" (String a (String b (String c (String d t'))))) => f a b c d t' | _ => g end = g.
Proof.
  destruct t as [|x t]; [by right|]. destruct (decide (x = "\"%char)) as [->|Hx].
  2:{ right. intros f g. destruct x as [[] [] [] [] [] [] [] []]; try reflexivity. by destruct Hx. }
  destruct t as [|y t]; [by right|]. destruct (decide (y = "u"%char)) as [->|Hy].
  2:{ right. intros f g. destruct y as [[] [] [] [] [] [] [] []]; try reflexivity. by destruct Hy. }
  destruct t as [|a [|b [|c [|d t]]]]; [by right..|]. left. eauto 10.
Qed.
Lemma hex4_unit a b c d n : hex4 a b c d = Some n → hex_unit (String a (String b (String c (String d "")))) n.
Proof.
  unfold hex4. destruct (hexv a) eqn:Ha, (hexv b) eqn:Hb, (hexv c) eqn:Hc, (hexv d) eqn:Hd; try done. intros [= <-].
  replace (n0 * 4096 + n1 * 256 + n2 * 16 + n3)%N with (((n0 * 16 + n1) * 16 + n2) * 16 + n3)%N by lia. constructor; by apply v_hex_value.
Qed.
Lemma high_is n : high_surrogate n = true ↔ (55296 <= n < 56320)%N.
Proof. unfold high_surrogate. rewrite andb_true_iff, N.leb_le, N.ltb_lt. done. Qed.
Lemma low_is n : low_surrogate n = true ↔ (56320 <= n < 57344)%N.
Proof. unfold low_surrogate. rewrite andb_true_iff, N.leb_le, N.ltb_lt. done. Qed.
Lemma unquote_broken a t : (128 <= N_of_ascii a)%N → (∀ n u t', String a t = u +:+ t' → ¬ utf8_of n u) → unquote (String a t) = bad_rune (unquote t).
Proof.
  intros Ha Hno. rewrite unquote_high by done. destruct t as [|b [|c [|d t]]].
  - done.
  - destruct (two_ok a b) eqn:E2; [destruct (two_utf8 a b E2) as (n & Hn & _); by destruct (Hno n (String a (String b "")) "" eq_refl Hn)|done].
  - destruct (two_ok a b) eqn:E2; [destruct (two_utf8 a b E2) as (n & Hn & _); by destruct (Hno n (String a (String b "")) (String c "") eq_refl Hn)|].
    destruct (three_ok a b c) eqn:E3; [destruct (three_utf8 a b c E3) as (n & Hn & _); by destruct (Hno n (String a (String b (String c ""))) "" eq_refl Hn)|done].
  - destruct (two_ok a b) eqn:E2; [destruct (two_utf8 a b E2) as (n & Hn & _); by destruct (Hno n (String a (String b "")) (String c (String d t)) eq_refl Hn)|].
    destruct (three_ok a b c) eqn:E3; [destruct (three_utf8 a b c E3) as (n & Hn & _); by destruct (Hno n (String a (String b (String c ""))) (String d t) eq_refl Hn)|].
    destruct (four_ok a b c d) eqn:E4; [destruct (four_utf8 a b c d E4) as (n & Hn & _); by destruct (Hno n (String a (String b (String c (String d "")))) t eq_refl Hn)|done].
Qed.
Lemma unquote_lone h n t : hex_unit h n → surrogate n →
  (∀ h' n' t', t = "\u" +:+ h' +:+ t' → hex_unit h' n' → (56320 <= n' < 57344)%N → (56320 <= n)%N) → unquote ("\u" +:+ h +:+ t) = bad_rune (unquote t).
Proof.
  intros Hh Hn Hno. destruct (hex_unit_4 h n t Hh) as (a & b & c & d & -> & Hv & _). change ("\u" +:+ ?y) with (String "\" (String "u" y)). rewrite unquote_hex, Hv.
  unfold surrogate in Hn. destruct (high_surrogate n) eqn:E1.
  - apply high_is in E1. destruct (escape_ahead t) as [(a' & b' & c' & d' & t' & ->)|H]; [|apply H]. cbn iota.
    destruct (hex4 a' b' c' d') as [m|] eqn:Em; [|done]. destruct (low_surrogate m) eqn:E2; [|done]. exfalso. apply low_is in E2.
    enough (56320 <= n)%N by lia. eapply (Hno (String a' (String b' (String c' (String d' "")))) m t'); [done|by apply hex4_unit|done].
  - destruct (low_surrogate n) eqn:E2; [done|]. exfalso. apply not_true_iff_false in E1, E2. rewrite high_is in E1. rewrite low_is in E2. lia.
Qed.
Lemma spells_read R t v : spells R t v → scans t ∧ unquote t = v.
Proof.
  induction 1 as [|n u t v Hu H1 H2 H3 _ [IH1 IH2]|c n t v Hc _ [IH1 IH2]|h n u t v Hh Hu _ [IH1 IH2]|h1 n1 h2 n2 u t v Hh1 Hh2 Hn1 Hn2 Hu _ [IH1 IH2]
    |h n t v _ Hh Hn Hno _ [IH1 IH2]|c t v _ Hc Hno _ [IH1 IH2]].
  - done.
  - destruct (utf8_read n u t Hu H1 H2 H3) as [A B]. split; [by apply scans_app|]. by rewrite B, IH2.
  - split; [exact (scans_app _ _ (scans_short c n Hc) IH1)|]. by rewrite (unquote_short c n), IH2.
  - split; [rewrite str_app_assoc; apply scans_app; [by eapply scans_hex|done]|].
    destruct (hex_unit_4 h n t Hh) as (a & b & c & d & -> & Hv & _). change ("\u" +:+ ?y) with (String "\" (String "u" y)). rewrite unquote_hex, Hv.
    destruct (not_surrogate n u Hu) as [-> ->]. by rewrite (utf8_rune n u), IH2.
  - split.
    { replace ("\u" +:+ h1 +:+ "\u" +:+ h2 +:+ t) with (("\u" +:+ h1) +:+ ("\u" +:+ h2) +:+ t) by (by rewrite !str_app_assoc).
      apply scans_app; [by eapply scans_hex|]. apply scans_app; [by eapply scans_hex|done]. }
    destruct (hex_unit_4 h1 n1 ("\u" +:+ h2 +:+ t) Hh1) as (a & b & c & d & -> & Hv1 & _). change ("\u" +:+ String a ?y) with (String "\" (String "u" (String a y))). rewrite unquote_hex, Hv1.
    rewrite (proj2 (high_is n1) Hn1).
    destruct (hex_unit_4 h2 n2 t Hh2) as (a' & b' & c' & d' & -> & Hv2 & _). change ("\u" +:+ ?y) with (String "\" (String "u" y)). cbn iota. rewrite Hv2.
    rewrite (proj2 (low_is n2) Hn2).
    rewrite IH2. f_equal. rewrite <- (utf8_rune _ u Hu). f_equal. lia.
  - split; [rewrite str_app_assoc; apply scans_app; [by eapply scans_hex|done]|]. by rewrite (unquote_lone h n), IH2.
  - split; [change (String c t) with (String c "" +:+ t); apply scans_app; [by apply scans_high|done]|]. by rewrite unquote_broken, IH2.
Qed.

(** Every text the scanner takes for a string has a value. *)
Inductive string_text : string → Prop :=
| string_none : string_text ""
| string_plain c t : (32 <= code c)%N → (code c ≠ 34)%N → (code c ≠ 92)%N → string_text t → string_text (String c t)
| string_short c n t : (c, n) ∈ short_escapes → string_text t → string_text (String "\" (String c t))
| string_hex h n t : hex_unit h n → string_text t → string_text ("\u" +:+ h +:+ t).
Lemma string_text_app a b : string_text a → string_text b → string_text (a +:+ b).
Proof.
  intros Ha Hb. induction Ha as [|c t H1 H2 H3 _ IH|c n t H _ IH|h n t H _ IH]; [done| | |].
  - by apply string_plain.
  - by eapply string_short.
  - rewrite <- !str_app_assoc. by eapply string_hex.
Qed.
(** The text after the first character of several bytes. *)
Lemma string_text_high c t : (128 <= code c)%N → string_text (String c t) → string_text t.
Proof.
  intros Hc H. inversion H as [|c' t' H1 H2 H3 Ht|c' n t' Hs Ht|h n t' Hs Ht E]; subst; [done|vm_compute in Hc; congruence..].
Qed.
Lemma tail_high a b : two_ok a b = true → (128 <= code b)%N.
Proof. unfold two_ok. intros [_ ?%byte_in_spec]%andb_prop. unfold code. lia. Qed.
Lemma tail_high3 a b c : three_ok a b c = true → (128 <= code b)%N ∧ (128 <= code c)%N.
Proof.
  unfold three_ok. intros [H ?%byte_in_spec]%andb_prop. unfold code. rewrite !orb_true_iff, !andb_true_iff in H.
  destruct H as [[[[_ H]|[_ H]]|[_ H]]|[_ H]]; apply byte_in_spec in H; lia.
Qed.
Lemma tail_high4 a b c d : four_ok a b c d = true → (128 <= code b)%N ∧ (128 <= code c)%N ∧ (128 <= code d)%N.
Proof.
  unfold four_ok. intros [[H ?%byte_in_spec]%andb_prop ?%byte_in_spec]%andb_prop. unfold code. rewrite !orb_true_iff, !andb_true_iff in H.
  destruct H as [[[_ H]|[_ H]]|[_ H]]; apply byte_in_spec in H; lia.
Qed.
Lemma high_cases a t : (128 <= code a)%N → string_text (String a t) →
  (∃ n u t', String a t = u +:+ t' ∧ u ≠ "" ∧ utf8_of n u ∧ (128 <= n)%N ∧ string_text t') ∨ (∀ n u t', String a t = u +:+ t' → ¬ utf8_of n u).
Proof.
  intros Ha Ht. pose proof (string_text_high _ _ Ha Ht) as H1.
  destruct t as [|b t1].
  { right. intros n u t' E Hu. by destruct (utf8_ok n u a "" t' E Hu Ha) as [(? & ? & ? & _)|[(? & ? & ? & ? & _)|(? & ? & ? & ? & ? & _)]]. }
  destruct (two_ok a b) eqn:E2.
  { left. destruct (two_utf8 a b E2) as (n & Hn & H). exists n, (String a (String b "")), t1. split_and!; [done..|]. eapply string_text_high; [|exact H1]. by eapply tail_high. }
  destruct t1 as [|c t2].
  { right. intros n u t' E Hu. destruct (utf8_ok n u a _ t' E Hu Ha) as [(? & ? & [= <- <-] & ?)|[(? & ? & ? & [=] & _)|(? & ? & ? & ? & [=] & _)]]. congruence. }
  destruct (three_ok a b c) eqn:E3.
  { left. destruct (three_utf8 a b c E3) as (n & Hn & H). exists n, (String a (String b (String c ""))), t2. split_and!; [done..|]. destruct (tail_high3 a b c E3). eapply string_text_high; [|eapply string_text_high; [|exact H1]]; done. }
  destruct t2 as [|d t3].
  { right. intros n u t' E Hu. destruct (utf8_ok n u a _ t' E Hu Ha) as [(? & ? & [= <- <-] & ?)|[(? & ? & ? & [= <- <- <-] & ?)|(? & ? & ? & ? & [=] & _)]]; congruence. }
  destruct (four_ok a b c d) eqn:E4.
  { left. destruct (four_utf8 a b c d E4) as (n & Hn & H). exists n, (String a (String b (String c (String d "")))), t3. split_and!; [done..|]. destruct (tail_high4 a b c d E4) as (? & ? & ?).
    eapply string_text_high; [|eapply string_text_high; [|eapply string_text_high; [|exact H1]]]; done. }
  right. intros n u t' E Hu. destruct (utf8_ok n u a _ t' E Hu Ha) as [(? & ? & [= <- <-] & ?)|[(? & ? & ? & [= <- <- <-] & ?)|(? & ? & ? & ? & [= <- <- <- <-] & ?)]]; congruence.
Qed.
Lemma bmp n : (n < 65536)%N → ¬ surrogate n → ∃ u, utf8_of n u.
Proof.
  unfold surrogate. intros H1 H2. destruct (decide (n < 128)%N); [eexists; by constructor|]. destruct (decide (n < 2048)%N); [eexists; apply utf8_two; lia|]. eexists. apply utf8_three. lia.
Qed.
Lemma hex_unit_fun h n m : hex_unit h n → hex_unit h m → n = m.
Proof. intros (a & b & c & d & E & H & _)%(hex_unit_4 _ _ "") (a' & b' & c' & d' & E' & H' & _)%(hex_unit_4 _ _ ""). rewrite E in E'. injection E' as <- <- <- <-. congruence. Qed.
Lemma hex_unit_len h n : hex_unit h n → length (list_ascii_of_string h) = 4.
Proof. by intros []. Qed.
Lemma string_text_escape h n t : hex_unit h n → string_text ("\u" +:+ h +:+ t) → string_text t.
Proof.
  intros Hh H. destruct Hh as [a b c d x y z u]. change ("\u" +:+ ?y) with (String "\" (String "u" y)) in H. rewrite !str_app_cons in H. change ("" +:+ t) with t in H.
  inversion H as [|c' t' G1 G2 G3 Ht|c' m t' Hs Ht|h' m t' Hs Ht E].
  - by destruct G3.
  - by destruct (short_unesc _ _ Hs) as (? & ? & ?).
  - destruct Hs as [a' b' c' d']. change ("\u" +:+ ?y) with (String "\" (String "u" y)) in E. rewrite !str_app_cons in E. change ("" +:+ t') with t' in E. by injection E as -> -> -> -> ->.
Qed.
Lemma string_text_value t : string_text t → ∃ v, spells True t v.
Proof.
  remember (String.length t) as k eqn:Hk. revert t Hk. induction (lt_wf k) as [k _ IH]. intros t -> Ht.
  assert (∀ t', String.length t' < String.length t → string_text t' → ∃ v, spells True t' v) as IH' by (intros t' Hl H; exact (IH _ Hl t' eq_refl H)). clear IH.
  destruct Ht as [|c t H1 H2 H3 Ht|c n t Hc Ht|h n t Hh Ht].
  - exists "". constructor.
  - destruct (decide (code c < 128)%N) as [Hlow|Hhigh].
    + destruct (IH' t) as [v Hv]; [cbn; lia|done|]. exists (String c "" +:+ v). change (String c t) with (String c "" +:+ t). apply (spells_plain True (code c)); try done.
      rewrite (ascii_code c (code c) eq_refl) at 2. by apply (utf8_one (code c)).
    + destruct (high_cases c t) as [(n & u & t' & E & Hne & Hu & Hn & Ht')|Hno]; [lia|by apply string_plain| |].
      * rewrite E in *. destruct (IH' t') as [v Hv]; [rewrite str_length_app; destruct u; [done|cbn; lia]|done|]. exists (u +:+ v). eapply spells_plain; [done|lia..|done].
      * destruct (IH' t) as [v Hv]; [cbn; lia|done|]. eexists. apply spells_broken; [done|lia|done|done].
  - destruct (IH' t) as [v Hv]; [cbn; lia|done|]. eexists. by eapply spells_short.
  - assert (String.length ("\u" +:+ h +:+ t) = 6 + String.length t) as Hlen by (destruct Hh; done).
    destruct (decide (surrogate n)) as [Hs|Hs].
    2:{ destruct (bmp n) as [u Hu]; [by eapply hex_bound|done|]. destruct (IH' t) as [v Hv]; [lia|done|]. eexists. by eapply spells_hex. }
    destruct (decide (n < 56320)%N) as [Hhi|Hlo].
    2:{ destruct (IH' t) as [v Hv]; [lia|done|]. eexists. apply (spells_lone True h n); [done..| |done]. intros. lia. }
    assert ((∃ h' n' t', t = "\u" +:+ h' +:+ t' ∧ hex_unit h' n' ∧ (56320 <= n' < 57344)%N) ∨ ¬ (∃ h' n' t', t = "\u" +:+ h' +:+ t' ∧ hex_unit h' n' ∧ (56320 <= n' < 57344)%N)) as [(h' & n' & t' & -> & Hh' & Hn')|Hno].
    { destruct (escape_ahead t) as [(a & b & c & d & t' & ->)|H].
      - destruct (hex4 a b c d) as [m|] eqn:Em.
        + destruct (decide (56320 <= m < 57344)%N); [left; exists (String a (String b (String c (String d "")))), m, t'; split; [done|split; [by apply hex4_unit|done]]|].
          right. intros (h' & n' & t'' & E & Hh' & Hn'). destruct (hex_unit_4 h' n' t'' Hh') as (a' & b' & c' & d' & Eh & Hv & _). rewrite Eh in E. change ("\u" +:+ ?y) with (String "\" (String "u" y)) in E.
          injection E as -> -> -> -> ->. rewrite Hv in Em. injection Em as ->. done.
        + right. intros (h' & n' & t'' & E & Hh' & Hn'). destruct (hex_unit_4 h' n' t'' Hh') as (a' & b' & c' & d' & Eh & Hv & _). rewrite Eh in E. change ("\u" +:+ ?y) with (String "\" (String "u" y)) in E.
          injection E as -> -> -> -> ->. congruence.
      - right. intros (h' & n' & t'' & -> & Hh' & Hn'). destruct Hh' as [a b c d]. by specialize (H (λ _ _ _ _ _, "a") "b"). }
    + assert (string_text t') as Ht' by (by eapply string_text_escape). destruct (IH' t') as [v Hv]; [rewrite Hlen, !str_length_app; lia|done|].
      assert (∃ u, utf8_of (65536 + (n - 55296) * 1024 + (n' - 56320)) u) as [u Hu]. { eexists. apply utf8_four. unfold surrogate in Hs. lia. }
      exists (u +:+ v). unfold surrogate in Hs. eapply (spells_pair True h n h' n' u t' v); [done|done|lia|lia|done|done].
    + destruct (IH' t) as [v Hv]; [lia|done|]. eexists. apply (spells_lone True h n); [done..| |done]. intros h' n' t' E Hh' Hn'. destruct Hno. eauto 10.
Qed.
Lemma string_text_spells t : string_text t → spells True t (unquote t).
Proof. intros H. destruct (string_text_value t H) as [v Hv]. by rewrite (proj2 (spells_read _ _ _ Hv)). Qed.

(** * White space *)
Lemma space_code c : (code c ∈ [32; 9; 10; 13])%N ↔ is_space c = true.
Proof. unfold code, is_space. rewrite !elem_of_cons, elem_of_nil, !orb_true_iff, !N.eqb_eq. tauto. Qed.
Lemma run_ws st w rest : ws w → skips st → run st (w +:+ rest) = run st rest.
Proof.
  intros Hw Hs. induction w as [|c w IH]; [done|]. apply Forall_cons in Hw as [H1 H2]. rewrite str_app_cons, run_cons, Hs by (by apply space_code). by apply IH.
Qed.
Lemma ws_app a b : ws a → ws b → ws (a +:+ b).
Proof. unfold ws, all_in. intros. rewrite list_ascii_app. by apply Forall_app. Qed.

(** * Numbers *)
Definition in_number (stk : list frame) (t : string) (ns : nstate) : Prop := ∃ r, run (SValue stk) t = Some (SNum r ns stk) ∧ text r = t.
Lemma text_snoc c r : text (c :: r) = text r +:+ String c "".
Proof. unfold text. cbn [rev]. induction (rev r) as [|x l IH]; [done|]. cbn [app string_of_list_ascii]. rewrite str_app_cons. by f_equal. Qed.
Lemma in_number_step stk t ns c ns' : in_number stk t ns → num_step ns c = Some ns' → in_number stk (t +:+ String c "") ns'.
Proof.
  intros (r & H1 & H2) H. exists (c :: r). rewrite run_app, H1. cbn [run step]. rewrite H. split; [done|]. by rewrite text_snoc, H2.
Qed.
Lemma digit_true c : dig c → digit c = true.
Proof. unfold dig, digit, code. intros H. by rewrite (proj2 (N.leb_le _ _)), (proj2 (N.leb_le _ _)) by lia. Qed.
Lemma in_number_digits stk t ns s : in_number stk t ns → (∀ c, dig c → num_step ns c = Some ns) → all_in dig s → in_number stk (t +:+ s) ns.
Proof.
  revert t. induction s as [|c s IH]; intros t Ht Hs Ha; [by rewrite str_app_nil_r|]. apply Forall_cons in Ha as [H1 H2].
  replace (t +:+ String c s) with ((t +:+ String c "") +:+ s) by (by rewrite <- str_app_assoc). apply IH; [|done|done]. eapply in_number_step; [done|by apply Hs].
Qed.
Lemma in_number_digs stk t ns ns' s : in_number stk t ns → (∀ c, dig c → num_step ns c = Some ns') → (∀ c, dig c → num_step ns' c = Some ns') → digs s → in_number stk (t +:+ s) ns'.
Proof.
  intros Ht H1 H2 [Hne Ha]. destruct s as [|c s]; [done|]. apply Forall_cons in Ha as [Hc Hs].
  replace (t +:+ String c s) with ((t +:+ String c "") +:+ s) by (by rewrite <- str_app_assoc). apply in_number_digits; [|done|done]. eapply in_number_step; [done|by apply H1].
Qed.
Lemma is_char_false n c : (code c ≠ n)%N → is_char n c = false.
Proof. unfold is_char, code. apply N.eqb_neq. Qed.
Lemma number_run t stk : number t → ∃ ns, in_number stk t ns ∧ num_ends ns = true.
Proof.
  intros [m w f e Hm Hw Hf He].
  assert (∃ ns, in_number stk (m +:+ w) ns ∧ ns ∈ [NZero; NInt]) as (n1 & H1 & Hn1).
  { apply elem_of_list_In in Hm as [<-|[<-|[]]]; destruct Hw as [|c s Hc Hs].
    - exists NZero. split; [exists ["0"%char]; by split|left].
    - exists NInt. split; [|right; left]. change ("" +:+ String c s) with (String c "" +:+ s). apply in_number_digits; [|by intros d Hd; cbn [num_step]; rewrite digit_true|done].
      exists [c]. split; [|done]. cbn [run step]. assert (is_space c = false) as ->.
      { destruct (is_space c) eqn:E; [|done]. apply space_code in E. rewrite !elem_of_cons, elem_of_nil in E. lia. }
      unfold begin_value. rewrite !is_char_false by lia. rewrite digit_true by (unfold dig; lia). done.
    - exists NZero. split; [exists ["0"%char; "-"%char]; by split|left].
    - exists NInt. split; [|right; left]. change ("-" +:+ String c s) with (("-" +:+ String c "") +:+ s). apply in_number_digits; [|by intros d Hd; cbn [num_step]; rewrite digit_true|done].
      eapply (in_number_step stk "-" NNeg); [exists ["-"%char]; by split|]. cbn [num_step]. rewrite is_char_false by lia. by rewrite digit_true by (unfold dig; lia). }
  assert (∃ ns, in_number stk (m +:+ w +:+ f) ns ∧ ns ∈ [NZero; NInt; NFrac]) as (n2 & H2 & Hn2).
  { rewrite str_app_assoc. destruct Hf as [|s Hs]; [rewrite str_app_nil_r; exists n1; split; [done|set_solver]|].
    exists NFrac. split; [|set_solver]. change ("." +:+ s) with (String "." "" +:+ s). rewrite str_app_assoc.
    apply (in_number_digs stk _ NDot NFrac); [|by intros c Hc; cbn [num_step]; rewrite digit_true..|done]. eapply in_number_step; [exact H1|].
    apply elem_of_list_In in Hn1 as [<-|[<-|[]]]; by vm_compute. }
  replace (m +:+ w +:+ f +:+ e) with ((m +:+ w +:+ f) +:+ e) by (by rewrite !str_app_assoc).
  destruct He as [|e g s He Hg Hs]; [rewrite str_app_nil_r; exists n2; split; [done|]; apply elem_of_list_In in Hn2 as [<-|[<-|[<-|[]]]]; done|].
  exists NExpInt. split; [|done].
  assert (in_number stk ((m +:+ w +:+ f) +:+ e) NExp) as H3.
  { apply elem_of_list_In in He as [<-|[<-|[]]]; (eapply in_number_step; [exact H2|]); apply elem_of_list_In in Hn2 as [<-|[<-|[<-|[]]]]; by vm_compute. }
  replace ((m +:+ w +:+ f) +:+ e +:+ g +:+ s) with ((((m +:+ w +:+ f) +:+ e) +:+ g) +:+ s) by (by rewrite !str_app_assoc).
  assert (∀ c, dig c → is_char 43 c = false ∧ is_char 45 c = false) as Hd by (intros c Hc; unfold dig in Hc; split; apply is_char_false; lia).
  apply elem_of_list_In in Hg as [<-|[<-|[<-|[]]]].
  - rewrite str_app_nil_r. apply (in_number_digs stk _ NExp NExpInt); [done| |by intros c Hc; cbn [num_step]; rewrite digit_true|done].
    intros c Hc. cbn [num_step]. destruct (Hd c Hc) as [-> ->]. by rewrite digit_true.
  - apply (in_number_digs stk _ NSign NExpInt); [by eapply in_number_step|by intros c Hc; cbn [num_step]; rewrite digit_true..|done].
  - apply (in_number_digs stk _ NSign NExpInt); [by eapply in_number_step|by intros c Hc; cbn [num_step]; rewrite digit_true..|done].
Qed.

(** * Values *)
Definition fin (o : option state) : option json := match o with Some st => finish st | None => None end.
(** What may follow a value. *)
Definition ender (s : string) : Prop := match s with "" => True | String c _ => (code c ∈ [32; 9; 10; 13; 44; 93; 125])%N end.
Lemma ender_ws w s : ws w → ender s → ender (w +:+ s).
Proof. intros Hw Hs. destruct w as [|c w]; [done|]. apply Forall_cons in Hw as [H _]. rewrite str_app_cons. unfold ender. set_solver. Qed.
Lemma num_stops ns c : (code c ∈ [32; 9; 10; 13; 44; 93; 125])%N → num_ends ns = true → num_step ns c = None.
Proof.
  intros Hc Hn. assert (digit c = false ∧ is_char 46 c = false ∧ is_char 101 c = false ∧ is_char 69 c = false) as (H1 & H2 & H3 & H4).
  { rewrite !elem_of_cons, elem_of_nil in Hc. split; [|split; [|split]]; try (apply is_char_false; lia).
    unfold digit. unfold code in Hc. destruct (decide (N_of_ascii c < 48)%N); [by rewrite (proj2 (N.leb_gt 48 _)) by lia|]. rewrite (proj2 (N.leb_gt _ 57)) by lia. by rewrite andb_false_r. }
  destruct ns; try done; cbn [num_step]; by rewrite ?H1, ?H2, ?H3, ?H4.
Qed.
Scheme jtext_ind' := Minimality for jtext Sort Prop
  with items_ind' := Minimality for items Sort Prop
  with members_ind' := Minimality for members Sort Prop.
Combined Scheme jtext_mutind from jtext_ind', items_ind', members_ind'.

Lemma run_dq_val stk s : run (SValue stk) (dq +:+ s) = run (SStr [] (DVal stk)) s.
Proof. done. Qed.
Lemma run_spelled R t v d rest : spells R t v → run (SStr [] d) (t +:+ dq +:+ rest) = run (match d with DVal stk => SEnd (JStr v) stk | DKey l stk => SColon l v stk end) rest.
Proof.
  intros [H1 H2]%spells_read. rewrite run_app, H1. change (dq +:+ rest) with (String dquote rest). rewrite run_cons. unfold step at 1. change (is_char 34 dquote) with true. cbn iota.
  unfold end_string. rewrite text_rev, H2. done.
Qed.
(** A value begins with a character that is neither white space nor a closing bracket. *)
Lemma jtext_first S t j : jtext S t j → ∃ c r, t = String c r ∧ is_space c = false ∧ is_char 93 c = false.
Proof.
  intros H. destruct H as [| | |t [m w f e Hm Hw _ _]|t v _|w _|t l _|w _|t l _]; try by eexists _, _.
  apply elem_of_list_In in Hm as [<-|[<-|[]]]; [|by eexists _, _]. destruct Hw as [|c s Hc _]; [by eexists _, _|]. eexists c, _. split; [done|].
  split; [|apply is_char_false; lia]. destruct (is_space c) eqn:E; [|done]. apply space_code in E. rewrite !elem_of_cons, elem_of_nil in E. lia.
Qed.
Lemma run_first_value S t j rest stk : jtext S t j → run (SFirst stk) (t +:+ rest) = run (SValue (FArr [] :: stk)) (t +:+ rest).
Proof. intros (c & r & -> & H1 & H2)%jtext_first. rewrite str_app_cons, !run_cons. cbn [step]. by rewrite H1, H2. Qed.
Lemma run_key R st l stk k key w2 w3 rest : st = SKey l stk ∨ st = SFirstKey stk ∧ l = [] → spells R k key → ws w2 → ws w3 →
  run st (dq +:+ k +:+ dq +:+ w2 +:+ ":" +:+ w3 +:+ rest) = run (SValue (FObj l key :: stk)) rest.
Proof.
  intros Hst Hk H2 H3. change (dq +:+ ?y) with (String dquote y) at 1. rewrite run_cons.
  assert (step st dquote = Some (SStr [] (DKey l stk))) as -> by (by destruct Hst as [->|[-> ->]]).
  rewrite (run_spelled R k key (DKey l stk)) by done. rewrite run_ws; [|done|intros c Hc; cbn [step]; by rewrite Hc].
  change (":" +:+ ?y) with (String ":" y). rewrite run_cons. cbn [step]. change (is_space ":") with false. change (is_char 58 ":") with true. cbn iota.
  apply run_ws; [done|apply skips_value].
Qed.

Lemma texts_run R :
  (∀ t j, jtext (spells R) t j → ∀ stk rest, depth j + length stk ≤ N.to_nat 10000 → ender rest → fin (run (SValue stk) (t +:+ rest)) = fin (run (SEnd j stk) rest)) ∧
  (∀ t l, items (spells R) t l → (∀ stk acc st rest, S (foldr (λ j n, Nat.max (depth j) n) 0 l) + length stk ≤ N.to_nat 10000 →
      st = SValue (FArr acc :: stk) ∨ st = SFirst stk ∧ acc = [] → fin (run st (t +:+ "]" +:+ rest)) = fin (run (SEnd (JArr (rev acc ++ l)) stk) rest))) ∧
  (∀ t l, members (spells R) t l → (∀ stk acc st rest, S (foldr (λ (p : string * json) n, Nat.max (depth p.2) n) 0 l) + length stk ≤ N.to_nat 10000 →
      st = SKey acc stk ∨ st = SFirstKey stk ∧ acc = [] → fin (run st (t +:+ "}" +:+ rest)) = fin (run (SEnd (JObj (rev acc ++ l)) stk) rest))).
Proof.
  apply (jtext_mutind (spells R)
    (λ t j, ∀ stk rest, depth j + length stk ≤ N.to_nat 10000 → ender rest → fin (run (SValue stk) (t +:+ rest)) = fin (run (SEnd j stk) rest))
    (λ t l, ∀ stk acc st rest, S (foldr (λ j n, Nat.max (depth j) n) 0 l) + length stk ≤ N.to_nat 10000 →
      st = SValue (FArr acc :: stk) ∨ st = SFirst stk ∧ acc = [] → fin (run st (t +:+ "]" +:+ rest)) = fin (run (SEnd (JArr (rev acc ++ l)) stk) rest))
    (λ t l, ∀ stk acc st rest, S (foldr (λ (p : string * json) n, Nat.max (depth p.2) n) 0 l) + length stk ≤ N.to_nat 10000 →
      st = SKey acc stk ∨ st = SFirstKey stk ∧ acc = [] → fin (run st (t +:+ "}" +:+ rest)) = fin (run (SEnd (JObj (rev acc ++ l)) stk) rest))).
  - done.
  - done.
  - done.
  - intros t Ht stk rest _ Hr. destruct (number_run t stk Ht) as (ns & (r & H1 & H2) & Hn). rewrite run_app, H1. destruct rest as [|c rest].
    + cbn [run fin finish]. destruct stk; [by rewrite Hn, H2|done].
    + rewrite !run_cons. cbn [step]. rewrite (num_stops ns c Hr Hn), Hn, H2. done.
  - intros t v Ht stk rest _ _. rewrite <- !str_app_assoc, run_dq_val. by rewrite (run_spelled R t v (DVal stk)).
  - intros w Hw stk rest Hd _. cbn [depth foldr] in Hd. rewrite <- !str_app_assoc. change ("[" +:+ ?y) with (String "[" y). rewrite run_cons. cbn [step]. change (is_space "[") with false. unfold begin_value.
    change (is_char 123 "[") with false. change (is_char 91 "[") with true. cbn iota. rewrite (room_true _ 0) by lia. by rewrite run_ws by (done || apply skips_first).
  - intros t l _ IH stk rest Hd _. cbn [depth] in Hd. rewrite <- !str_app_assoc. change ("[" +:+ ?y) with (String "[" y). rewrite run_cons. cbn [step]. change (is_space "[") with false. unfold begin_value.
    change (is_char 123 "[") with false. change (is_char 91 "[") with true. cbn iota. rewrite (room_true _ 0) by lia. by rewrite (IH stk [] (SFirst stk)) by (auto; lia).
  - intros w Hw stk rest Hd _. cbn [depth foldr] in Hd. rewrite <- !str_app_assoc. change ("{" +:+ ?y) with (String "{" y). rewrite run_cons. cbn [step]. change (is_space "{") with false. unfold begin_value.
    change (is_char 123 "{") with true. cbn iota. rewrite (room_true _ 0) by lia. by rewrite run_ws by (done || apply skips_first_key).
  - intros t l _ IH stk rest Hd _. cbn [depth] in Hd. rewrite <- !str_app_assoc. change ("{" +:+ ?y) with (String "{" y). rewrite run_cons. cbn [step]. change (is_space "{") with false. unfold begin_value.
    change (is_char 123 "{") with true. cbn iota. rewrite (room_true _ 0) by lia. by rewrite (IH stk [] (SFirstKey stk)) by (auto; lia).
  - intros w1 t j w2 Hw1 Hj IH Hw2 stk acc st rest Hd Hst. cbn [foldr] in Hd. rewrite <- !str_app_assoc.
    rewrite run_ws; [|done|destruct Hst as [->|[-> _]]; [apply skips_value|apply skips_first]].
    assert (run st (t +:+ w2 +:+ "]" +:+ rest) = run (SValue (FArr acc :: stk)) (t +:+ w2 +:+ "]" +:+ rest)) as ->.
    { destruct Hst as [->|[-> ->]]; [done|]. by eapply run_first_value. }
    rewrite IH; [|cbn [length]; lia|apply ender_ws; [done|]; unfold ender; set_solver]. rewrite run_ws by (done || apply skips_end). done.
  - intros w1 t j w2 r l Hw1 Hj IH Hw2 _ IHl stk acc st rest Hd Hst. cbn [foldr] in Hd. rewrite <- !str_app_assoc.
    rewrite run_ws; [|done|destruct Hst as [->|[-> _]]; [apply skips_value|apply skips_first]].
    match goal with |- fin (run st (t +:+ ?y)) = _ => assert (run st (t +:+ y) = run (SValue (FArr acc :: stk)) (t +:+ y)) as -> end.
    { destruct Hst as [->|[-> ->]]; [done|]. by eapply run_first_value. }
    rewrite IH; [|cbn [length]; lia|apply ender_ws; [done|]; unfold ender; set_solver]. rewrite run_ws by (done || apply skips_end).
    change ("," +:+ ?y) with (String "," y). rewrite run_cons. cbn [step]. unfold end_value. change (is_space ",") with false. change (is_char 44 ",") with true. cbn iota.
    rewrite (IHl stk (j :: acc)) by (auto; lia). cbn [rev]. by rewrite <- app_assoc.
  - intros w1 k key w2 w3 t j w4 Hw1 Hk Hw2 Hw3 Hj IH Hw4 stk acc st rest Hd Hst. cbn [foldr snd] in Hd. rewrite <- !str_app_assoc.
    rewrite run_ws; [|done|destruct Hst as [->|[-> _]]; [apply skips_key|apply skips_first_key]]. rewrite (run_key R st acc stk k key w2 w3) by done.
    rewrite IH; [|cbn [length]; lia|apply ender_ws; [done|]; unfold ender; set_solver]. rewrite run_ws by (done || apply skips_end). done.
  - intros w1 k key w2 w3 t j w4 r l Hw1 Hk Hw2 Hw3 Hj IH Hw4 _ IHl stk acc st rest Hd Hst. cbn [foldr snd] in Hd. rewrite <- !str_app_assoc.
    rewrite run_ws; [|done|destruct Hst as [->|[-> _]]; [apply skips_key|apply skips_first_key]]. rewrite (run_key R st acc stk k key w2 w3) by done.
    rewrite IH; [|cbn [length]; lia|apply ender_ws; [done|]; unfold ender; set_solver]. rewrite run_ws by (done || apply skips_end).
    change ("," +:+ ?y) with (String "," y). rewrite run_cons. cbn [step]. unfold end_value. change (is_space ",") with false. change (is_char 44 ",") with true. cbn iota.
    rewrite (IHl stk ((key, j) :: acc)) by (auto; lia). cbn [rev]. by rewrite <- app_assoc.
Qed.
Lemma document_read R t j : document (spells R) t j → depth j ≤ N.to_nat 10000 → read t = Some j.
Proof.
  intros [w1 u j' w2 H1 Hu H2] Hd. unfold read. rewrite run_ws by (done || apply skips_value).
  change (fin (run (SValue []) (u +:+ w2)) = Some j'). rewrite (proj1 (texts_run R) u j' Hu [] w2).
  - replace w2 with (w2 +:+ "") by apply str_app_nil_r. by rewrite run_ws by (done || apply skips_end).
  - cbn [length]. lia.
  - replace w2 with (w2 +:+ "") by apply str_app_nil_r. by apply ender_ws.
Qed.
