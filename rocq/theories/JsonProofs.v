(** Reading JSON text that was written: lemmas about JsonModel. *)
From Coq Require Import Ascii.
From stdpp Require Import base list strings.
From Coq Require Import ZArith Lia ZifyN.
From Verif Require Import GoStr Utf8Model Utf8Proofs LayoutSpec JsonModel JsonSpec.
Ltac Zify.zify_post_hook ::= Z.div_mod_to_equations.

(** * Strings *)
Lemma run_cons st c s : run st (String c s) = match step st c with Some st' => run st' s | None => None end.
Proof. done. Qed.
Lemma run_app st a b : run st (a +:+ b) = match run st a with Some st' => run st' b | None => None end.
Proof. revert st; induction a as [|c a IH]; intros st; [done|]. rewrite str_app_cons, !run_cons. destruct (step st c); [apply IH|done]. Qed.

(** The scanner stays inside the string. *)
Definition scans (t : string) : Prop := ∀ raw d, run (SStr raw d) t = Some (SStr (rev (list_ascii_of_string t) ++ raw) d).
Lemma scans_nil : scans "".
Proof. done. Qed.
Lemma list_ascii_app a b : list_ascii_of_string (a +:+ b) = list_ascii_of_string a ++ list_ascii_of_string b.
Proof. induction a as [|c a IH]; [done|]. rewrite str_app_cons. cbn. by rewrite IH. Qed.
Lemma scans_app a b : scans a → scans b → scans (a +:+ b).
Proof. intros Ha Hb raw d. rewrite run_app, Ha, Hb, list_ascii_app, rev_app_distr, <- app_assoc. done. Qed.
Lemma scans_cons c s : scans (String c "") → scans s → scans (String c s).
Proof. intros H1 H2. exact (scans_app (String c "") s H1 H2). Qed.
Lemma scans_high a : (128 <= N_of_ascii a)%N → scans (String a "").
Proof.
  intros H raw d. cbn [run step]. unfold is_char.
  rewrite (proj2 (N.eqb_neq _ _)), (proj2 (N.eqb_neq _ _)), (proj2 (N.ltb_ge _ _)) by lia. done.
Qed.
Lemma quote_ascii_app c s : quote_ascii c s = quote_ascii c "" +:+ s.
Proof. unfold quote_ascii, esc_byte, esc. cbv zeta. repeat (destruct (_ || _) || destruct (_ =? _)%N); done. Qed.
Lemma scans_ascii c : (N_of_ascii c < 128)%N → scans (quote_ascii c "").
Proof. destruct c as [[] [] [] [] [] [] [] []]; intros H; try (vm_compute in H; discriminate H); intros raw d; reflexivity. Qed.
Lemma scans_invalid : scans (esc_invalid "").
Proof. intros raw d. reflexivity. Qed.
Lemma esc_invalid_app s : esc_invalid s = esc_invalid "" +:+ s.
Proof. done. Qed.
Lemma scans_sep c : scans ("\u202" +:+ String (hexc (N_of_ascii c mod 16)) "").
Proof. destruct c as [[] [] [] [] [] [] [] []]; intros raw d; reflexivity. Qed.

Lemma unquote_ascii c s : (N_of_ascii c < 128)%N → unquote (quote_ascii c s) = String c (unquote s).
Proof. destruct c as [[] [] [] [] [] [] [] []]; intros H; try (vm_compute in H; discriminate H); reflexivity. Qed.
Lemma unquote_invalid s : unquote (esc_invalid s) = bad_rune (unquote s).
Proof. reflexivity. Qed.
Lemma high_not_backslash a : (128 <= N_of_ascii a)%N → a ≠ "\"%char.
Proof. intros H ->. vm_compute in H. by apply H. Qed.
Lemma unquote_high a s : (128 <= N_of_ascii a)%N → unquote (String a s) =
  match s with
  | "" => bad_rune ""
  | String b s2 =>
      if two_ok a b then String a (String b (unquote s2)) else
      match s2 with
      | "" => bad_rune (unquote s)
      | String c s3 =>
          if three_ok a b c then String a (String b (String c (unquote s3))) else
          match s3 with
          | "" => bad_rune (unquote s)
          | String d s4 =>
              if four_ok a b c d then String a (String b (String c (String d (unquote s4)))) else bad_rune (unquote s)
          end
      end
  end.
Proof. destruct a as [[] [] [] [] [] [] [] []]; intros H; try (exfalso; vm_compute in H; by apply H); reflexivity. Qed.

Lemma byte_in_bounds lo hi a : byte_in lo hi a = true → (lo <= N_of_ascii a <= hi)%N.
Proof. unfold byte_in. intros H. apply andb_prop in H as [H1 H2]. apply N.leb_le in H1, H2. lia. Qed.
Lemma byte_same n a : n = N_of_ascii a → byte n = a.
Proof. intros ->. apply ascii_N_embedding. Qed.
Lemma two_bytes a b : two_ok a b = true →
  (128 <= N_of_ascii a)%N ∧ (128 <= N_of_ascii b)%N ∧
  encode_rune ((N_of_ascii a - 192) * 64 + (N_of_ascii b - 128)) = String a (String b "").
Proof.
  unfold two_ok. intros H. apply andb_prop in H as [H1 H2]. apply byte_in_bounds in H1, H2.
  split; [lia|]. split; [lia|]. unfold encode_rune.
  rewrite (proj2 (N.ltb_ge _ _)), (proj2 (N.ltb_lt _ _)) by lia. repeat f_equal; apply byte_same; lia.
Qed.
Lemma three_bytes a b c : three_ok a b c = true →
  (128 <= N_of_ascii a)%N ∧ (128 <= N_of_ascii b)%N ∧ (128 <= N_of_ascii c)%N ∧
  encode_rune ((N_of_ascii a - 224) * 4096 + (N_of_ascii b - 128) * 64 + (N_of_ascii c - 128)) = String a (String b (String c "")).
Proof.
  unfold three_ok. intros H. apply andb_prop in H as [H1 H2]. apply byte_in_bounds in H2.
  assert ((N_of_ascii a = 224 ∧ 160 <= N_of_ascii b <= 191 ∨ 225 <= N_of_ascii a <= 236 ∧ 128 <= N_of_ascii b <= 191 ∨
    N_of_ascii a = 237 ∧ 128 <= N_of_ascii b <= 159 ∨ 238 <= N_of_ascii a <= 239 ∧ 128 <= N_of_ascii b <= 191)%N) as Hab.
  { repeat match goal with X : _ || _ = true |- _ => apply orb_prop in X as [X|X] end;
    apply andb_prop in H1 as [H1 H3]; apply byte_in_bounds in H1, H3; lia. }
  clear H1. split; [lia|]. split; [lia|]. split; [lia|]. unfold encode_rune.
  rewrite (proj2 (N.ltb_ge _ _)), (proj2 (N.ltb_ge _ _)) by lia.
  rewrite bool_decide_eq_false_2 by (intros X; apply X; unfold scalar; lia).
  rewrite (proj2 (N.ltb_lt _ _)) by lia. repeat f_equal; apply byte_same; lia.
Qed.
Lemma four_bytes a b c d : four_ok a b c d = true →
  (128 <= N_of_ascii a)%N ∧ (128 <= N_of_ascii b)%N ∧ (128 <= N_of_ascii c)%N ∧ (128 <= N_of_ascii d)%N ∧
  encode_rune ((N_of_ascii a - 240) * 262144 + (N_of_ascii b - 128) * 4096 + (N_of_ascii c - 128) * 64 + (N_of_ascii d - 128)) =
    String a (String b (String c (String d ""))).
Proof.
  unfold four_ok. intros H. apply andb_prop in H as [H H3]. apply andb_prop in H as [H1 H2]. apply byte_in_bounds in H2, H3.
  assert ((N_of_ascii a = 240 ∧ 144 <= N_of_ascii b <= 191 ∨ 241 <= N_of_ascii a <= 243 ∧ 128 <= N_of_ascii b <= 191 ∨
    N_of_ascii a = 244 ∧ 128 <= N_of_ascii b <= 143)%N) as Hab.
  { repeat match goal with X : _ || _ = true |- _ => apply orb_prop in X as [X|X] end;
    apply andb_prop in H1 as [H1 H4]; apply byte_in_bounds in H1, H4; lia. }
  clear H1. split; [lia|]. split; [lia|]. split; [lia|]. split; [lia|]. unfold encode_rune.
  rewrite (proj2 (N.ltb_ge _ _)), (proj2 (N.ltb_ge _ _)) by lia.
  rewrite bool_decide_eq_false_2 by (intros X; apply X; unfold scalar; lia).
  rewrite (proj2 (N.ltb_ge _ _)) by lia. repeat f_equal; apply byte_same; lia.
Qed.
Lemma sep_bytes a b c s : three_sep a b c = true → unquote ("\u202" +:+ String (hexc (N_of_ascii c mod 16)) s) = String a (String b (String c (unquote s))).
Proof.
  unfold three_sep. intros H. apply andb_prop in H as [H H3]. apply andb_prop in H as [H1 H2]. apply N.eqb_eq in H1, H2.
  rewrite <- (ascii_N_embedding a), <- (ascii_N_embedding b), H1, H2.
  apply orb_prop in H3 as [H3|H3]; apply N.eqb_eq in H3; rewrite <- (ascii_N_embedding c), H3; reflexivity.
Qed.
Lemma runes_step o l s : decode s = o :: l → encode (runes s) = encode_rune (default rune_error o) +:+ encode ((λ o, default rune_error o) <$> l).
Proof. intros H. unfold runes. by rewrite H. Qed.
Lemma bad_rune_app s : encode_rune rune_error +:+ s = bad_rune s.
Proof. reflexivity. Qed.

(** What is written between the quotes is accepted and read as the text with every invalid byte replaced. *)
Lemma quote_spec s : scans (quote s) ∧ unquote (quote s) = encode (runes s).
Proof.
  remember (String.length s) as k eqn:Hk. revert s Hk.
  induction (lt_wf k) as [k _ IH]. intros s ->.
  assert (∀ t, (String.length t < String.length s)%nat → scans (quote t) ∧ unquote (quote t) = encode (runes t)) as IH'.
  { intros t Ht. by apply (IH (String.length t)). }
  clear IH. destruct s as [|a s1]; [split; [apply scans_nil|done]|].
  assert (∀ t, (128 <= N_of_ascii a)%N → (String.length t < String.length (String a s1))%nat → decode (String a s1) = None :: decode t →
    quote (String a s1) = esc_invalid (quote t) →
    scans (quote (String a s1)) ∧ unquote (quote (String a s1)) = encode (runes (String a s1))) as Hbad.
  { intros t Ha Ht Hd Hq. destruct (IH' t Ht) as [I1 I2]. rewrite Hq. split; [rewrite esc_invalid_app; apply scans_app; [by apply scans_invalid|done]|].
    rewrite unquote_invalid, I2, (runes_step _ _ _ Hd). reflexivity. }
  destruct (N.ltb_spec (N_of_ascii a) 128) as [H|H].
  { destruct (IH' s1) as [I1 I2]; [simpl; lia|]. cbn [quote]. rewrite (proj2 (N.ltb_lt _ _) H). split.
    - rewrite quote_ascii_app. apply scans_app; [by apply scans_ascii|done].
    - rewrite unquote_ascii by done. rewrite I2, (runes_step (Some (N_of_ascii a)) (decode s1) (String a s1)).
      2:{ cbn [decode]. by rewrite (proj2 (N.ltb_lt _ _) H). }
      simpl. unfold encode_rune. rewrite (proj2 (N.ltb_lt _ _) H). unfold byte. by rewrite ascii_N_embedding. }
  pose proof (proj2 (N.ltb_ge _ _) H) as Hlt.
  destruct s1 as [|b s2].
  { apply (Hbad ""); [done|simpl; lia| |]; cbn [decode quote]; by rewrite Hlt. }
  destruct (two_ok a b) eqn:E2.
  { destruct (two_bytes _ _ E2) as (_ & Hb & He). destruct (IH' s2) as [I1 I2]; [simpl; lia|]. cbn [quote]. rewrite Hlt, E2. split.
    - apply scans_cons; [by apply scans_high|]. apply scans_cons; [by apply scans_high|done].
    - rewrite unquote_high by done. cbv iota beta. rewrite E2, I2. erewrite (runes_step (Some _) (decode s2) (String a (String b s2))); [simpl; by rewrite He|].
      cbn [decode]. by rewrite Hlt, E2. }
  destruct s2 as [|c s3].
  { apply (Hbad (String b "")); [done|simpl; lia| |]; cbn [decode quote]; by rewrite Hlt, E2. }
  destruct (three_ok a b c) eqn:E3.
  { destruct (three_bytes _ _ _ E3) as (_ & Hb & Hc & He). destruct (IH' s3) as [I1 I2]; [simpl; lia|]. cbn [quote]. rewrite Hlt, E2, E3.
    assert (encode (runes (String a (String b (String c s3)))) = String a (String b (String c (encode (runes s3))))) as ->.
    { erewrite (runes_step (Some _) (decode s3) (String a (String b (String c s3)))); [simpl; by rewrite He|]. cbn [decode]. by rewrite Hlt, E2, E3. }
    destruct (three_sep a b c) eqn:E3s; split.
    - change (String (hexc (N_of_ascii c mod 16)) (quote s3)) with (String (hexc (N_of_ascii c mod 16)) "" +:+ quote s3).
      rewrite str_app_assoc. apply scans_app; [by apply scans_sep|done].
    - by rewrite (sep_bytes a b), I2.
    - do 2 (apply scans_cons; [by apply scans_high|]). apply scans_cons; [by apply scans_high|done].
    - rewrite unquote_high by done. cbv iota beta. by rewrite E2, E3, I2. }
  destruct s3 as [|d s4].
  { apply (Hbad (String b (String c ""))); [done|simpl; lia| |]; cbn [decode quote]; by rewrite Hlt, E2, E3. }
  destruct (four_ok a b c d) eqn:E4.
  { destruct (four_bytes _ _ _ _ E4) as (_ & Hb & Hc & Hd & He). destruct (IH' s4) as [I1 I2]; [simpl; lia|]. cbn [quote]. rewrite Hlt, E2, E3, E4. split.
    - do 3 (apply scans_cons; [by apply scans_high|]). apply scans_cons; [by apply scans_high|done].
    - rewrite unquote_high by done. cbv iota beta. rewrite E2, E3, E4, I2. erewrite (runes_step (Some _) (decode s4) (String a (String b (String c (String d s4))))); [simpl; by rewrite He|].
      cbn [decode]. by rewrite Hlt, E2, E3, E4. }
  apply (Hbad (String b (String c (String d s4)))); [done|simpl; lia| |]; cbn [decode quote]; by rewrite Hlt, E2, E3, E4.
Qed.

(** * Values *)
Section json_ind.
  Context (P : json → Prop).
  Context (Hnull : P JNull) (Hbool : ∀ b, P (JBool b)) (Hnum : ∀ s, P (JNum s)) (Hstr : ∀ s, P (JStr s)).
  Context (Harr : ∀ l, Forall P l → P (JArr l)) (Hobj : ∀ l, Forall (λ p : string * json, P p.2) l → P (JObj l)).
  Fixpoint json_rect' (j : json) : P j :=
    match j with
    | JNull => Hnull
    | JBool b => Hbool b
    | JNum s => Hnum s
    | JStr s => Hstr s
    | JArr l => Harr l ((fix go l : Forall P l := match l with [] => Forall_nil_2 P | j :: l => Forall_cons_2 P j l (json_rect' j) (go l) end) l)
    | JObj l => Hobj l ((fix go l : Forall (λ p : string * json, P p.2) l :=
        match l with [] => Forall_nil_2 _ | p :: l => Forall_cons_2 _ p l (json_rect' p.2) (go l) end) l)
    end.
End json_ind.

Lemma repaired_id j : json_utf8 j → repaired j = j.
Proof.
  induction j as [| | | |l IH|l IH] using json_rect'; cbn [json_utf8 repaired]; try done.
  - intros (l & Hl & ->). unfold replaced. by rewrite runes_encode.
  - intros H. f_equal. induction IH as [|j l Hj _ IHl]; [done|]. destruct H as [H1 H2]. cbn [map]. by rewrite Hj, IHl.
  - intros H. f_equal. induction IH as [|[k j] l Hj _ IHl]; [done|]. destruct H as ((r & Hr & Hk) & H1 & H2). cbn [map fst snd] in *.
    unfold replaced at 1. rewrite Hj, IHl by done. rewrite Hk, runes_encode by done. done.
Qed.

(** White space between tokens. *)
Definition skips (st : state) : Prop := ∀ c, is_space c = true → step st c = Some st.
Lemma skips_value stk : skips (SValue stk).
Proof. intros c H. cbn [step]. by rewrite H. Qed.
Lemma skips_first stk : skips (SFirst stk).
Proof. intros c H. cbn [step]. by rewrite H. Qed.
Lemma skips_first_key stk : skips (SFirstKey stk).
Proof. intros c H. cbn [step]. by rewrite H. Qed.
Lemma skips_key l stk : skips (SKey l stk).
Proof. intros c H. cbn [step]. by rewrite H. Qed.
Lemma skips_end v stk : skips (SEnd v stk).
Proof. intros c H. cbn [step]. unfold end_value. by rewrite H. Qed.
Lemma run_blanks st d rest : skips st → run st (blanks d rest) = run st rest.
Proof.
  intros H. induction d as [|d IH]; [done|]. cbn [blanks]. change ("   " +:+ blanks d rest) with (String " " (String " " (String " " (blanks d rest)))).
  rewrite !run_cons, H by done. cbn iota. rewrite run_cons, H by done. cbn iota. rewrite run_cons, H by done. exact IH.
Qed.
Lemma run_newline st d rest : skips st → run st (newline d rest) = run st rest.
Proof. intros H. unfold newline. rewrite run_cons, H by done. by apply run_blanks. Qed.

Lemma text_rev s : text (rev (list_ascii_of_string s) ++ []) = s.
Proof. unfold text. rewrite app_nil_r, rev_involutive. apply string_of_list_ascii_of_string. Qed.
Lemma run_string s d rest : run (SStr [] d) (quote s +:+ String dquote rest) =
  run (match d with DVal stk => SEnd (JStr (replaced s)) stk | DKey l stk => SColon l (replaced s) stk end) rest.
Proof.
  destruct (quote_spec s) as [H1 H2]. rewrite run_app, H1, run_cons. unfold step at 1. change (is_char 34 dquote) with true. cbn iota.
  unfold end_string. rewrite text_rev, H2. done.
Qed.
Lemma run_print_string s stk rest : run (SValue stk) (print_string s rest) = run (SEnd (JStr (replaced s)) stk) rest.
Proof. unfold print_string. rewrite run_cons. change (step (SValue stk) dquote) with (Some (SStr [] (DVal stk))). cbn iota. apply run_string. Qed.
Lemma run_print_key st l stk k rest : st = SKey l stk ∨ st = SFirstKey stk ∧ l = [] →
  run st (print_string k (": " +:+ rest)) = run (SValue (FObj l (replaced k) :: stk)) rest.
Proof.
  intros H. unfold print_string. rewrite run_cons.
  assert (step st dquote = Some (SStr [] (DKey l stk))) as -> by (by destruct H as [->|[-> ->]]).
  rewrite run_string. change (": " +:+ rest) with (String ":" (String " " rest)). rewrite run_cons. cbn [step]. change (is_space ":") with false.
  change (is_char 58 ":") with true. cbn iota. rewrite run_cons, skips_value by done. done.
Qed.

Lemma room_true stk n : S n + length stk ≤ N.to_nat 10000 → room stk = true.
Proof. intros H. unfold room. apply N.ltb_lt. lia. Qed.

(** A written value starts with a character that no white space and no closing bracket is. *)
Lemma print_first d j rest : numberless j → ∃ c r, print d j rest = String c r ∧ is_space c = false ∧ is_char 93 c = false.
Proof.
  destruct j as [|[]| |s|[|j l]|[|[k j] l]]; intros H; try done; cbn [print]; unfold print_string; eexists _, _; by (split; [reflexivity|]).
Qed.
Lemma run_first d j rest stk : numberless j → run (SFirst stk) (print d j rest) = run (SValue (FArr [] :: stk)) (print d j rest).
Proof.
  intros H. destruct (print_first d j rest H) as (c & r & -> & H1 & H2). rewrite !run_cons. cbn [step]. by rewrite H1, H2.
Qed.

Lemma run_print j : ∀ d stk rest, numberless j → depth j + length stk ≤ N.to_nat 10000 →
  run (SValue stk) (print d j rest) = run (SEnd (repaired j) stk) rest.
Proof.
  induction j as [| [] | | |l IH|l IH] using json_rect'; intros d stk rest Hn Hd; try done.
  - apply run_print_string.
  - destruct l as [|j l].
    { cbn [print repaired map]. change ("[]" +:+ rest) with (String "[" (String "]" rest)). rewrite !run_cons. cbn [step].
      unfold begin_value. cbn [depth foldr] in Hd. rewrite (room_true _ 0) by lia. done. }
    cbn [print repaired map]. rewrite run_cons. cbn [step]. change (is_space "[") with false. unfold begin_value.
    change (is_char 123 "[") with false. change (is_char 91 "[") with true. cbn iota.
    cbn [depth foldr] in Hd. rewrite (room_true _ 0) by lia.
    rewrite run_newline by apply skips_first. destruct Hn as [Hj Hl].
    rewrite run_first by done. apply Forall_cons in IH as [IHj IHl].
    rewrite IHj by (cbn [length]; lia || done). 
    change (repaired j :: map repaired l) with ([repaired j] ++ map repaired l). change [repaired j] with (rev [repaired j]). 
    assert (∀ l v items, Forall (λ j, ∀ d stk rest, numberless j → depth j + length stk ≤ N.to_nat 10000 →
        run (SValue stk) (print d j rest) = run (SEnd (repaired j) stk) rest) l →
      foldr (λ j P, numberless j ∧ P) True l → S (foldr (λ j n, Nat.max (depth j) n) 0 l) + length stk ≤ N.to_nat 10000 →
      run (SEnd v (FArr items :: stk)) (print_list (print (S d)) (S d) l (newline d (String "]" rest))) =
      run (SEnd (JArr (rev (v :: items) ++ map repaired l)) stk) rest) as Hloop; [|apply Hloop; [done|done|lia]].
    clear. induction l as [|j l IHl]; intros v items Hf Hn Hd.
    + cbn [print_list map]. rewrite app_nil_r, run_newline by apply skips_end. by rewrite run_cons.
    + cbn [print_list map foldr] in *. apply Forall_cons in Hf as [Hj Hl]. destruct Hn as [Hn1 Hn2]. rewrite run_cons. cbn [step].
      unfold end_value. change (is_space ",") with false. change (is_char 44 ",") with true. cbn iota.
      rewrite run_newline by apply skips_value. rewrite Hj by (cbn [length]; lia || done). rewrite IHl by (lia || done).
      cbn [rev]. by rewrite <- !app_assoc.
  - destruct l as [|[k j] l].
    { cbn [print repaired map]. change ("{}" +:+ rest) with (String "{" (String "}" rest)). rewrite !run_cons. cbn [step].
      unfold begin_value. cbn [depth foldr] in Hd. rewrite (room_true _ 0) by lia. done. }
    cbn [print repaired map fst snd]. rewrite run_cons. cbn [step]. change (is_space "{") with false. unfold begin_value.
    change (is_char 123 "{") with true. cbn iota.
    cbn [depth foldr snd] in Hd. rewrite (room_true _ 0) by lia.
    rewrite run_newline by apply skips_first_key. destruct Hn as [Hj Hl]. cbn [snd] in Hj.
    rewrite (run_print_key _ [] stk) by auto. apply Forall_cons in IH as [IHj IHl]. cbn [snd] in IHj.
    rewrite IHj by (cbn [length]; lia || done). 
    assert (∀ l k v items, Forall (λ p : string * json, ∀ d stk rest, numberless p.2 → depth p.2 + length stk ≤ N.to_nat 10000 →
        run (SValue stk) (print d p.2 rest) = run (SEnd (repaired p.2) stk) rest) l →
      foldr (λ (p : string * json) P, numberless p.2 ∧ P) True l → S (foldr (λ (p : string * json) n, Nat.max (depth p.2) n) 0 l) + length stk ≤ N.to_nat 10000 →
      run (SEnd v (FObj items k :: stk)) (print_list (λ p : string * json, λ r, print_string p.1 (": " +:+ print (S d) p.2 r)) (S d) l (newline d (String "}" rest))) =
      run (SEnd (JObj (rev ((k, v) :: items) ++ map (λ p : string * json, (replaced p.1, repaired p.2)) l)) stk) rest) as Hloop.
    2:{ rewrite (Hloop l (replaced k) (repaired j) []); [done|done|done|lia]. }
    clear. induction l as [|[k' j] l IHl]; intros k v items Hf Hn Hd.
    + cbn [print_list map]. rewrite app_nil_r, run_newline by apply skips_end. by rewrite run_cons.
    + cbn [print_list map foldr fst snd] in *. apply Forall_cons in Hf as [Hj Hl]. destruct Hn as [Hn1 Hn2]. cbn [snd] in *. rewrite run_cons. cbn [step].
      unfold end_value. change (is_space ",") with false. change (is_char 44 ",") with true. cbn iota.
      rewrite run_newline by apply skips_key. rewrite (run_print_key _ ((k, v) :: items) stk) by auto.
      rewrite Hj by (cbn [length]; lia || done). rewrite IHl by (lia || done).
      cbn [rev]. by rewrite <- !app_assoc.
Qed.

Lemma read_render j : numberless j → depth j ≤ N.to_nat 10000 → read (render j) = Some (repaired j).
Proof. intros H1 H2. unfold read, render. rewrite run_print; [done|done|cbn [length]; lia]. Qed.

(** * Prefixes *)
(** After a complete top-level object or array only white space may follow. *)
Lemma run_done v s st : run (SEnd v []) s = Some st → st = SEnd v [] ∧ Forall (λ c, is_space c = true) (list_ascii_of_string s).
Proof.
  revert st; induction s as [|c s IH]; intros st; [intros [= <-]; by split; [|constructor]|].
  rewrite run_cons. cbn [step]. unfold end_value. destruct (is_space c) eqn:E; [|done]. intros H. apply IH in H as [-> H].
  split; [done|]. cbn. by constructor.
Qed.
Lemma read_object_end a b l v : read a = Some (JObj l) → read (a +:+ b) = Some v → Forall (λ c, is_space c = true) (list_ascii_of_string b).
Proof.
  unfold read. rewrite run_app. destruct (run (SValue []) a) as [st|]; [|done].
  intros Ha. assert (st = SEnd (JObj l) []) as ->.
  { destruct st as [| | | | |w [|]| | | |raw ns [|]|]; try done; cbn [finish] in Ha; [by injection Ha as ->|]. by destruct (num_ends ns). }
  destruct (run _ b) as [st|] eqn:E; [|done]. intros _. by apply run_done in E as [_ E].
Qed.
