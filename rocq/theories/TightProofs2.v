(** Proofs of theorems added after mutation tests: invalid bytes in identifiers (C35), characters of Pairtree paths (C31), the chain
    of layouts (C33), areas with absolute folders (C38). *)
From Coq Require Import Ascii ZArith Lia.
From stdpp Require Import base list strings gmap.
From Verif Require Import GoStr PathModel PathProofs Utf8Model Utf8Proofs LayoutModel LayoutSpec LayoutProofs LayoutProofs2 InventorySpec CrashSpec AreaModel AreaSpec.

(** ** Invalid bytes *)
(** Bytes that occur in no UTF-8 text. *)
Definition never_utf8 (a : ascii) : Prop := (N_of_ascii a = 192 ∨ N_of_ascii a = 193 ∨ 245 <= N_of_ascii a)%N.
Lemma byte_in_out lo hi a : (N_of_ascii a < lo ∨ hi < N_of_ascii a)%N → byte_in lo hi a = false.
Proof.
  intros H. unfold byte_in. apply andb_false_iff. destruct H; [left|right]; apply N.leb_gt; lia.
Qed.
Lemma decode_never a s : never_utf8 a → decode (String a s) = None :: decode s.
Proof.
  intros H. unfold never_utf8 in H.
  assert (∀ b, two_ok a b = false) as H2 by (intros b; unfold two_ok; by rewrite byte_in_out by lia).
  assert (∀ b c, three_ok a b c = false) as H3 by (intros b c; unfold three_ok; by rewrite !(byte_in_out _ _ a) by lia).
  assert (∀ b c d, four_ok a b c d = false) as H4 by (intros b c d; unfold four_ok; by rewrite !(byte_in_out _ _ a) by lia).
  cbn [decode]. replace (N_of_ascii a <? 128)%N with false by (symmetry; apply N.ltb_ge; lia).
  destruct s as [|b s]; [done|]. rewrite H2. destruct s as [|c s]; [done|]. rewrite H3. destruct s as [|d s]; [done|]. by rewrite H4.
Qed.
Lemma decode_never_run b s : Forall never_utf8 (list_ascii_of_string b) → decode (b +:+ s) = (const None <$> list_ascii_of_string b) ++ decode s.
Proof.
  induction b as [|a b IH]; intros H; [done|]. apply Forall_cons in H as [Ha Hb]. change (String a b +:+ s) with (String a (b +:+ s)).
  rewrite decode_never, IH by done. done.
Qed.
Lemma str_assoc3 (a b c : string) : (a +:+ b) +:+ c = a +:+ b +:+ c.
Proof. induction a as [|x a IH]; [done|]. cbn. unfold String.append in *. by rewrite IH. Qed.
Lemma decode_runes l s : Forall scalar l → decode (encode l +:+ s) = (Some <$> l) ++ decode s.
Proof.
  induction 1 as [|n l Hn Hl IH]; [done|]. cbn [encode]. rewrite str_assoc3, decode_rune by done. by rewrite IH.
Qed.
Lemma valid_some_app repl b l r : valid_runes repl b ((Some <$> l) ++ r) = l ++ valid_runes repl (if decide (l = []) then b else false) r.
Proof.
  revert b; induction l as [|n l IH]; intros b; [done|]. cbn [fmap list_fmap app valid_runes]. rewrite IH. rewrite (decide_False (P:=n :: l = [])) by done.
  by case_decide.
Qed.
Lemma valid_none_app {A} repl (x : list A) r : x ≠ [] → valid_runes repl false ((const None <$> x) ++ r) = repl ++ valid_runes repl true r.
Proof.
  intros Hx. destruct x as [|a x]; [done|]. cbn [fmap list_fmap app valid_runes const]. f_equal. induction x as [|b x IH]; [done|].
  cbn [fmap list_fmap app valid_runes const]. apply IH. done.
Qed.

(** A text with runs of invalid bytes, and the text with every run replaced. *)
Fixpoint spoiled (parts : list (string * list N)) : string :=
  match parts with [] => "" | (bad, l) :: parts' => bad +:+ encode l +:+ spoiled parts' end.
Fixpoint mended (repl : list N) (parts : list (string * list N)) : list N :=
  match parts with [] => [] | (bad, l) :: parts' => repl ++ l ++ mended repl parts' end.
Definition proper_parts (parts : list (string * list N)) : Prop :=
  Forall (λ p : string * list N, p.1 ≠ "" ∧ Forall never_utf8 (list_ascii_of_string p.1) ∧ p.2 ≠ [] ∧ Forall scalar p.2) parts.
Lemma mended_valid repl l parts : Forall scalar l → proper_parts parts →
  to_valid_runes repl (encode l +:+ spoiled parts) = l ++ mended repl parts.
Proof.
  intros Hl Hp. unfold to_valid_runes. rewrite decode_runes, valid_some_app by done. f_equal.
  replace (if decide (l = []) then false else false) with false by (by case_decide). clear l Hl.
  induction Hp as [|[bad l] parts (H1 & H2 & H3 & H4) Hp IH]; [done|]. cbn [spoiled mended fst snd] in *.
  rewrite decode_never_run, decode_runes by done. rewrite valid_none_app by (by destruct bad). f_equal.
  rewrite valid_some_app, decide_False by done. by rewrite IH.
Qed.
Lemma mended_scalar repl parts : Forall scalar repl → proper_parts parts → Forall scalar (mended repl parts).
Proof.
  intros Hr. induction 1 as [|[bad l] parts (_ & _ & _ & H4) Hp IH]; [by apply Forall_nil|]. cbn [mended]. cbn [snd] in H4.
  rewrite !Forall_app. done.
Qed.
Theorem invalid_replaced h c l parts : Forall scalar l → Forall scalar (cd_repl c) → proper_parts parts →
  buildD h c (encode l +:+ spoiled parts) = buildD h c (encode (l ++ mended (cd_repl c) parts)).
Proof.
  intros Hl Hr Hp. unfold buildD. rewrite mended_valid by done. rewrite to_valid_encode; [done|]. apply Forall_app. split; [done|]. by apply mended_scalar.
Qed.

(** ** Characters of Pairtree paths *)
Definition visible (a : ascii) : Prop := (33 <= N_of_ascii a <= 126)%N ∧ a ≠ ":"%char ∧ a ≠ "."%char.
Lemma hex_uint_chars (u : Hexadecimal.uint) a : a ∈ list_ascii_of_string (HexadecimalString.NilEmpty.string_of_uint u) →
  (48 <= N_of_ascii a <= 57 ∨ 97 <= N_of_ascii a <= 102)%N.
Proof.
  induction u; cbn [HexadecimalString.NilEmpty.string_of_uint list_ascii_of_string]; [by intros ?%elem_of_nil|..];
    (intros [->|Ha]%elem_of_cons; [first [left; split; by vm_compute|right; split; by vm_compute]|by apply IHu]).
Qed.
Lemma hex_chars n a : a ∈ list_ascii_of_string (hex_of_N n) → (48 <= N_of_ascii a <= 57 ∨ 97 <= N_of_ascii a <= 102)%N.
Proof.
  unfold hex_of_N, HexadecimalString.NilZero.string_of_uint. destruct (N.to_hex_uint n) eqn:E; rewrite <-?E; try apply hex_uint_chars.
  cbn. intros [->|?%elem_of_nil]%elem_of_cons; [|done]. left. split; by vm_compute.
Qed.
Lemma ascii_app_in s t a : a ∈ list_ascii_of_string (s +:+ t) ↔ a ∈ list_ascii_of_string s ∨ a ∈ list_ascii_of_string t.
Proof.
  induction s as [|b s IH]; [cbn; rewrite elem_of_nil; tauto|]. change (String b s +:+ t) with (String b (s +:+ t)). cbn [list_ascii_of_string].
  rewrite !elem_of_cons, IH. tauto.
Qed.
Lemma pt_runes_chars l a : a ∈ list_ascii_of_string (pt_runes l) → (33 <= N_of_ascii a <= 126)%N.
Proof.
  induction l as [|n l IH]; [by intros ?%elem_of_nil|]. cbn [pt_runes]. rewrite ascii_app_in. intros [H|H]; [|by apply IH]. clear IH.
  unfold pt_rune in H. destruct ((33 <=? n)%N && (n <=? 126)%N) eqn:E; cbn [andb] in H.
  - apply andb_true_iff in E as [E1%N.leb_le E2%N.leb_le]. destruct (negb _).
    + apply elem_of_list_singleton in H as ->. rewrite N_ascii_embedding by lia. lia.
    + apply elem_of_cons in H as [->|H]; [by vm_compute|]. apply hex_chars in H. lia.
  - apply elem_of_cons in H as [->|H]; [by vm_compute|]. apply hex_chars in H. lia.
Qed.
Lemma convert_visible a : (33 <= N_of_ascii a <= 126)%N → visible (convert a) ∧ convert a ≠ "/"%char.
Proof.
  intros H. unfold convert, visible. repeat case_decide; subst; try (split_and!; by vm_compute). done.
Qed.
Lemma id_encode_chars s a : a ∈ list_ascii_of_string (id_encode s) → visible a ∧ a ≠ "/"%char.
Proof.
  unfold id_encode. generalize (pt_runes_chars (runes s)). generalize (pt_runes (runes s)). intros t Ht.
  induction t as [|b t IH]; [by intros ?%elem_of_nil|]. cbn [str_map list_ascii_of_string]. intros [->|Ha]%elem_of_cons.
  - apply convert_visible, Ht. by left.
  - apply IH; [|done]. intros x Hx. apply Ht. by right.
Qed.
Lemma substring_chars i n s a : a ∈ list_ascii_of_string (substring i n s) → a ∈ list_ascii_of_string s.
Proof.
  revert i n; induction s as [|b s IH]; intros i n; cbn [substring]; [by destruct i, n|].
  destruct i as [|i]; [destruct n as [|n]; [by intros ?%elem_of_nil|]|].
  - cbn [list_ascii_of_string]. intros [->|Ha]%elem_of_cons; [by left|]. right. by eapply IH.
  - intros Ha. right. by eapply IH.
Qed.
Lemma join_chars l a : a ∈ list_ascii_of_string (join_slash l) → a = "/"%char ∨ ∃ e, e ∈ l ∧ a ∈ list_ascii_of_string e.
Proof.
  induction l as [|e l IH]; [by intros ?%elem_of_nil|]. destruct l as [|e2 l].
  - intros Ha. right. exists e. split; [left|done].
  - change (join_slash (e :: e2 :: l)) with (e +:+ "/" +:+ join_slash (e2 :: l)). rewrite !ascii_app_in. intros [Ha|[Ha|Ha]].
    + right. exists e. split; [left|done].
    + left. by apply elem_of_list_singleton in Ha.
    + destruct (IH Ha) as [->|(x & Hx & Hin)]; [by left|]. right. exists x. split; [by right|done].
Qed.
Theorem pairtree_chars c id p a : buildP c id = POk p → a ∈ list_ascii_of_string p → visible a.
Proof.
  unfold buildP. destruct (cp_shorty c =? 0); intros [= <-]; [by intros ?%elem_of_nil|].
  intros [->|(e & He & Ha)]%join_chars; [by vm_compute|]. unfold tuples in He.
  apply elem_of_list_fmap in He as (i & -> & _). apply substring_chars in Ha. by destruct (id_encode_chars _ _ Ha).
Qed.

(** ** The chain of layouts *)
(** Every layout maps the path of the one before without error; an empty path counts as no change. *)
Inductive mapped_through (hs : hashes) : list layout → string → string → Prop :=
  | through_nil id : mapped_through hs [] id id
  | through_path l ls id q p : build hs l id = POk q → q ≠ "" → mapped_through hs ls q p → mapped_through hs (l :: ls) id p
  | through_empty l ls id p : build hs l id = POk "" → mapped_through hs ls id p → mapped_through hs (l :: ls) id p.
Theorem manager_exact hs ls id p : manager_path hs ls id = Some (p, false) ↔ mapped_through hs ls id p.
Proof.
  revert id; induction ls as [|l ls IH]; intros id; cbn [manager_path].
  - split; [intros [= <-]; constructor|]. inversion 1. done.
  - destruct (build hs l id) as [q|e|] eqn:E.
    + rewrite IH. case_decide as Hq.
      * subst q. split; [intros Hm; by apply through_empty|]. inversion 1 as [|? ? ? q' ? Hb Hq Hm|? ? ? ? Hb Hm]; subst; [|exact Hm]. rewrite E in Hb. by injection Hb as <-.
      * split; [intros Hm; by eapply through_path|]. inversion 1 as [|? ? ? q' ? Hb Hq' Hm|? ? ? ? Hb Hm]; subst; rewrite E in Hb; injection Hb as ->; done.
    + split; [destruct (manager_path hs ls id) as [[]|]; done|]. inversion 1 as [|? ? ? q' ? Hb Hq' Hm|? ? ? ? Hb Hm]; subst; rewrite E in Hb; discriminate Hb.
    + split; [done|]. inversion 1 as [|? ? ? q' ? Hb Hq' Hm|? ? ? ? Hb Hm]; subst; rewrite E in Hb; discriminate Hb.
Qed.

(** ** Areas *)
Lemma rooted_comps acc l : Forall (λ c, str_mem slash c = false) l → Forall plain_name acc →
  Forall plain_name (clean_comps true acc l).
Proof.
  revert acc; induction l as [|c l IH]; intros acc Hl Ha; cbn [clean_comps]; [by apply Forall_rev|].
  apply Forall_cons in Hl as [Hc Hl]. case_decide; [by apply IH|]. case_decide; [by apply IH|]. case_decide.
  - destruct acc as [|a acc]; [by apply IH|]. apply Forall_cons in Ha as [(P1 & P2 & P3 & P4) Ha]. rewrite decide_False by done. by apply IH.
  - apply IH; [done|]. apply Forall_cons. split; [|done]. by split_and!.
Qed.
Theorem rooted_clean s : str_head s = Some slash → ∃ names, path_clean s = "/" +:+ join_slash names ∧ Forall plain_name names.
Proof.
  intros H. unfold path_clean. rewrite H, bool_decide_eq_true_2 by done. eexists. split; [reflexivity|]. apply rooted_comps; [|by apply Forall_nil].
  apply split_on_elem_no_sep.
Qed.
Theorem rooted_area c area r path q : requested c area ≠ "full" → sp_paths c !! requested c area = Some ("/" +:+ r) →
  sub_state_path c path area = Some q → ∃ names, q = "/" +:+ join_slash names ∧ Forall plain_name names.
Proof.
  unfold requested, sub_state_path. intros Hf Hr. rewrite decide_False by done. rewrite Hr. intros Hq. apply (inj Some) in Hq as <-.
  rewrite path_join_plain by done. apply rooted_clean. by destruct r.
Qed.
