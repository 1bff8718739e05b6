(** A concrete environment that meets the assumptions on digests and JSON, for the examples about crashes and sessions. *)
From Coq Require Import Ascii.
From stdpp Require Import base list strings gmap countable.
From Coq Require Import ZArith Lia.
From Verif Require Import GoStr PathModel InventoryModel InventorySpec InventoryProofs ObjectModel ObjectSpec LoadModel CrashSpec Fixtures.

Global Instance version_eq_dec : EqDecision version.
Proof. solve_decision. Defined.
Global Instance inventory_eq_dec : EqDecision inventory.
Proof. solve_decision. Defined.
Global Instance version_countable : Countable version.
Proof.
  apply (inj_countable' (λ v, (v_created v, v_message v, v_uname v, v_uaddr v, v_state v))
           (λ '(a, b, c, d, e), Version a b c d e)). by intros [].
Defined.
Global Instance inventory_countable : Countable inventory.
Proof.
  apply (inj_countable' (λ i, (inv_id i, inv_type i, inv_alg i, inv_head i, inv_contentdir i, inv_manifest i,
      inv_versions i, inv_fixity i, inv_fixalgs i, inv_padding i, inv_modified i, inv_writeable i))
    (λ '(a, b, c, d, e, f, g, h, j, k, l, m), Inventory a b c d e f g h j k l m)). by intros [].
Defined.

(** An encoding of inventories in which no encoding is a strict prefix of another. *)
Definition cjson (i : inventory) : string := dec_of_N (Npos (encode i)) +:+ "}".
Definition cparse (b : string) : option inventory :=
  match drop_while_end (λ c, bool_decide (c = "}"%char)) b with
  | t => if decide (t = b) then None else n ← N_of_dec t; match n with Npos p => decode p | N0 => None end
  end.

Lemma drop_end_id f s : (∀ c, c ∈ list_ascii_of_string s → f c = false) → drop_while_end f s = s.
Proof.
  induction s as [|c s IH]; intros H; [done|]. simpl. rewrite IH by (intros x Hx; apply H; by right).
  rewrite (H c) by (by left). by destruct s.
Qed.
Lemma drop_end_one f s c : (∀ c, c ∈ list_ascii_of_string s → f c = false) → f c = true → drop_while_end f (s +:+ String c "") = s.
Proof.
  induction s as [|d s IH]; intros H Hc; [simpl; by rewrite Hc|]. rewrite str_app_cons. simpl.
  rewrite IH by (try done; intros x Hx; apply H; by right). rewrite (H d) by (by left). by destruct s.
Qed.
Lemma dec_no_brace n c : c ∈ list_ascii_of_string (dec_of_N n) → bool_decide (c = "}"%char) = false.
Proof.
  intros Hc. pose proof (dec_of_N_digits n) as H. unfold all_digits in H.
  rewrite Forall_forall in H. apply elem_of_list_In, H in Hc. apply bool_decide_eq_false. intros ->. destruct Hc as [_ Hc]. by destruct Hc.
Qed.
Lemma list_ascii_app a b : list_ascii_of_string (a +:+ b) = list_ascii_of_string a ++ list_ascii_of_string b.
Proof. induction a as [|c a IH]; [done|]. rewrite str_app_cons. simpl. by rewrite IH. Qed.
Lemma str_snoc_cut s c a b : s +:+ String c "" = a +:+ b → b ≠ "" → ∃ b', s = a +:+ b'.
Proof.
  revert a; induction s as [|d s IH]; intros a H Hb.
  - destruct a as [|x a]; [by exists ""|]. simpl in H. injection H as -> H. destruct a; [|done]. simpl in H. by subst.
  - destruct a as [|x a]; [by exists (String d s)|]. rewrite !str_app_cons in H. injection H as -> H.
    destruct (IH a H Hb) as [b' ->]. by exists b'.
Qed.
Lemma same_record_refl i : same_record i i.
Proof. done. Qed.
Lemma cjson_ok : json_ok (λ _, True) cjson cparse.
Proof.
  split.
  - intros i. exists i. split; [|apply same_record_refl]. unfold cparse, cjson.
    rewrite drop_end_one; [|apply dec_no_brace|done].
    rewrite decide_False.
    + rewrite N_of_dec_of_N. simpl. apply decode_encode.
    + intros E. apply (f_equal String.length) in E. rewrite str_length_app in E. simpl in E. lia.
  - intros i a b H Hb. unfold cjson in H. unfold cparse. apply str_snoc_cut in H as [b' H]; [|done].
    rewrite drop_end_id.
    + by rewrite decide_True.
    + intros c Hc. eapply dec_no_brace. rewrite H, list_ascii_app. apply elem_of_app. by left.
Qed.

(** Hexadecimal digests: the data in hexadecimal with a leading a. *)
Definition hexd (n : N) : ascii := ascii_of_N (if (n <? 10)%N then 48 + n else 87 + n).
Fixpoint hex_str (s : string) : string :=
  match s with
  | "" => ""
  | String c s' => String (hexd (N_of_ascii c / 16)) (String (hexd (N_of_ascii c mod 16)) (hex_str s'))
  end.
Definition hexh (alg data : string) : option string :=
  if decide (alg = "sha512") then Some (String "a" (hex_str data))
  else if decide (alg = "md5") then Some (String "b" (hex_str data)) else None.

Lemma hexd_ok n : (n < 16)%N → hex_digit (hexd n) = true ∧ lower_ascii (hexd n) = hexd n.
Proof.
  intros H. destruct n as [|p]; [by vm_compute|].
  do 4 (try destruct p as [p|p|]); try (by vm_compute); lia.
Qed.
Lemma hex_str_ok s : (∀ c, c ∈ list_ascii_of_string (hex_str s) → hex_digit c = true) ∧ to_lower (hex_str s) = hex_str s.
Proof.
  induction s as [|c s [IH1 IH2]]; [split; [intros c H; by apply elem_of_nil in H|done]|].
  assert (N_of_ascii c / 16 < 16)%N as H1.
  { apply N.div_lt_upper_bound; [done|]. apply N_ascii_bounded. }
  assert (N_of_ascii c mod 16 < 16)%N as H2 by (by apply N.mod_lt).
  destruct (hexd_ok _ H1) as [A1 A2]. destruct (hexd_ok _ H2) as [B1 B2]. split.
  - intros x Hx. simpl in Hx. rewrite !elem_of_cons in Hx. destruct Hx as [->|[->|Hx]]; auto.
  - simpl. by rewrite A2, B2, IH2.
Qed.
Lemma hexh_ok : hex_hash hexh.
Proof.
  intros alg data d. unfold hexh. destruct (hex_str_ok data) as [H1 H2].
  repeat case_decide; intros [= <-]; (split; [split; [done|]|by simpl; rewrite H2]);
    intros c Hc; simpl in Hc; apply elem_of_cons in Hc as [->|Hc]; auto.
Qed.

Definition cenv : env := Env hexh cjson (λ p _, Some p) (λ p _, Some p) [("initial/config.json", "{}")].
