(** Layouts 0003 and 0004. *)
From Coq Require Import Ascii ZArith Lia.
From stdpp Require Import base list strings gmap.
From Verif Require Import GoStr PathModel Utf8Model Utf8Proofs LayoutModel LayoutSpec.

(** ** substrings *)
Lemma substring_all s : substring 0 (String.length s) s = s.
Proof. induction s as [|c s IH]; [done|]. cbn. by rewrite IH. Qed.
Lemma substring_zero n s : substring n 0 s = "".
Proof. revert n. induction s as [|c s IH]; intros [|n]; try done. cbn. apply IH. Qed.
Lemma substring_split n a b s : substring n (a + b) s = substring n a s +:+ substring (n + a) b s.
Proof.
  revert n a b. induction s as [|c s IH]; intros n a b.
  - destruct n, a, b; done.
  - destruct n as [|n].
    + destruct a as [|a]; [done|]. cbn [plus substring]. rewrite (IH 0 a b). done.
    + cbn [plus substring]. apply IH.
Qed.
Lemma substring_length n m s : n + m ≤ String.length s → String.length (substring n m s) = m.
Proof.
  revert n m. induction s as [|c s IH]; intros n m H.
  - cbn in H. destruct n, m; try lia. done.
  - destruct n as [|n].
    + destruct m as [|m]; [done|]. cbn in *. f_equal. apply IH. lia.
    + cbn in *. apply IH. lia.
Qed.
Lemma substring_mem c n m s : str_mem c s = false → str_mem c (substring n m s) = false.
Proof.
  revert n m. induction s as [|d s IH]; intros n m H.
  - by destruct n, m.
  - cbn in H. destruct (decide (c = d)) as [|Hd]; [done|]. destruct n as [|n].
    + destruct m as [|m]; [done|]. cbn. destruct (decide (c = d)); [done|]. by apply IH.
    + cbn. by apply IH.
Qed.

Lemma cat_app l1 l2 : cat (l1 ++ l2) = cat l1 +:+ cat l2.
Proof. induction l1 as [|s l1 IH]; [done|]. cbn. by rewrite IH, str_app_assoc. Qed.

(** ** tuples *)
Lemma tuples_S t n s : tuples t (S n) s = tuples t n s ++ [substring (n * t) t s].
Proof. unfold tuples. rewrite seq_S, fmap_app. done. Qed.
Lemma tuples_length t n s : length (tuples t n s) = n.
Proof. unfold tuples. by rewrite fmap_length, seq_length. Qed.
Lemma tuples_cat t n s : cat (tuples t n s) = substring 0 (n * t) s.
Proof.
  induction n as [|n IH]; [by rewrite substring_zero|].
  rewrite tuples_S, cat_app, IH. cbn [cat]. rewrite str_app_nil_r.
  replace (S n * t) with (n * t + t) by lia. by rewrite substring_split.
Qed.
Lemma tuples_each t n s : n * t ≤ String.length s → Forall (λ e, String.length e = t) (tuples t n s).
Proof.
  induction n as [|n IH]; intros H; [by apply Forall_nil|].
  rewrite tuples_S. apply Forall_app. split; [apply IH; lia|]. apply Forall_singleton.
  apply substring_length. lia.
Qed.
Lemma tuples_no_slash t n s :
  str_mem slash s = false → Forall (λ e, str_mem slash e = false) (tuples t n s).
Proof.
  intros H. unfold tuples. apply Forall_fmap, Forall_forall. intros i _. by apply substring_mem.
Qed.

(** ** hex digits *)
Lemma hex_digit_plain n : (n < 16)%N →
  (48 <= N_of_ascii (hex_digit n) <= 57 ∨ 97 <= N_of_ascii (hex_digit n) <= 102)%N.
Proof.
  intros H. unfold hex_digit. destruct (N.ltb_spec n 10).
  - left. rewrite N_ascii_embedding by lia. lia.
  - right. rewrite N_ascii_embedding by lia. lia.
Qed.
Lemma hex_bytes_chars s c : c ∈ list_ascii_of_string (hex_bytes s) →
  (48 <= N_of_ascii c <= 57 ∨ 97 <= N_of_ascii c <= 102)%N.
Proof.
  induction s as [|d s IH]; cbn; [by intros ?%elem_of_nil|].
  pose proof (N_ascii_bounded d).
  rewrite !elem_of_cons. intros [-> | [-> | Hc]]; [..|by apply IH]; apply hex_digit_plain.
  - apply N.div_lt_upper_bound; lia.
  - by apply N.mod_lt.
Qed.
Lemma hex_bytes_no_slash s : str_mem slash (hex_bytes s) = false.
Proof.
  apply not_true_iff_false. rewrite str_mem_spec. intros H%hex_bytes_chars.
  change (N_of_ascii slash) with 47%N in H. lia.
Qed.
Lemma hex_bytes_length s : String.length (hex_bytes s) = 2 * String.length s.
Proof. induction s as [|c s IH]; [done|]. cbn [hex_bytes String.length]. rewrite IH. lia. Qed.
Lemma hex_digit_inj a b : (a < 16)%N → (b < 16)%N → hex_digit a = hex_digit b → a = b.
Proof.
  intros Ha Hb H. apply (f_equal N_of_ascii) in H. unfold hex_digit in H.
  destruct (N.ltb_spec a 10), (N.ltb_spec b 10); rewrite !N_ascii_embedding in H by lia; lia.
Qed.
Lemma hex_bytes_inj a b : hex_bytes a = hex_bytes b → a = b.
Proof.
  revert b. induction a as [|c a IH]; intros [|d b]; try done. cbn. intros [= H1 H2 H3].
  pose proof (N_ascii_bounded c). pose proof (N_ascii_bounded d).
  apply hex_digit_inj in H1; [|apply N.div_lt_upper_bound; lia..].
  apply hex_digit_inj in H2; [|by apply N.mod_lt..].
  f_equal; [|by apply IH].
  rewrite <- (ascii_N_embedding c), <- (ascii_N_embedding d). f_equal.
  rewrite (N.div_mod (N_of_ascii c) 16), (N.div_mod (N_of_ascii d) 16) by done. by rewrite H1, H2.
Qed.

(** ** the escape of 0003 *)
(** What reading an escaped identifier gives back. *)
Definition unhex (c : ascii) : N :=
  if (N_of_ascii c <? 58)%N then (N_of_ascii c - 48)%N else (N_of_ascii c - 87)%N.
Fixpoint unescape (s : string) : string :=
  match s with
  | String c s' =>
      if decide (c = "%"%char) then
        match s' with
        | String a (String b s'') => String (ascii_of_N (unhex a * 16 + unhex b)) (unescape s'')
        | _ => ""
        end
      else String c (unescape s')
  | _ => ""
  end.
Lemma escape_char c : keep3 c = false → (16 <= N_of_ascii c)%N →
  hex_of_N (N_of_ascii c) =
    String (hex_digit (N_of_ascii c / 16)) (String (hex_digit (N_of_ascii c mod 16)) "") ∧
  ascii_of_N (unhex (hex_digit (N_of_ascii c / 16)) * 16 + unhex (hex_digit (N_of_ascii c mod 16))) = c.
Proof.
  intros Hk Hc. destruct c as [[] [] [] [] [] [] [] []]; try discriminate Hk;
    try (exfalso; by apply Hc); by vm_compute.
Qed.
Lemma keep3_percent : keep3 "%" = false.
Proof. reflexivity. Qed.
Lemma unescape_escape s : bytes_from 16 s → unescape (escape s) = s.
Proof.
  induction s as [|c s IH]; intros H; [done|].
  assert (unescape (escape s) = s) as IH'.
  { apply IH. intros d Hd. apply H. cbn. by right. }
  assert (16 <= N_of_ascii c)%N as Hc by (apply H; cbn; by left).
  cbn [escape]. destruct (keep3 c) eqn:Hk.
  - cbn [unescape]. destruct (decide (c = "%"%char)) as [->|_]; [by rewrite keep3_percent in Hk|].
    by rewrite IH'.
  - destruct (escape_char c Hk Hc) as [E1 E2]. rewrite E1. rewrite !str_app_cons, str_app_nil_l.
    cbn [unescape]. destruct (decide _) as [_|]; [|done]. by rewrite E2, IH'.
Qed.
Lemma escape_inj a b : bytes_from 16 a → bytes_from 16 b → escape a = escape b → a = b.
Proof. intros Ha Hb E. rewrite <- (unescape_escape a), <- (unescape_escape b) by done. by rewrite E. Qed.

(** Characters of an escaped identifier. *)
Definition esc_char (c : ascii) : bool := keep3 c || bool_decide (c = "%"%char).
Lemma hex_byte_chars c : forallb esc_char (list_ascii_of_string (hex_of_N (N_of_ascii c))) = true.
Proof. destruct c as [[] [] [] [] [] [] [] []]; by vm_compute. Qed.
Lemma list_ascii_app a b :
  list_ascii_of_string (a +:+ b) = list_ascii_of_string a ++ list_ascii_of_string b.
Proof. induction a as [|c a IH]; [done|]. rewrite str_app_cons. cbn. by rewrite IH. Qed.
Lemma escape_chars s : forallb esc_char (list_ascii_of_string (escape s)) = true.
Proof.
  induction s as [|c s IH]; [done|]. cbn [escape]. destruct (keep3 c) eqn:Hk.
  - cbn. rewrite IH. unfold esc_char. by rewrite Hk.
  - cbn [list_ascii_of_string]. rewrite list_ascii_app. cbn [forallb].
    rewrite forallb_app, hex_byte_chars, IH. done.
Qed.
Lemma escape_elem s c : c ∈ list_ascii_of_string (escape s) → esc_char c = true.
Proof.
  intros H. apply (proj1 (forallb_forall _ _) (escape_chars s)). by apply elem_of_list_In.
Qed.
Lemma escape_no_slash s : str_mem slash (escape s) = false.
Proof. apply not_true_iff_false. rewrite str_mem_spec. by intros H%escape_elem. Qed.
Lemma escape_no_period s : str_mem "." (escape s) = false.
Proof. apply not_true_iff_false. rewrite str_mem_spec. by intros H%escape_elem. Qed.
Lemma escape_nonempty s : s ≠ "" → escape s ≠ "".
Proof. destruct s as [|c s]; [done|]. intros _. cbn. by destruct (keep3 c). Qed.

(** ** paths and elements *)
Lemma path_of_join es p : es ≠ [] → path_of es p ↔ p = join_slash es.
Proof.
  revert p. induction es as [|e es IH]; intros p Hne; [done|].
  destruct es as [|e' es]; [done|].
  change (path_of (e :: e' :: es) p) with (∃ q, path_of (e' :: es) q ∧ p = e +:+ ("/" +:+ q)).
  split.
  - intros (q & Hq & ->). apply IH in Hq as ->; done.
  - intros ->. exists (join_slash (e' :: es)). split; [by apply IH|done].
Qed.
Lemma inside_split p q : inside p q → ∃ r, split_slash q = split_slash p ++ split_slash r.
Proof.
  intros [r ->]. exists r.
  change ("/" +:+ r) with (String slash r).
  rewrite <- (join_split slash p) at 1.
  pose proof (split_on_elem_no_sep slash p) as Hall. pose proof (split_on_nonempty slash p) as Hne.
  fold (split_slash p) in *. generalize dependent (split_slash p). intros l Hall Hne.
  induction l as [|e l IH]; [done|]. inversion Hall as [|?? He Hl]; subst.
  destruct l as [|e' l].
  - cbn [str_join]. unfold split_slash. by rewrite split_on_app.
  - rewrite str_join_cons by done.
    change (String slash "") with "/" in *.
    rewrite <- !str_app_assoc.
    change ("/" +:+ (str_join "/" (e' :: l) +:+ String slash r))
      with (String slash (str_join "/" (e' :: l) +:+ String slash r)).
    unfold split_slash in *. rewrite split_on_app by done. rewrite IH by done. done.
Qed.
Lemma inside_join l1 l2 :
  l1 ≠ [] → l2 ≠ [] →
  Forall (λ w, str_mem slash w = false) l1 → Forall (λ w, str_mem slash w = false) l2 →
  inside (join_slash l1) (join_slash l2) → ∃ l3, l3 ≠ [] ∧ l2 = l1 ++ l3.
Proof.
  intros N1 N2 F1 F2 H%inside_split. rewrite !split_slash_join in H by done.
  destruct H as [r ->]. exists (split_slash r). split; [apply split_on_nonempty|done].
Qed.
Lemma join_inj l1 l2 :
  l1 ≠ [] → l2 ≠ [] →
  Forall (λ w, str_mem slash w = false) l1 → Forall (λ w, str_mem slash w = false) l2 →
  join_slash l1 = join_slash l2 → l1 = l2.
Proof.
  intros N1 N2 F1 F2 H. rewrite <- (split_slash_join l1), <- (split_slash_join l2) by done. by rewrite H.
Qed.

(** ** 0003 *)
Definition last3 (h : string → string) (id : string) : string :=
  if 100 <? String.length (escape id)
  then substring 0 100 (escape id) +:+ ("-" +:+ hex_bytes (h id)) else escape id.
Lemma build3_ok h c id p : build3 h c id = POk p →
  c3_t c * c3_n c ≤ String.length (hex_bytes (h id)) ∧
  p = join_slash (tuples (c3_t c) (c3_n c) (hex_bytes (h id)) ++ [last3 h id]).
Proof.
  unfold build3. destruct (Nat.ltb_spec (String.length (hex_bytes (h id))) (c3_t c * c3_n c)); [done|].
  intros [= <-]. split; [lia|done].
Qed.
Lemma last3_no_slash h id : str_mem slash (last3 h id) = false.
Proof.
  unfold last3. destruct (_ <? _); [|apply escape_no_slash].
  rewrite !str_mem_app, hex_bytes_no_slash. rewrite substring_mem by apply escape_no_slash. done.
Qed.
Lemma elems3_no_slash h t n id d : str_mem slash d = false →
  Forall (λ e, str_mem slash e = false) (tuples t n d ++ [last3 h id]).
Proof.
  intros H. apply Forall_app. split; [by apply tuples_no_slash|]. apply Forall_singleton, last3_no_slash.
Qed.
Lemma snoc_ne {A} (l : list A) x : l ++ [x] ≠ [].
Proof. by destruct l. Qed.

Lemma last3_inj h id1 id2 :
  last3 h id1 = last3 h id2 →
  (escape id1 = escape id2 ∧ String.length (escape id1) ≤ 100) ∨
  (h id1 = h id2 ∧ 100 < String.length (escape id1) ∧ 100 < String.length (escape id2)).
Proof.
  unfold last3. destruct (Nat.ltb_spec 100 (String.length (escape id1))) as [H1|H1],
    (Nat.ltb_spec 100 (String.length (escape id2))) as [H2|H2]; intros H.
  - right. split; [|lia]. apply str_app_inv_len in H as [_ H].
    + apply (str_app_inv_l "-") in H. by apply hex_bytes_inj.
    + rewrite !substring_length; lia.
  - exfalso. apply (f_equal String.length) in H. rewrite str_length_app, substring_length in H by lia.
    rewrite str_length_app in H. cbn in H. lia.
  - exfalso. apply (f_equal String.length) in H. rewrite str_length_app, substring_length in H by lia.
    rewrite str_length_app in H. cbn in H. lia.
  - left. done.
Qed.

Lemma distinct3 h c id1 id2 p :
  build3 h c id1 = POk p → build3 h c id2 = POk p →
  (escape id1 = escape id2 ∧ String.length (escape id1) ≤ 100) ∨ h id1 = h id2.
Proof.
  intros [_ H1]%build3_ok [_ H2]%build3_ok. subst p.
  apply join_inj in H2; [|apply snoc_ne|apply snoc_ne|apply elems3_no_slash, hex_bytes_no_slash..].
  apply app_inj_2 in H2 as [_ H2]; [|done]. injection H2 as H2.
  apply last3_inj in H2 as [?|(?&?&?)]; auto.
Qed.

Lemma no_nesting3 h c id1 id2 p1 p2 :
  build3 h c id1 = POk p1 → build3 h c id2 = POk p2 → ¬ inside p1 p2.
Proof.
  intros [_ ->]%build3_ok [_ ->]%build3_ok H.
  apply inside_join in H; [|apply snoc_ne|apply snoc_ne|apply elems3_no_slash, hex_bytes_no_slash..].
  destruct H as (l3 & Hl3 & H). apply (f_equal length) in H.
  rewrite !app_length, !tuples_length in H. cbn in H. destruct l3; [done|]. cbn in H. lia.
Qed.

Lemma plain_no_period e : e ≠ "" → str_mem slash e = false → str_mem "." e = false → plain_name e.
Proof.
  intros H0 H1 H2. split; [done|]. split; [by intros ->|]. split; [by intros ->|].
  intros H. apply str_mem_spec in H. change "/"%char with slash in H. congruence.
Qed.
Lemma hex_no_period s : str_mem "." (hex_bytes s) = false.
Proof.
  apply not_true_iff_false. rewrite str_mem_spec. intros H%hex_bytes_chars.
  change (N_of_ascii ".") with 46%N in H. lia.
Qed.
Lemma tuples_plain t n s : 0 < t → n * t ≤ String.length (hex_bytes s) →
  Forall plain_name (tuples t n (hex_bytes s)).
Proof.
  intros Ht Hn. pose proof (tuples_each t n _ Hn) as HF. rewrite Forall_forall in *.
  intros e He. apply plain_no_period.
  - intros ->. specialize (HF _ He). cbn in HF. lia.
  - pose proof (tuples_no_slash t n _ (hex_bytes_no_slash s)) as H. rewrite Forall_forall in H. by apply H.
  - apply elem_of_list_fmap in He as (i & -> & _). apply substring_mem, hex_no_period.
Qed.
Lemma tuples_zero s : tuples 0 0 s = [].
Proof. done. Qed.

Lemma plain3 h c id p : id ≠ "" → (c3_t c = 0 → c3_n c = 0) →
  build3 h c id = POk p → ∃ es, path_of es p ∧ Forall plain_name es ∧ length es = S (c3_n c).
Proof.
  intros Hid Hc [Hlen ->]%build3_ok.
  exists (tuples (c3_t c) (c3_n c) (hex_bytes (h id)) ++ [last3 h id]).
  split; [apply path_of_join; [apply snoc_ne|done]|].
  split; [|rewrite app_length, tuples_length; cbn; lia].
  apply Forall_app. split.
  - destruct (c3_t c) as [|t] eqn:Et; [rewrite Hc by done; by apply Forall_nil|]. apply tuples_plain; [lia|]. lia.
  - apply Forall_singleton, plain_no_period; [|apply last3_no_slash|].
    + unfold last3. destruct (Nat.ltb_spec 100 (String.length (escape id))); [|by apply escape_nonempty].
      intros H1. apply (f_equal String.length) in H1. rewrite str_length_app in H1.
      rewrite substring_length in H1 by lia. cbn in H1. lia.
    + unfold last3. destruct (_ <? _); [|apply escape_no_period].
      rewrite !str_mem_app, hex_no_period. rewrite substring_mem by apply escape_no_period. done.
Qed.

(** ** 0004 *)
Definition last4 (c : conf4) (d : string) : string :=
  if c4_short c then substring (c4_n c * c4_t c) (String.length d - c4_n c * c4_t c) d else d.
Lemma build4_ok h c id p : build4 h c id = POk p →
  c4_t c * c4_n c ≤ String.length (hex_bytes (h id)) ∧
  p = join_slash (tuples (c4_t c) (c4_n c) (hex_bytes (h id)) ++ [last4 c (hex_bytes (h id))]).
Proof.
  unfold build4. destruct (Nat.ltb_spec (String.length (hex_bytes (h id))) (c4_t c * c4_n c)); [done|].
  intros [= <-]. split; [lia|done].
Qed.
Lemma elems4_no_slash c s :
  Forall (λ e, str_mem slash e = false) (tuples (c4_t c) (c4_n c) (hex_bytes s) ++ [last4 c (hex_bytes s)]).
Proof.
  apply Forall_app. split; [by apply tuples_no_slash, hex_bytes_no_slash|]. apply Forall_singleton.
  unfold last4. destruct (c4_short c); [apply substring_mem|]; apply hex_bytes_no_slash.
Qed.
Lemma elems4_cat c d : c4_t c * c4_n c ≤ String.length d → c4_short c = true →
  cat (tuples (c4_t c) (c4_n c) d ++ [last4 c d]) = d.
Proof.
  intros H Hs. rewrite cat_app, tuples_cat. unfold last4. rewrite Hs. cbn [cat]. rewrite str_app_nil_r.
  rewrite <- (substring_split 0). rewrite Nat.mul_comm in H.
  replace (c4_n c * c4_t c + (String.length d - c4_n c * c4_t c)) with (String.length d) by lia.
  apply substring_all.
Qed.
Lemma distinct4 h c id1 id2 p : build4 h c id1 = POk p → build4 h c id2 = POk p → h id1 = h id2.
Proof.
  intros [L1 H1]%build4_ok [L2 H2]%build4_ok. subst p.
  apply join_inj in H2; [|apply snoc_ne|apply snoc_ne|apply elems4_no_slash..].
  apply hex_bytes_inj. destruct (c4_short c) eqn:Hs.
  - rewrite <- (elems4_cat c _ L1), <- (elems4_cat c _ L2) by done. by rewrite H2.
  - apply app_inj_2 in H2 as [_ H2]; [|done]. injection H2 as H2. unfold last4 in H2. by rewrite Hs in H2.
Qed.
Lemma no_nesting4 h c id1 id2 p1 p2 :
  build4 h c id1 = POk p1 → build4 h c id2 = POk p2 → ¬ inside p1 p2.
Proof.
  intros [_ ->]%build4_ok [_ ->]%build4_ok H.
  apply inside_join in H; [|apply snoc_ne|apply snoc_ne|apply elems4_no_slash..].
  destruct H as (l3 & Hl3 & H). apply (f_equal length) in H.
  rewrite !app_length, !tuples_length in H. cbn in H. destruct l3; [done|]. cbn in H. lia.
Qed.
Lemma plain4 h c id p :
  (c4_t c = 0 → c4_n c = 0) → h id ≠ "" →
  (c4_short c = true → c4_n c * c4_t c ≠ 2 * String.length (h id)) →
  build4 h c id = POk p → ∃ es, path_of es p ∧ Forall plain_name es ∧ length es = S (c4_n c).
Proof.
  intros Hc Hd Hs [Hlen ->]%build4_ok.
  exists (tuples (c4_t c) (c4_n c) (hex_bytes (h id)) ++ [last4 c (hex_bytes (h id))]).
  split; [apply path_of_join; [apply snoc_ne|done]|].
  split; [|rewrite app_length, tuples_length; cbn; lia].
  apply Forall_app. split.
  - destruct (c4_t c) as [|t] eqn:Et; [rewrite Hc by done; by apply Forall_nil|]. apply tuples_plain; [lia|]. lia.
  - apply Forall_singleton, plain_no_period.
    + intros H. apply (f_equal String.length) in H. cbn in H. unfold last4 in H.
      rewrite hex_bytes_length in Hlen.
      destruct (c4_short c).
      * specialize (Hs eq_refl). rewrite hex_bytes_length in H.
        rewrite substring_length in H; [|rewrite hex_bytes_length]; lia.
      * rewrite hex_bytes_length in H. destruct (h id); [done|]. cbn in H. lia.
    + unfold last4. destruct (c4_short c); [apply substring_mem|]; apply hex_bytes_no_slash.
    + unfold last4. destruct (c4_short c); [apply substring_mem|]; apply hex_no_period.
Qed.
(** When the tuples use up a short digest the last element is empty. *)
Lemma new_tuples_zero t n t' n' : cap_tuples t n = (t', n') → t' = 0 → n' = 0.
Proof.
  unfold cap_tuples. intros H ->. destruct (32 <? n), (32 <? t); cbn in H;
  repeat match type of H with context [?a =? ?b] => destruct (Nat.eqb_spec a b); cbn in H end;
  injection H; lia.
Qed.
