(** Lexical path functions on clean paths. *)
From Coq Require Import Ascii.
From stdpp Require Import base list strings gmap.
From Coq Require Import ZArith Lia.
From Verif Require Import GoStr PathModel InventoryModel InventorySpec InventoryProofs ObjectModel CrashSpec.

Lemma clean_comps_plain rooted acc l :
  Forall plain_name l → clean_comps rooted acc l = rev acc ++ l.
Proof.
  revert acc; induction l as [|c l IH]; intros acc H; simpl; [by rewrite app_nil_r|].
  inversion H as [|? ? Hc Hl]; subst. destruct Hc as (H1 & H2 & H3 & _).
  rewrite !decide_False by done. rewrite IH by done. simpl. by rewrite <- app_assoc.
Qed.
Lemma join_slash_nonempty l : l ≠ [] → Forall plain_name l → join_slash l ≠ "".
Proof.
  destruct l as [|c [|c' l]]; [done| |]; intros _ H; inversion H as [|? ? Hc Hl]; subst; destruct Hc as (H1 & _).
  - done.
  - unfold join_slash. simpl. by destruct c.
Qed.
Lemma str_head_join l : l ≠ [] → Forall plain_name l → str_head (join_slash l) ≠ Some slash.
Proof.
  destruct l as [|c l]; [done|]; intros _ H; inversion H as [|? ? Hc Hl]; subst; destruct Hc as (H1 & _ & _ & H4).
  destruct c as [|a c]; [done|].
  assert (str_head (join_slash (String a c :: l)) = Some a) as ->.
  { unfold join_slash. by destruct l. }
  intros [= ->]. cbn [str_mem] in H4. by rewrite decide_True in H4.
Qed.
Lemma path_clean_plain l : l ≠ [] → Forall plain_name l → path_clean (join_slash l) = join_slash l.
Proof.
  intros Hne H. unfold path_clean. rewrite bool_decide_eq_false_2 by (by apply str_head_join).
  rewrite split_slash_join; [|done|by eapply Forall_impl; [done|intros ? (_ & _ & _ & ?)]].
  rewrite clean_comps_plain by done. simpl. rewrite decide_False by (by apply join_slash_nonempty). done.
Qed.

Lemma path_join_plain h l : h ≠ "" → path_join (h :: l) = path_clean (join_slash (h :: l)).
Proof. intros H. simpl. by rewrite decide_False. Qed.

Lemma join_slash_split h c m : join_slash [h; c; m] = join_slash (h :: c :: split_slash m).
Proof.
  unfold join_slash. rewrite <- (join_split slash m) at 1. fold (split_slash m).
  change [h; c; str_join "/" (split_slash m)] with ([h; c] ++ [str_join "/" (split_slash m)]).
  change (h :: c :: split_slash m) with ([h; c] ++ split_slash m).
  pose proof (split_on_nonempty slash m) as Hne. unfold split_slash in *.
  destruct (split_on slash m) as [|w ws]; [done|]. by destruct ws.
Qed.

(** The content path of a clean relative path. *)
Lemma manifest_name_clean i m :
  plain_name (inv_head i) → plain_name (content_name i) → clean_rel m →
  manifest_name i m = inv_head i +:+ "/" +:+ content_name i +:+ "/" +:+ m.
Proof.
  intros Hh Hc Hm. unfold manifest_name. rewrite path_join_plain by apply Hh.
  change (content_dir i) with (content_name i). rewrite join_slash_split.
  assert (Forall plain_name (inv_head i :: content_name i :: split_slash m)) as Hall by (constructor; [done|by constructor]).
  rewrite !path_clean_plain by done. rewrite <- join_slash_split. done.
Qed.

Lemma digits_no_slash s : (∀ c, c ∈ list_ascii_of_string s → (48 <= N_of_ascii c <= 57)%N) → str_mem slash s = false.
Proof.
  intros H. destruct (str_mem slash s) eqn:E; [|done]. apply str_mem_spec, H in E as [E _]. by destruct E.
Qed.
Lemma repeat_no_slash k : str_mem slash (str_repeat "0" k) = false.
Proof. induction k; [done|]. simpl. done. Qed.
Lemma version_name_no_slash pad n : str_mem slash (version_name pad n) = false.
Proof.
  unfold version_name.
  assert (str_mem slash (dec_of_N n) = false) as Hd.
  { apply digits_no_slash. intros c Hc. pose proof (dec_of_N_digits n) as H. unfold all_digits in H. rewrite Forall_forall in H. auto. }
  destruct (decide _); rewrite ?str_mem_app, ?Hd, ?repeat_no_slash; done.
Qed.
Lemma version_name_plain pad n : plain_name (version_name pad n).
Proof.
  repeat split; [apply version_name_nonempty| | |apply version_name_no_slash]; unfold version_name; destruct (decide _); done.
Qed.

(** Two paths below directories whose names have no slash. *)
Lemma below_inj a b p : str_mem slash a = false → str_mem slash b = false → below a p → below b p → a = b.
Proof.
  intros Ha Hb [r ->] [r' E].
  assert (split_slash (a +:+ "/" +:+ r) = split_slash (b +:+ "/" +:+ r')) as E' by (by rewrite E).
  unfold split_slash in E'. change ("/" +:+ r) with (String slash r) in E'. change ("/" +:+ r') with (String slash r') in E'.
  rewrite !split_on_app in E' by done. by injection E'.
Qed.
Lemma not_below a p : str_mem slash p = false → ¬ below a p.
Proof.
  intros H [r ->]. rewrite !str_mem_app in H. apply orb_false_elim in H as [_ H]. done.
Qed.
Lemma below_sub a b p : below (a +:+ "/" +:+ b) p → below a p.
Proof. intros [r ->]. exists (b +:+ "/" +:+ r). by rewrite <- !str_app_assoc. Qed.
