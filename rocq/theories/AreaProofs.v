From Coq Require Import Ascii ZArith Lia.
From stdpp Require Import base list strings gmap.
From Verif Require Import GoStr PathModel InventoryModel InventorySpec ObjectModel CrashSpec PathProofs AreaModel AreaSpec.

(** * paths *)
Lemma clean_rel_join p : clean_rel p → p = join_slash (split_slash p) ∧ split_slash p ≠ [].
Proof. intros _. split; [symmetry; apply join_split|apply split_on_nonempty]. Qed.
Lemma clean_rel_head p : clean_rel p → str_head p ≠ Some slash.
Proof.
  intros H. destruct (clean_rel_join p H) as [E Hne]. rewrite E. by apply str_head_join.
Qed.
Lemma clean_rel_nonempty p : clean_rel p → p ≠ "".
Proof. intros H. destruct (clean_rel_join p H) as [E Hne]. rewrite E. by apply join_slash_nonempty. Qed.
Lemma trim_left_id p : str_head p ≠ Some slash → trim_left p "/" = p.
Proof.
  destruct p as [|c p]; [done|]. intros H. cbn [trim_left str_mem]. destruct (decide (c = "/"%char)) as [->|_]; [|done]. by destruct H.
Qed.
Lemma split_slash_app a b : split_slash (a +:+ "/" +:+ b) = split_slash a ++ split_slash b.
Proof.
  unfold split_slash. change ("/" +:+ b) with (String slash b).
  induction a as [|c a IH].
  - cbn. by destruct (decide (slash = slash)).
  - rewrite str_app_cons. cbn [split_on]. rewrite IH. destruct (decide (c = slash)); [done|].
    destruct (split_on slash a) as [|w ws] eqn:E; [by apply split_on_nonempty in E|]. done.
Qed.
Lemma path_clean_rel p : clean_rel p → path_clean p = p.
Proof. intros H. destruct (clean_rel_join p H) as [E Hne]. rewrite E at 1. rewrite path_clean_plain by done. by rewrite <- E. Qed.
Lemma clean_rel_app a b : clean_rel a → clean_rel b → clean_rel (a +:+ "/" +:+ b).
Proof. unfold clean_rel. rewrite split_slash_app. intros. by apply Forall_app. Qed.
Lemma clean_comps_app_empty r acc l1 l2 :
  clean_comps r acc (l1 ++ "" :: l2) = clean_comps r acc (l1 ++ l2).
Proof.
  revert acc. induction l1 as [|x l1 IH]; intros acc; [done|].
  change ((x :: l1) ++ "" :: l2) with (x :: (l1 ++ "" :: l2)). change ((x :: l1) ++ l2) with (x :: (l1 ++ l2)).
  cbn [clean_comps]. destruct (decide (x = "")); [apply IH|]. destruct (decide (x = ".")); [apply IH|].
  destruct (decide (x = "..")); [|apply IH]. destruct acc as [|a acc].
  - destruct r; apply IH.
  - destruct (decide (a = "..")); apply IH.
Qed.

Lemma join_two a b : clean_rel a → clean_rel b → path_join [a; b] = a +:+ "/" +:+ b.
Proof.
  intros Ha Hb. pose proof (clean_rel_nonempty a Ha). rewrite path_join_plain by done.
  change (join_slash [a; b]) with (a +:+ "/" +:+ b). apply path_clean_rel. by apply clean_rel_app.
Qed.
Lemma join_folder a b : clean_rel a → clean_rel b → path_join [a +:+ "/"; b] = a +:+ "/" +:+ b.
Proof.
  intros Ha Hb. pose proof (clean_rel_nonempty a Ha) as Hn. rewrite path_join_plain by (by destruct a).
  change (join_slash [a +:+ "/"; b]) with ((a +:+ "/") +:+ "/" +:+ b). unfold path_clean.
  rewrite bool_decide_eq_false_2.
  2:{ pose proof (clean_rel_head a Ha) as Hh. destruct a; done. }
  rewrite split_slash_app. change (a +:+ "/") with (a +:+ "/" +:+ ""). rewrite split_slash_app.
  change (split_slash "") with [""]. rewrite <- app_assoc. cbn [app]. rewrite clean_comps_app_empty.
  rewrite <- split_slash_app. pose proof (path_clean_rel _ (clean_rel_app a b Ha Hb)) as E. unfold path_clean in E.
  rewrite bool_decide_eq_false_2 in E by (apply clean_rel_head; by apply clean_rel_app). exact E.
Qed.

Lemma has_prefix_app a b : has_prefix a (a +:+ b) = true.
Proof. apply has_prefix_spec. by exists b. Qed.
Lemma round_trip c area sub p :
  requested c area ≠ "full" → sp_paths c !! requested c area = Some sub → folder sub → clean_rel p →
  ∃ s, sub_state_path c p area = Some s ∧ s ≠ "" ∧ sub_extract_path c s area = XPath p.
Proof.
  intros Hf Hs Hsub Hp. unfold sub_state_path, sub_extract_path. fold (requested c area).
  destruct (decide (requested c area = "full")) as [|_]; [done|]. rewrite Hs. eexists. split; [done|].
  destruct Hsub as [-> | [Hsub|(t & Ht & ->)]].
  - cbn [path_join]. destruct (decide ("" = "")) as [_|]; [|done].
    destruct (decide (p = "")) as [->|_]; [by apply clean_rel_nonempty in Hp|].
    change (join_slash [p]) with p. rewrite path_clean_rel by done. split; [by apply clean_rel_nonempty|].
    rewrite (trim_left_id p) by (by apply clean_rel_head). cbn [has_prefix].
    rewrite (trim_prefix_app "" p : trim_prefix p "" = p). by rewrite trim_left_id by (by apply clean_rel_head).
  - rewrite join_two by done. split; [by apply clean_rel_nonempty, clean_rel_app|].
    rewrite trim_left_id by (by apply clean_rel_head, clean_rel_app). rewrite has_prefix_app, trim_prefix_app.
    change ("/" +:+ p) with (String "/" p). cbn [trim_left str_mem]. destruct (decide _); [|done].
    by rewrite trim_left_id by (by apply clean_rel_head).
  - rewrite join_folder by done. split; [by apply clean_rel_nonempty, clean_rel_app|].
    rewrite trim_left_id by (by apply clean_rel_head, clean_rel_app). rewrite str_app_assoc, has_prefix_app, trim_prefix_app.
    by rewrite trim_left_id by (by apply clean_rel_head).
Qed.
Lemma starts_prefix a b r : a +:+ r = b → starts b a.
Proof. intros <-. by exists r. Qed.
Lemma app_eq_app a b c d : a +:+ b = c +:+ d → starts a c ∨ starts c a.
Proof.
  revert c. induction a as [|x a IH]; intros c.
  - intros _. right. by exists c.
  - destruct c as [|y c]; [intros _; left; by exists (String x a)|]. rewrite !str_app_cons. intros [= -> H].
    destruct (IH c H) as [[r ->]|[r ->]]; [left|right]; by exists r.
Qed.
Lemma other_area c a1 a2 s1 s2 p :
  requested c a1 ≠ "full" → requested c a2 ≠ "full" →
  sp_paths c !! requested c a1 = Some s1 → sp_paths c !! requested c a2 = Some s2 →
  clean_rel s1 → clean_rel p → ¬ starts s1 s2 → ¬ starts s2 s1 →
  ∃ s, sub_state_path c p a1 = Some s ∧ sub_extract_path c s a2 = XWrongArea.
Proof.
  intros Hf1 Hf2 H1 H2 Hc1 Hp Hn1 Hn2. unfold sub_state_path, sub_extract_path. fold (requested c a1) (requested c a2).
  destruct (decide (requested c a1 = "full")); [done|]. destruct (decide (requested c a2 = "full")); [done|].
  rewrite H1, H2. eexists. split; [done|]. rewrite join_two by done.
  rewrite trim_left_id by (by apply clean_rel_head, clean_rel_app).
  destruct (has_prefix _ _) eqn:E; [|done]. apply has_prefix_spec in E as [t E]. by apply app_eq_app in E as [?|?].
Qed.
(** Nothing but the files below the folder is given back by an area whose folder ends with a slash. *)
Lemma extract_below c area s p e : requested c area ≠ "full" → sp_paths c !! requested c area = Some (s +:+ "/") →
  str_head e ≠ Some slash → sub_extract_path c e area = XPath p → below s e.
Proof.
  intros Hf Hs He. unfold sub_extract_path. fold (requested c area). destruct (decide (_ = "full")); [done|]. rewrite Hs.
  rewrite trim_left_id by done. destruct (has_prefix _ _) eqn:E; [|done]. intros _. apply has_prefix_spec in E as [t ->].
  exists t. by rewrite <- str_app_assoc.
Qed.
Lemma mgr_one c path area : mgr_extract_path [c] path area = sub_extract_path c path area.
Proof. cbn. by destruct (sub_extract_path c path area). Qed.
Lemma mgr_state_one c path area s : sub_state_path c path area = Some s → s ≠ "" → mgr_state_path [c] path area = Some s.
Proof. intros H Hn. cbn. rewrite H. by destruct (decide (s = "")). Qed.
