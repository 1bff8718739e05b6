(** Properties C36 and C37: concurrent path mapping, choice of extensions. *)
From Coq Require Import Ascii ZArith Lia.
From stdpp Require Import base list strings gmap.
From Verif Require Import GoStr PathModel Utf8Model LayoutModel ConcModel ConcProofs Properties4 ManagerModel ManagerSpec ManagerProofs.

(** * C36: concurrent calls *)

(** Full statement: every call returns what the same call returns alone.  Missing: schedules with two calls whose paths
    depend on the hash function; see the refutation. *)
Theorem C36_one_hashed_partial h c ids s i id r :
  (∀ i j a b, i ≠ j → ids !! i = Some a → ids !! j = Some b → unhashed c a ∨ unhashed c b) →
  ids !! i = Some id → returned (schedule false h c ids s) i r → r = buildD h c id.
Proof. apply one_hashed. Qed.
(** What a call can return under any schedule: its own path, or a fallback path computed from the digest of nothing or
    of the string of another call. *)
Theorem C36_any_schedule_partial h c ids s i id r :
  ids !! i = Some id → returned (schedule false h c ids s) i r →
  r = buildD h c id ∨
  ∃ y, r = fallback (λ _, h y) c "" ∧ (y = "" ∨ ∃ j jd, ids !! j = Some jd ∧ buildD h c jd = fallback h c y).
Proof. apply any_schedule. Qed.
(** No schedule leads to a state from which nothing moves before all calls have returned. *)
Theorem C36_no_deadlock h c ids s i p :
  m_pcs (schedule false h c ids s) !! i = Some p → (∀ r, p ≠ PDone r) →
  ∃ j, move false h c ids j (schedule false h c ids s) ≠ schedule false h c ids s.
Proof. apply never_stuck. Qed.
(** With [Sum] before [Unlock] the full statement holds. *)
Theorem C36_sum_before_unlock h c ids s i id r :
  ids !! i = Some id → returned (schedule true h c ids s) i r → r = buildD h c id.
Proof. apply locked_independent. Qed.
(** Two calls with the configuration of [C35_example], the second one plain. *)
Example C36_example :
  let m := schedule false toy_hash short_conf ["a b/c"; "x"] [0; 0; 1; 0; 0; 0] in
  returned m 0 (POk "fallback/05/57/057518/61") ∧ returned m 1 (POk "x") ∧ unhashed short_conf "x" ∧
  buildD toy_hash short_conf "a b/c" = POk "fallback/05/57/057518/61" ∧ buildD toy_hash short_conf "x" = POk "x" ∧
  returned (schedule true toy_hash short_conf ["a b/c"; "d e/f"] [0; 0; 1; 0; 0; 1; 1; 1; 1]) 0 (POk "fallback/05/57/057518/61").
Proof. split_and!; by vm_compute. Qed.
Theorem C36_concurrent_refuted : ∃ h c a b s r,
  returned (schedule false h c [a; b] s) 0 r ∧ r ≠ buildD h c a ∧ r = buildD h c b.
Proof.
  exists toy_hash, short_conf, "a b/c", "d e/f", [0; 0; 0; 0; 1; 1; 1; 1; 0], (buildD toy_hash short_conf "d e/f"). by vm_compute.
Qed.
Print Assumptions C36_one_hashed_partial.
Print Assumptions C36_any_schedule_partial.
Print Assumptions C36_no_deadlock.
Print Assumptions C36_sum_before_unlock.
Print Assumptions C36_concurrent_refuted.

(** * C37: exclusion groups and order of extensions *)

(** Full statement: for all groups.  Missing: groups which name an extension twice and groups which share a name; see the
    refutations. *)
Theorem C37_one_of_group_partial srt gs sort l g :
  sorts srt → Forall (NoDup (A:=string)) gs →
  (∀ i j a b, gs !! i = Some a → gs !! j = Some b → i ≠ j → disjoint a b) → g ∈ gs →
  (members g l = [] ∧ members g (organize srt (Some gs) sort l) = []) ∨
  ∃ a, earliest g l a ∧ members g (organize srt (Some gs) sort l) = [a].
Proof.
  intros Hs HN HD Hg. eapply (settled_after g l (foldl (exclude_extensions srt) l gs)).
  - apply members_perm. by apply organize_excl.
  - by apply fold_settled.
Qed.
(** Extensions which no group names stay, each as often as configured. *)
Theorem C37_others_stay srt gs sort l :
  sorts srt →
  filter (λ e, Forall (λ g, fst e ∉ g) gs) (organize srt (Some gs) sort l) ≡ₚ filter (λ e, Forall (λ g, fst e ∉ g) gs) l.
Proof. intros Hs. rewrite (organize_excl srt gs sort l Hs). by apply fold_others. Qed.
(** Sorting alone neither adds nor drops. *)
Theorem C37_sort_keeps srt sort l : sorts srt → organize srt None sort l ≡ₚ l.
Proof. apply organize_sort. Qed.
(** Of two active extensions named in the sort list the one named earlier comes first. *)
Theorem C37_sorted srt excl s l i j a b n m : sorts srt → NoDup s → l ≠ [] →
  organize srt excl (Some s) l !! i = Some a → organize srt excl (Some s) l !! j = Some b →
  s !! n = Some (fst a) → s !! m = Some (fst b) → n < m → i < j.
Proof. apply organize_sorted. Qed.
Definition some_extensions : list ext := [("thumbnail", 0); ("0004", 1); ("mets", 2); ("0003", 3); ("0004", 4)].
Example C37_example :
  let l := organize isort (Some [["0003"; "0004"; "0006"]; ["indexer"; "mets"]]) (Some ["mets"; "0003"]) some_extensions in
  sorts isort ∧ disjoint ["0003"; "0004"; "0006"] ["indexer"; "mets"] ∧
  members ["0003"; "0004"; "0006"] l = [("0003", 3)] ∧ members ["indexer"; "mets"] l = [("mets", 2)] ∧
  l = [("thumbnail", 0); ("mets", 2); ("0003", 3)].
Proof.
  split; [apply isort_sorts|]. split; [|by vm_compute]. intros n Hn Hm.
  repeat (apply elem_of_cons in Hn as [-> | Hn]; [by vm_compute in Hm; repeat (apply elem_of_cons in Hm as [? | Hm]; [done|]); apply elem_of_nil in Hm|]).
  by apply elem_of_nil in Hn.
Qed.
(** A group which names an extension twice: the second place counts, and a later extension wins. *)
Theorem C37_repeated_name_refuted : ∃ srt g l a, sorts srt ∧
  members g (organize srt (Some [g]) None l) = [a] ∧ ¬ earliest g l a.
Proof.
  exists isort, ["A"; "B"; "A"], [("A", 0); ("B", 1)], ("B", 1). split; [apply isort_sorts|]. split; [by vm_compute|].
  intros (_ & i & Hi & Hmin). specialize (Hmin ("A", 0) 0 ltac:(apply elem_of_list_here) eq_refl).
  assert (i = 0) as -> by lia. done.
Qed.
(** Two groups which share a name can leave a group without any extension, although one was configured. *)
Theorem C37_shared_name_refuted : ∃ srt g g' l, sorts srt ∧ NoDup g ∧ NoDup g' ∧
  members g l ≠ [] ∧ members g (organize srt (Some [g; g']) None l) = [].
Proof.
  exists isort, ["A"; "B"], ["C"; "A"], [("A", 0); ("B", 1); ("C", 2)]. split; [apply isort_sorts|].
  split; [apply (bool_decide_unpack _); by vm_compute|]. split; [apply (bool_decide_unpack _); by vm_compute|]. by vm_compute.
Qed.
Print Assumptions C37_one_of_group_partial.
Print Assumptions C37_others_stay.
Print Assumptions C37_sort_keeps.
Print Assumptions C37_sorted.
Print Assumptions C37_repeated_name_refuted.
Print Assumptions C37_shared_name_refuted.
