(** Properties C43, C44 and C45: reports, sorted insertion, clean paths. *)
From Coq Require Import Ascii ZArith Lia.
From stdpp Require Import base list strings gmap.
From Verif Require Import GoStr PathModel ReportModel ReportSpec ReportProofs CleanModel CleanSpec CleanProofs.

(** * C43: reports *)

(** Whatever order the sort leaves: everything that was recorded is reported, and nothing else. *)
Theorem C43_nothing_lost srt l : (∀ k, srt k ≡ₚ k) →
  (∀ t, t ∈ says <$> compact srt l ↔ t ∈ says <$> l) ∧ (∀ e, e ∈ compact srt l → e ∈ l).
Proof.
  intros HP. unfold compact. split.
  - intros t. by rewrite compact_says, (HP l).
  - intros e He. apply compact_sub in He. by rewrite (HP l) in He.
Qed.
(** The printed lines are the findings of the report. *)
Theorem C43_printed srt l ctx code desc desc2 : (∀ k, srt k ≡ₚ k) →
  (ctx, code, desc, desc2) ∈ fst (show_status srt l) → Verr code desc desc2 ctx ∈ l.
Proof.
  intros HP H. unfold show_status in H. cbn [fst] in H. apply elem_of_list_fmap in H as (e & He & Hi).
  apply (C43_nothing_lost srt l HP) in Hi. destruct e. cbn in He. by injection He as -> -> -> ->.
Qed.
(** No errors are announced exactly if no finding of the error class was recorded. *)
Theorem C43_no_errors srt l : (∀ k, srt k ≡ₚ k) → (∀ e, e ∈ l → e_code e ≠ "") →
  ∃ n, snd (show_status srt l) = Some n ∧ (n = 0 ↔ ∀ e, e ∈ l → ¬ is_error (e_code e)).
Proof.
  intros HP Hc. destruct (C43_nothing_lost srt l HP) as [H1 H2]. destruct (count_defined (compact srt l)) as (n & Hn & HI); [auto|].
  exists n. split; [done|]. rewrite HI. split; [|auto]. intros HA e He Her.
  assert (says e ∈ says <$> compact srt l) as Hs by (apply H1, elem_of_list_fmap; by exists e).
  apply elem_of_list_fmap in Hs as (f & Hf & Hfi). apply (HA f Hfi). unfold says in Hf. injection Hf as _ Hf _. by rewrite <- Hf.
Qed.
(** The tables of codes keep errors errors and warnings warnings; codes are never empty. *)
Theorem C43_class_kept version code :
  (is_error code → is_error (validation_code version code)) ∧ (is_warning code → is_warning (validation_code version code)) ∧
  validation_code version code ≠ "".
Proof. apply code_class. Qed.
(** Full statement: nothing is reported twice.  Missing: storage root and object findings in one report of more than twelve findings,
    and findings that cannot be told apart after concatenation; see the refutations.  First, any number of findings with any sort, *)
Theorem C43_once_partial srt l : sort_contract srt → uniform l → unambiguous l → NoDup (says <$> compact srt l).
Proof. apply sorted_once. Qed.
(** second, mixed findings with the insertion sort, which is used for up to twelve elements. *)
Theorem C43_once_short_partial l : unambiguous l → insertion_sort l ≡ₚ l ∧ NoDup (says <$> compact insertion_sort l).
Proof. intros H. split; [by apply insertion_perm|by apply insertion_once]. Qed.
Definition err_a : verr := Verr "E001" "" "x" "object a".
Definition err_b : verr := Verr "W002" "" "x" "object b".
Definition err_r : verr := Verr "E069" "" "y" "storage root s".
Global Instance verr_eq_dec : EqDecision verr.
Proof. solve_decision. Defined.
Example C43_example : unambiguous [err_r; err_b; err_a; err_r; err_a] ∧
  compact insertion_sort [err_r; err_b; err_a; err_r; err_a] = [err_a; err_b; err_r] ∧
  uniform [err_b; err_a; err_b] ∧ sort_contract key_sort ∧ compact key_sort [err_b; err_a; err_b] = [err_a; err_b] ∧
  snd (show_status key_sort [err_b; err_b]) = Some 0 ∧ validation_code "1.0" "E104" = "E001" ∧ validation_code "1.1" "E068" = "E000".
Proof.
  split.
  { intros a b Ha Hb. rewrite !elem_of_cons in Ha, Hb.
    destruct Ha as [-> |[-> |[-> |[-> |[-> |Ha]]]]]; try (by apply elem_of_nil in Ha);
    destruct Hb as [-> |[-> |[-> |[-> |[-> |Hb]]]]]; try (by apply elem_of_nil in Hb); done. }
  split; [by vm_compute|]. split.
  { intros a b t Ha Hb E. exfalso. rewrite !elem_of_cons in Ha.
    destruct Ha as [-> |[-> |[-> |Ha]]]; [done..|by apply elem_of_nil in Ha]. }
  split; [apply key_sort_contract|]. by vm_compute.
Qed.
(** The comparison puts each of two findings before the other. *)
Theorem C43_order_refuted : ∃ a b, (validation_sort a b < 0)%Z ∧ (validation_sort b a < 0)%Z.
Proof. exists err_a, err_r. by vm_compute. Qed.
(** A sort that keeps its contract may therefore leave duplicates in the report. *)
Theorem C43_twice_refuted : ∃ srt l, sort_contract srt ∧ unambiguous l ∧ ¬ NoDup (says <$> compact srt l).
Proof.
  set (bad := [err_a; err_r; err_a]). exists (λ l, if decide (l = bad) then bad else key_sort l), bad. split; [|split].
  - intros l. destruct (decide (l = bad)) as [->|_]; [|apply key_sort_contract]. split; [done|].
    intros Hc. exfalso. pose proof (consistent_uniform bad err_a err_r Hc (elem_of_list_here _ _) (elem_of_list_further _ _ _ (elem_of_list_here _ _))). done.
  - intros a b Ha Hb. unfold bad in *. rewrite !elem_of_cons in Ha, Hb.
    destruct Ha as [-> |[-> |[-> |Ha]]]; try (by apply elem_of_nil in Ha);
    destruct Hb as [-> |[-> |[-> |Hb]]]; try (by apply elem_of_nil in Hb); done.
  - destruct (decide (bad = bad)); [|done]. intros H. vm_compute in H. apply NoDup_cons in H as [H _]. apply H.
    apply elem_of_list_further, elem_of_list_here.
Qed.
(** Three findings, of which the first and the last are equal: the second has another context and other details, but the same
    concatenation. *)
Theorem C43_ambiguous_refuted : ∃ l, length l = 3 ∧ ¬ NoDup (says <$> compact insertion_sort l).
Proof.
  exists [Verr "E001" "" "E001y" "x"; Verr "E001" "" "y" "xE001"; Verr "E001" "" "E001y" "x"]. split; [done|].
  intros H. vm_compute in H. apply NoDup_cons in H as [H _]. apply H. apply elem_of_list_further, elem_of_list_here.
Qed.

(** * C44: sorted insertion *)

(** Binary search in a sorted list finds exactly the members. *)
Theorem C44_search l v : ordered l → snd (binary_search l v) = true ↔ v ∈ l.
Proof. intros H. by destruct (search_spec l v H) as (_ & _ & _ & ?). Qed.
(** Insertion keeps the list sorted and adds one occurrence. *)
Theorem C44_insert l v : ordered l → ordered (insert_sorted l v) ∧ insert_sorted l v ≡ₚ v :: l.
Proof. intros H. split; [by apply insert_sorted_ordered|by apply insert_sorted_perm]. Qed.
Theorem C44_insert_at l i v : (i ≤ length l → insert_at l i v = Some (take i l ++ v :: drop i l)) ∧ (length l < i → insert_at l i v = None).
Proof. rewrite insert_at_spec. split; intros H; (destruct (decide _); [done|lia]) || (destruct (decide _); [lia|done]). Qed.
(** The check of the fixity block reports exactly the digests that occur more than once, in whatever order the map is visited. *)
Theorem C44_duplicates l d : d ∈ duplicate_digests [] l ↔ ∃ i j, i < j ∧ l !! i = Some d ∧ l !! j = Some d.
Proof.
  rewrite duplicates_spec by (intros i j a b _ Ha; by rewrite lookup_nil in Ha). split; [|by right].
  intros [[_ H]|H]; [by apply elem_of_nil in H|done].
Qed.
Example C44_example : ordered ["a"; "c"; "c"; "d"] ∧ insert_sorted ["a"; "c"; "c"; "d"] "b" = ["a"; "b"; "c"; "c"; "d"] ∧
  binary_search ["a"; "c"; "c"; "d"] "c" = (1, true) ∧ duplicate_digests [] ["b"; "a"; "b"; "c"; "a"] = ["b"; "a"].
Proof.
  split; [|by vm_compute]. intros i j a b Hij Ha Hb.
  destruct i as [|[|[|[|i]]]], j as [|[|[|[|j]]]]; try lia; try done; cbn in Ha, Hb; injection Ha as <-; injection Hb as <-; by vm_compute.
Qed.
(** On a list that is not sorted the search misses members. *)
Example C44_sorted_needed : snd (binary_search ["b"; "a"] "b") = false.
Proof. by vm_compute. Qed.

(** * C45: clean paths *)

(** Full statement: and no element is a dot or two dots.  Missing: that; see the refutation.  The path is empty if all elements are
    removed. *)
Theorem C45_well_formed_partial f max_name max_path p : clean_path f max_name max_path = COk p →
  (Z.of_nat (String.length p) <= max_path)%Z ∧ (p = "" ∨ Forall (harmless max_name) (split_slash p)).
Proof. apply well_formed. Qed.
Theorem C45_idempotent f max_name max_path p : clean_path f max_name max_path = COk p → clean_path p max_name max_path = COk p.
Proof. apply idempotent. Qed.
Example C45_example : clean_path "-rf ~/ a?b /c: " 20 40 = COk "rf ~/a_b/c_" ∧ clean_path "~/etc/x" 20 40 = COk "etc/x" ∧
  clean_path "abc" 2 40 = CNameTooLong ∧ clean_path "a/b" 20 2 = CPathTooLong ∧ clean_path (String "255" "a") 20 40 = COk "_a".
Proof. by vm_compute. Qed.
Theorem C45_parent_refuted : ∃ f p, clean_path f 255 32000 = COk p ∧ split_slash p = [".."; ".."; "etc"].
Proof. exists "-../ ../etc", "../../etc". by vm_compute. Qed.
(** The backslash, which the comment of the function lists, is kept. *)
Theorem C45_backslash_refuted : ∃ f p, clean_path f 255 32000 = COk p ∧ "\"%char ∈ list_ascii_of_string p.
Proof. exists "a\b", "a\b". split; [by vm_compute|]. apply elem_of_list_further, elem_of_list_here. Qed.
(** Nothing is left of the path. *)
Theorem C45_empty_refuted : ∃ f, f ≠ "" ∧ clean_path f 255 32000 = COk "".
Proof. exists "-/ /~". by vm_compute. Qed.
(** FixFilename makes an absolute path of a relative one. *)
Theorem C45_fix_absolute_refuted : ∃ f, ¬ first_char "/" f ∧ fix_filename f = "/etc/passwd".
Proof. exists "-/etc/passwd". split; [|by vm_compute]. by intros [r [=]]. Qed.

Print Assumptions C43_nothing_lost.
Print Assumptions C43_printed.
Print Assumptions C43_no_errors.
Print Assumptions C43_class_kept.
Print Assumptions C43_once_partial.
Print Assumptions C43_once_short_partial.
Print Assumptions C43_order_refuted.
Print Assumptions C43_twice_refuted.
Print Assumptions C43_ambiguous_refuted.
Print Assumptions C44_search.
Print Assumptions C44_insert.
Print Assumptions C44_insert_at.
Print Assumptions C44_duplicates.
Print Assumptions C45_well_formed_partial.
Print Assumptions C45_idempotent.
Print Assumptions C45_parent_refuted.
Print Assumptions C45_backslash_refuted.
Print Assumptions C45_empty_refuted.
Print Assumptions C45_fix_absolute_refuted.
