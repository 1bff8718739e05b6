(** The report about an object: C77. *)
From Coq Require Import Ascii.
From stdpp Require Import base list strings gmap.
From Coq Require Import ZArith Lia.
From Verif Require Import GoStr PathModel InventoryModel ObjectModel LoadModel ValidateModel ValidateSpec CheckModel CheckSpec AcceptSpec GuaranteeSpec ReportModel ReportSpec ReportProofs CodeModel CodeProofs
  Fixtures Fixtures2 Fixtures3 Properties3.
From Verif Require Properties8 Properties10 Properties14.

(** * C77: the report names the rules that were found broken *)

(** A code is printed in the report. *)
Definition printed (lines : list (string * string * string * string)) (code : string) : Prop := ∃ ctx desc desc2, (ctx, code, desc, desc2) ∈ lines.

Lemma printed_codes version text args ctx srt fs lines n code : (∀ k, srt k ≡ₚ k) →
  object_report version text args ctx srt (VDone fs) = Some (lines, n) → printed lines code ↔ ∃ f, f ∈ fs ∧ validation_code version (f_code f) = code.
Proof.
  intros HP. cbn [object_report]. unfold show_status. intros [= <- _]. destruct (Properties8.C43_nothing_lost srt (record_finding version text args ctx <$> fs) HP) as [H1 H2]. split.
  - intros (c & d & d2 & H). apply elem_of_list_fmap in H as (e & He & Hin). injection He as _ -> _ _. apply H2, elem_of_list_fmap in Hin as (f & -> & Hf). by exists f.
  - intros (f & Hf & <-). assert (says (record_finding version text args ctx f) ∈ says <$> compact srt (record_finding version text args ctx <$> fs)) as Hs.
    { apply H1, elem_of_list_fmap. exists (record_finding version text args ctx f). split; [done|]. apply elem_of_list_fmap. by exists f. }
    apply elem_of_list_fmap in Hs as (e & He & Hin). unfold says in He. cbn [record_finding e_ctx e_code e_desc2] in He. injection He as _ Hc _. rewrite Hc.
    exists (e_ctx e), (e_desc e), (e_desc2 e). apply elem_of_list_fmap. by exists e.
Qed.
Lemma found_usual hash decode w lx s fs f : validate_object hash decode w lx s = VDone fs → f ∈ fs → f_code f ∈ used_codes.
Proof.
  intros H Hf. pose proof (tame_object hash decode w lx s) as Ht. rewrite H in Ht. unfold tame, usual in Ht. cbn [found] in Ht. rewrite Forall_forall in Ht. by apply Ht.
Qed.
Lemma codes11_used : Forall (λ c, validation_code "1.1" c = c) used_codes.
Proof. repeat constructor. Qed.
Definition code10 (c : string) : string := if decide (c = "E104") then "E001" else if decide (c = "E103" ∨ c = "E107") then "E000" else c.
Lemma codes10_used : Forall (λ c, validation_code "1.0" c = code10 c) used_codes.
Proof. repeat constructor. Qed.
Lemma code_other version c : version ≠ "1.1" → validation_code version c = validation_code "1.0" c.
Proof. intros H. unfold validation_code. rewrite (decide_False (P := version = "1.1")) by done. rewrite (decide_False (P := "1.0" = "1.1")) by done. cbv zeta. repeat case_decide; naive_solver. Qed.

(** Objects of version 1.1: a code is printed exactly if a finding with it was recorded, for every object, every order of the maps and every sort. *)
Theorem C77_codes hash decode w lx s fs text args ctx srt lines n code :
  (∀ k, srt k ≡ₚ k) → validate_object hash decode w lx s = VDone fs → object_report "1.1" text args ctx srt (VDone fs) = Some (lines, n) →
  printed lines code ↔ reported fs code.
Proof.
  intros HP Hv Hr. rewrite (printed_codes _ _ _ _ _ _ _ _ _ HP Hr). pose proof codes11_used as Hk. rewrite Forall_forall in Hk. split.
  - intros (f & Hf & Hc). rewrite (Hk _ (found_usual _ _ _ _ _ _ _ Hv Hf)) in Hc. destruct f as [c a]. cbn in Hc. subst c. by exists a.
  - intros (a & Hf). exists (Finding code a). split; [exact Hf|]. exact (Hk _ (found_usual _ _ _ _ _ _ _ Hv Hf)).
Qed.
(** All other versions.  Full statement: as above.  Missing: E103 and E107 become E000, and E104 becomes E001; the other codes are printed as they
    were recorded. *)
Theorem C77_other_codes_partial version hash decode w lx s fs text args ctx srt lines n code :
  (∀ k, srt k ≡ₚ k) → version ≠ "1.1" → validate_object hash decode w lx s = VDone fs → object_report version text args ctx srt (VDone fs) = Some (lines, n) →
  (printed lines "E000" ↔ reported fs "E000" ∨ reported fs "E103" ∨ reported fs "E107") ∧
  (printed lines "E001" ↔ reported fs "E001" ∨ reported fs "E104") ∧
  (code ∉ ["E000"; "E001"; "E103"; "E104"; "E107"] → printed lines code ↔ reported fs code).
Proof.
  intros HP Hne Hv Hr. pose proof codes10_used as Hk. rewrite Forall_forall in Hk.
  assert (∀ c, printed lines c ↔ ∃ f, f ∈ fs ∧ code10 (f_code f) = c) as Hp.
  { intros c. rewrite (printed_codes _ _ _ _ _ _ _ _ _ HP Hr). split; intros (f & Hf & Hc); exists f; (split; [exact Hf|]).
    - rewrite <- Hc, (code_other _ _ Hne). symmetry. exact (Hk _ (found_usual _ _ _ _ _ _ _ Hv Hf)).
    - rewrite (code_other _ _ Hne), <- Hc. exact (Hk _ (found_usual _ _ _ _ _ _ _ Hv Hf)). }
  assert (∀ c, reported fs c ↔ ∃ f, f ∈ fs ∧ f_code f = c) as Hf.
  { intros c. split; [intros (a & H); by exists (Finding c a)|]. intros ([c' a] & H & Heq). cbn in Heq. subst c'. by exists a. }
  rewrite !Hp, !Hf. unfold code10. split; [|split].
  - split.
    + intros (f & Hin & H). destruct (decide (f_code f = "E104")); [done|]. destruct (decide (f_code f = "E103" ∨ f_code f = "E107")) as [[H1|H1]|]; eauto.
    + intros [(f & Hin & H)|[(f & Hin & H)|(f & Hin & H)]]; exists f; (split; [exact Hin|]); by rewrite H.
  - split.
    + intros (f & Hin & H). destruct (decide (f_code f = "E104")); [eauto|]. destruct (decide (f_code f = "E103" ∨ f_code f = "E107")); [done|]. eauto.
    + intros [(f & Hin & H)|(f & Hin & H)]; exists f; (split; [exact Hin|]); by rewrite H.
  - intros Hc. rewrite !not_elem_of_cons in Hc. destruct Hc as (Hc0 & Hc1 & Hc2 & Hc3 & Hc4 & _). split; intros (f & Hin & H); exists f; (split; [exact Hin|]).
    + destruct (decide (f_code f = "E104")); [congruence|]. destruct (decide (f_code f = "E103" ∨ f_code f = "E107")); congruence.
    + rewrite decide_False by congruence. rewrite decide_False by naive_solver congruence. exact H.
Qed.
(** For every version: no errors are announced exactly if there is a report and the validator recorded nothing but warnings. *)
Theorem C77_no_errors version hash decode w lx s text args ctx srt :
  (∀ k, srt k ≡ₚ k) → (∃ lines, object_report version text args ctx srt (validate_object hash decode w lx s) = Some (lines, Some 0)) ↔ only_warnings (validate_object hash decode w lx s).
Proof.
  intros HP. assert (∀ fs, validate_object hash decode w lx s = VDone fs → ∃ n, (show_status srt (record_finding version text args ctx <$> fs)).2 = Some n ∧ (n = 0 ↔ ∀ f, f ∈ fs → warning f)) as H.
  { intros fs Hv. destruct (Properties8.C43_no_errors srt (record_finding version text args ctx <$> fs) HP) as (n & Hn & Hz).
    { intros e He. apply elem_of_list_fmap in He as (f & -> & _). exact (proj2 (proj2 (code_class version (f_code f)))). }
    exists n. split; [exact Hn|]. rewrite Hz. split.
    - intros Hall f Hf. assert (¬ is_error (f_code f)) as Hne.
      { intros He. apply (Hall (record_finding version text args ctx f)); [apply elem_of_list_fmap; by exists f|]. by apply (code_class version (f_code f)). }
      pose proof (found_usual _ _ _ _ _ _ _ Hv Hf) as Hu. assert (Forall (λ c, is_error c ∨ ∃ r, c = "W" +:+ r) used_codes) as Hcl.
      { unfold used_codes. repeat (apply stdpp.list.Forall_cons; split; [first [left; by eexists|right; by eexists]|]). by apply stdpp.list.Forall_nil. }
      rewrite Forall_forall in Hcl. by destruct (Hcl _ Hu).
    - intros Hall e He. apply elem_of_list_fmap in He as (f & -> & Hf). destruct (Hall f Hf) as (r & Hr). cbn [record_finding e_code]. intros Her.
      destruct (code_class version (f_code f)) as (_ & Hw & _). destruct Hw as (x & Hx); [by exists r|]. destruct Her as (y & Hy). rewrite Hx in Hy. discriminate Hy. }
  split.
  - intros (lines & Hr). destruct (validate_object hash decode w lx s) as [fs|fs m|] eqn:Hv; [|discriminate Hr..]. exists fs. split; [done|]. destruct (H fs eq_refl) as (n & Hn & Hz).
    apply Hz. cbn [object_report] in Hr. destruct (show_status srt _) as [l m]. cbn [snd] in Hn. congruence.
  - intros (fs & Hv & Hw). destruct (H fs Hv) as (n & Hn & Hz). rewrite Hv. cbn [object_report]. apply Hz in Hw as ->.
    destruct (show_status srt _) as [lines m]. cbn [snd] in Hn. rewrite Hn. by exists lines.
Qed.
(** So C53 holds of what is printed: no errors announced means that every file of every version is there with its digest. *)
Theorem C77_announced_partial version hash decode w lx s text args ctx srt lines :
  (∀ k, srt k ≡ₚ k) → vorder_ok w → object_report version text args ctx srt (validate_object hash decode w lx s) = Some (lines, Some 0) →
  ∃ b d, s !! "inventory.json" = Some b ∧ decode b = Some d ∧ (no_empty_entry d →
    ∀ ver dg p, state_lists d ver dg p → ∃ q, man_lists d dg q ∧ intact hash (dc_alg d) s dg q).
Proof. intros HP Hw Hr. apply (Properties14.C53_retrievable_partial hash decode w lx s Hw). eapply C77_no_errors; [exact HP|by exists lines]. Qed.

(** Every line tells the place, the text and the arguments of one finding, and every finding has a line with its place and its arguments. *)
Theorem C77_lines version hash decode w lx s fs text args ctx srt lines n :
  (∀ k, srt k ≡ₚ k) → validate_object hash decode w lx s = VDone fs → object_report version text args ctx srt (VDone fs) = Some (lines, n) →
  (∀ c code t a, (c, code, t, a) ∈ lines → ∃ f, f ∈ fs ∧ ctx f = c ∧ text f = t ∧ args f = a) ∧
  (∀ f, f ∈ fs → ∃ code t, (ctx f, code, t, args f) ∈ lines).
Proof.
  intros HP _. cbn [object_report]. unfold show_status. intros [= <- _].
  destruct (Properties8.C43_nothing_lost srt (record_finding version text args ctx <$> fs) HP) as [H1 H2]. split.
  - intros c code t a H. apply elem_of_list_fmap in H as (e & He & Hin). injection He as -> _ -> ->. apply H2, elem_of_list_fmap in Hin as (f & -> & Hf).
    exists f. by repeat split.
  - intros f Hf. assert (says (record_finding version text args ctx f) ∈ says <$> compact srt (record_finding version text args ctx <$> fs)) as Hs.
    { apply H1, elem_of_list_fmap. exists (record_finding version text args ctx f). split; [done|]. apply elem_of_list_fmap. by exists f. }
    apply elem_of_list_fmap in Hs as (e & He & Hin). unfold says in He. cbn [record_finding e_ctx e_code e_desc2] in He. injection He as -> _ ->.
    exists (e_code e), (e_desc e). apply elem_of_list_fmap. by exists e.
Qed.
(** There is a report exactly if the check came to its end. *)
Theorem C77_report version hash decode w lx s text args ctx srt :
  (∃ r, object_report version text args ctx srt (validate_object hash decode w lx s) = Some r) ↔ ∃ fs, validate_object hash decode w lx s = VDone fs.
Proof.
  destruct (validate_object hash decode w lx s) as [fs| |]; cbn [object_report]; split; intros [x H]; try discriminate H; by eexists.
Qed.

(** The hypotheses: an object with a file that nobody lists and a version inventory that is missing, version 1.1. *)
Definition marred : storage := <["v1/extra" := "x"]> (delete "v2/inventory.json" store2).
Definition show : finding → string := λ f, String.concat " " (f_args f).
Lemma printed_in lines c : printed lines c ↔ c ∈ (λ x : string * string * string * string, x.1.1.2) <$> lines.
Proof.
  rewrite elem_of_list_fmap. split.
  - intros (x & y & z & Hx). by exists (x, c, y, z).
  - intros ([[[x c'] y] z] & -> & Hx). by exists x, y, z.
Qed.
Example C77_example :
  ∃ fs lines, (∀ k, key_sort k ≡ₚ k) ∧ validate_object hexh dec2 wd lx0 marred = VDone fs ∧ object_report "1.1" show show show key_sort (VDone fs) = Some (lines, Some 1) ∧
    printed lines "E015" ∧ printed lines "W010" ∧ ¬ printed lines "E107".
Proof.
  assert (match validate_object hexh dec2 wd lx0 marred with
          | VDone fs => match object_report "1.1" show show show key_sort (VDone fs) with Some (lines, Some 1) =>
              bool_decide ("E015" ∈ (λ x : string * string * string * string, x.1.1.2) <$> lines) && bool_decide ("W010" ∈ (λ x : string * string * string * string, x.1.1.2) <$> lines) &&
              bool_decide ("E107" ∉ (λ x : string * string * string * string, x.1.1.2) <$> lines) | _ => false end
          | _ => false end = true) as H by (by vm_compute).
  destruct (validate_object hexh dec2 wd lx0 marred) as [fs| |] eqn:E; [|discriminate H..].
  destruct (object_report "1.1" show show show key_sort (VDone fs)) as [[lines [[|[|n]]|]]|] eqn:E2; [discriminate H| |discriminate H..].
  apply andb_prop in H as [H H3]. apply andb_prop in H as [H1 H2]. apply bool_decide_eq_true in H1, H2, H3.
  exists fs, lines. split; [intros k; apply key_sort_contract|]. split; [reflexivity|]. split; [exact E2|]. rewrite !printed_in. exact (conj H1 (conj H2 H3)).
Qed.
Example C77_announced_example : vorder_ok wd ∧ (∃ lines, object_report "1.0" show show show key_sort (validate_object hexh dec2 wd lx0 store2) = Some (lines, Some 0)) ∧ no_empty_entry doc2 ∧
  state_lists doc2 "v2" "a79" "b/c".
Proof.
  split; [exact wd_ok|]. split; [eexists; by vm_compute|]. split; [exact (proj1 (proj2 (proj2 Properties14.C53_example)))|exact (proj1 (proj2 (proj2 (proj2 Properties14.C53_example))))].
Qed.
Example C77_lines_example :
  ∃ fs lines n, (∀ k, key_sort k ≡ₚ k) ∧ validate_object hexh dec2 wd lx0 marred = VDone fs ∧
    object_report "1.1" f_code show (λ f, "at " +:+ show f) key_sort (VDone fs) = Some (lines, n) ∧ length lines = 3 ∧ ("at extra v1", "E015", "E015", "extra v1") ∈ lines.
Proof.
  assert (match validate_object hexh dec2 wd lx0 marred with
          | VDone fs => match object_report "1.1" f_code show (λ f, "at " +:+ show f) key_sort (VDone fs) with Some (lines, n) =>
              bool_decide (length lines = 3) && bool_decide (("at extra v1", "E015", "E015", "extra v1") ∈ lines) | _ => false end
          | _ => false end = true) as H by (by vm_compute).
  destruct (validate_object hexh dec2 wd lx0 marred) as [fs| |] eqn:E0; [|discriminate H..].
  destruct (object_report "1.1" f_code show (λ f, "at " +:+ show f) key_sort (VDone fs)) as [[lines n]|] eqn:E; [|discriminate H].
  apply andb_prop in H as [H1%bool_decide_eq_true H2%bool_decide_eq_true]. exists fs, lines, n.
  split; [intros k; apply key_sort_contract|]. split; [reflexivity|]. split; [exact E|]. exact (conj H1 H2).
Qed.
Print Assumptions C77_codes.
Print Assumptions C77_other_codes_partial.
Print Assumptions C77_no_errors.
Print Assumptions C77_announced_partial.
Print Assumptions C77_lines.
Print Assumptions C77_report.

(** An object of version 1.0 with a digest in the manifest that no version uses: the finding is E107, which version 1.0 does not know; the report says
    E000.  The same for version 2.0, which the program knows as well: it has the codes of version 1.0. *)
Definition old_doc : doc :=
  Doc "urn:x" "https://ocfl.io/1.0/spec/#inventory" "sha512" (os "v1") "" (Some {["a78" := ["v1/content/a"]; "a79" := ["v1/content/b"]]})
    (Some {["v1" := mkver {["a78" := ["a"]]}]}) ∅ ∅ [] 0.
Definition old_store : storage :=
  {["0=ocfl_object_1.0" := "ocfl_object_1.0"; "inventory.json" := "root"; "inventory.json.sha512" := toy_side "root"; "v1/inventory.json" := "root";
    "v1/inventory.json.sha512" := toy_side "root"; "v1/content/a" := "x"; "v1/content/b" := "y"]}.
Theorem C77_unknown_code_refuted :
  ∃ hash decode w lx s fs text args ctx srt lines n, vorder_ok w ∧ (∀ k, srt k ≡ₚ k) ∧ validate_object hash decode w lx s = VDone fs ∧
    object_report "1.0" text args ctx srt (VDone fs) = Some (lines, n) ∧ object_report "2.0" text args ctx srt (VDone fs) = Some (lines, n) ∧
    reported fs "E107" ∧ ¬ reported fs "E000" ∧ printed lines "E000" ∧ ¬ printed lines "E107".
Proof.
  assert (match validate_object hexh (Properties14.one_decode old_doc) wd lx0 old_store with
          | VDone fs => bool_decide ("E107" ∈ f_code <$> fs) && bool_decide ("E000" ∉ f_code <$> fs) &&
              match object_report "1.0" show show show key_sort (VDone fs), object_report "2.0" show show show key_sort (VDone fs) with
              | Some (lines, n), Some (lines', n') =>
                  bool_decide (lines = lines') && bool_decide (n = n') && bool_decide ("E000" ∈ (λ x : string * string * string * string, x.1.1.2) <$> lines) &&
                  bool_decide ("E107" ∉ (λ x : string * string * string * string, x.1.1.2) <$> lines)
              | _, _ => false end
          | _ => false end = true) as H by (by vm_compute).
  destruct (validate_object hexh (Properties14.one_decode old_doc) wd lx0 old_store) as [fs| |] eqn:E; [|discriminate H..].
  destruct (object_report "1.0" show show show key_sort (VDone fs)) as [[lines n]|] eqn:E1; [|by rewrite andb_false_r in H].
  destruct (object_report "2.0" show show show key_sort (VDone fs)) as [[lines' n']|] eqn:E2; [|by rewrite andb_false_r in H].
  apply andb_prop in H as [H H3]. apply andb_prop in H as [H1 H2]. apply andb_prop in H3 as [H H7]. apply andb_prop in H as [H H6]. apply andb_prop in H as [H4 H5].
  apply bool_decide_eq_true in H1, H2, H4, H5, H6, H7. subst lines' n'.
  exists hexh, (Properties14.one_decode old_doc), wd, lx0, old_store, fs, show, show, show, key_sort, lines, n.
  split; [exact wd_ok|]. split; [intros k; apply key_sort_contract|]. split; [exact E|]. split; [exact E1|]. split; [exact E2|]. split.
  { apply elem_of_list_fmap in H1 as ([c a] & Hc & Hin). cbn in Hc. subst c. exists a. exact Hin. }
  split. { intros (a & Ha). apply H2, elem_of_list_fmap. exists (Finding "E000" a). exact (conj eq_refl Ha). }
  rewrite !printed_in. exact (conj H6 H7).
Qed.
Print Assumptions C77_unknown_code_refuted.
