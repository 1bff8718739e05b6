(** Properties C19 to C27: what validation reports. *)
From Coq Require Import Ascii.
From stdpp Require Import base list strings gmap.
From Coq Require Import ZArith Lia.
From Verif Require Import GoStr InventoryModel ObjectModel ValidateModel ValidateSpec ValidateProofs ValidateProofs2 ValidateProofs3
  ValidateProofs4 EqualProofs CheckModel CheckSpec CheckProofs CheckProofs2 Fixtures2 Fixtures3.

(** Finds a finding with a code in a concrete list. *)
Ltac found := eexists; repeat first [apply elem_of_list_here | apply elem_of_list_further].
Notation dec2 := (toy_decode doc2 doc2 doc1).
Lemma doc2_versions ver v : has_version doc2 ver v → ver = "v1" ∨ ver = "v2".
Proof.
  intros (vs & [= <-] & H). apply lookup_insert_Some in H as [[<- _]|[_ H]]; [by left|].
  apply lookup_singleton_Some in H as [<- _]. by right.
Qed.
Lemma numbered_v1 : numbered "v1" 1.
Proof. split; [done|]. by exists 0. Qed.
Lemma numbered_v2 : numbered "v2" 2.
Proof. split; [done|]. by exists 0. Qed.
Lemma doc2_numbered : all_numbered doc2.
Proof. intros ver v [-> | ->]%doc2_versions; [exists 1%N; apply numbered_v1|exists 2%N; apply numbered_v2]. Qed.
Lemma doc2_distinct : distinct_numbers doc2.
Proof.
  intros ver1 w1 ver2 w2 k [-> | ->]%doc2_versions [-> | ->]%doc2_versions N1 N2; try done.
  - pose proof (numbered_fun _ _ _ N1 numbered_v1). pose proof (numbered_fun _ _ _ N2 numbered_v2). congruence.
  - pose proof (numbered_fun _ _ _ N1 numbered_v2). pose proof (numbered_fun _ _ _ N2 numbered_v1). congruence.
Qed.

(** * C19: corrupted or missing content is reported *)

(** Full statement: validation always reports.  Proved: whenever validation comes to a verdict; it can also panic or give up
    with an error, see the refutations. *)
Theorem C19_corruption_reported_partial hash decode w lx s fs b d dg p :
  vorder_ok w → validate_object hash decode w lx s = VDone fs →
  s !! "inventory.json" = Some b → decode b = Some d → man_lists d dg p →
  ¬ intact hash (dc_alg d) s dg p →
  reported fs "E092".
Proof. intros Hw H. by apply (validate_corrupted hash decode w lx s fs Hw H). Qed.
(** The same for the inventories in the version folders. *)
Theorem C19_corruption_reported_by_versions_partial hash decode w lx s fs b d ver v vb vd dg p :
  vorder_ok w → validate_object hash decode w lx s = VDone fs →
  s !! "inventory.json" = Some b → decode b = Some d → all_numbered d → distinct_numbers d →
  has_version d ver v → s !! (ver +:+ "/inventory.json") = Some vb → decode vb = Some vd → man_lists vd dg p →
  ¬ intact hash (dc_alg vd) s dg p →
  reported fs "E092".
Proof. intros Hw H. by apply (validate_corrupted_version hash decode w lx s fs Hw H). Qed.
(** No false alarm: if everything recorded in any of the inventories is stored with its digest below a version folder. *)
Theorem C19_intact_not_reported hash decode w lx s fs b d :
  vorder_ok w → validate_object hash decode w lx s = VDone fs →
  s !! "inventory.json" = Some b → decode b = Some d → all_numbered d → distinct_numbers d →
  (∀ e dg p, object_inventory decode s e → man_lists e dg p →
     intact hash (dc_alg e) s dg p ∧ ∃ ver v r, has_version d ver v ∧ p = ver +:+ "/" +:+ r) →
  (∀ e, object_inventory decode s e → no_empty_entry e) →
  ¬ reported fs "E092".
Proof. intros Hw H. by apply (validate_intact hash decode w lx s fs Hw H). Qed.
(** Fixity block. *)
Theorem C19_fixity_reported_partial hash decode w lx s fs b d alg dg p :
  vorder_ok w → validate_object hash decode w lx s = VDone fs →
  s !! "inventory.json" = Some b → decode b = Some d → all_numbered d → distinct_numbers d → (∃ ver v, has_version d ver v) →
  fix_lists d alg dg p → ¬ stored_as hash alg s dg p → ¬ stored_as hash alg s (to_lower dg) p →
  reported fs "E093".
Proof. intros Hw H. by apply (validate_fixity hash decode w lx s fs Hw H). Qed.
Theorem C19_fixity_intact_not_reported hash decode w lx s fs b d :
  vorder_ok w → validate_object hash decode w lx s = VDone fs →
  s !! "inventory.json" = Some b → decode b = Some d → all_numbered d → distinct_numbers d →
  (∀ alg c h, hash alg c = Some h → to_lower h = h) →
  (∀ e alg dg p, object_inventory decode s e → fix_lists e alg dg p →
     (stored_as hash alg s dg p ∨ stored_as hash alg s (to_lower dg) p) ∧ ∃ ver v r, has_version d ver v ∧ p = ver +:+ "/" +:+ r) →
  (∀ e alg m dg ps, object_inventory decode s e → dc_fixity e !! alg = Some m → m !! dg = Some ps → ps ≠ []) →
  ¬ reported fs "E093".
Proof. intros Hw H. by apply (validate_fixity_intact hash decode w lx s fs Hw H). Qed.

Definition corrupt2 : storage := <["v2/content/b" := "z"]> store2.
Definition fix2 : doc := with_fixity doc2 {["md5" := {["b78" := ["v1/content/a"]]}]}.
Definition badfix2 : doc := with_fixity doc2 {["md5" := {["b79" := ["v1/content/a"]]}]}.
Example C19_example :
  validate_object hexh dec2 wd lx0 store2 = VDone [] ∧
  validate_object hexh (toy_decode fix2 fix2 doc1) wd lx0 store2 = VDone [] ∧
  (∃ fs, validate_object hexh dec2 wd lx0 corrupt2 = VDone fs ∧ corrupt2 !! "inventory.json" = Some "root" ∧ dec2 "root" = Some doc2 ∧
    man_lists doc2 "a79" "v2/content/b" ∧ ¬ intact hexh (dc_alg doc2) corrupt2 "a79" "v2/content/b" ∧ reported fs "E092") ∧
  (∃ fs, validate_object hexh (toy_decode badfix2 badfix2 doc1) wd lx0 store2 = VDone fs ∧ fix_lists badfix2 "md5" "b79" "v1/content/a" ∧
    reported fs "E093").
Proof.
  split; [by vm_compute|]. split; [by vm_compute|]. split.
  - eexists. split; [vm_compute; reflexivity|]. split; [by vm_compute|]. split; [by vm_compute|]. split; [|split].
    + eexists _, _. split; [reflexivity|]. split; [by vm_compute|]. left.
    + intros (c & Hc & Hh). vm_compute in Hc. injection Hc as <-. by vm_compute in Hh.
    + eexists. left.
  - eexists. split; [vm_compute; reflexivity|]. split; [|eexists; left].
    eexists _, _. split; [by vm_compute|]. split; [by vm_compute|]. left.
Qed.
Print Assumptions C19_corruption_reported_partial.
Print Assumptions C19_corruption_reported_by_versions_partial.
Print Assumptions C19_intact_not_reported.
Print Assumptions C19_fixity_reported_partial.
Print Assumptions C19_fixity_intact_not_reported.

(** The inventory of v2 is optional.  If the only file of the version is lost, the version folder is gone and validation
    panics instead of reporting the lost file. *)
Definition lost2 : storage := delete "v2/inventory.json" (delete "v2/inventory.json.sha512" (delete "v2/content/b" store2)).
Theorem C19_missing_folder_refuted :
  ∃ s, man_lists doc2 "a79" "v2/content/b" ∧ s !! "inventory.json" = Some "root" ∧ s !! "v2/content/b" = None ∧
    validate_object hexh dec2 wd lx0 s = VPanic.
Proof.
  exists lost2. split; [|by split_and!; vm_compute]. eexists _, _. split; [reflexivity|]. split; [by vm_compute|]. left.
Qed.
Print Assumptions C19_missing_folder_refuted.
(** A version folder without inventory file is allowed by the specification.  For the first version validation panics. *)
Theorem C19_no_first_inventory_refuted :
  ∃ s, man_lists doc2 "a79" "v2/content/b" ∧ s !! "inventory.json" = Some "root" ∧ s !! "v2/content/b" = Some "z" ∧
    ¬ intact hexh "sha512" s "a79" "v2/content/b" ∧ validate_object hexh dec2 wd lx0 s = VPanic.
Proof.
  exists (delete "v1/inventory.json" corrupt2). split; [|split; [by vm_compute|split; [by vm_compute|split; [|by vm_compute]]]].
  - eexists _, _. split; [reflexivity|]. split; [by vm_compute|]. left.
  - intros (c & Hc & Hh). vm_compute in Hc. injection Hc as <-. by vm_compute in Hh.
Qed.
Print Assumptions C19_no_first_inventory_refuted.
(** A fixity algorithm that occurs only in the root inventory: validation ends with an error about the checksum, and the
    wrong fixity digest is not reported. *)
Theorem C19_root_fixity_refuted :
  ∃ decode s fs, decode "root" = Some badfix2 ∧ s !! "inventory.json" = Some "root" ∧
    fix_lists badfix2 "md5" "b79" "v1/content/a" ∧ hexh "md5" "x" = Some "b78" ∧ s !! "v1/content/a" = Some "x" ∧
    validate_object hexh decode wd lx0 s = VError fs "checksum not created" ∧ ¬ reported fs "E093".
Proof.
  exists (toy_decode badfix2 doc2 doc1), store2, []. split; [by vm_compute|]. split; [by vm_compute|]. split.
  - eexists _, _. split; [by vm_compute|]. split; [by vm_compute|]. left.
  - split; [by vm_compute|]. split; [by vm_compute|]. split; [by vm_compute|]. apply reported_nil.
Qed.
Print Assumptions C19_root_fixity_refuted.

(** * C20: conflicting content paths *)

(** Full statement refuted: E101 is not reported for a path in front of another one, nor for the same path under two digests.
    Line 393 compares each path with its successor instead of its predecessor. *)
Definition conflict_doc : doc :=
  mkdoc {["a78" := ["v1/content/a"]; "a79" := ["v1/content/a/b"]]} {["v1" := mkver {["a78" := ["a"]; "a79" := ["b"]]}]} "v1".
Definition same_path_doc : doc :=
  mkdoc {["a78" := ["v1/content/a"]; "a79" := ["v1/content/a"]]} {["v1" := mkver {["a78" := ["a"]; "a79" := ["b"]]}]} "v1".
Theorem C20_conflict_refuted :
  ∃ d dg dg' p q, man_lists d dg p ∧ man_lists d dg' q ∧ dir_of p q ∧ ∀ w lx fs, vorder_ok w → validated w lx d fs → ¬ reported fs "E101".
Proof.
  exists conflict_doc, "a78", "a79", "v1/content/a", "v1/content/a/b". split; [|split; [|split]].
  - eexists _, _. split; [reflexivity|]. split; [by vm_compute|]. left.
  - eexists _, _. split; [reflexivity|]. split; [by vm_compute|]. left.
  - by exists "b".
  - intros w lx fs Hw HV Hr. apply (e101_trailing_slash w lx _ _ Hw HV) in Hr as (dg & p & r & (m & ps & [= <-] & Hl & Hp) & ->).
    apply lookup_insert_Some in Hl as [[_ <-]|[_ [_ <-]%lookup_singleton_Some]]; apply elem_of_list_singleton in Hp;
      apply (f_equal (λ x, str_last x)) in Hp; rewrite str_last_app in Hp; done.
Qed.
Theorem C20_same_path_refuted :
  ∃ d p, man_lists d "a78" p ∧ man_lists d "a79" p ∧ (finalize wd lx0 false d).2 = VDone [].
Proof.
  exists same_path_doc, "v1/content/a". split; [|split; [|by vm_compute]].
  - eexists _, _. split; [reflexivity|]. split; [by vm_compute|]. left.
  - eexists _, _. split; [reflexivity|]. split; [by vm_compute|]. left.
Qed.
(** What is true: E101 is reported only when some content path ends with a slash, which E100 reports anyway. *)
Theorem C20_only_trailing_slash_partial w lx d fs :
  vorder_ok w → validated w lx d fs → reported fs "E101" →
  ∃ dg p r, man_lists d dg p ∧ p = r +:+ "/" ∧ reported_for fs "E100" p.
Proof.
  intros Hw HV Hr. destruct (e101_trailing_slash w lx d fs Hw HV Hr) as (dg & p & r & Hm & Hp). exists dg, p, r.
  split; [done|]. split; [done|]. apply (slash_content w lx d fs p Hw HV); [by left; exists dg|]. right. by exists r.
Qed.
Definition slash_doc : doc :=
  mkdoc {["a78" := ["v1/content/a/"]; "a79" := ["v1/content/a/"]]} {["v1" := mkver {["a78" := ["a"]; "a79" := ["b"]]}]} "v1".
Example C20_example : ∃ fs, validated wd lx0 slash_doc fs ∧ reported fs "E101".
Proof. eexists. split; [vm_compute; reflexivity|]. found. Qed.
Print Assumptions C20_conflict_refuted.
Print Assumptions C20_same_path_refuted.
Print Assumptions C20_only_trailing_slash_partial.

(** * C21: conflicting logical paths *)

(** Full statement: E095 if and only if some logical path is a directory in front of another one.  False, see below.  The exact
    condition: no other logical path of the version sorts strictly between the two. *)
Theorem C21_conflict_reported_partial w lx d fs :
  vorder_ok w → validated w lx d fs → (∀ ver dg p r, state_lists d ver dg p → p ≠ r +:+ "/") →
  reported fs "E095" ↔
  ∃ ver dg dg' p q, state_lists d ver dg p ∧ state_lists d ver dg' q ∧ dir_of p q ∧
    ∀ dg'' r, state_lists d ver dg'' r → ¬ (str_lt p r ∧ str_lt r q).
Proof. exact (e095_exact w lx d fs). Qed.
(** In particular a conflict is reported if every logical path that continues [p] lies below [p]. *)
Theorem C21_plain_conflict_reported_partial w lx d fs ver dg dg' p q :
  vorder_ok w → validated w lx d fs → (∀ ver dg p r, state_lists d ver dg p → p ≠ r +:+ "/") →
  state_lists d ver dg p → state_lists d ver dg' q → dir_of p q →
  (∀ dg'' t, state_lists d ver dg'' (p +:+ t) → t = "" ∨ ∃ u, t = "/" +:+ u) →
  reported fs "E095".
Proof. exact (e095_complete w lx d fs ver dg dg' p q). Qed.
Definition logical_doc (l : list string) : doc :=
  mkdoc {["a78" := ["v1/content/a"]]} {["v1" := mkver {["a78" := l]}]} "v1".
Lemma logical_lists l ver dg p : state_lists (logical_doc l) ver dg p ↔ ver = "v1" ∧ dg = "a78" ∧ p ∈ l.
Proof.
  split.
  - intros (v & st & e & ps & (vs & [= <-] & [<- <-]%lookup_singleton_Some) & [= <- <-] & [<- <-]%lookup_singleton_Some & Hp). done.
  - intros (-> & -> & Hp). eexists _, _, _, l. split; [eexists; split; [reflexivity|apply lookup_singleton]|].
    split; [reflexivity|]. split; [apply lookup_singleton|done].
Qed.
Example C21_example :
  ∃ fs, validated wd lx0 (logical_doc ["a"; "a/c"; "b"]) fs ∧ reported fs "E095" ∧
    (∀ ver dg p r, state_lists (logical_doc ["a"; "a/c"; "b"]) ver dg p → p ≠ r +:+ "/") ∧
    dir_of "a" "a/c" ∧ state_lists (logical_doc ["a"; "a/c"; "b"]) "v1" "a78" "a".
Proof.
  eexists. split; [vm_compute; reflexivity|]. split; [found|]. split; [|split; [by exists "c"|apply logical_lists; set_solver]].
  intros ver dg p r (_ & _ & H)%logical_lists ->.
  rewrite !elem_of_cons in H.
  destruct H as [H|[H|[H|H]]]; [..|by apply elem_of_nil in H]; apply (f_equal (λ x, str_last x)) in H; by rewrite str_last_app in H.
Qed.
Print Assumptions C21_conflict_reported_partial.
Print Assumptions C21_plain_conflict_reported_partial.
(** [a] is a file and a directory; the path [a-b] sorts between [a] and [a/c] and hides the conflict. *)
Theorem C21_hidden_conflict_refuted :
  ∃ d ver dg p q, state_lists d ver dg p ∧ state_lists d ver dg q ∧ dir_of p q ∧ ∀ fs, validated wd lx0 d fs → ¬ reported fs "E095".
Proof.
  exists (logical_doc ["a"; "a-b"; "a/c"]), "v1", "a78", "a", "a/c". split; [apply logical_lists; set_solver|].
  split; [apply logical_lists; set_solver|]. split; [by exists "c"|]. intros fs HV. vm_compute in HV. injection HV as <-. apply reported_nil.
Qed.
Print Assumptions C21_hidden_conflict_refuted.

(** * C22: malformed paths *)

Theorem C22_malformed_content_reported w lx d fs p :
  vorder_ok w → validated w lx d fs →
  (reported_for fs "E100" p ∨ reported_for fs "E099" p) ↔ malformed p ∧ listed d p.
Proof. exact (malformed_content w lx d fs p). Qed.
Theorem C22_slash_reported w lx d fs p :
  vorder_ok w → validated w lx d fs → listed d p →
  reported_for fs "E100" p ↔ (∃ r, p = String slash r) ∨ (∃ r, p = r +:+ "/").
Proof. exact (slash_content w lx d fs p). Qed.
Theorem C22_malformed_logical_reported w lx d fs ver n p :
  vorder_ok w → validated w lx d fs → numbered ver n →
  (Finding "E053" [p; ver] ∈ fs ∨ Finding "E052" [p; ver] ∈ fs) ↔ malformed p ∧ ∃ dg, state_lists d ver dg p.
Proof. exact (malformed_logical w lx d fs ver n p). Qed.
(** Full statement: a verdict for every inventory.  Proved: exactly for the inventories without empty path and without missing
    creation date; all others make the program panic.  (Errors other than panics do not occur.) *)
Theorem C22_verdict_partial w lx d :
  vorder_ok w → ((∃ fs, validated w lx d fs) ↔ checkable d) ∧ ∀ fs m, (finalize w lx false d).2 ≠ VError fs m.
Proof. intros Hw. split; [by apply verdict_iff|]. intros fs m. apply finalize_noerr. Qed.
Definition bad_paths_doc : doc := with_fixity
  (mkdoc {["a78" := ["v1/content/../a"]; "a79" := ["/v1/content/b"]]} {["v1" := mkver {["a78" := ["a//b"; "ok"]; "a79" := ["./c"]]}]} "v1")
  {["md5" := {["b78" := ["v1/./content/a"]]}]}.
Example C22_example :
  ∃ fs, validated wd lx0 bad_paths_doc fs ∧ reported_for fs "E099" "v1/content/../a" ∧ reported_for fs "E100" "/v1/content/b" ∧
    reported_for fs "E099" "v1/./content/a" ∧ Finding "E052" ["a//b"; "v1"] ∈ fs ∧ Finding "E052" ["./c"; "v1"] ∈ fs.
Proof.
  eexists. split; [vm_compute; reflexivity|]. split; [found|]. split; [found|]. split; [found|].
  split; repeat first [apply elem_of_list_here | apply elem_of_list_further].
Qed.
Print Assumptions C22_malformed_content_reported.
Print Assumptions C22_slash_reported.
Print Assumptions C22_malformed_logical_reported.
Print Assumptions C22_verdict_partial.
Theorem C22_empty_path_refuted :
  ∃ d dg, state_lists d "v1" dg "" ∧ (finalize wd lx0 false d).2 = VPanic.
Proof. exists (logical_doc ["a"; ""]), "a78". split; [apply logical_lists; set_solver|by vm_compute]. Qed.
Theorem C22_missing_created_refuted :
  ∃ d ver v, has_version d ver v ∧ vd_created v = None ∧ (∀ w lx, vorder_ok w → ¬ ∃ fs, validated w lx d fs).
Proof.
  set (v := VDoc None (Some (os "m")) (Some ({["a78" := ["a"]]}, false)) None).
  exists (mkdoc {["a78" := ["v1/content/a"]]} {["v1" := v]} "v1"), "v1", v.
  assert (has_version (mkdoc {["a78" := ["v1/content/a"]]} {["v1" := v]} "v1") "v1" v) as Hv by (eexists; split; [reflexivity|apply lookup_singleton]).
  split; [done|]. split; [done|]. intros w lx Hw Hex. apply verdict_iff in Hex as (_ & _ & Hc); [|done].
  specialize (Hc "v1" v Hv). change (version_value "v1") with (Some 1%Z) in Hc. destruct Hc as [Hc _]. by apply Hc.
Qed.
Print Assumptions C22_empty_path_refuted.
Print Assumptions C22_missing_created_refuted.

(** * C23: gaps in the version sequence *)

Theorem C23_sequence_reported w lx d fs :
  vorder_ok w → validated w lx d fs → (¬ reported fs "E104" ∧ ¬ reported fs "E010") ↔ ∃ n, exactly_upto d n.
Proof. exact (sequence_iff w lx d fs). Qed.
(** With proper version names E010 alone is the criterion. *)
Theorem C23_gap_reported w lx d fs :
  vorder_ok w → validated w lx d fs → all_numbered d → reported fs "E010" ↔ ¬ ∃ n, exactly_upto d n.
Proof.
  intros Hw HV Hn. rewrite <-(sequence_iff w lx d fs Hw HV).
  assert (¬ reported fs "E104") as H4.
  { intros (ver & v & Hv & Hno)%(e104_iff w lx d fs Hw HV). destruct (Hn ver v Hv) as [n Hk]. by apply (Hno n). }
  destruct (in_dec String.string_dec "E010" (map f_code fs)) as [Hin|Hin].
  - apply in_map_iff in Hin as ([c args] & Hc & Hin). simpl in Hc. subst c.
    assert (reported fs "E010") as Hr by (exists args; by apply elem_of_list_In). tauto.
  - assert (¬ reported fs "E010") as Hr; [|tauto].
    intros (args & Ha). apply Hin. apply in_map_iff. exists (Finding "E010" args). split; [done|]. by apply elem_of_list_In.
Qed.
Definition gap_doc : doc :=
  mkdoc {["a78" := ["v1/content/a"]]} {["v1" := mkver {["a78" := ["a"]]}; "v3" := mkver {["a78" := ["a"]]}]} "v3".
Example C23_example :
  (∃ fs, validated wd lx0 doc2 fs ∧ all_numbered doc2 ∧ ¬ reported fs "E010") ∧ (∃ fs, validated wd lx0 gap_doc fs ∧ reported fs "E010").
Proof.
  split; eexists; (split; [vm_compute; reflexivity|]); [|found]. split; [apply doc2_numbered|]. apply reported_nil.
Qed.
Print Assumptions C23_sequence_reported.
Print Assumptions C23_gap_reported.

(** * C24: a wrong head *)

(** Full statement: without the condition that no number occurs twice (v1 and v01), see below. *)
Theorem C24_wrong_head_reported_partial w lx d fs :
  vorder_ok w → validated w lx d fs → all_numbered d → distinct_numbers d →
  os_err (dc_head d) = false → os_val (dc_head d) ≠ "" →
  reported fs "E040" ↔ ¬ newest d (os_val (dc_head d)).
Proof. exact (e040_iff w lx d fs). Qed.
Example C24_example :
  all_numbered doc2 ∧ distinct_numbers doc2 ∧ os_val (dc_head doc2) = "v2" ∧ newest doc2 "v2" ∧ validated wd lx0 doc2 [] ∧
  ∃ fs, validated wd lx0 (mkdoc (man doc2) (vers doc2) "v1") fs ∧ reported fs "E040".
Proof.
  split; [apply doc2_numbered|]. split; [apply doc2_distinct|]. split; [done|]. split; [|split; [by vm_compute|]].
  - eexists _, 2%N. split; [eexists; split; [reflexivity|by vm_compute]|]. split; [apply numbered_v2|].
    intros ver' v' n' [-> | ->]%doc2_versions Hn.
    + rewrite (numbered_fun _ _ _ Hn numbered_v1). done.
    + rewrite (numbered_fun _ _ _ Hn numbered_v2). done.
  - eexists. split; [vm_compute; reflexivity|]. found.
Qed.
Print Assumptions C24_wrong_head_reported_partial.
(** Two names with the same number: whether the head is accepted depends on the iteration order. *)
Definition twin_doc : doc :=
  mkdoc {["a78" := ["v1/content/a"]]} {["v1" := mkver {["a78" := ["a"]]}; "v01" := mkver {["a78" := ["a"]]}]} "v1".
Lemma numbered_v01 : numbered "v01" 1.
Proof. split; [done|]. by exists 1. Qed.
Lemma numbered_v002 : numbered "v002" 2.
Proof. split; [done|]. by exists 2. Qed.
Theorem C24_same_number_refuted :
  ∃ d fs fs', all_numbered d ∧ newest d (os_val (dc_head d)) ∧ validated wd lx0 d fs ∧ validated wr lx0 d fs' ∧
    ¬ reported fs "E040" ∧ reported fs' "E040".
Proof.
  assert (∀ ver v, has_version twin_doc ver v → ver = "v1" ∨ ver = "v01") as Hver.
  { intros ver v (vs & [= <-] & H). apply lookup_insert_Some in H as [[<- _]|[_ H]]; [by left|].
    apply lookup_singleton_Some in H as [<- _]. by right. }
  assert (∀ ver v n, has_version twin_doc ver v → numbered ver n → n = 1%N) as Hone.
  { intros ver v n Hv Hn. destruct (Hver _ _ Hv) as [-> | ->]; [exact (numbered_fun _ _ _ Hn numbered_v1)|exact (numbered_fun _ _ _ Hn numbered_v01)]. }
  exists twin_doc. eexists _, _. split; [|split; [|split; [vm_compute; reflexivity|split; [vm_compute; reflexivity|split; [|found]]]]].
  - intros ver v Hv. exists 1%N. destruct (Hver _ _ Hv) as [-> | ->]; [apply numbered_v1|apply numbered_v01].
  - eexists _, 1%N. split; [eexists; split; [reflexivity|by vm_compute]|]. split; [apply numbered_v1|].
    intros ver' v' n' Hv Hn. rewrite (Hone _ _ _ Hv Hn). done.
  - intros (args & Ha). rewrite !elem_of_cons in Ha. destruct Ha as [[=]|[[=]|[[=]|[[=]|[[=]|Ha]]]]]. by apply elem_of_nil in Ha.
Qed.
Print Assumptions C24_same_number_refuted.

(** * C25: the verdict does not depend on map order *)

(** Full statement refuted below.  Proved for uniform version names (all unpadded, or all padded to one length). *)
Theorem C25_order_independent_partial w1 w2 lx d fs1 :
  vorder_ok w1 → vorder_ok w2 → uniform d → validated w1 lx d fs1 →
  ∃ fs2, validated w2 lx d fs2 ∧ same_codes fs1 fs2.
Proof. exact (uniform_order w1 w2 lx d fs1). Qed.
(** For arbitrary proper version names without repeated number, all codes but E011 and W001. *)
Theorem C25_other_codes_partial w1 w2 lx d fs1 :
  vorder_ok w1 → vorder_ok w2 → all_numbered d → distinct_numbers d → validated w1 lx d fs1 →
  ∃ fs2, validated w2 lx d fs2 ∧ ∀ c, c ≠ "E011" → c ≠ "W001" → reported fs1 c ↔ reported fs2 c.
Proof. exact (codes_order w1 w2 lx d fs1). Qed.
(** Whether there is a verdict at all does not depend on the order either. *)
Theorem C25_verdict_exists w1 w2 lx d :
  vorder_ok w1 → vorder_ok w2 → (∃ fs, validated w1 lx d fs) ↔ ∃ fs, validated w2 lx d fs.
Proof. intros H1 H2. by rewrite !verdict_iff. Qed.
Example C25_example : uniform gap_doc ∧ uniform doc2 ∧ ∃ fs, validated wd lx0 gap_doc fs ∧ fs ≠ [].
Proof.
  split; [|split].
  - assert (∀ ver v, has_version gap_doc ver v → ver = "v1" ∨ ver = "v3") as Hver.
    { intros ver v (vs & [= <-] & H). apply lookup_insert_Some in H as [[<- _]|[_ H]]; [by left|].
      apply lookup_singleton_Some in H as [<- _]. by right. }
    split; [|left; by intros ver v [-> | ->]%Hver].
    intros ver v [-> | ->]%Hver; [exists 1%N; apply numbered_v1|exists 3%N; split; [done|by exists 0]].
  - split; [apply doc2_numbered|]. left. by intros ver v [-> | ->]%doc2_versions.
  - eexists. split; [vm_compute; reflexivity|done].
Qed.
Print Assumptions C25_order_independent_partial.
Print Assumptions C25_other_codes_partial.
Print Assumptions C25_verdict_exists.
(** Version names v1 and v002: E011 and the padding warning depend on the order. *)
Definition mixed_doc : doc :=
  mkdoc {["a78" := ["v1/content/a"]]} {["v1" := mkver {["a78" := ["a"]]}; "v002" := mkver {["a78" := ["a"]]}]} "v002".
Theorem C25_padding_refuted :
  ∃ d fs fs', validated wd lx0 d fs ∧ validated wr lx0 d fs' ∧ reported fs "E011" ∧ ¬ reported fs' "E011" ∧
    reported fs "W001" ∧ ¬ reported fs' "W001".
Proof.
  exists mixed_doc. eexists _, _. split; [vm_compute; reflexivity|]. split; [vm_compute; reflexivity|]. split; [found|].
  split; [|split; [found|]]; intros (args & Ha); rewrite !elem_of_cons in Ha; destruct Ha as [[=]|[[=]|Ha]]; by apply elem_of_nil in Ha.
Qed.
Print Assumptions C25_padding_refuted.

(** * C26: comparison of the root inventory with the newest version's inventory *)

(** Full statement refuted below.  What holds whenever validation does not report E064. *)
Theorem C26_accepted_partial hash decode w lx s fs b d ver vb vd :
  vorder_ok w → validate_object hash decode w lx s = VDone fs →
  s !! "inventory.json" = Some b → decode b = Some d → all_numbered d → distinct_numbers d →
  newest d ver → s !! (ver +:+ "/inventory.json") = Some vb → decode vb = Some vd →
  ¬ reported fs "E064" →
  dc_type vd = dc_type d ∧ os_val (dc_head vd) = os_val (dc_head d) ∧ dc_contentdir vd = dc_contentdir d ∧
  (∀ k, (∃ v, has_version vd k v) ↔ ∃ v, has_version d k v) ∧
  (∀ k p, (∃ dg, state_lists vd k dg p) ↔ ∃ dg, state_lists d k dg p) ∧
  (lists_once vd → lists_once d → ∀ dg p, man_lists vd dg p → man_lists d dg p).
Proof. exact (accepted_newest hash decode w lx s fs b d ver vb vd). Qed.
(** Accepted in both directions: the same manifest. *)
Theorem C26_mutual_manifest_partial d d2 dg p :
  is_equal d d2 = Some true → is_equal d2 d = Some true → lists_once d → lists_once d2 → man_lists d dg p ↔ man_lists d2 dg p.
Proof. exact (mutual_manifest d d2 dg p). Qed.
Definition extra_version_doc : doc :=
  mkdoc (man doc2) {["v1" := mkver {["a78" := ["a"]]}; "v2" := mkver {["a78" := ["a"]; "a79" := ["b/c"; "e"]]}]} "v2".
Example C26_example :
  newest doc2 "v2" ∧ (∃ fs, validate_object hexh dec2 wd lx0 store2 = VDone fs ∧ ¬ reported fs "E064") ∧
  (∃ fs, validate_object hexh (toy_decode doc2 extra_version_doc doc1) wd lx0 store2 = VDone fs ∧ reported fs "E064") ∧
  is_equal doc2 doc2 = Some true ∧ lists_once doc2.
Proof.
  split; [apply C24_example|]. split; [eexists; split; [vm_compute; reflexivity|apply reported_nil]|].
  split; [eexists; split; [vm_compute; reflexivity|found]|]. split; [by vm_compute|].
  intros m dg ps [= <-] H. apply lookup_insert_Some in H as [[_ <-]|[_ [_ <-]%lookup_singleton_Some]]; apply NoDup_singleton.
Qed.
Print Assumptions C26_accepted_partial.
Print Assumptions C26_mutual_manifest_partial.
(** The newest version's inventory gives other content to every path than the root inventory; nothing is reported. *)
Definition swapped_doc : doc :=
  mkdoc (man doc2) {["v1" := mkver {["a78" := ["a"]]}; "v2" := mkver {["a79" := ["a"]; "a78" := ["b/c"; "d"]]}]} "v2".
Theorem C26_swapped_content_refuted : ∃ decode s d e,
  s !! "inventory.json" = Some "root" ∧ decode "root" = Some d ∧ s !! "v2/inventory.json" = Some "v2" ∧ decode "v2" = Some e ∧
  validate_object hexh decode wd lx0 s = VDone [] ∧
  state_lists d "v2" "a78" "a" ∧ ¬ state_lists d "v2" "a79" "a" ∧
  state_lists e "v2" "a79" "a" ∧ ¬ state_lists e "v2" "a78" "a".
Proof.
  exists (toy_decode doc2 swapped_doc doc1), store2, doc2, swapped_doc.
  split; [by vm_compute|]. split; [done|]. split; [by vm_compute|]. split; [done|]. split; [by vm_compute|]. split; [|split; [|split]].
  - eexists _, _, _, _. split; [eexists; split; [reflexivity|by vm_compute]|]. split; [reflexivity|]. split; [by vm_compute|]. left.
  - intros (v & st & e & ps & (vs & [= <-] & Hv) & Hs & Hl & Hp). vm_compute in Hv. injection Hv as <-. injection Hs as <- _.
    vm_compute in Hl. injection Hl as <-. rewrite !elem_of_cons in Hp. destruct Hp as [[=]|[[=]|Hp]]. by apply elem_of_nil in Hp.
  - eexists _, _, _, _. split; [eexists; split; [reflexivity|by vm_compute]|]. split; [reflexivity|]. split; [by vm_compute|]. left.
  - intros (v & st & e & ps & (vs & [= <-] & Hv) & Hs & Hl & Hp). vm_compute in Hv. injection Hv as <-. injection Hs as <- _.
    vm_compute in Hl. injection Hl as <-. rewrite !elem_of_cons in Hp. destruct Hp as [[=]|[[=]|Hp]]. by apply elem_of_nil in Hp.
Qed.
(** Not symmetric: an additional manifest entry is noticed in one direction only. *)
Definition more_doc : doc := mkdoc (<["a7a" := ["v2/content/c"]]> (man doc2)) (vers doc2) "v2".
Theorem C26_not_symmetric_refuted :
  ∃ d d2, is_equal d d2 = Some true ∧ is_equal d2 d = Some false ∧ (∃ dg p, man_lists d2 dg p ∧ ¬ man_lists d dg p).
Proof.
  exists doc2, more_doc. split; [by vm_compute|]. split; [by vm_compute|]. exists "a7a", "v2/content/c". split.
  - eexists _, _. split; [reflexivity|]. split; [by vm_compute|]. left.
  - intros (m & ps & [= <-] & Hl & _). by vm_compute in Hl.
Qed.
Print Assumptions C26_swapped_content_refuted.
Print Assumptions C26_not_symmetric_refuted.

(** * C27: comparison of logical states *)

(** Full statement refuted above (C26_swapped_content_refuted) and below: the contents are not compared.  Proved: a path that
    one state has and the other has not is always reported. *)
Theorem C27_path_difference_reported_partial hash decode w lx s fs b d ver v vb vd k kn tv tv2 :
  vorder_ok w → validate_object hash decode w lx s = VDone fs →
  s !! "inventory.json" = Some b → decode b = Some d → all_numbered d → distinct_numbers d →
  has_version d ver v → s !! (ver +:+ "/inventory.json") = Some vb → decode vb = Some vd →
  numbered k kn → has_version d k tv → has_version vd k tv2 →
  (∃ p, has_path (default ∅ (state_of tv)) p ∧ ¬ has_path (default ∅ (state_of tv2)) p ∨
        ¬ has_path (default ∅ (state_of tv)) p ∧ has_path (default ∅ (state_of tv2)) p) →
  reported fs "E066".
Proof. intros Hw H. exact (validate_states hash decode w lx s fs Hw H b d ver v vb vd k kn tv tv2). Qed.
(** The comparison exactly: the same number of digests and the same set of logical paths. *)
Theorem C27_comparison_exact_partial st st2 :
  equal_state st st2 = true ↔ size st = size st2 ∧ ∀ p, has_path st p ↔ has_path st2 p.
Proof. exact (equal_state_iff st st2). Qed.
Example C27_example :
  ∃ fs, validate_object hexh (toy_decode doc2 doc2 (mkdoc (man doc1) {["v1" := mkver {["a78" := ["b"]]}]} "v1")) wd lx0 store2 = VDone fs ∧
    reported fs "E066" ∧ equal_state {["a78" := ["a"; "b"]]} {["a79" := ["b"; "a"]]} = true ∧
    equal_state {["a78" := ["a"; "b"]]} {["a79" := ["b"]]} = false.
Proof. eexists. split; [vm_compute; reflexivity|]. split; [found|]. split; by vm_compute. Qed.
Print Assumptions C27_path_difference_reported_partial.
Print Assumptions C27_comparison_exact_partial.
(** The inventory in v1 says that [a] had other content in version 1 than the root inventory says; nothing is reported. *)
Definition rewritten_doc1 : doc := mkdoc {["a78" := ["v1/content/a"]; "a79" := ["v1/content/z"]]}
  {["v1" := mkver {["a78" := ["a"]; "a79" := ["z"]]}]} "v1".
Definition root_doc1 : doc := mkdoc {["a78" := ["v1/content/a"]; "a79" := ["v1/content/z"]]}
  {["v1" := mkver {["a78" := ["z"]; "a79" := ["a"]]}; "v2" := mkver {["a78" := ["z"]]}]} "v2".
Definition store_rewritten : storage :=
  <["v1/content/z" := "y"]> (delete "v2/content/b" store2).
Theorem C27_other_content_refuted : ∃ decode s d e,
  s !! "inventory.json" = Some "root" ∧ decode "root" = Some d ∧ s !! "v1/inventory.json" = Some "v1" ∧ decode "v1" = Some e ∧
  validate_object hexh decode wd lx0 s = VDone [] ∧
  state_lists d "v1" "a79" "a" ∧ state_lists e "v1" "a78" "a".
Proof.
  exists (toy_decode root_doc1 root_doc1 rewritten_doc1), store_rewritten, root_doc1, rewritten_doc1.
  split; [by vm_compute|]. split; [done|]. split; [by vm_compute|]. split; [done|]. split; [by vm_compute|]. split; (eexists _, _, _, _; split; [eexists; split; [reflexivity|by vm_compute]|]; split; [reflexivity|]; split; [by vm_compute|]; left).
Qed.
Print Assumptions C27_other_content_refuted.
