(** Properties C40, C41 and C42: storage roots. *)
From Coq Require Import Ascii ZArith Lia.
From stdpp Require Import base list strings gmap.
From Verif Require Import GoStr PathModel PathProofs InventoryModel ObjectModel CrashSpec LayoutModel RootModel RootSpec RootProofs Properties4.

(** * C40: object folders *)

(** Full statement: for all listings of objects.  Missing: objects of which the file system lists a directory before the first
    file; see the refutations. *)
Theorem C40_found_once_partial root : tidy_root root →
  NoDup (get_object_folders root) ∧ ∀ p, p ∈ get_object_folders root ↔ object_in root p.
Proof. apply root_found. Qed.
(** The hypothesis on objects holds for listings in byte order, as long as objects hold no other directories than the standard
    allows. *)
Theorem C40_sorted_object l : declares l → in_order l → object_folders_only l → NoDup (fst <$> l) →
  (∀ name n, (name, n) ∈ l → plain_name name) → hierarchy l.
Proof.
  intros Hd Ho Hf Hn Hp. destruct (first_is_file l Hd Ho Hf Hn) as (name & data & l' & ->).
  eapply hierarchy_object; [exact Hd|done|]. apply (Hp name (File data)), elem_of_list_here.
Qed.
Definition small_object : list (string * node) :=
  [("0=ocfl_object_1.1", File "ocfl_object_1.1"); ("inventory.json", File "{}"); ("v1", Dir [("inventory.json", File "{}")])].
Definition small_root : list (string * node) :=
  [("0=ocfl_1.1", File "ocfl_1.1"); ("a", Dir [("b", Dir small_object); ("c", Dir small_object)]); ("d", Dir small_object);
   ("extensions", Dir [("x", Dir [("config.json", File "{}")])])].
Lemma plain_by name : bool_decide (name ≠ "" ∧ name ≠ "." ∧ name ≠ ".." ∧ str_mem slash name = false) = true → plain_name name.
Proof. intros H. by apply bool_decide_eq_true in H. Qed.
Example C40_example : tidy_root small_root ∧ get_object_folders small_root = ["a/b"; "a/c"; "d"].
Proof.
  assert (hierarchy small_object) as Ho.
  { eapply hierarchy_object; [|reflexivity|by apply plain_by]. exists "1.1", "ocfl_object_1.1". apply elem_of_list_here. }
  split; [|by vm_compute]. split; [apply (bool_decide_unpack _); by vm_compute|].
  intros name sub Hi. unfold small_root in Hi. rewrite !elem_of_cons in Hi. destruct Hi as [?|[[= -> ->]|[[= -> ->]|[[= -> ->]|Hi]]]].
  - done.
  - split; [by apply plain_by|]. intros _. apply hierarchy_inner.
    + intros name n Hi. rewrite !elem_of_cons in Hi. destruct Hi as [[= -> ->]|[[= -> ->]|Hi]]; [| |by apply elem_of_nil in Hi];
        (split; [by apply plain_by|by eexists]).
    + apply (bool_decide_unpack _). by vm_compute.
    + intros name sub Hi. rewrite !elem_of_cons in Hi. destruct Hi as [[= -> ->]|[[= -> ->]|Hi]]; [done|done|by apply elem_of_nil in Hi].
  - split; [by apply plain_by|]. by intros _.
  - split; [by apply plain_by|]. done.
  - by apply elem_of_nil in Hi.
Qed.
(** A file system that lists directories before files: folders inside an object are reported as objects. *)
Theorem C40_listing_order_refuted : ∃ root q sub r,
  (q, Dir sub) ∈ root ∧ declares sub ∧ object_folders_only sub ∧ (q +:+ "/" +:+ r) ∈ get_object_folders root.
Proof.
  exists [("obj", Dir [("v1", Dir [("inventory.json", File "{}")]); ("0=ocfl_object_1.1", File "")])], "obj",
    [("v1", Dir [("inventory.json", File "{}")]); ("0=ocfl_object_1.1", File "")], "v1".
  split; [apply elem_of_list_here|]. split; [exists "1.1", ""; apply elem_of_list_further, elem_of_list_here|]. split.
  - intros name s Hi. rewrite !elem_of_cons in Hi. destruct Hi as [[= -> _]|[?|Hi]]; [left; by eexists|done|by apply elem_of_nil in Hi].
  - apply (bool_decide_unpack _). by vm_compute.
Qed.
(** A listing in byte order, with a directory in the object whose name sorts before the declaration. *)
Theorem C40_foreign_directory_refuted : ∃ root q sub r,
  (q, Dir sub) ∈ root ∧ declares sub ∧ in_order sub ∧ (q +:+ "/" +:+ r) ∈ get_object_folders root.
Proof.
  exists [("obj", Dir [("#tmp", Dir [("x", File "")]); ("0=ocfl_object_1.1", File "")])], "obj",
    [("#tmp", Dir [("x", File "")]); ("0=ocfl_object_1.1", File "")], "#tmp".
  split; [apply elem_of_list_here|]. split; [exists "1.1", ""; apply elem_of_list_further, elem_of_list_here|]. split.
  - intros i j a b Hij Hi Hj. destruct i as [|[|i]], j as [|[|j]]; try lia; try done.
    cbn in Hi, Hj. injection Hi as <-. injection Hj as <-. by vm_compute.
  - apply (bool_decide_unpack _). by vm_compute.
Qed.

(** * C41: version declarations *)

(** Full statement: for all listings.  Missing: file names that contain a declaration without being one; see the refutation. *)
Theorem C41_exact_partial prefix l v : NoDup (fst <$> l) → well_named prefix l →
  get_version prefix l = GOk v ↔ one_declaration prefix v l.
Proof. apply gv_exact. Qed.
(** Without the restriction: an accepted version is in the name and in the content of a file. *)
Theorem C41_content_checked prefix l v : get_version prefix l = GOk v →
  version_number v ∧ ∃ a b data, (a +:+ declaration prefix v +:+ b, File data) ∈ l ∧ declared prefix v data.
Proof. apply gv_sound. Qed.
Theorem C41_none prefix l : get_version prefix l = GNone ↔
  ∀ a v b data, version_number v → (a +:+ declaration prefix v +:+ b, File data) ∉ l.
Proof. apply gv_none. Qed.
Theorem C41_two_declarations prefix l i j v w x y z :
  i ≠ j → version_number v → version_number w →
  l !! i = Some (declaration prefix v, File x) → l !! j = Some (declaration prefix w, File y) →
  get_version prefix l ≠ GOk z.
Proof.
  intros Hij Hv Hw Hi Hj. apply (gv_two prefix l i j _ _ _ _ Hij Hi Hj); by rewrite find_exact.
Qed.
(** A storage root that is loaded is declared with a known version, or not declared at all. *)
Theorem C41_root_partial l v : NoDup (fst <$> l) → well_named "ocfl_" l → load_root_version l = Some v →
  (v = "1.0" ∨ v = "1.1" ∨ v = "2.0") ∧
  (one_declaration "ocfl_" v l ∨ v = "1.0" ∧ ∀ w data, version_number w → (declaration "ocfl_" w, File data) ∉ l).
Proof.
  intros Hn Hw. unfold load_root_version. destruct (get_version "ocfl_" l) as [w|w| |] eqn:E; [|done|done|].
  - destruct (decide _) as [H|]; [|done]. intros [= ->]. split; [done|]. left. by apply gv_exact.
  - intros [= <-]. split; [by left|]. right. split; [done|]. intros w data Hv Hi.
    apply (proj1 (gv_none "ocfl_" l) E "" w "" data Hv). by rewrite str_app_nil_l, str_app_nil_r.
Qed.
(** An object that is loaded is declared. *)
Theorem C41_object_partial l v : NoDup (fst <$> l) → well_named "ocfl_object_" l → load_object_version l = Some v →
  ∃ w, one_declaration "ocfl_object_" w l ∧ (w = "1.0" ∨ w = "1.1" ∨ w = "2.0" → w = v).
Proof.
  intros Hn Hw. unfold load_object_version. destruct (get_version "ocfl_object_" l) as [w|w| |] eqn:E; try done.
  intros [= <-]. exists w. split; [by apply gv_exact|]. by intros [-> | [-> | ->]].
Qed.
Lemma version_by a b : bool_decide (a ≠ "" ∧ b ≠ "" ∧ Forall (λ c, is_digit c = true) (list_ascii_of_string a ++ list_ascii_of_string b)) = true →
  version_number (a +:+ "." +:+ b).
Proof.
  intros H. apply bool_decide_eq_true in H as (Ha & Hb & H). apply Forall_app in H as [H1 H2].
  exists a, b. split; [|split; [|done]]; apply digits_all; (split; [done|]); intros c Hc.
  - exact (proj1 (stdpp.list.Forall_forall _ _) H1 c Hc).
  - exact (proj1 (stdpp.list.Forall_forall _ _) H2 c Hc).
Qed.
Definition declared_root : list (string * node) :=
  [("0=ocfl_1.1", File ("ocfl_1.1" +:+ String "010" "")); ("a", Dir []); ("ocfl_layout.json", File "{}")].
Example C41_example : NoDup (fst <$> declared_root) ∧ well_named "ocfl_" declared_root ∧ one_declaration "ocfl_" "1.1" declared_root ∧
  load_root_version declared_root = Some "1.1".
Proof.
  assert (NoDup (fst <$> declared_root)) as Hn by (apply (bool_decide_unpack _); by vm_compute).
  assert (version_number "1.1") as Hv by (by apply (version_by "1" "1")).
  assert (well_named "ocfl_" declared_root) as Hw.
  { intros name data Hi a v b E Hvv. pose proof (find_complete "ocfl_" a v b Hvv) as Hf. rewrite <- E in Hf.
    unfold declared_root in Hi. rewrite !elem_of_cons in Hi. destruct Hi as [[= -> ->]|[?|[[= -> ->]|Hi]]].
    - by exists "1.1".
    - done.
    - by contradiction Hf.
    - by apply elem_of_nil in Hi. }
  split; [done|]. split; [done|]. split; [|by vm_compute]. apply (gv_exact _ _ _ Hn Hw). by vm_compute.
Qed.
(** The regular expression is not anchored: a copy with another name is taken for the declaration, *)
Theorem C41_other_name_refuted : ∃ name data v, load_object_version [(name, File data)] = Some v ∧
  ∀ w, name ≠ declaration "ocfl_object_" w.
Proof.
  exists "backup-0=ocfl_object_1.0.txt", ("ocfl_object_1.0" +:+ String "010" ""), "1.0". split; [by vm_compute|]. by intros w [=].
Qed.
(** and makes a correctly declared object unreadable. *)
Theorem C41_copy_refuted : ∃ l, one_declaration "ocfl_object_" "1.0" l ∧ NoDup (fst <$> l) ∧ load_object_version l = None.
Proof.
  set (data := "ocfl_object_1.0" +:+ String "010" "").
  exists [("0=ocfl_object_1.0", File data); ("0=ocfl_object_1.0.bak", File data)].
  split; [|split; [apply (bool_decide_unpack _); by vm_compute|by vm_compute]].
  split; [by apply (version_by "1" "0")|]. split; [exists data; split; [apply elem_of_list_here|by left]|].
  intros w d Hw Hi. rewrite !elem_of_cons in Hi. destruct Hi as [[= -> _]|[[= E _]|Hi]]; [done| |by apply elem_of_nil in Hi].
  exfalso. destruct Hw as (a & b & Ha & Hb & E2). subst w. apply digits_all in Ha as [Ha1 Ha2]. apply digits_all in Hb as [Hb1 Hb2].
  assert (span_digits (a +:+ String "." b) = (a, String "." b)) as HS by (by apply span_app).
  assert (a +:+ String "." b = "1.0.bak") as E' by exact E. rewrite E' in HS. vm_compute in HS. injection HS as <- <-.
  specialize (Hb2 "."%char ltac:(apply elem_of_list_further, elem_of_list_here)). by vm_compute in Hb2.
Qed.
(** An object declared with a version that does not exist is loaded as version 1.0. *)
Theorem C41_unknown_version_refuted : ∃ l, one_declaration "ocfl_object_" "7.3" l ∧ load_object_version l = Some "1.0".
Proof.
  set (data := "ocfl_object_7.3" +:+ String "010" ""). exists [("0=ocfl_object_7.3", File data)]. split; [|by vm_compute].
  split; [by apply (version_by "7" "3")|]. split; [exists data; split; [apply elem_of_list_here|by left]|].
  intros w d Hw Hi. apply elem_of_list_singleton in Hi. by injection Hi.
Qed.
(** A directory without any declaration is loaded as a storage root. *)
Theorem C41_no_declaration_refuted : ∃ l v, load_root_version l = Some v ∧ ∀ name data, (name, File data) ∉ l.
Proof. exists [], "1.0". split; [done|]. intros name data H. by apply elem_of_nil in H. Qed.
(** validVersion accepts a declaration with wrong content. *)
Theorem C41_valid_version_refuted : ∃ l, valid_version "ocfl_" "1.0" l = true ∧ ∀ name data, (name, File data) ∈ l → ¬ declared "ocfl_" "1.0" data.
Proof.
  exists [("0=ocfl_1.0", File "rubbish")]. split; [by vm_compute|].
  intros name data Hi. apply elem_of_list_singleton in Hi. injection Hi as -> ->. by intros [[=]|[=]].
Qed.

(** * C42: creation *)

(** A folder that holds a file: creation fails and changes nothing. *)
Theorem C42_occupied ls id version fx s folder e :
  root_path ls id = Some (folder, e) → path_clean folder = folder → occupied s folder →
  ∃ m, create_object ls id version fx s = (s, SErr m).
Proof. intros Hr Hc [p Hp]. unfold create_object. rewrite Hr. by eapply init_occupied. Qed.
(** Whatever the outcome, no existing file is changed. *)
Theorem C42_existing_unchanged ls id version fx s : s ⊆ fst (create_object ls id version fx s).
Proof. unfold create_object. destruct (root_path ls id) as [[folder e]|]; [apply init_keeps|done]. Qed.
(** A successful creation adds the declaration to an empty folder, and nothing else. *)
Theorem C42_success ls id version fx s s' folder e :
  root_path ls id = Some (folder, e) → path_clean folder = folder → create_object ls id version fx s = (s', SOk) →
  ¬ occupied s folder ∧
  ∃ v, (v = "1.0" ∨ v = "1.1" ∨ v = "2.0") ∧ (version = "1.0" ∨ version = "1.1" ∨ version = "2.0" → v = version) ∧
    s' = <[path_join [folder; "0=ocfl_object_" +:+ v] := "ocfl_object_" +:+ v +:+ String "010" ""]> s.
Proof.
  intros Hr Hc H. split.
  { intros Ho. destruct (C42_occupied ls id version fx s folder e Hr Hc Ho) as [m Hm]. congruence. }
  exists (object_class version). split; [|split].
  - unfold object_class. destruct (decide _); [auto|]. destruct (decide _); auto.
  - by intros [-> | [-> | ->]].
  - unfold create_object in H. rewrite Hr in H. unfold object_init in H. destruct (s !! _); [done|].
    destruct (entries_below s folder); [|done]. destruct fx; [|done]. by injection H as <-.
Qed.
(** Two identifiers with the same folder: the second creation fails and the first object stays as it is. *)
Theorem C42_same_folder ls id1 id2 v1 v2 fx1 fx2 s s1 names e1 e2 :
  names ≠ [] → Forall plain_name names →
  root_path ls id1 = Some (join_slash names, e1) → root_path ls id2 = Some (join_slash names, e2) →
  create_object ls id1 v1 fx1 s = (s1, SOk) → ∃ m, create_object ls id2 v2 fx2 s1 = (s1, SErr m).
Proof.
  intros Hne Hp H1 H2 H. assert (path_clean (join_slash names) = join_slash names) as Hc by (by apply path_clean_plain).
  destruct (C42_success _ _ _ _ _ _ _ _ H1 Hc H) as (_ & v & Hv & _ & ->).
  eapply C42_occupied; [exact H2|done|]. exists ("0=ocfl_object_" +:+ v).
  assert (plain_name ("0=ocfl_object_" +:+ v)) as Hpv by (destruct Hv as [-> | [-> | ->]]; by apply plain_by).
  rewrite path_join_name by done. rewrite join_slash_app by done. cbn [join_slash str_join]. rewrite lookup_insert. by eexists.
Qed.
(** A storage root is created in an empty directory only. *)
Theorem C42_root_occupied version others s : s ≠ ∅ → ∃ m, root_init version others s = (s, SErr m).
Proof. apply root_keeps_nothing. Qed.
Definition some_storage : storage := {[ "a/b/0=ocfl_object_1.0" := "ocfl_object_1.0"; "x" := "y" ]}.
Example C42_example :
  root_path [λ _, POk "a/b"] "id" = Some ("a/b", false) ∧ path_clean "a/b" = "a/b" ∧ occupied some_storage "a/b" ∧
  snd (create_object [λ _, POk "a/b"] "id" "1.1" true some_storage) = SErr "is not empty" ∧
  snd (create_object [λ _, POk "a/c"] "id" "1.1" true some_storage) = SOk ∧
  snd (create_object [λ _, POk "a/c"] "id" "1.1" true (fst (create_object [λ _, POk "a/c"] "id" "1.1" false some_storage)))
    = SErr "already exists".
Proof.
  split; [done|]. split; [done|]. split; [|by vm_compute]. exists "0=ocfl_object_1.0". eexists. by vm_compute.
Qed.
(** The error of the mapping is ignored: a layout that cannot map any identifier stores the object under the identifier itself,
    which may lead out of the storage root; asking for the object afterwards fails. *)
Theorem C42_mapping_error_refuted : ∃ c id s',
  new4 toy_hashes c = Some c ∧ (∀ id, ∃ m, build toy_hashes (Lay4 c) id = PErr m) ∧
  create_object [build toy_hashes (Lay4 c)] id "1.1" true ∅ = (s', SOk) ∧
  is_Some (s' !! "../x/0=ocfl_object_1.1") ∧ object_exists [build toy_hashes (Lay4 c)] id s' = None.
Proof.
  exists (Conf4 "toy" 9 9 false), "../x", (fst (create_object [build toy_hashes (Lay4 (Conf4 "toy" 9 9 false))] "../x" "1.1" true ∅)).
  split; [by vm_compute|]. split.
  - intros id. exists "digest to short". done.
  - split; [by vm_compute|]. split; [eexists; by vm_compute|]. by vm_compute.
Qed.

Print Assumptions C40_found_once_partial.
Print Assumptions C40_sorted_object.
Print Assumptions C40_listing_order_refuted.
Print Assumptions C40_foreign_directory_refuted.
Print Assumptions C41_exact_partial.
Print Assumptions C41_content_checked.
Print Assumptions C41_none.
Print Assumptions C41_two_declarations.
Print Assumptions C41_root_partial.
Print Assumptions C41_object_partial.
Print Assumptions C41_other_name_refuted.
Print Assumptions C41_copy_refuted.
Print Assumptions C41_unknown_version_refuted.
Print Assumptions C41_no_declaration_refuted.
Print Assumptions C41_valid_version_refuted.
Print Assumptions C42_occupied.
Print Assumptions C42_existing_unchanged.
Print Assumptions C42_success.
Print Assumptions C42_same_folder.
Print Assumptions C42_root_occupied.
Print Assumptions C42_mapping_error_refuted.
