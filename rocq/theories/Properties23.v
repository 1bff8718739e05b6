(** Validation of a whole storage root and loading of extensions: C65, C66. *)
From Coq Require Import Ascii.
From stdpp Require Import base list strings gmap.
From Coq Require Import ZArith Lia.
From Verif Require Import GoStr PathModel InventoryModel ObjectModel CrashSpec PathProofs LoadModel ValidateModel ValidateSpec CheckModel AcceptSpec
  RootModel RootSpec RootProofs RootCheckModel RootCheckSpec RootCheckProofs RootCheckProofs2 RootCheckProofs3 Fixtures2 Fixtures3 Properties3 Properties7 Fixtures13.

(** * C65: validation of a whole storage root *)

(** The validation of the storage root shows nothing but warnings exactly if the root declares one known version, and every object
    declares one version, not later than that of the root, and would be accepted alone.  Partial: regular storage roots. *)
Theorem C65_accepted_partial hash decode w lx create root : regular create root →
  ((∃ fs, validate_root hash decode w lx create root = RDone fs ∧ ∀ x, x ∈ fs → warning (snd x)) ↔
   ∃ rv, known_version rv ∧ one_declaration "ocfl_" rv root ∧
     ∀ p l, object_dir root p l → ∃ v, one_declaration "ocfl_object_" v l ∧ ¬ later v rv ∧ only_warnings (validate_object hash decode w lx (dir_files l))).
Proof. intros Hr. exact (root_good hash decode w lx create root Hr). Qed.
(** If the validation comes to its end, what was found in an object is shown with the folder of this object.  An object without one
    valid declaration and an object that cannot be loaded are reported by the storage root. *)
Theorem C65_reported_partial hash decode w lx create root fs p l : regular create root → validate_root hash decode w lx create root = RDone fs → object_dir root p l →
  (∀ v, ¬ one_declaration "ocfl_object_" v l) ∧ ("", Finding "E001" [p]) ∈ fs ∨
  ∃ v, one_declaration "ocfl_object_" v l ∧
    (∀ f, reports (validate_object hash decode w lx (dir_files l)) f → (p, f) ∈ fs) ∧
    (∀ fs' m, validate_object hash decode w lx (dir_files l) = VError fs' m → ("", Finding "E001" [p]) ∈ fs) ∧
    ∀ fs' rv, validate_object hash decode w lx (dir_files l) = VDone fs' → one_declaration "ocfl_" rv root → later v rv → ("", Finding "E000" [rv; v]) ∈ fs.
Proof. intros Hr. exact (root_reports hash decode w lx create root Hr fs p l). Qed.
(** Nothing but warnings is blamed on an object without being found in it. *)
Theorem C65_located_partial hash decode w lx create root fs p f : regular create root → validate_root hash decode w lx create root = RDone fs → p ≠ "" → (p, f) ∈ fs →
  ∃ l, object_dir root p l ∧ (reports (validate_object hash decode w lx (dir_files l)) f ∨ warning f).
Proof. intros Hr. exact (root_located hash decode w lx create root Hr fs p f). Qed.
(** The validation comes to its end if that of every object does. *)
Theorem C65_finished_partial hash decode w lx create root rv : regular create root → known_version rv → one_declaration "ocfl_" rv root →
  (∀ p l, object_dir root p l → (∃ fs, validate_object hash decode w lx (dir_files l) = VDone fs) ∨ ∀ v, ¬ one_declaration "ocfl_object_" v l) →
  ∃ fs, validate_root hash decode w lx create root = RDone fs.
Proof. intros Hr. exact (root_done hash decode w lx create root Hr rv). Qed.

Definition mixed_root : list (string * node) := root_of "1.1" [("a", Dir [("b", Dir good_tree)]); ("c", Dir rotten_tree)] root_exts_dir.
Definition sound_root : list (string * node) := root_of "1.1" [("a", Dir [("b", Dir good_tree)]); ("c", Dir good_tree)] root_exts_dir.
Lemma find_object_in root p : tidy_root root → p ∈ get_object_folders root → ∀ l, find_folder p root = Some l → object_dir root p l.
Proof.
  intros Ht Hp l Hl. apply root_found in Hp; [|done]. apply object_in_dir in Hp as [l' Hl']. pose proof (find_object_dir _ _ _ Ht Hl') as H. rewrite Hl in H. by injection H as ->.
Qed.
Lemma E092_no_warning args : ¬ warning (Finding "E092" args).
Proof. by intros [r [=]]. Qed.
Example C65_example :
  regular toy_create mixed_root ∧ regular toy_create sound_root ∧ object_dir mixed_root "a/b" good_tree ∧ object_dir mixed_root "c" rotten_tree ∧
  validate_root hexh rdecode wd lx0 toy_create sound_root =
    RDone [("", Finding "W000" ["0099-future"]); ("", Finding "W013" ["NNNN-mets"]); ("a/b", Finding "W000" ["0099-future"]); ("a/b", Finding "W013" ["NNNN-mets"]);
           ("", Finding "W000" ["0099-future"]); ("", Finding "W013" ["NNNN-mets"]); ("c", Finding "W000" ["0099-future"]); ("c", Finding "W013" ["NNNN-mets"])] ∧
  ∃ fs, validate_root hexh rdecode wd lx0 toy_create mixed_root = RDone fs ∧ ("c", Finding "E092" ["a79"; "v2/content/b"]) ∈ fs.
Proof.
  assert (tidy_root mixed_root) as Ht by (apply tidyb_true; by vm_compute).
  split; [apply regular_by; by vm_compute|]. split; [apply regular_by; by vm_compute|].
  split; [apply find_object_in; [done|apply (bool_decide_unpack _); by vm_compute|by vm_compute]|].
  split; [apply find_object_in; [done|apply (bool_decide_unpack _); by vm_compute|by vm_compute]|]. split; [by vm_compute|].
  eexists. split; [vm_compute; reflexivity|]. rewrite !elem_of_cons. auto 10.
Qed.
(** An object that makes the validation fail ends the validation of the storage root: no finding is shown, and the rotten file of another
    object is not noticed. *)
Theorem C65_stops_refuted : ∃ hash decode w lx create root p l f fs m, vorder_ok w ∧ regular create root ∧ object_dir root p l ∧
  reports (validate_object hash decode w lx (dir_files l)) f ∧ ¬ warning f ∧ validate_root hash decode w lx create root = RError fs m ∧ ∀ q g, (q, g) ∉ fs.
Proof.
  set (r := root_of "1.1" [("a", Dir stopping_tree); ("b", Dir rotten_tree)] root_exts_dir).
  exists hexh, rdecode, wd, lx0, toy_create, r, "b", rotten_tree, (Finding "E092" ["a79"; "v2/content/b"]), [], "checksum not created".
  assert (tidy_root r) as Ht by (apply tidyb_true; by vm_compute).
  split; [exact wd_ok|]. split; [apply regular_by; by vm_compute|]. split; [apply find_object_in; [done|apply (bool_decide_unpack _); by vm_compute|by vm_compute]|].
  split; [eexists; split; [|left; vm_compute; reflexivity]; apply elem_of_list_here|]. split; [apply E092_no_warning|]. split; [by vm_compute|].
  intros q g H. by apply elem_of_nil in H.
Qed.
(** So does an object that makes it panic. *)
Theorem C65_panic_refuted : ∃ hash decode w lx create root p l f, vorder_ok w ∧ regular create root ∧ object_dir root p l ∧
  reports (validate_object hash decode w lx (dir_files l)) f ∧ ¬ warning f ∧ validate_root hash decode w lx create root = RPanic.
Proof.
  set (r := root_of "1.1" [("a", Dir panicking_tree); ("b", Dir rotten_tree)] root_exts_dir).
  exists hexh, rdecode, wd, lx0, toy_create, r, "b", rotten_tree, (Finding "E092" ["a79"; "v2/content/b"]).
  assert (tidy_root r) as Ht by (apply tidyb_true; by vm_compute).
  split; [exact wd_ok|]. split; [apply regular_by; by vm_compute|]. split; [apply find_object_in; [done|apply (bool_decide_unpack _); by vm_compute|by vm_compute]|].
  split; [eexists; split; [|left; vm_compute; reflexivity]; apply elem_of_list_here|]. split; [apply E092_no_warning|by vm_compute].
Qed.
(** Two objects with the same identifier are accepted: identifiers are compared neither with each other nor with the folders. *)
Theorem C65_same_id_refuted : ∃ hash decode w lx create root p l q k d, vorder_ok w ∧ regular create root ∧ object_dir root p l ∧ object_dir root q k ∧ p ≠ q ∧
  (∃ a, dir_files l !! "inventory.json" = Some a ∧ decode a = Some d) ∧ (∃ b, dir_files k !! "inventory.json" = Some b ∧ decode b = Some d) ∧
  ∃ fs, validate_root hash decode w lx create root = RDone fs ∧ ∀ x, x ∈ fs → warning (snd x).
Proof.
  exists hexh, rdecode, wd, lx0, toy_create, sound_root, "a/b", good_tree, "c", good_tree, doc2.
  assert (tidy_root sound_root) as Ht by (apply tidyb_true; by vm_compute).
  split; [exact wd_ok|]. split; [apply regular_by; by vm_compute|]. split; [apply find_object_in; [done|apply (bool_decide_unpack _); by vm_compute|by vm_compute]|].
  split; [apply find_object_in; [done|apply (bool_decide_unpack _); by vm_compute|by vm_compute]|]. split; [done|].
  split; [exists "root"; split; by vm_compute|]. split; [exists "root"; split; by vm_compute|].
  eexists. split; [vm_compute; reflexivity|]. intros x Hx. rewrite !elem_of_cons, elem_of_nil in Hx.
  destruct Hx as [-> |[-> |[-> |[-> |[-> |[-> |[-> |[-> |[]]]]]]]]]; by eexists.
Qed.
(** An empty directory, which the standard forbids, is accepted. *)
Theorem C65_empty_directory_refuted : ∃ hash decode w lx create root, vorder_ok w ∧ regular create root ∧ ("e", Dir []) ∈ root ∧
  validate_root hash decode w lx create root = RDone [].
Proof.
  exists hexh, rdecode, wd, lx0, toy_create, (root_of "1.1" [("e", Dir [])] root_exts_dir). split; [exact wd_ok|]. split; [apply regular_by; by vm_compute|].
  split; [apply elem_of_list_further, elem_of_list_here|by vm_compute].
Qed.
(** A file in a directory of the storage hierarchy hides the objects that are listed after it: the directory is reported as an object
    without declaration, the rotten object in it is not. *)
Theorem C65_stray_file_refuted : ∃ hash decode w lx create root p l f fs, vorder_ok w ∧ object_dir root p l ∧
  reports (validate_object hash decode w lx (dir_files l)) f ∧ ¬ warning f ∧ validate_root hash decode w lx create root = RDone fs ∧ ∀ q, (q, f) ∉ fs.
Proof.
  exists hexh, rdecode, wd, lx0, toy_create, (root_of "1.1" [("a", Dir [("README", File ""); ("b", Dir rotten_tree)])] root_exts_dir), "a/b", rotten_tree,
    (Finding "E092" ["a79"; "v2/content/b"]). eexists.
  split; [exact wd_ok|]. split.
  { exists "a", [("README", File ""); ("b", Dir rotten_tree)], ["b"]. split; [apply elem_of_list_further, elem_of_list_here|]. split; [done|]. split; [|split; [|done]].
    - eapply object_below; [|apply elem_of_list_further, elem_of_list_here|apply object_here; exists "1.1"; eexists; apply elem_of_list_here].
      intros (v & data & H). rewrite !elem_of_cons, elem_of_nil in H. by destruct H as [[= H]|[[= H]|[]]].
    - eapply leads_below; [apply elem_of_list_further, elem_of_list_here|apply leads_here]. }
  split; [eexists; split; [|left; vm_compute; reflexivity]; apply elem_of_list_here|]. split; [apply E092_no_warning|]. split; [vm_compute; reflexivity|].
  intros q H. rewrite !elem_of_cons, elem_of_nil in H. by destruct H as [[= H]|[[= H]|[]]].
Qed.
Print Assumptions C65_accepted_partial.
Print Assumptions C65_reported_partial.
Print Assumptions C65_located_partial.
Print Assumptions C65_finished_partial.
Print Assumptions C65_stops_refuted.
Print Assumptions C65_panic_refuted.
Print Assumptions C65_same_id_refuted.
Print Assumptions C65_empty_directory_refuted.
Print Assumptions C65_stray_file_refuted.

(** * C66: extensions that the program does not know *)

(** The extensions of an object: those that can be created are taken over in the order of their folders, apart from initial and the
    manager; each of the others gives one warning, and each one that is not registered another.  Partial: extensions folders as the program
    writes them. *)
Theorem C66_object_partial create e : managed create e → ∃ ws es, create_extensions true create e = XOk ws es ∧
  (∀ f, f ∈ ws ↔ (∃ name, unknown create e name ∧ f = Finding "W000" [name]) ∨ ∃ name x, creates create e name x ∧ x_registered x = false ∧ f = Finding "W013" [name]) ∧
  (∀ x, x ∈ es ↔ ∃ name, creates create e name x ∧ name ≠ "initial" ∧ name ≠ manager_name) ∧
  (x_name <$> es) `sublist_of` (fst <$> e).
Proof.
  intros Hm. exists (loop_ws create e), (others create e). split; [by apply ext_object|]. split; [|split].
  - intros f. unfold loop_ws. rewrite elem_of_list_bind. split.
    + intros ([name [d|sub]] & Hf & Hi); cbn [fst snd] in Hf; [by apply elem_of_nil in Hf|]. destruct (create sub) as [x|] eqn:Ex.
      * right. exists name, x. assert (creates create e name x) as Hc by (by exists sub). split; [done|]. rewrite (mg_name _ _ Hm _ _ Hc) in Hf.
        destruct (x_registered x); cbn in Hf; [by apply elem_of_nil in Hf|]. apply elem_of_list_singleton in Hf. done.
      * left. exists name. apply elem_of_list_singleton in Hf. split; [by exists sub|done].
    + intros [(name & (sub & Hi & Hx) & ->)|(name & x & (sub & Hi & Hx) & Hr & ->)]; exists (name, Dir sub); (split; [|done]); cbn [fst snd]; rewrite Hx; [apply elem_of_list_here|].
      rewrite Hr, (mg_name _ _ Hm name x) by (by exists sub). apply elem_of_list_here.
  - intros x. unfold others. rewrite elem_filter, created_elem. split.
    + intros ((name & Hc) & Hn). exists name. split; [done|]. rewrite (mg_name _ _ Hm _ _ Hc) in Hn.
      apply negb_true_iff, bool_decide_eq_false in Hn. tauto.
    + intros (name & Hc & H1 & H2). split; [by exists name|]. rewrite (mg_name _ _ Hm _ _ Hc). apply negb_true_iff, bool_decide_eq_false. tauto.
  - assert (∀ name x, creates create e name x → x_name x = name) as Hn by apply Hm. clear Hm. unfold others, created. induction e as [|[name n] e IH]; [constructor|].
    cbn [fmap list_fmap omap list_omap fst snd].
    assert ((x_name <$> List.filter (λ x, negb (bool_decide (x_name x = "initial" ∨ x_name x = manager_name)))
      (omap (λ e : string * node, match snd e with Dir sub => create sub | File _ => None end) e)) `sublist_of` (fst <$> e)) as IH'.
    { apply IH. intros nm x Hc. by apply Hn, creates_cons. }
    destruct n as [d|sub]; [by apply sublist_cons|]. destruct (create sub) as [x|] eqn:Ex; [|by apply sublist_cons].
    cbn [List.filter]. destruct (negb _); [|by apply sublist_cons]. cbn [fmap list_fmap]. rewrite (Hn name x); [by apply sublist_skip|].
    exists sub. split; [apply elem_of_list_here|done].
Qed.
(** One unknown extension in the storage root, and validation panics, whatever else is there; every other command loads the storage
    root in the same way. *)
Theorem C66_root_panics hash decode w lx create root e name : NoDup (fst <$> root) → extensions_of root e → unknown create e name →
  get_version "ocfl_" root ≠ GMultiple → (∀ v, get_version "ocfl_" root ≠ GInvalid v) → validate_root hash decode w lx create root = RPanic.
Proof.
  intros Hnd He Hu H1 H2. rewrite (extensions_found root e Hnd He) in Hu. unfold validate_root, load_root. rewrite (ext_panics create _ name Hu).
  destruct (get_version "ocfl_" root) as [v|v| |]; [done|by contradiction (H2 v)|done|done].
Qed.
Theorem C66_root_refuted : ∃ create root e name rv, tidy_root root ∧ extensions_of root e ∧ managed create e ∧ unknown create e name ∧ one_declaration "ocfl_" rv root ∧
  ∀ hash decode w lx, validate_root hash decode w lx create root = RPanic.
Proof.
  set (r := root_of "1.1" [("a", Dir good_tree)] strange_exts). assert (tidy_root r) as Ht by (apply tidyb_true; by vm_compute).
  assert (extensions_of r strange_exts) as He by (left; apply elem_of_list_further, elem_of_list_further, elem_of_list_here).
  assert (unknown toy_create strange_exts "0099-future") as Hu by (eexists; split; [apply elem_of_list_here|by vm_compute]).
  assert (get_version "ocfl_" r = GOk "1.1") as Hg by (by vm_compute).
  exists toy_create, r, strange_exts, "0099-future", "1.1". split; [done|]. split; [done|]. split; [apply managedb_true; by vm_compute|]. split; [done|].
  split; [apply gv_exact; [apply Ht|apply names_ok_true; by vm_compute|done]|].
  intros hash decode w lx. apply (C66_root_panics _ _ _ _ _ _ strange_exts "0099-future"); [apply Ht|done|done|by rewrite Hg|by rewrite Hg].
Qed.
Example C66_example :
  managed toy_create (strange_exts ++ root_exts_dir) ∧
  create_extensions true toy_create (strange_exts ++ root_exts_dir) =
    XOk [Finding "W000" ["0099-future"]; Finding "W013" ["NNNN-mets"]] [Ext "NNNN-mets" false None false; Ext "0001-digest-algorithms" true None false].
Proof. split; [apply managedb_true|]; by vm_compute. Qed.
(** A folder of the manager without the folder initial: the extensions cannot be loaded, and so the object cannot either. *)
Theorem C66_manager_alone_refuted : ∃ create e ws, (∀ name x, creates create e name x → x_name x = name) ∧ (∀ name, ¬ unknown create e name) ∧ NoDup (fst <$> e) ∧
  (∃ x, creates create e manager_name x ∧ x_manager x = true) ∧ create_extensions true create e = XErr ws.
Proof.
  exists toy_create, (take 2 root_exts_dir), []. split; [|split; [apply knownb_true; by vm_compute|split; [apply (bool_decide_unpack _); by vm_compute|split; [|by vm_compute]]]].
  - intros name x (sub & Hi & Hx). unfold root_exts_dir in Hi. cbn [take] in Hi. rewrite !elem_of_cons, elem_of_nil in Hi.
    destruct Hi as [[= -> ->]|[[= -> ->]|[]]]; vm_compute in Hx; injection Hx as <-; done.
  - exists (Ext manager_name true None true). split; [|done]. eexists. split; [apply elem_of_list_further, elem_of_list_here|by vm_compute].
Qed.
(** The standard lets the folder initial hold any extension.  A manager of another name in it is not made the manager of the extensions:
    they cannot be loaded. *)
Definition own_create (l : list (string * node)) : option ext :=
  match list_find (λ e : string * node, fst e = "config.json") l with
  | Some (_, (_, File data)) => if decide (data = "NNNN-own-manager") then Some (Ext "NNNN-own-manager" true None true) else None
  | _ => None
  end.
Theorem C66_own_manager_refuted : ∃ create e ws x, NoDup (fst <$> e) ∧ (∀ name, ¬ unknown create e name) ∧ creates create e "initial" x ∧ x_manager x = true ∧
  create_extensions true create e = XErr ws.
Proof.
  exists own_create, [("initial", Dir (config "NNNN-own-manager"))], [], (Ext "NNNN-own-manager" true None true).
  split; [apply (bool_decide_unpack _); by vm_compute|]. split; [apply knownb_true; by vm_compute|]. split; [|split; [done|by vm_compute]].
  eexists. split; [apply elem_of_list_here|by vm_compute].
Qed.
Print Assumptions C66_object_partial.
Print Assumptions C66_root_panics.
Print Assumptions C66_root_refuted.
Print Assumptions C66_manager_alone_refuted.
Print Assumptions C66_own_manager_refuted.
