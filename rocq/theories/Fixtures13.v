(** Storage roots for the examples of Properties23. *)
From Coq Require Import Ascii.
From stdpp Require Import base list strings gmap.
From Coq Require Import ZArith Lia.
From Verif Require Import GoStr PathModel InventoryModel ObjectModel CrashSpec PathProofs LoadModel ValidateModel ValidateSpec CheckModel AcceptSpec
  RootModel RootSpec RootProofs RootCheckModel RootCheckSpec RootCheckProofs RootCheckProofs2 RootCheckProofs3 Fixtures2 Fixtures3 Properties3 Properties7.

(** A factory that knows three extensions by the content of config.json. *)
Definition config (name : string) : list (string * node) := [("config.json", File name)].
Definition toy_create (l : list (string * node)) : option ext :=
  match list_find (λ e : string * node, fst e = "config.json") l with
  | Some (_, (_, File data)) =>
      if decide (data = "initial") then Some (Ext "initial" true (Some manager_name) false)
      else if decide (data = manager_name) then Some (Ext manager_name true None true)
      else if decide (data = "0001-digest-algorithms") then Some (Ext "0001-digest-algorithms" true None false)
      else if decide (data = "NNNN-mets") then Some (Ext "NNNN-mets" false None false) else None
  | _ => None
  end.
Definition rdecode (b : string) : option doc :=
  if decide (b = "root") then Some doc2 else if decide (b = "v2") then Some doc2 else if decide (b = "v1") then Some doc1
  else if decide (b = "fix") then Some badfix2 else None.
Definition object_tree (inv content : string) (first : bool) (exts : list (string * node)) : list (string * node) :=
  [("0=ocfl_object_1.1", File ("ocfl_object_1.1" +:+ String "010" "")); ("extensions", Dir exts); ("inventory.json", File inv); ("inventory.json.sha512", File (toy_side inv));
   ("v1", Dir (("content", Dir [("a", File "x")]) :: (if first then [("inventory.json", File "v1"); ("inventory.json.sha512", File (toy_side "v1"))] else [])));
   ("v2", Dir [("content", Dir [("b", File content)]); ("inventory.json", File "v2"); ("inventory.json.sha512", File (toy_side "v2"))])].
Definition root_exts_dir : list (string * node) :=
  [("0001-digest-algorithms", Dir (config "0001-digest-algorithms")); ("NNNN-gocfl-extension-manager", Dir (config manager_name)); ("initial", Dir (config "initial"))].
Definition strange_exts : list (string * node) :=
  [("0099-future", Dir (config "0099-future")); ("NNNN-mets", Dir (config "NNNN-mets")); ("readme.txt", File "")].
Definition good_tree := object_tree "root" "y" true strange_exts.
Definition rotten_tree := object_tree "root" "z" true [].
Definition stopping_tree := object_tree "fix" "y" true [].
Definition panicking_tree := object_tree "root" "y" false [].
Definition root_decl (v : string) : string * node := ("0=ocfl_" +:+ v, File ("ocfl_" +:+ v +:+ String "010" "")).
Definition root_of (v : string) (dirs exts : list (string * node)) : list (string * node) :=
  root_decl v :: dirs ++ [("extensions", Dir exts); ("ocfl_layout.json", File "{}")].

(** * Deciding the hypotheses *)
Definition names_ok (prefix : string) (l : list (string * node)) : bool :=
  forallb (λ e : string * node, match snd e with
    | Dir _ => true
    | File _ => bool_decide (find_version prefix (fst e) = None) || bool_decide (fst e = declaration prefix "1.0") || bool_decide (fst e = declaration prefix "1.1")
    end) l.
Lemma names_ok_true prefix l : names_ok prefix l = true → well_named prefix l.
Proof.
  intros H name data Hi a v b E Hv. unfold names_ok in H. rewrite forallb_forall in H. specialize (H (name, File data) (proj1 (elem_of_list_In _ _) Hi)). cbn [fst snd] in H.
  apply orb_true_iff in H as [H|H%bool_decide_eq_true]; [apply orb_true_iff in H as [H%bool_decide_eq_true|H%bool_decide_eq_true]|].
  - pose proof (find_complete prefix a v b Hv) as Hf. rewrite <- E in Hf. done.
  - exists "1.0". split; [apply version_by_number; auto|done].
  - exists "1.1". split; [apply version_by_number; auto|done].
Qed.
Definition managedb (create : list (string * node) → option ext) (e : list (string * node)) : bool :=
  bool_decide (NoDup (fst <$> e)) &&
  forallb (λ d : string * node, match snd d with
    | Dir sub => match create sub with
                 | Some x => bool_decide (x_name x = fst d ∧ (fst d = "initial" → x_initial x = Some manager_name) ∧ (fst d = manager_name → x_manager x = true))
                 | None => true end
    | File _ => true end) e &&
  let has n := existsb (λ d : string * node, match snd d with Dir sub => bool_decide (fst d = n ∧ is_Some (create sub)) | File _ => false end) e in
  eqb (has "initial") (has manager_name).
Lemma managedb_true create e : managedb create e = true → managed create e.
Proof.
  unfold managedb. intros [[H1%bool_decide_eq_true H2]%andb_prop H3]%andb_prop. rewrite forallb_forall in H2. cbv zeta in H3. apply eqb_prop in H3.
  assert (∀ name x, creates create e name x → x_name x = name ∧ (name = "initial" → x_initial x = Some manager_name) ∧ (name = manager_name → x_manager x = true)) as Hc.
  { intros name x (sub & Hi & Hx). specialize (H2 (name, Dir sub) (proj1 (elem_of_list_In _ _) Hi)). cbn [fst snd] in H2. rewrite Hx in H2. by apply bool_decide_eq_true in H2. }
  assert (∀ n, existsb (λ d : string * node, match snd d with Dir sub => bool_decide (fst d = n ∧ is_Some (create sub)) | File _ => false end) e = true ↔ ∃ x, creates create e n x) as Hh.
  { intros n. rewrite existsb_exists. split.
    - intros ([nm [d|sub]] & Hi & Hd); [done|]. cbn [fst snd] in Hd. apply bool_decide_eq_true in Hd as [-> [x Hx]]. exists x, sub. split; [by apply elem_of_list_In|done].
    - intros (x & sub & Hi & Hx). exists (n, Dir sub). split; [by apply elem_of_list_In|]. cbn [fst snd]. apply bool_decide_eq_true. split; [done|]. by eexists. }
  constructor; [done|..].
  - intros name x H. by apply Hc.
  - intros x H. by apply Hc in H as (_ & H & _); auto.
  - intros x H. by apply Hc in H as (_ & _ & H); auto.
  - rewrite <- !Hh, H3. done.
Qed.
Definition knownb (create : list (string * node) → option ext) (e : list (string * node)) : bool :=
  forallb (λ d : string * node, match snd d with Dir sub => bool_decide (is_Some (create sub)) | File _ => true end) e.
Lemma knownb_true create e : knownb create e = true → ∀ name, ¬ unknown create e name.
Proof.
  intros H name (sub & Hi & Hx). unfold knownb in H. rewrite forallb_forall in H. specialize (H (name, Dir sub) (proj1 (elem_of_list_In _ _) Hi)). cbn [fst snd] in H.
  apply bool_decide_eq_true in H as [x Hs]. congruence.
Qed.
Lemma extensions_found l e : NoDup (fst <$> l) → extensions_of l e → e = ext_folder l.
Proof.
  intros Hnd [Hi|[Hno ->]]; unfold ext_folder; cbn [find_dir].
  - destruct (find_unique l "extensions" e Hnd Hi) as [i ->]. done.
  - destruct (list_find _ l) as [[i [nm n]]|] eqn:E; [|done]. apply list_find_Some in E as (Hi & Hn & _). cbn in Hn. subst nm. exfalso. apply (Hno n). by eapply elem_of_list_lookup_2.
Qed.
Definition folderb (create : list (string * node) → option ext) (l : list (string * node)) : bool :=
  bool_decide (NoDup (fst <$> l)) && names_ok "ocfl_object_" l && managedb create (ext_folder l).
Definition regularb (create : list (string * node) → option ext) (root : list (string * node)) : bool :=
  names_ok "ocfl_" root && managedb create (ext_folder root) && knownb create (ext_folder root) &&
  forallb (λ p, match find_folder p root with Some l => folderb create l | None => false end) (get_object_folders root).
Lemma regularb_true create root : tidy_root root → regularb create root = true → regular create root.
Proof.
  intros Ht [[[H1 H2]%andb_prop H3]%andb_prop H4]%andb_prop. rewrite forallb_forall in H4. constructor; [done|by apply names_ok_true|..].
  - intros e He. rewrite (extensions_found root e (proj1 Ht) He). split; [by apply managedb_true|by apply knownb_true].
  - intros p l Hp. specialize (H4 p). rewrite (find_object_dir _ _ _ Ht Hp) in H4.
    destruct (andb_prop _ _ (H4 (proj1 (elem_of_list_In _ _) (proj2 (proj2 (root_found root Ht) p) (object_dir_in _ _ _ Hp))))) as [[Ha%bool_decide_eq_true Hb]%andb_prop Hc].
    split; [done|]. split; [by apply names_ok_true|]. intros e He. rewrite (extensions_found l e Ha He). by apply managedb_true.
Qed.
(** Directories of objects, possibly one level below, and empty ones. *)
Definition objectb (l : list (string * node)) : bool := match l with ("0=ocfl_object_1.1", File _) :: _ => true | _ => false end.
Definition namesb (l : list (string * node)) : bool :=
  bool_decide (NoDup (fst <$> l)) && forallb (λ e : string * node, bool_decide (fst e ≠ "" ∧ fst e ≠ "." ∧ fst e ≠ ".." ∧ str_mem slash (fst e) = false)) l.
Definition objectsb (l : list (string * node)) : bool := forallb (λ e : string * node, match snd e with Dir sub => objectb sub | File _ => false end) l.
Definition tidyb (root : list (string * node)) : bool :=
  namesb root && forallb (λ e : string * node, match snd e with
    | Dir sub => bool_decide (fst e = "extensions") || objectb sub || namesb sub && objectsb sub
    | File _ => true end) root.
Lemma objectb_true l : objectb l = true → hierarchy l.
Proof.
  intros H. destruct l as [|[name [data|sub]] l]; [done| |].
  - assert (name = "0=ocfl_object_1.1") as ->.
    { unfold objectb in H. destruct (decide (name = "0=ocfl_object_1.1")) as [->|Hne]; [done|]. exfalso. revert H.
      repeat (let c := fresh "c" in destruct name as [|[[] [] [] [] [] [] [] []] name]; try done). }
    eapply hierarchy_object; [|reflexivity|by apply plain_by]. exists "1.1", data. apply elem_of_list_here.
  - exfalso. revert H. unfold objectb. repeat (destruct name as [|[[] [] [] [] [] [] [] []] name]; try done).
Qed.
Lemma namesb_true l : namesb l = true → NoDup (fst <$> l) ∧ ∀ name n, (name, n) ∈ l → plain_name name.
Proof.
  intros [H1%bool_decide_eq_true H2]%andb_prop. split; [done|]. intros name n Hi. rewrite forallb_forall in H2.
  specialize (H2 (name, n) (proj1 (elem_of_list_In _ _) Hi)). by apply plain_by.
Qed.
Lemma tidyb_true root : tidyb root = true → tidy_root root.
Proof.
  intros [[H1 H2]%namesb_true H3]%andb_prop. split; [done|]. intros name sub Hi. split; [by eapply H2|]. intros Hne. rewrite forallb_forall in H3.
  specialize (H3 (name, Dir sub) (proj1 (elem_of_list_In _ _) Hi)). cbn [fst snd] in H3. apply orb_true_iff in H3 as [[H3%bool_decide_eq_true|H3]%orb_true_iff|[H3 H4]%andb_prop]; [done|by apply objectb_true|].
  apply namesb_true in H3 as [H5 H6]. unfold objectsb in H4. rewrite forallb_forall in H4. apply hierarchy_inner; [|done|].
  - intros nm n Hn. split; [by eapply H6|]. specialize (H4 (nm, n) (proj1 (elem_of_list_In _ _) Hn)). destruct n as [|s]; [done|by exists s].
  - intros nm s Hn. apply objectb_true. exact (H4 (nm, Dir s) (proj1 (elem_of_list_In _ _) Hn)).
Qed.
Lemma regular_by create root : tidyb root && regularb create root = true → regular create root.
Proof. intros [H1 H2]%andb_prop. apply regularb_true; [by apply tidyb_true|done]. Qed.
