From Coq Require Import Ascii.
From stdpp Require Import base list strings gmap.
From Coq Require Import ZArith Lia.
From Verif Require Import GoStr PathModel InventoryModel ObjectModel CrashSpec PathProofs AreaProofs LoadModel ValidateModel ValidateSpec CheckModel AcceptSpec
  RootModel RootSpec RootProofs RootCheckModel RootCheckSpec RootCheckProofs.

(** * The directory of an object *)
Lemma find_unique l name sub : NoDup (fst <$> l) → (name, Dir sub) ∈ l → ∃ i, list_find (λ e : string * node, fst e = name) l = Some (i, (name, Dir sub)).
Proof.
  intros Hnd Hi. destruct (list_find _ l) as [[i [nm n]]|] eqn:E.
  - apply list_find_Some in E as (Hl & Hn & _). cbn in Hn. subst nm. exists i. f_equal. f_equal. apply elem_of_list_lookup_2 in Hl.
    apply elem_of_list_lookup in Hi as [j Hj]. apply elem_of_list_lookup in Hl as [k Hk].
    assert (j = k) as ->. { eapply NoDup_lookup; [exact Hnd| |]; rewrite list_lookup_fmap; [rewrite Hj|rewrite Hk]; done. }
    congruence.
  - apply list_find_None in E. rewrite Forall_forall in E. exfalso. by apply (E _ Hi).
Qed.
Lemma find_object l names l' : hierarchy l → object_at l names → leads l names l' → find_dir names l = Some l'.
Proof.
  intros Hh. revert names. induction Hh as [l name data l1 Hd -> Hn|l Hin Hnd Hsub IH]; intros names Ho Hl.
  - inversion Ho; subst; [|done]. by inversion Hl.
  - inversion Ho as [|? name sub names' Hnd' Hi Ho']; subst; [by inversion Hl|]. inversion Hl as [|? ? sub' ? ? Hi' Hl']; subst.
    cbn [find_dir]. destruct (find_unique l name sub Hnd Hi) as [i ->]. assert (sub' = sub) as ->.
    { destruct (find_unique l name sub Hnd Hi) as [j Hj]. destruct (find_unique l name sub' Hnd Hi') as [k Hk]. congruence. }
    by apply (IH name sub Hi).
Qed.
Lemma object_leads l names : object_at l names → ∃ l', leads l names l'.
Proof.
  induction 1 as [l Hd|l name sub names Hnd Hi Ho [l' IH]]; [by exists l; constructor|]. exists l'. by eapply leads_below.
Qed.
Lemma object_dir_in root p l : object_dir root p l → object_in root p.
Proof. intros (name & sub & names & H1 & H2 & H3 & _ & H4). by exists name, sub, names. Qed.
Lemma object_in_dir root p : object_in root p → ∃ l, object_dir root p l.
Proof. intros (name & sub & names & H1 & H2 & H3 & H4). destruct (object_leads _ _ H3) as [l Hl]. exists l, name, sub, names. done. Qed.
Lemma find_object_dir root p l : tidy_root root → object_dir root p l → find_folder p root = Some l.
Proof.
  intros [Hnd Hd] (name & sub & names & Hi & Hx & Ho & Hl & ->). destruct (Hd _ _ Hi) as [Hp Hh]. specialize (Hh Hx).
  assert (Forall plain_name (name :: names)) as Hpl. { apply Forall_cons. split; [done|]. by eapply object_at_plain. }
  unfold find_folder. rewrite path_clean_plain by done. rewrite decide_False.
  2:{ intros E. assert (join_slash (name :: names) = join_slash ["."]) as E' by exact E. apply (f_equal split_slash) in E'. rewrite split_slash_join in E'; [|done|].
      - injection E' as -> ->. by destruct Hp as (_ & ? & _).
      - eapply Forall_impl; [exact Hpl|]. by intros w (_ & _ & _ & ?). }
  rewrite split_slash_join; [|done|eapply Forall_impl; [exact Hpl|]; by intros w (_ & _ & _ & ?)].
  cbn [find_dir]. destruct (find_unique root name sub Hnd Hi) as [i ->]. by apply find_object.
Qed.
Lemma object_dir_fun root p l l' : tidy_root root → object_dir root p l → object_dir root p l' → l = l'.
Proof. intros Ht H1 H2. apply (find_object_dir _ _ _ Ht) in H1, H2. congruence. Qed.
Lemma object_path_nonempty root p l : tidy_root root → object_dir root p l → p ≠ "".
Proof. intros [_ Hd] (name & sub & names & Hi & Hx & Ho & Hl & ->). destruct (Hd _ _ Hi) as [(Hp & _) _]. destruct names; destruct name; done. Qed.

(** * The declaration of the storage root *)
Lemma digits_only_spec s : digits_only s = true ↔ all_digits s.
Proof. induction s as [|c s IH]; [split; [intros _ c Hc; by apply elem_of_nil in Hc|done]|]. cbn [digits_only]. rewrite andb_true_iff, all_digits_cons, IH. done. Qed.
Lemma digits1_spec s : digits1 s = true ↔ digits s.
Proof. unfold digits1. rewrite andb_true_iff, negb_true_iff, bool_decide_eq_false, digits_all, digits_only_spec. tauto. Qed.
Lemma no_dot a : all_digits a → str_mem "."%char a = false.
Proof.
  induction a as [|c a IH]; intros H; [done|]. apply all_digits_cons in H as [Hc Ha]. cbn [str_mem]. rewrite decide_False; [by apply IH|].
  intros <-. vm_compute in Hc. done.
Qed.
Lemma root_declaration_spec name v : root_declaration name = Some v ↔ version_number v ∧ name = declaration "ocfl_" v.
Proof.
  unfold root_declaration, declaration. split.
  - destruct (drop_prefix "0=ocfl_" name) as [r|] eqn:E; [|done]. apply drop_prefix_spec in E. destruct (split_on "." r) as [|a [|b [|]]] eqn:Es; try done.
    destruct (digits1 a && digits1 b) eqn:Ed; [|done]. intros [= <-]. apply andb_prop in Ed as [Ha%digits1_spec Hb%digits1_spec].
    split; [|by rewrite E]. exists a, b. split; [done|]. split; [done|]. pose proof (join_split "."%char r) as J. rewrite Es in J. by rewrite <- J.
  - intros [(a & b & Ha & Hb & ->) ->]. change ("0=" +:+ "ocfl_" +:+ ?x) with ("0=ocfl_" +:+ x).
    rewrite (proj2 (drop_prefix_spec "0=ocfl_" _ _) eq_refl). pose proof (proj2 (proj1 (digits_all a) Ha)) as Ha'. pose proof (proj2 (proj1 (digits_all b) Hb)) as Hb'.
    pose proof (split_join "."%char [a; b] ltac:(done)) as Hs. change (str_join "." [a; b]) with (a +:+ "." +:+ b) in Hs. rewrite Hs.
    2:{ apply Forall_cons. split; [by apply no_dot|]. apply Forall_singleton. by apply no_dot. }
    rewrite (proj2 (digits1_spec a)), (proj2 (digits1_spec b)) by done. done.
Qed.
Lemma loop_later v l : (∀ name data w, (name, File data) ∈ l → root_declaration name = Some w → False) → directory_loop v l = (v, []).
Proof.
  revert v. induction l as [|[name [d|sub]] l IH]; intros v H; [done| |]; cbn [directory_loop].
  - destruct (root_declaration name) as [w|] eqn:E; [exfalso; eapply H; [apply elem_of_list_here|exact E]|]. apply IH. intros n' d' w' Hi. apply (H n' d'). by apply elem_of_list_further.
  - apply IH. intros n' d' w' Hi. apply (H n' d'). by apply elem_of_list_further.
Qed.
Lemma version_nonempty v : version_number v → v ≠ "".
Proof. intros (a & b & [Ha _] & _ & ->). by destruct a. Qed.
Lemma one_directory v l rv : NoDup (fst <$> l) → one_declaration "ocfl_" v l → check_directory rv l = (v, []).
Proof.
  intros Hnd (Hv & (data & Hi & _) & Hone). unfold check_directory.
  assert (directory_loop "" l = (v, [])) as ->.
  2:{ rewrite decide_False; [done|]. by apply version_nonempty. }
  induction l as [|[name n] l IH]; [by apply elem_of_nil in Hi|]. rewrite fmap_cons in Hnd. apply stdpp.list.NoDup_cons in Hnd as [Hnn Hnd].
  apply elem_of_cons in Hi as [[= <- <-]|Hi].
  - cbn [directory_loop]. rewrite (proj2 (root_declaration_spec _ v)) by done. rewrite decide_True by done. apply loop_later.
    intros nm d w Hin [Hw ->]%root_declaration_spec. assert (w = v) as -> by (eapply (Hone w d); [done|by apply elem_of_list_further]).
    apply Hnn. apply elem_of_list_fmap. eexists. split; [|exact Hin]. done.
  - assert (directory_loop "" l = (v, [])) as IH'.
    { apply IH; [done|done|]. intros w d Hw Hin. apply (Hone w d Hw). by apply elem_of_list_further. }
    destruct n as [d|sub]; cbn [directory_loop]; [|done]. destruct (root_declaration name) as [w|] eqn:E; [|done].
    apply root_declaration_spec in E as [Hw ->]. assert (w = v) as -> by (eapply (Hone w d); [done|by apply elem_of_list_here]).
    exfalso. apply Hnn. apply elem_of_list_fmap. eexists. split; [|exact Hi]. done.
Qed.

(** * Sequences *)
Definition rgood (r : rverdict) : Prop := ∃ fs, r = RDone fs ∧ ∀ x, x ∈ fs → warning (snd x).
Lemma rgood_seq a b : rgood (rseq a b) ↔ rgood a ∧ rgood b.
Proof.
  unfold rgood. split.
  - intros (fs & E & H). destruct a as [fa|fa m|], b as [fb|fb m'|]; try done. injection E as <-.
    split; [exists fa|exists fb]; (split; [done|]); intros x Hx; apply H, elem_of_app; auto.
  - intros [(fa & -> & Ha) (fb & -> & Hb)]. exists (fa ++ fb). split; [done|]. intros x [Hx|Hx]%elem_of_app; auto.
Qed.
Lemma rgood_done fs : rgood (RDone fs) ↔ ∀ x, x ∈ fs → warning (snd x).
Proof. split; [by intros (? & [= <-] & H)|]. intros H. by exists fs. Qed.
Lemma rgood_lift who v : rgood (rlift who v) ↔ only_warnings v.
Proof.
  unfold rgood, only_warnings. destruct v as [fs|fs m|]; cbn; [|split; intros (? & ? & _); done..]. split; intros (fs' & [= <-] & H); eexists; (split; [done|]).
  - intros f Hf. apply (H (who, f)). apply elem_of_list_fmap. by exists f.
  - intros x (f & -> & Hf)%elem_of_list_fmap. by apply H.
Qed.
Lemma by_warn who fs : (∀ x, x ∈ by_ who fs → warning (snd x)) ↔ ∀ f, f ∈ fs → warning f.
Proof.
  split; intros H.
  - intros f Hf. apply (H (who, f)). apply elem_of_list_fmap. by exists f.
  - intros x (f & -> & Hf)%elem_of_list_fmap. by apply H.
Qed.
Lemma app_warn (a b : list (string * finding)) : (∀ x, x ∈ a ++ b → warning (snd x)) ↔ (∀ x, x ∈ a → warning (snd x)) ∧ ∀ x, x ∈ b → warning (snd x).
Proof. split; [intros H; split; intros x Hx; apply H, elem_of_app; auto|]. intros [Ha Hb] x [Hx|Hx]%elem_of_app; auto. Qed.
Lemma only_seq a b : only_warnings (vseq a b) ↔ only_warnings a ∧ only_warnings b.
Proof.
  unfold only_warnings. split.
  - intros (fs & E & H). destruct a as [fa|fa m|], b as [fb|fb m'|]; try done. injection E as <-.
    split; [exists fa|exists fb]; (split; [done|]); intros x Hx; apply H, elem_of_app; auto.
  - intros [(fa & -> & Ha) (fb & -> & Hb)]. exists (fa ++ fb). split; [done|]. intros x [Hx|Hx]%elem_of_app; auto.
Qed.
Lemma only_done fs : only_warnings (VDone fs) ↔ ∀ f, f ∈ fs → warning f.
Proof. split; [by intros (? & [= <-] & H)|]. intros H. by exists fs. Qed.
Lemma not_warning c args : (∀ r, c ≠ "W" +:+ r) → ¬ warning (Finding c args).
Proof. intros H [r Hr]. by apply (H r). Qed.

(** * The check *)
Section check.
  Context (hash : string → string → option string) (decode : string → option doc) (w : vorder) (lx : lexicon).
  Context (create : list (string * node) → option ext) (root : list (string * node)).
  Hypothesis Hr : regular create root.

  Lemma check_good rv p l : version_number rv → object_dir root p l →
    rgood (check_folder hash decode w lx create rv root p) ↔
    ∃ v, one_declaration "ocfl_object_" v l ∧ ¬ later v rv ∧ only_warnings (validate_object hash decode w lx (dir_files l)).
  Proof using Hr.
    intros Hrv Hp. destruct (rg_objects _ _ Hr _ _ Hp) as (Hnd & Hwn & Hx). unfold check_folder, load_folder.
    rewrite (find_object_dir _ _ _ (rg_tidy _ _ Hr) Hp).
    assert (∀ fs c, (∀ r, c ≠ "W" +:+ r) → ¬ rgood (RDone (fs ++ [("", Finding c [p])]))) as Hbad.
    { intros fs c Hc Hg. rewrite rgood_done, app_warn in Hg. destruct Hg as [_ Hg]. apply (not_warning c [p] Hc). apply (Hg ("", Finding c [p])). apply elem_of_list_here. }
    assert (∀ v, one_declaration "ocfl_object_" v l → get_version "ocfl_object_" l = GOk v) as Hv by (intros v; by apply gv_exact).
    destruct (get_version "ocfl_object_" l) as [v|v| |] eqn:Eg.
    2-3: split; [intros H; exfalso; apply (Hbad [] "E001"); [by intros r|exact H]|intros (v' & H1%Hv & _); done].
    2: split; [intros H; exfalso; apply (Hbad [("", Finding "E003" [p])] "E001"); [by intros r|exact H]|intros (v' & H1%Hv & _); done].
    pose proof (proj1 (gv_exact _ l v Hnd Hwn) Eg) as Hone.
    rewrite (ext_object create _ (folder_managed create l Hx)).
    assert (∀ P : Prop, (∃ v', one_declaration "ocfl_object_" v' l ∧ ¬ later v' rv ∧ P) ↔ ¬ later v rv ∧ P) as Hsome.
    { intros P. split; [|intros [H1 H2]; by exists v]. intros (v' & H1%Hv & H2). injection H1 as ->. done. }
    rewrite Hsome. unfold validate_object.
    destruct (load_doc hash decode w lx (dir_files l) "") as [[d|] [fs|fs m|]] eqn:El.
    2,4,5: split; [intros H; exfalso; refine (Hbad _ "E001" _ H); by intros r|].
    2: intros [_ (fs' & H & _)]; by destruct (load_versions _ _ _ _ _ _).
    2,3: by intros [_ (fs' & H & _)].
    2: split; [by intros (? & ? & _)|intros [_ (fs' & H & _)]; by destruct (load_versions _ _ _ _ _ _)].
    2: split; [by intros (? & ? & _)|by intros [_ (fs' & H & _)]].
    destruct (load_versions hash decode w lx (dir_files l) (version_strings w 16 d)) as [vinv rv'] eqn:Ev.
    rewrite rgood_seq, rgood_lift, rgood_done, !app_warn, !by_warn, (only_seq (VDone fs)), only_done.
    assert ((∀ f, f ∈ when (decimal_lt rv v) (Finding "E000" [rv; v]) → warning f) ↔ ¬ later v rv) as ->.
    { destruct Hone as [Hvn _]. rewrite <- decimal_later by done. unfold when. destruct (decimal_lt rv v).
      - split; [|done]. intros H. exfalso. apply (not_warning "E000" [rv; v]); [by intros r|]. apply H, elem_of_list_here.
      - split; [done|]. intros _ f Hf. by apply elem_of_nil in Hf. }
    assert ((∀ f, f ∈ loop_ws create (ext_folder l) ++ fs → warning f) ↔ ∀ f, f ∈ fs → warning f) as ->.
    { split; intros H f Hf; [apply H, elem_of_app; by right|]. apply elem_of_app in Hf as [Hf|Hf]; [by eapply loop_ws_warn|by apply H]. }
    pose proof (loop_ws_warn create (ext_folder l)). tauto.
  Qed.
  Lemma folders_good rv ps : rgood (check_folders hash decode w lx create rv root ps) ↔ ∀ p, p ∈ ps → rgood (check_folder hash decode w lx create rv root p).
  Proof using.
    induction ps as [|p ps IH]; cbn [check_folders].
    - split; [intros _ p Hp; by apply elem_of_nil in Hp|]. intros _. exists []. split; [done|]. intros x Hx. by apply elem_of_nil in Hx.
    - rewrite rgood_seq, IH. split.
      + intros [H1 H2] q [-> |Hq]%elem_of_cons; auto.
      + intros H. split; [apply H, elem_of_list_here|]. intros q Hq. by apply H, elem_of_list_further.
  Qed.
  Lemma root_exts : managed create (ext_folder root) ∧ ∀ name, ¬ unknown create (ext_folder root) name.
  Proof using Hr.
    split; [apply folder_managed; intros e He; by apply (rg_exts _ _ Hr)|]. destruct (find_extensions root) as [-> |He]; [|by apply (rg_exts _ _ Hr)].
    intros name (sub & Hi & _). by apply elem_of_nil in Hi.
  Qed.
  Lemma root_good : rgood (validate_root hash decode w lx create root) ↔
    ∃ rv, known_version rv ∧ one_declaration "ocfl_" rv root ∧
      ∀ p l, object_dir root p l → ∃ v, one_declaration "ocfl_object_" v l ∧ ¬ later v rv ∧ only_warnings (validate_object hash decode w lx (dir_files l)).
  Proof using Hr.
    destruct root_exts as [Hm Hu]. pose proof (rg_tidy _ _ Hr) as Ht. pose proof (proj1 Ht) as Hnd.
    pose proof (gv_exact "ocfl_" root) as Hgv. unfold validate_root, load_root. rewrite (ext_root create _ Hm Hu), (ext_object create _ Hm).
    assert (∀ rv, one_declaration "ocfl_" rv root → get_version "ocfl_" root = GOk rv) as Hv by (intros rv; by apply Hgv, rg_named with create).
    destruct (get_version "ocfl_" root) as [v|v| |] eqn:Eg.
    2-3: split; [by intros (? & ? & _)|intros (rv & _ & H%Hv & _); done].
    2:{ split; [|intros (rv & _ & H%Hv & _); done]. intros Hg. exfalso. rewrite decide_True in Hg by auto. rewrite rgood_seq, rgood_done, by_warn in Hg. destruct Hg as [Hg _].
        apply (not_warning "E003" []); [by intros r|]. apply Hg, elem_of_app. right. apply elem_of_app. left. apply elem_of_list_here. }
    pose proof (proj1 (Hgv v Hnd (rg_named _ _ Hr)) eq_refl) as Hone.
    destruct (decide (v = "1.0" ∨ v = "1.1" ∨ v = "2.0")) as [Hk|Hk].
    2:{ split; [by intros (? & ? & _)|]. intros (rv & Hk' & H%Hv & _). injection H as ->. by destruct Hk. }
    cbn [app]. unfold check_storage_root. rewrite (one_directory v root v Hnd Hone), !rgood_seq, !rgood_done, folders_good, !by_warn.
    assert ((∃ rv, known_version rv ∧ one_declaration "ocfl_" rv root ∧
      ∀ p l, object_dir root p l → ∃ v, one_declaration "ocfl_object_" v l ∧ ¬ later v rv ∧ only_warnings (validate_object hash decode w lx (dir_files l))) ↔
      ∀ p l, object_dir root p l → rgood (check_folder hash decode w lx create v root p)) as ->.
    { split.
      - intros (rv & _ & H%Hv & Ho) p l Hp. injection H as ->. apply (check_good rv p l); [by destruct Hone|done|by apply (Ho p l)].
      - intros H. exists v. split; [done|]. split; [done|]. intros p l Hp. apply (check_good v p l); [by destruct Hone|done|by apply (H p l)]. }
    split.
    - intros (_ & _ & H) p l Hp. apply H. apply root_found; [done|]. by apply (object_dir_in _ _ l).
    - intros H. split; [intros f; apply loop_ws_warn|]. split; [intros f Hf; by apply elem_of_nil in Hf|].
      intros p Hp. apply root_found in Hp; [|done]. apply object_in_dir in Hp as [l Hl]. by eapply H.
  Qed.
End check.
