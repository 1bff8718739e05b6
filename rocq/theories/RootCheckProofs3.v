From Coq Require Import Ascii.
From stdpp Require Import base list strings gmap.
From Coq Require Import ZArith Lia.
From Verif Require Import GoStr PathModel InventoryModel ObjectModel CrashSpec PathProofs AreaProofs LoadModel ValidateModel ValidateSpec CheckModel AcceptSpec
  RootModel RootSpec RootProofs RootCheckModel RootCheckSpec RootCheckProofs RootCheckProofs2.

Lemma elem_by who fs f : (who, f) ∈ by_ who fs ↔ f ∈ fs.
Proof. unfold by_. rewrite elem_of_list_fmap. split; [by intros (g & [= ->] & H)|]. intros H. by exists f. Qed.
Lemma elem_by_ne who p fs f : p ≠ who → (p, f) ∉ by_ who fs.
Proof. unfold by_. rewrite elem_of_list_fmap. intros Hne (g & [= -> ->] & H). done. Qed.
Lemma rseq_done a b fs : rseq a b = RDone fs → ∃ fa fb, a = RDone fa ∧ b = RDone fb ∧ fs = fa ++ fb.
Proof. destruct a as [fa|fa m|], b as [fb|fb m'|]; try done. intros [= <-]. by exists fa, fb. Qed.
Lemma reports_vseq fa b f : reports (vseq (VDone fa) b) f → f ∈ fa ∨ reports b f.
Proof.
  intros (fs & Hf & H). destruct b as [fb|fb m|].
  - cbn in H. destruct H as [[= <-]|[m [=]]]. apply elem_of_app in Hf as [?|?]; [by left|]. right. exists fb. auto.
  - cbn in H. destruct H as [[=]|[m' [= <- <-]]]. apply elem_of_app in Hf as [?|?]; [by left|]. right. exists fb. eauto.
  - by destruct H as [[=]|[m [=]]].
Qed.

Lemma rdone_inj a b : RDone a = RDone b → a = b.
Proof. by intros [= H]. Qed.
Lemma vdone_inj a b : VDone a = VDone b → a = b.
Proof. by intros [= H]. Qed.

Lemma version_by_number v : v = "1.0" ∨ v = "1.1" ∨ v = "2.0" → version_number v.
Proof.
  assert (∀ a, a ∈ ["0"; "1"; "2"] → digits a) as Hd.
  { intros a Ha. apply digits1_spec. rewrite !elem_of_cons, elem_of_nil in Ha. by destruct Ha as [-> |[-> |[-> |[]]]]. }
  intros [-> |[-> | ->]].
  - exists "1", "0". split; [apply Hd; set_solver|]. split; [apply Hd; set_solver|done].
  - exists "1", "1". split; [apply Hd; set_solver|]. split; [apply Hd; set_solver|done].
  - exists "2", "0". split; [apply Hd; set_solver|]. split; [apply Hd; set_solver|done].
Qed.
Lemma loop_version v l v' fs : directory_loop v l = (v', fs) → v = "" ∨ version_number v → v' = "" ∨ version_number v'.
Proof.
  revert v v' fs. induction l as [|[name [d|sub]] l IH]; intros v v' fs; cbn [directory_loop]; [by intros [= <- <-]| |apply IH].
  destruct (root_declaration name) as [x|] eqn:E; [|apply IH]. case_decide as Hd.
  - intros H _. eapply IH; [exact H|]. right. by apply root_declaration_spec in E as [? _].
  - destruct (directory_loop v l) as [v1 fs1] eqn:E1. cbn. intros [= <- <-]. by eapply IH.
Qed.

Section check.
  Context (hash : string → string → option string) (decode : string → option doc) (w : vorder) (lx : lexicon).
  Context (create : list (string * node) → option ext) (root : list (string * node)).
  Hypothesis Hr : regular create root.
  Let valid (l : list (string * node)) := validate_object hash decode w lx (dir_files l).

  Lemma folder_reports rv p l fs : version_number rv → object_dir root p l → check_folder hash decode w lx create rv root p = RDone fs →
    (∀ q f, q ≠ "" → (q, f) ∈ fs → q = p ∧ (reports (valid l) f ∨ warning f)) ∧
    ((∀ v, ¬ one_declaration "ocfl_object_" v l) ∧ ("", Finding "E001" [p]) ∈ fs ∨
     ∃ v, one_declaration "ocfl_object_" v l ∧ (∀ f, reports (valid l) f → (p, f) ∈ fs) ∧ (∀ fs' m, valid l = VError fs' m → ("", Finding "E001" [p]) ∈ fs) ∧
       (∀ fs', valid l = VDone fs' → later v rv → ("", Finding "E000" [rv; v]) ∈ fs)).
  Proof using Hr.
    intros Hrv Hp. destruct (rg_objects _ _ Hr _ _ Hp) as (Hnd & Hwn & Hx). unfold check_folder, load_folder, valid.
    pose proof (object_path_nonempty _ _ _ (rg_tidy _ _ Hr) Hp) as Hne.
    rewrite (find_object_dir _ _ _ (rg_tidy _ _ Hr) Hp).
    assert (∀ v, one_declaration "ocfl_object_" v l → get_version "ocfl_object_" l = GOk v) as Hv by (intros v; by apply gv_exact).
    assert (∀ (fs0 : list (string * finding)) x, x ∈ fs0 ++ [x]) as Hend by (intros; apply elem_of_app; right; apply elem_of_list_here).
    destruct (get_version "ocfl_object_" l) as [v|v| |] eqn:Eg.
    2-4: intros Hfs; apply rdone_inj in Hfs as <-; split; [|left; split; [by intros v' H%Hv|]].
    3,5: apply (Hend []).
    5: apply (Hend [_]).
    2-4: intros q f Hq Hin; rewrite ?elem_of_app, ?elem_of_cons, ?elem_of_nil in Hin; naive_solver.
    pose proof (proj1 (gv_exact _ l v Hnd Hwn) Eg) as Hone.
    rewrite (ext_object create _ (folder_managed create l Hx)).
    unfold validate_object.
    set (ws := loop_ws create (ext_folder l)). assert (∀ f, f ∈ ws → warning f) as Hws by (intros f; apply loop_ws_warn).
    (* an object that cannot be loaded *)
    assert (∀ fs0 V, (∀ f, f ∈ fs0 → reports V f) → (∀ f, reports V f → f ∈ fs0) → (∀ fs', V ≠ VDone fs') →
      RDone ((by_ "" ws ++ by_ p (ws ++ fs0)) ++ [("", Finding "E001" [p])]) = RDone fs →
      (∀ q f, q ≠ "" → (q, f) ∈ fs → q = p ∧ (reports V f ∨ warning f)) ∧
      ((∀ v, ¬ one_declaration "ocfl_object_" v l) ∧ ("", Finding "E001" [p]) ∈ fs ∨
       ∃ v, one_declaration "ocfl_object_" v l ∧ (∀ f, reports V f → (p, f) ∈ fs) ∧ (∀ fs' m, V = VError fs' m → ("", Finding "E001" [p]) ∈ fs) ∧
         (∀ fs', V = VDone fs' → later v rv → ("", Finding "E000" [rv; v]) ∈ fs))) as Hno.
    { intros fs0 V Hin Hout Hnd' [= <-]. split.
      - intros q f Hq [[H|H]%elem_of_app|H]%elem_of_app.
        + by apply elem_by_ne in H.
        + destruct (decide (q = p)) as [-> |Hqp]; [|by apply elem_by_ne in H]. split; [done|]. apply elem_by, elem_of_app in H as [H|H]; auto.
        + apply elem_of_list_singleton in H. by injection H as -> ->.
      - right. exists v. split; [done|]. split; [|split].
        + intros f Hf. apply elem_of_app. left. apply elem_of_app. right. apply elem_by, elem_of_app. right. auto.
        + intros fs' m _. apply Hend.
        + intros fs' H. by contradiction (Hnd' fs'). }
    destruct (load_doc hash decode w lx (dir_files l) "") as [[d|] [fs0|fs0 m|]] eqn:El.
    - destruct (load_versions hash decode w lx (dir_files l) (version_strings w 16 d)) as [vinv rv'] eqn:Ev.
      intros (fa & fb & Ha & Hb & ->)%rseq_done. apply rdone_inj in Ha as <-. destruct (vseq rv' _) as [fc|fc m|] eqn:Ec; try done. cbn [rlift] in Hb. apply rdone_inj in Hb as <-.
      cbn [vseq]. split.
      + assert (∀ f, f ∈ fs0 ++ fc → reports (VDone (fs0 ++ fc)) f) as Hrep by (intros f Hf; exists (fs0 ++ fc); auto).
        assert (∀ f, f ∈ fs0 → f ∈ fs0 ++ fc) as HL by (intros f Hf; apply elem_of_app; by left).
        assert (∀ f, f ∈ fc → f ∈ fs0 ++ fc) as HR by (intros f Hf; apply elem_of_app; by right).
        intros q f Hq [[H|[H|H]%elem_of_app]%elem_of_app|H]%elem_of_app; [by apply elem_by_ne in H| |by apply elem_by_ne in H|];
          (destruct (decide (q = p)) as [-> |Hqp]; [|by apply elem_by_ne in H]); (split; [done|]); apply elem_by in H.
        * apply elem_of_app in H as [H|H]; auto.
        * auto.
      + right. exists v. split; [done|]. split; [|split; [done|]].
        * intros f (fs' & Hf & [H|[m H]]); [|done]. apply vdone_inj in H as <-. apply elem_of_app in Hf as [Hf|Hf].
          -- apply elem_of_app. left. apply elem_of_app. right. apply elem_of_app. left. apply elem_by, elem_of_app. by right.
          -- apply elem_of_app. right. by apply elem_by.
        * intros fs' _ Hl. apply elem_of_app. left. apply elem_of_app. right. apply elem_of_app. right. apply elem_by.
          rewrite (proj2 (decimal_later rv v Hrv (proj1 Hone)) Hl). apply elem_of_list_here.
    - intros H. destruct (load_versions hash decode w lx (dir_files l) (version_strings w 16 d)) as [vinv rv'] eqn:Ev.
      apply (Hno fs0); [| |done|exact H]; cbn [vseq].
      + intros f Hf. exists fs0. eauto.
      + by intros f (fs' & Hf & [[=]|[m' [= <- <-]]]).
    - done.
    - intros H. apply (Hno fs0); [| |done|exact H].
      + intros f Hf. exists fs0. eauto.
      + by intros f (fs' & Hf & [[=]|[m' [= <- <-]]]).
    - intros H. apply (Hno fs0); [| |done|exact H].
      + intros f Hf. exists fs0. eauto.
      + by intros f (fs' & Hf & [[=]|[m' [= <- <-]]]).
    - done.
  Qed.
  Lemma folders_reports rv ps fs : check_folders hash decode w lx create rv root ps = RDone fs →
    (∀ p, p ∈ ps → ∃ fs', check_folder hash decode w lx create rv root p = RDone fs' ∧ ∀ x, x ∈ fs' → x ∈ fs) ∧
    ∀ x, x ∈ fs → ∃ p fs', p ∈ ps ∧ check_folder hash decode w lx create rv root p = RDone fs' ∧ x ∈ fs'.
  Proof using.
    revert fs. induction ps as [|p ps IH]; intros fs; cbn [check_folders].
    - intros [= <-]. split; [intros p Hp; by apply elem_of_nil in Hp|intros x Hx; by apply elem_of_nil in Hx].
    - intros (fa & fb & Ha & Hb & ->)%rseq_done. destruct (IH _ Hb) as [I1 I2]. split.
      + intros q [-> |Hq]%elem_of_cons; [exists fa; split; [done|]; intros x Hx; apply elem_of_app; by left|].
        destruct (I1 q Hq) as (fs' & H1 & H2). exists fs'. split; [done|]. intros x Hx. apply elem_of_app. right. auto.
      + intros x [Hx|Hx]%elem_of_app; [exists p, fa; split; [apply elem_of_list_here|done]|].
        destruct (I2 x Hx) as (q & fs' & H1 & H2). exists q, fs'. split; [by apply elem_of_list_further|done].
  Qed.
  Lemma root_result fs : validate_root hash decode w lx create root = RDone fs →
    ∃ rv fs1 fs2, version_number rv ∧ fs = by_ "" fs1 ++ fs2 ∧ (∀ v, one_declaration "ocfl_" v root → rv = v) ∧
      check_folders hash decode w lx create rv root (get_object_folders root) = RDone fs2.
  Proof using Hr.
    destruct (root_exts create root Hr) as [Hm Hu]. pose proof (rg_tidy _ _ Hr) as Ht. pose proof (proj1 Ht) as Hnd.
    unfold validate_root, load_root, check_storage_root. rewrite (ext_root create _ Hm Hu), (ext_object create _ Hm).
    assert (∀ rv, one_declaration "ocfl_" rv root → get_version "ocfl_" root = GOk rv) as Hv by (intros rv; by apply gv_exact, rg_named with create).
    assert (∀ fsa v fs, version_number v → (∀ rv, one_declaration "ocfl_" rv root → v = rv) →
      rseq (RDone (by_ "" fsa)) (let '(rv', fs0) := check_directory v root in rseq (RDone (by_ "" fs0)) (check_folders hash decode w lx create rv' root (get_object_folders root))) = RDone fs →
      ∃ rv fs1 fs2, version_number rv ∧ fs = by_ "" fs1 ++ fs2 ∧ (∀ v, one_declaration "ocfl_" v root → rv = v) ∧
        check_folders hash decode w lx create rv root (get_object_folders root) = RDone fs2) as Hgo.
    { intros fsa v fs' Hvn Hone (f1 & f2 & H1 & H2 & ->)%rseq_done. apply rdone_inj in H1 as <-. destruct (check_directory v root) as [rv' fs0] eqn:Ed.
      apply rseq_done in H2 as (f3 & f4 & H3 & H4 & ->). apply rdone_inj in H3 as <-. exists rv', (fsa ++ fs0), f4. split; [|split; [|split; [|done]]].
      - unfold check_directory in Ed. destruct (directory_loop "" root) as [v1 fs1] eqn:El. apply loop_version in El; [|by left]. case_decide; injection Ed as <- <-; [done|]. by destruct El.
      - unfold by_. rewrite fmap_app. by rewrite (assoc_L (++)).
      - intros x Hx. rewrite (one_directory x root v Hnd Hx) in Ed. by injection Ed as <- <-. }
    destruct (get_version "ocfl_" root) as [v|v| |] eqn:Eg; [|done..|].
    - pose proof (proj1 (gv_exact _ root v Hnd (rg_named _ _ Hr)) Eg) as Hone. case_decide as Hk; [|done]. apply Hgo; [by apply version_by_number|].
      intros rv H%Hv. by injection H.
    - case_decide as Hk; [|done]. apply Hgo; [apply version_by_number; auto|]. by intros rv H%Hv.
  Qed.
  Lemma root_reports fs p l : validate_root hash decode w lx create root = RDone fs → object_dir root p l →
    (∀ v, ¬ one_declaration "ocfl_object_" v l) ∧ ("", Finding "E001" [p]) ∈ fs ∨
    ∃ v, one_declaration "ocfl_object_" v l ∧ (∀ f, reports (valid l) f → (p, f) ∈ fs) ∧ (∀ fs' m, valid l = VError fs' m → ("", Finding "E001" [p]) ∈ fs) ∧
       ∀ fs' rv, valid l = VDone fs' → one_declaration "ocfl_" rv root → later v rv → ("", Finding "E000" [rv; v]) ∈ fs.
  Proof using Hr.
    intros Hf Hp. destruct (root_result _ Hf) as (rv & fs1 & fs2 & Hrv & -> & Hone & Hc). destruct (folders_reports _ _ _ Hc) as [H1 _].
    destruct (H1 p) as (fs' & Hc1 & Hsub); [apply root_found; [apply Hr|by apply (object_dir_in _ _ l)]|].
    assert (∀ x, x ∈ fs' → x ∈ by_ "" fs1 ++ fs2) as Hin by (intros x Hx; apply elem_of_app; right; auto).
    destruct (proj2 (folder_reports rv p l fs' Hrv Hp Hc1)) as [[Ha Hb]|(v & Ha & Hb & Hd & He)]; [left; auto|].
    right. exists v. split; [done|]. split; [auto|]. split; [eauto|]. intros fs0 rv0 H0 H2. rewrite <- (Hone _ H2). eauto.
  Qed.
  Lemma root_located fs p f : validate_root hash decode w lx create root = RDone fs → p ≠ "" → (p, f) ∈ fs →
    ∃ l, object_dir root p l ∧ (reports (valid l) f ∨ warning f).
  Proof using Hr.
    intros Hf Hne Hin. destruct (root_result _ Hf) as (rv & fs1 & fs2 & Hrv & -> & Hone & Hc). destruct (folders_reports _ _ _ Hc) as [_ H2].
    apply elem_of_app in Hin as [Hin|Hin]; [by apply elem_by_ne in Hin|]. destruct (H2 _ Hin) as (q & fs' & Hq & Hc1 & Hx).
    apply root_found in Hq; [|apply Hr]. apply object_in_dir in Hq as [l Hl]. destruct (proj1 (folder_reports rv q l fs' Hrv Hl Hc1) p f Hne Hx) as [-> H].
    by exists l.
  Qed.
  Lemma folders_done rv ps : (∀ p, p ∈ ps → ∃ fs, check_folder hash decode w lx create rv root p = RDone fs) →
    ∃ fs, check_folders hash decode w lx create rv root ps = RDone fs.
  Proof using.
    induction ps as [|p ps IH]; intros H; [by exists []|]. cbn [check_folders]. destruct (H p) as [fa ->]; [apply elem_of_list_here|].
    destruct IH as [fb ->]; [intros q Hq; apply H; by apply elem_of_list_further|]. by exists (fa ++ fb).
  Qed.
  Lemma folder_done rv p l : object_dir root p l → (∃ fs, valid l = VDone fs) ∨ (∀ v, ¬ one_declaration "ocfl_object_" v l) →
    ∃ fs, check_folder hash decode w lx create rv root p = RDone fs.
  Proof using Hr.
    intros Hp. destruct (rg_objects _ _ Hr _ _ Hp) as (Hnd & Hwn & Hx). unfold check_folder, load_folder, valid.
    rewrite (find_object_dir _ _ _ (rg_tidy _ _ Hr) Hp).
    destruct (get_version "ocfl_object_" l) as [v|v| |] eqn:Eg; [|intros _; by eexists..].
    intros [[fs Hd]|Hno]; [|apply gv_exact in Eg; [by contradiction (Hno v)|done..]].
    rewrite (ext_object create _ (folder_managed create l Hx)).
    unfold validate_object in Hd. destruct (load_doc hash decode w lx (dir_files l) "") as [[d|] [fs0|fs0 m|]] eqn:El; try done; [|by destruct (load_versions _ _ _ _ _ _)..].
    destruct (load_versions hash decode w lx (dir_files l) (version_strings w 16 d)) as [vinv rv'] eqn:Ev.
    destruct (vseq rv' _) as [fc|fc m|] eqn:Ec; try done. by eexists.
  Qed.
  Lemma root_done rv : known_version rv → one_declaration "ocfl_" rv root →
    (∀ p l, object_dir root p l → (∃ fs, valid l = VDone fs) ∨ (∀ v, ¬ one_declaration "ocfl_object_" v l)) →
    ∃ fs, validate_root hash decode w lx create root = RDone fs.
  Proof using Hr.
    intros Hk Hone Ho. destruct (root_exts create root Hr) as [Hm Hu]. pose proof (proj1 (rg_tidy _ _ Hr)) as Hnd.
    unfold validate_root, load_root, check_storage_root. rewrite (ext_root create _ Hm Hu), (ext_object create _ Hm).
    rewrite (proj2 (gv_exact "ocfl_" root rv Hnd (rg_named _ _ Hr)) Hone). rewrite decide_True by done. rewrite (one_directory rv root rv Hnd Hone).
    destruct (folders_done rv (get_object_folders root)) as [fs ->]; [|by eexists].
    intros p Hp. apply root_found in Hp; [|apply Hr]. apply object_in_dir in Hp as [l Hl]. by eapply folder_done, Ho.
  Qed.
End check.
