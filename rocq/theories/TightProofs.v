(** Proofs of theorems added after mutation tests: metadata of versions (C27), invalid bytes in identifiers (C35), characters of
    Pairtree paths (C31), the chain of layouts (C33), areas with absolute folders (C38). *)
From Coq Require Import Ascii.
From stdpp Require Import base list strings gmap sorting.
From Coq Require Import ZArith Lia.
From Verif Require Import GoStr PathModel InventoryModel ObjectModel LoadModel ValidateModel ValidateSpec ValidateProofs ValidateProofs2
  ValidateProofs3 CheckModel CheckSpec EqualProofs CheckProofs CheckProofs2.

(** What a version says about its making. *)
Record about := About { ab_created : string; ab_message : string; ab_name : string; ab_address : string }.
Definition about_version (v : vdoc) : about :=
  let text o := default "" (os_val <$> o) in
  About (text (vd_created v)) (text (vd_message v)) (text (vd_user v ≫= u_name)) (text (vd_user v ≫= u_addr)).

Lemma about_fin ver v : about_version (fin_version ver v).2 = about_version v.
Proof.
  unfold fin_version, about_version. destruct (version_value ver); [|done]. cbn [snd vd_created vd_message vd_user].
  destruct v as [c m s [[e [n|] [a|]]|]]; destruct m; done.
Qed.
Lemma equal_meta_about v v2 b : equal_meta v v2 = Some b → (b = true ↔ about_version v = about_version v2).
Proof.
  unfold equal_meta, about_version. destruct v as [c m s u], v2 as [c2 m2 s2 u2]; cbn [vd_created vd_message vd_user].
  destruct c as [c|], c2 as [c2|]; try done. destruct m as [m|], m2 as [m2|]; try done.
  destruct u as [[e [n|] [a|]]|]; try done. destruct u2 as [[e2 [n2|] [a2|]]|]; try done.
  intros [= <-]. rewrite bool_decide_eq_true. cbn. split.
  - by intros (-> & -> & -> & ->).
  - by intros [= -> -> -> ->].
Qed.

Lemma only_files w fm e fs : check_files w fm e = VDone fs → only ["E092"; "E093"] fs.
Proof.
  unfold check_files. destruct (fm !! dc_alg e) as [cs|]; [|case_decide; [|done]; intros [= <-]; codes].
  intros (fa & fb & Ha & Hb & ->)%vseq_done. injection Ha as <-. apply only_app. split.
  - intros f Hf. apply flat_map_in in Hf as ([dg ps] & _ & Hf). cbn [fst snd] in Hf. destruct (cs !! to_lower dg).
    + apply flat_map_in in Hf as (g & _ & [_ ->]%when_in). set_solver.
    + apply elem_of_list_singleton in Hf as ->. set_solver.
  - intros f Hf. apply (vall_map_done _ _ _ Hb) in Hf as ([alg m] & fv & _ & Hfv & Hf). cbn [fst snd] in *.
    destruct (fm !! alg) as [cs'|]; [|done]. injection Hfv as <-. apply flat_map_in in Hf as ([dg ps] & _ & Hf). cbn [fst snd] in Hf.
    match type of Hf with _ ∈ match ?x with _ => _ end => destruct x end.
    + apply flat_map_in in Hf as (g & _ & [_ ->]%when_in). set_solver.
    + apply elem_of_list_singleton in Hf as ->. set_solver.
Qed.

Section object.
Context (hash : string → string → option string) (decode : string → option doc) (w : vorder) (lx : lexicon) (s : storage) (fs : list finding).
Context (Hw : vorder_ok w) (H : validate_object hash decode w lx s = VDone fs).

Theorem validate_about b d ver v vb vd k tv tv2 : s !! "inventory.json" = Some b → decode b = Some d →
  all_numbered d → distinct_numbers d → has_version d ver v → s !! (ver +:+ "/inventory.json") = Some vb → decode vb = Some vd →
  has_version d k tv → has_version vd k tv2 →
  Finding "W011" [ver; k] ∈ fs ↔ about_version tv ≠ about_version tv2.
Proof.
  intros Hb Hd Hnum Hdist Hv Hvb Hvd Htv%has_version_vers Htv2%has_version_vers.
  destruct (validate_steps2 _ _ _ _ _ _ H) as (b' & d' & vinv & fl & fc & Hb' & Hd' & Hc & -> & Hfl & Hvinv).
  rewrite Hb in Hb'. injection Hb' as <-. rewrite Hd in Hd'. injection Hd' as <-.
  assert (vinv !! ver = Some (twice w lx vd)) as Hvi.
  { rewrite Hvinv, decide_True; [by rewrite Hvb, Hvd|].
    apply strings_in; [done|by apply twice_numbered|by apply twice_distinct|]. apply has_version_twice. by exists v. }
  assert (vers (twice w lx d) !! k = Some (fin_version k (fin_version k tv).2).2) as Hk by (by rewrite twice_vers, Htv).
  assert (vers (twice w lx vd) !! k = Some (fin_version k (fin_version k tv2).2).2) as Hk2 by (by rewrite twice_vers, Htv2).
  destruct (check_steps _ _ _ _ _ _ Hc) as [vs walks fm cd f1 f2 f3 f4 f5 f6 f7 Hvs Hwk Hfm Hr Hcd Hi Hl Ha Hph Hpr Hli Hfs].
  assert (Finding "W011" [ver; k] ∈ f4 ↔ about_version tv ≠ about_version tv2) as Hf4.
  { rewrite (vall_map_done _ _ _ Ha). split.
    - intros ([ver' vd'] & fv & Hin%vo_in & Hfv & Hf); [|done]. cbn [fst snd] in *. unfold check_against_root in Hfv.
      apply vseq_done in Hfv as (fa & fb & Hfa & Hfb & ->). apply elem_of_app in Hf as [Hf|Hf].
      { injection Hfa as <-. exfalso. revert Hf. rewrite !elem_of_app. unfold when.
        intros [Hf|[Hf|Hf]]; (match type of Hf with _ ∈ (if ?b then _ else _) => destruct b end; [|by apply elem_of_nil in Hf]);
          apply elem_of_list_singleton in Hf; discriminate. }
      apply (vall_map_done _ _ _ Hfb) in Hf as ([k' v'] & f0 & Hin'%vo_in & Hf0 & Hf); [|done]. cbn [fst snd] in *.
      destruct (vers (twice w lx d) !! k') as [tv'|] eqn:Htv'; [|done].
      destruct (equal_state_doc tv' v') as [es|]; [|done]. destruct (equal_meta tv' v') as [em|] eqn:Hem; [|done]. injection Hf0 as <-.
      apply elem_of_app in Hf as [Hf|Hf]; unfold when in Hf.
      { destruct (negb es); [|by apply elem_of_nil in Hf]. apply elem_of_list_singleton in Hf. discriminate. }
      destruct em; [by apply elem_of_nil in Hf|]. apply elem_of_list_singleton in Hf. injection Hf as <- <-.
      rewrite Hvi in Hin. injection Hin as <-. rewrite Hk2 in Hin'. injection Hin' as <-. rewrite Hk in Htv'. injection Htv' as <-.
      apply equal_meta_about in Hem. rewrite !about_fin in Hem. intros E. by apply Hem in E.
    - intros Hne. exists (ver, twice w lx vd). destruct (proj1 (vall_map_ok _ _) (ex_intro _ _ Ha) (ver, twice w lx vd)) as [fv Hfv]; [by apply vo_in|].
      cbn [fst snd] in *. exists fv. split; [by apply vo_in|]. split; [done|]. unfold check_against_root in Hfv.
      apply vseq_done in Hfv as (fa & fb & _ & Hfb & ->). apply elem_of_app. right. apply (vall_map_done _ _ _ Hfb).
      exists (k, (fin_version k (fin_version k tv2).2).2).
      destruct (proj1 (vall_map_ok _ _) (ex_intro _ _ Hfb) (k, (fin_version k (fin_version k tv2).2).2)) as [f0 Hf0]; [by apply vo_in|].
      cbn [fst snd] in *. exists f0. split; [by apply vo_in|]. split; [done|]. rewrite Hk in Hf0.
      destruct (equal_state_doc _ _) as [es|]; [|done]. destruct (equal_meta _ _) as [em|] eqn:Hem; [|done]. injection Hf0 as <-.
      apply equal_meta_about in Hem. rewrite !about_fin in Hem. apply elem_of_app. right. destruct em; [|by left]. destruct Hne. by apply Hem. }
  rewrite <-Hf4. split.
  - intros [Hf|Hf]%elem_of_app.
    { apply Hfl in Hf. revert Hf. unfold load_codes, doc_codes. cbn [f_code]. set_solver. }
    rewrite Hfs, !elem_of_app in Hf.
    assert (∀ e f0, check_files w fm e = VDone f0 → Finding "W011" [ver; k] ∉ f0) as Hcf.
    { intros e f0 Hf0 Hin. apply only_files in Hf0. apply Hf0 in Hin. revert Hin. cbn [f_code]. clear. set_solver. }
    destruct Hf as [Hf|[Hf|[Hf|[Hf|[Hf|[Hf|[Hf|[Hf|[Hf|Hf]]]]]]]]].
    + apply only_check_root in Hf. revert Hf. cbn [f_code]. clear. set_solver.
    + apply flat_map_in in Hf as (x & _ & Hf). apply only_walk in Hf. revert Hf. cbn [f_code]. clear. set_solver.
    + exfalso. exact (Hcf _ _ Hr Hf).
    + exfalso. apply (vall_map_done _ _ _ Hi) in Hf as (ver' & fv & Hver & Hfv & Hin).
      destruct (vinv !! ver') as [vd'|] eqn:Hvd'; [|injection Hfv as <-; by apply elem_of_nil in Hin].
      unfold check_version_inventory in Hfv. apply vseq_done in Hfv as (fa & fb & Hfa & Hfb & ->). injection Hfa as <-.
      apply vseq_done in Hfb as (f0 & fc' & Hf0 & Hfc & ->). injection Hfc as <-.
      rewrite !elem_of_app in Hin. destruct Hin as [Hin|[Hin|[Hin|Hin]]].
      * by apply when_in in Hin as [_ [=]].
      * exact (Hcf _ _ Hf0 Hin).
      * apply flat_map_in in Hin as (x & _ & Hin). by apply when_in in Hin as [_ [=]].
      * apply flat_map_in in Hin as (x & _ & Hin). by apply when_in in Hin as [_ [=]].
    + apply only_specs in Hf. revert Hf. cbn [f_code]. clear. set_solver.
    + exfalso. subst vs. destruct (vinv !! default "" (last _)) as [ld|]; [|injection Hl as <-; by apply elem_of_nil in Hf].
      destruct (is_equal ld _) as [bb|]; [|done]. injection Hl as <-. by apply when_in in Hf as [_ [=]].
    + exact Hf.
    + exfalso. apply (vall_map_done _ _ _ Hph) in Hf as ([ver' vd'] & fv & Hver & Hfv & Hin). cbn [fst snd] in *.
      apply only_physical in Hfv. apply Hfv in Hin. revert Hin. cbn [f_code]. clear. set_solver.
    + exfalso. apply only_physical in Hpr. apply Hpr in Hf. revert Hf. cbn [f_code]. clear. set_solver.
    + exfalso. apply (vall_map_done _ _ _ Hli) in Hf as (ver' & fv & Hver & Hfv & Hin).
      apply vseq_done in Hfv as (fa & fb & Hfa & Hfb & ->). apply elem_of_app in Hin as [Hin|Hin].
      * apply (vall_map_done _ _ _ Hfa) in Hin as ([ver2 vd2] & fv2 & Hver' & Hfv & Hin). apply only_listed in Hfv.
        apply Hfv in Hin. revert Hin. cbn [f_code]. clear. set_solver.
      * apply only_listed in Hfb. apply Hfb in Hin. revert Hin. cbn [f_code]. clear. set_solver.
  - intros Hf. apply elem_of_app. right. rewrite Hfs, !elem_of_app. tauto.
Qed.
End object.
