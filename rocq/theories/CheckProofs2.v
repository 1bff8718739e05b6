(** Validation of stored objects, from the bytes: the theorems behind C19, C26 and C27. *)
From Coq Require Import Ascii ZArith Lia.
From stdpp Require Import base list strings gmap sorting.
From Verif Require Import GoStr InventoryModel ObjectModel LoadModel ValidateModel ValidateSpec ValidateProofs ValidateProofs2
  ValidateProofs3 CheckModel CheckSpec EqualProofs CheckProofs.

Lemma has_version_twice w lx d x : (∃ v, has_version (twice w lx d) x v) ↔ ∃ v, has_version d x v.
Proof.
  setoid_rewrite has_version_vers. apply (twice_names w lx d x).
Qed.
Lemma twice_numbered w lx d : all_numbered d → all_numbered (twice w lx d).
Proof. intros H ver v Hv. destruct (proj1 (has_version_twice w lx d ver)) as [v0 Hv0]; [by exists v|]. by eapply H. Qed.
Lemma twice_distinct w lx d : distinct_numbers d → distinct_numbers (twice w lx d).
Proof.
  intros H v1 x1 v2 x2 k H1 H2. destruct (proj1 (has_version_twice w lx d v1)) as [y1 Hy1]; [by exists x1|].
  destruct (proj1 (has_version_twice w lx d v2)) as [y2 Hy2]; [by exists x2|]. by eapply H.
Qed.
Lemma strings_in w n d x : vorder_ok w → all_numbered d → distinct_numbers d →
  x ∈ version_strings w n d ↔ ∃ v, has_version d x v.
Proof.
  intros Hw Hn Hd. unfold version_strings.
  assert (∀ y, y ∈ (vo w n (vers d)).*1 ↔ ∃ v, has_version d y v) as Hin.
  { intros y. rewrite elem_of_list_fmap. setoid_rewrite has_version_vers. split.
    - intros ([ver v] & -> & Hi). apply vo_in in Hi; [|done]. by exists v.
    - intros [v Hv]. exists (y, v). split; [done|]. by apply vo_in. }
  rewrite sorted_names_in; [by apply Hin|..].
  - intros s [v Hv]%Hin. by eapply Hn.
  - intros s t k [v Hv]%Hin [v' Hv']%Hin. by eapply Hd.
Qed.
Lemma sorted_last (l : list N) x y : StronglySorted N.le l → last l = Some x → y ∈ l → (y <= x)%N.
Proof.
  induction l as [|a l IH]; intros Hs Hl Hy; [done|]. apply StronglySorted_inv in Hs as [Hs Ha].
  destruct l as [|b l].
  - injection Hl as ->. apply elem_of_list_singleton in Hy as ->. lia.
  - rewrite last_cons_cons in Hl. apply elem_of_cons in Hy as [->|Hy]; [|by apply IH].
    rewrite Forall_forall in Ha. apply Ha. by apply last_Some_elem_of.
Qed.
Lemma strings_last w n d ver : vorder_ok w → all_numbered d → distinct_numbers d → newest d ver →
  last (version_strings w n d) = Some ver.
Proof.
  intros Hw Hn Hd (v & k & Hv & Hk & Hmax).
  assert (Hin := proj2 (strings_in w n d ver Hw Hn Hd) (ex_intro _ v Hv)).
  assert (∀ x, x ∈ version_strings w n d → ∃ v, has_version d x v) as Hall by (intros x; by apply strings_in).
  unfold version_strings, sorted_names in *.
  destruct (nums_numbered ((vo w n (vers d)).*1)) as (ps & E1 & E & Hps).
  { intros s Hs. apply elem_of_list_fmap in Hs as ([y vy] & -> & Hi). apply vo_in in Hi; [|done].
    apply has_version_vers in Hi. by eapply Hn. }
  rewrite E1 in *. rewrite fmap_last.
  apply elem_of_list_fmap in Hin as (m & Hm & Hin).
  destruct (last (merge_sort N.le ps.*1)) as [z|] eqn:El.
  2:{ apply last_None in El. rewrite El in Hin. by apply elem_of_nil in Hin. }
  simpl. f_equal.
  assert (∀ j, j ∈ merge_sort N.le ps.*1 → ∃ s, last_with j ps = Some s ∧ numbered s j) as Hlw.
  { intros j Hj. rewrite merge_sort_Permutation in Hj. destruct (last_with_in _ _ Hj) as (s & Hs & Hin'). exists s. split; [done|]. by apply Hps. }
  destruct (Hlw m Hin) as (s & Hs & Hns). rewrite Hs in Hm. simpl in Hm. subst s. rewrite (numbered_fun _ _ _ Hk Hns) in *.
  assert (z ∈ merge_sort N.le ps.*1) as Hz by (by apply last_Some_elem_of).
  destruct (Hlw z Hz) as (t & Ht & Hnt). rewrite Ht. simpl.
  destruct (Hall t) as [vt Hvt].
  { apply elem_of_list_fmap. exists z. rewrite Ht. done. }
  pose proof (Hmax _ _ _ Hvt Hnt) as Hle. pose proof (sorted_last _ _ m (StronglySorted_merge_sort N.le _) El Hin) as Hge.
  assert (z = m) as -> by lia. by eapply Hd.
Qed.

(** ** The codes of loading *)
Definition doc_codes : list string :=
  ["E041"; "E104"; "W007"; "E008"; "E011"; "E012"; "E013"; "E049"; "E054"; "W008"; "W009"; "E094"; "E050"; "E096"; "E053"; "E052";
   "E010"; "W001"; "E040"; "E095"; "E107"; "E100"; "E099"; "E101"; "E097"; "E036"; "W005"; "W004"; "E025"; "E017"].
Lemma only_doc w lx d fs : validated w lx d fs → only doc_codes fs.
Proof.
  intros HV. destruct (validated_parts _ _ _ _ HV) as [P]. intros f Hf. apply (findings_in _ _ _ _ P) in Hf.
  destruct Hf as [Hf|[[_ ->]|[Hf|[(ver & v & fv & Hv & Hc & Hf)|[Hf|[Hf|[Hf|[Hf|Hf]]]]]]]].
  - eapply (only_weaken _ doc_codes); [|apply only_start|exact Hf]. unfold doc_codes. set_solver.
  - unfold doc_codes. set_solver.
  - eapply (only_weaken _ doc_codes); [|apply only_pad|exact Hf]. unfold doc_codes. set_solver.
  - eapply (only_weaken _ doc_codes); [|by eapply only_version|exact Hf]. unfold doc_codes. set_solver.
  - eapply (only_weaken _ doc_codes); [|apply only_tail|exact Hf]. unfold doc_codes. set_solver.
  - eapply (only_weaken _ doc_codes); [|eapply only_log; exact (pt_log _ _ _ _ P)|exact Hf]. unfold doc_codes. set_solver.
  - eapply (only_weaken _ doc_codes); [|eapply only_man; exact (pt_man _ _ _ _ P)|exact Hf]. unfold doc_codes. set_solver.
  - eapply (only_weaken _ doc_codes); [|eapply only_fix; exact (pt_fix _ _ _ _ P)|exact Hf]. unfold doc_codes. set_solver.
  - eapply (only_weaken _ doc_codes); [|apply only_rest|exact Hf]. unfold doc_codes. set_solver.
Qed.
Definition load_codes : list string := ["E058"; "E060"; "E061"; "W010"] ++ doc_codes.
Lemma only_load_doc hash decode w lx s pre od fs : load_doc hash decode w lx s pre = (od, VDone fs) → only load_codes fs.
Proof.
  unfold load_doc. destruct (s !! (pre +:+ "inventory.json")) as [b|]; [|intros [= _ <-]; apply only_nil].
  destruct (decode b) as [d0|] eqn:Hd; [|done].
  destruct (finalize w lx false d0) as [d1 r1] eqn:E1. destruct (finalize w lx false d1) as [d2 r2] eqn:E2.
  intros Heq. apply (f_equal snd) in Heq. cbn [snd] in Heq. apply vseq_done in Heq as (fa & fb & -> & Hb & ->).
  apply vseq_done in Hb as (fc & fd & Hc & -> & ->).
  assert (doc_codes ⊆ load_codes) as Hsub by (unfold load_codes; set_solver).
  apply only_app. split; [eapply (only_weaken doc_codes); [done|]; apply (only_doc w lx d0); unfold validated; by rewrite E1|].
  apply only_app. split; [|eapply (only_weaken doc_codes); [done|]; apply (only_doc w lx d1); unfold validated; by rewrite E2].
  destruct (s !! _) as [text|].
  - destruct (sidecar_parse text) as [dg|].
    + destruct (hash (dc_alg d0) b); [|done]. injection Hc as <-. apply only_when. unfold load_codes. simpl. set_solver.
    + injection Hc as <-. apply (only_when _ true). unfold load_codes. simpl. set_solver.
  - injection Hc as <-. apply (only_when _ true). unfold load_codes. simpl. set_solver.
Qed.
Lemma only_load_versions hash decode w lx s l m fs : load_versions hash decode w lx s l = (m, VDone fs) → only load_codes fs.
Proof.
  revert m fs. induction l as [|v l IH]; intros m fs; cbn [load_versions]; [intros [= _ <-]; apply only_nil|].
  destruct (load_doc hash decode w lx s (v +:+ "/")) as [od r] eqn:E.
  destruct (load_versions hash decode w lx s l) as [m' r'] eqn:E'. destruct od as [d|]; intros Heq; apply (f_equal snd) in Heq; cbn [snd] in Heq.
  - apply vseq_done in Heq as (fa & fb & -> & -> & ->). apply only_app. split; [by eapply only_load_doc|by eapply IH].
  - apply vseq_done in Heq as (fa & fb & -> & Hb & ->). apply (vseq_done (VDone _)) in Hb as (fc & fd & Hc & -> & ->).
    injection Hc as <-. apply only_app. split; [by eapply only_load_doc|]. apply only_app. split; [|by eapply IH].
    apply (only_when _ true). unfold load_codes. simpl. set_solver.
Qed.
Lemma validate_steps2 hash decode w lx s fs : validate_object hash decode w lx s = VDone fs →
  ∃ b d0 vinv fl fc, s !! "inventory.json" = Some b ∧ decode b = Some d0 ∧
    check_object hash w s (twice w lx d0) vinv = VDone fc ∧ fs = fl ++ fc ∧ only load_codes fl ∧
    ∀ ver, vinv !! ver = if decide (ver ∈ version_strings w 16 (twice w lx d0)) then
      match s !! (ver +:+ "/inventory.json") with None => None | Some b => twice w lx <$> decode b end else None.
Proof.
  unfold validate_object. destruct (load_doc hash decode w lx s "") as [[d|] r] eqn:E; [|by destruct r].
  destruct (load_versions _ _ _ _ _ _) as [vinv rv] eqn:E'. intros (f1 & f2 & -> & H & ->)%vseq_done.
  apply vseq_done in H as (f3 & f4 & -> & H & ->). pose proof (only_load_doc _ _ _ _ _ _ _ _ E) as Ho1.
  pose proof (only_load_versions _ _ _ _ _ _ _ _ E') as Ho2. apply load_doc_done in E as [Hod Hdec].
  change ("" +:+ "inventory.json") with "inventory.json" in Hod, Hdec.
  destruct (s !! "inventory.json") as [b|] eqn:Eb; [|done]. destruct (Hdec b eq_refl) as [d0 Hd0].
  rewrite Hd0 in Hod. simpl in Hod. injection Hod as ->. exists b, d0, vinv, (f1 ++ f3), f4.
  split; [done|]. split; [done|]. split; [done|]. split; [by rewrite (assoc_L (++))|]. split; [by apply only_app|].
  exact (load_versions_done _ _ _ _ _ _ _ _ E').
Qed.

Section object.
Context (hash : string → string → option string) (decode : string → option doc) (w : vorder) (lx : lexicon) (s : storage) (fs : list finding).
Context (Hw : vorder_ok w) (H : validate_object hash decode w lx s = VDone fs).

Theorem validate_corrupted b d dg p : s !! "inventory.json" = Some b → decode b = Some d →
  man_lists d dg p → ¬ intact hash (dc_alg d) s dg p → reported fs "E092".
Proof.
  intros Hb Hd Hm Hn. destruct (validate_steps _ _ _ _ _ _ H) as (b' & d' & vinv & fc & Hb' & Hd' & Hc & Hsub & _).
  rewrite Hb in Hb'. injection Hb' as <-. rewrite Hd in Hd'. injection Hd' as <-. apply (reported_mono fc); [done|].
  apply (corrupted_reported hash w s (twice w lx d) vinv fc Hw Hc (twice w lx d) dg p); [by left|by apply twice_man_lists|].
  destruct (twice_fields w lx d) as (_ & _ & -> & _). intros [? _]. done.
Qed.
Theorem validate_corrupted_version b d ver v vb vd dg p : s !! "inventory.json" = Some b → decode b = Some d →
  all_numbered d → distinct_numbers d → has_version d ver v → s !! (ver +:+ "/inventory.json") = Some vb → decode vb = Some vd →
  man_lists vd dg p → ¬ intact hash (dc_alg vd) s dg p → reported fs "E092".
Proof.
  intros Hb Hd Hnum Hdist Hv Hvb Hvd Hm Hn.
  destruct (validate_steps _ _ _ _ _ _ H) as (b' & d' & vinv & fc & Hb' & Hd' & Hc & Hsub & Hvinv).
  rewrite Hb in Hb'. injection Hb' as <-. rewrite Hd in Hd'. injection Hd' as <-. apply (reported_mono fc); [done|].
  assert (∀ n, ver ∈ version_strings w n (twice w lx d)) as Hin.
  { intros n. apply strings_in; [done|by apply twice_numbered|by apply twice_distinct|]. apply has_version_twice. by exists v. }
  apply (corrupted_reported hash w s (twice w lx d) vinv fc Hw Hc (twice w lx vd) dg p); [|by apply twice_man_lists|].
  - right. exists ver. split; [apply Hin|]. rewrite Hvinv, decide_True by apply Hin. by rewrite Hvb, Hvd.
  - destruct (twice_fields w lx vd) as (_ & _ & -> & _). intros [? _]. done.
Qed.
(** All inventories of the object: the root inventory and those of its versions. *)
Definition object_inventory (e : doc) : Prop :=
  (∃ b, s !! "inventory.json" = Some b ∧ decode b = Some e) ∨
  (∃ ver b, s !! (ver +:+ "/inventory.json") = Some b ∧ decode b = Some e).
Theorem validate_intact b d : s !! "inventory.json" = Some b → decode b = Some d → all_numbered d → distinct_numbers d →
  (∀ e dg p, object_inventory e → man_lists e dg p →
     intact hash (dc_alg e) s dg p ∧ ∃ ver v r, has_version d ver v ∧ p = ver +:+ "/" +:+ r) →
  (∀ e, object_inventory e → no_empty_entry e) →
  ¬ reported fs "E092".
Proof.
  intros Hb Hd Hnum Hdist Hall Hne Hrep.
  destruct (validate_steps2 _ _ _ _ _ _ H) as (b' & d' & vinv & fl & fc & Hb' & Hd' & Hc & -> & Hfl & Hvinv).
  rewrite Hb in Hb'. injection Hb' as <-. rewrite Hd in Hd'. injection Hd' as <-.
  apply reported_app in Hrep as [Hrep|Hrep].
  { revert Hrep. eapply only_not; [exact Hfl|]. unfold load_codes, doc_codes. set_solver. }
  destruct (only_corrupted_reported hash w s (twice w lx d) vinv fc Hw Hc Hrep) as (e & dg & ps & He & Hm & Hx).
  assert (∃ e0, object_inventory e0 ∧ e = twice w lx e0) as (e0 & He0 & ->).
  { destruct He as [->|(ver & Hver)]; [exists d; split; [left; by exists b|done]|].
    rewrite Hvinv in Hver. case_decide; [|done]. destruct (s !! (ver +:+ "/inventory.json")) as [vb|] eqn:Evb; [|done].
    destruct (decode vb) as [e0|] eqn:Ee; [|done]. injection Hver as <-. exists e0. split; [right; by exists ver, vb|done]. }
  destruct (twice_fields w lx e0) as (_ & _ & Ealg & _ & _ & Eman & _). rewrite Eman in Hm.
  destruct Hx as [(p & Hp & Hx)| ->].
  - apply Hx. destruct (Hall e0 dg p He0) as [Hi (ver & v & r & Hv & ->)]; [apply man_lists_man; by exists ps|].
    rewrite Ealg. split; [done|]. exists ver, r. split; [|done].
    apply strings_in; [done|by apply twice_numbered|by apply twice_distinct|]. apply has_version_twice. by exists v.
  - unfold man in Hm. destruct (dc_manifest e0) as [m0|] eqn:Em; simpl in Hm; [|by rewrite lookup_empty in Hm].
    by apply (Hne e0 He0 m0 dg []).
Qed.

Theorem validate_fixity b d alg dg p : s !! "inventory.json" = Some b → decode b = Some d → all_numbered d → distinct_numbers d →
  (∃ ver v, has_version d ver v) → fix_lists d alg dg p →
  ¬ stored_as hash alg s dg p → ¬ stored_as hash alg s (to_lower dg) p → reported fs "E093".
Proof.
  intros Hb Hd Hnum Hdist (ver & v & Hv) Hf Hn1 Hn2.
  destruct (validate_steps2 _ _ _ _ _ _ H) as (b' & d' & vinv & fl & fc & Hb' & Hd' & Hc & -> & _ & _).
  rewrite Hb in Hb'. injection Hb' as <-. rewrite Hd in Hd'. injection Hd' as <-. apply reported_app. right.
  apply (fixity_reported hash w s (twice w lx d) vinv fc Hw Hc (twice w lx d) alg dg p); [by left|by apply twice_fix_lists| |].
  - assert (ver ∈ version_strings w 18 (twice w lx d)) as Hin; [|intros Hnil; rewrite Hnil in Hin; by apply elem_of_nil in Hin].
    apply strings_in; [done|by apply twice_numbered|by apply twice_distinct|]. apply has_version_twice. by exists v.
  - intros [[?|?] _]; done.
Qed.
Theorem validate_fixity_intact b d : s !! "inventory.json" = Some b → decode b = Some d → all_numbered d → distinct_numbers d →
  (∀ alg c h, hash alg c = Some h → to_lower h = h) →
  (∀ e alg dg p, object_inventory e → fix_lists e alg dg p →
     (stored_as hash alg s dg p ∨ stored_as hash alg s (to_lower dg) p) ∧ ∃ ver v r, has_version d ver v ∧ p = ver +:+ "/" +:+ r) →
  (∀ e alg m dg ps, object_inventory e → dc_fixity e !! alg = Some m → m !! dg = Some ps → ps ≠ []) →
  ¬ reported fs "E093".
Proof.
  intros Hb Hd Hnum Hdist Hlow Hall Hne Hrep.
  destruct (validate_steps2 _ _ _ _ _ _ H) as (b' & d' & vinv & fl & fc & Hb' & Hd' & Hc & -> & Hfl & Hvinv).
  rewrite Hb in Hb'. injection Hb' as <-. rewrite Hd in Hd'. injection Hd' as <-.
  apply reported_app in Hrep as [Hrep|Hrep].
  { revert Hrep. eapply only_not; [exact Hfl|]. unfold load_codes, doc_codes. set_solver. }
  destruct (only_fixity_reported hash w s (twice w lx d) vinv fc Hw Hc Hlow Hrep) as (e & alg & m & dg & ps & He & Ham & Hm & Hx).
  assert (∃ e0, object_inventory e0 ∧ e = twice w lx e0) as (e0 & He0 & ->).
  { destruct He as [->|(ver & Hver)]; [exists d; split; [left; by exists b|done]|].
    rewrite Hvinv in Hver. case_decide; [|done]. destruct (s !! (ver +:+ "/inventory.json")) as [vb|] eqn:Evb; [|done].
    destruct (decode vb) as [e0|] eqn:Ee; [|done]. injection Hver as <-. exists e0. split; [right; by exists ver, vb|done]. }
  destruct (twice_fields w lx e0) as (_ & _ & _ & _ & _ & _ & Efix). rewrite Efix in Ham.
  destruct Hx as [(p & Hp & Hx)| ->]; [|by apply (Hne e0 alg m dg [])].
  apply Hx. destruct (Hall e0 alg dg p He0) as [Hi (ver & v & r & Hv & ->)]; [by exists m, ps|].
  split; [exact Hi|]. exists ver, r. split; [|done].
  apply strings_in; [done|by apply twice_numbered|by apply twice_distinct|]. apply has_version_twice. by exists v.
Qed.

(** ** Differences between the inventories of the object *)
Lemma state_of_twice ver v n : numbered ver n → state_of (fin_version ver (fin_version ver v).2).2 = Some (default ∅ (state_of v)).
Proof.
  intros Hn. apply numbered_value in Hn. rewrite !fin_state, Hn. done.
Qed.
Theorem validate_states b d ver v vb vd k kn tv tv2 : s !! "inventory.json" = Some b → decode b = Some d →
  all_numbered d → distinct_numbers d → has_version d ver v → s !! (ver +:+ "/inventory.json") = Some vb → decode vb = Some vd →
  numbered k kn → has_version d k tv → has_version vd k tv2 →
  (∃ p, has_path (default ∅ (state_of tv)) p ∧ ¬ has_path (default ∅ (state_of tv2)) p ∨
        ¬ has_path (default ∅ (state_of tv)) p ∧ has_path (default ∅ (state_of tv2)) p) →
  reported fs "E066".
Proof.
  intros Hb Hd Hnum Hdist Hv Hvb Hvd Hk Htv%has_version_vers Htv2%has_version_vers Hdiff.
  destruct (validate_steps2 _ _ _ _ _ _ H) as (b' & d' & vinv & fl & fc & Hb' & Hd' & Hc & -> & _ & Hvinv).
  rewrite Hb in Hb'. injection Hb' as <-. rewrite Hd in Hd'. injection Hd' as <-. apply reported_app. right.
  assert (vinv !! ver = Some (twice w lx vd)) as Hvi.
  { rewrite Hvinv, decide_True; [by rewrite Hvb, Hvd|].
    apply strings_in; [done|by apply twice_numbered|by apply twice_distinct|]. apply has_version_twice. by exists v. }
  apply (state_difference hash w s (twice w lx d) vinv fc Hw Hc ver (twice w lx vd) k
    (fin_version k (fin_version k tv2).2).2 (fin_version k (fin_version k tv).2).2 (default ∅ (state_of tv)) (default ∅ (state_of tv2)) Hvi).
  - apply has_version_vers. by rewrite twice_vers, Htv.
  - apply has_version_vers. by rewrite twice_vers, Htv2.
  - by eapply state_of_twice.
  - by eapply state_of_twice.
  - apply not_true_iff_false. intros [_ He]%equal_state_iff. destruct Hdiff as (p & [[H1 H2]|[H1 H2]]).
    + by apply H2, He.
    + by apply H1, He.
Qed.
Theorem validate_newest b d ver vb vd : s !! "inventory.json" = Some b → decode b = Some d →
  all_numbered d → distinct_numbers d → newest d ver → s !! (ver +:+ "/inventory.json") = Some vb → decode vb = Some vd →
  is_equal (twice w lx vd) (twice w lx d) ≠ Some true → reported fs "E064".
Proof.
  intros Hb Hd Hnum Hdist Hnew Hvb Hvd Hne.
  destruct (validate_steps2 _ _ _ _ _ _ H) as (b' & d' & vinv & fl & fc & Hb' & Hd' & Hc & -> & _ & Hvinv).
  rewrite Hb in Hb'. injection Hb' as <-. rewrite Hd in Hd'. injection Hd' as <-. apply reported_app. right.
  assert (newest (twice w lx d) ver) as Hnew'.
  { destruct Hnew as (v & n & Hv & Hn & Hmax). destruct (proj2 (has_version_twice w lx d ver)) as [v' Hv']; [by exists v|].
    exists v', n. split; [done|]. split; [done|]. intros ver' x n' Hx. destruct (proj1 (has_version_twice w lx d ver')) as [y Hy]; [by exists x|].
    by eapply Hmax. }
  apply (newest_difference hash w s (twice w lx d) vinv fc Hw Hc ver (twice w lx vd)); [|..|done].
  - apply strings_last; [done|by apply twice_numbered|by apply twice_distinct|done].
  - rewrite Hvinv, decide_True; [by rewrite Hvb, Hvd|].
    apply strings_in; [done|by apply twice_numbered|by apply twice_distinct|]. destruct Hnew' as (v & _ & Hv & _). by exists v.
Qed.
End object.

Lemma twice_state_lists w lx d k dg p : state_lists (twice w lx d) k dg p ↔ state_lists d k dg p.
Proof.
  rewrite !state_lists_state. rewrite twice_vers. split.
  - intros (v & st & ps & Hv & Hst & Hl & Hp). destruct (vers d !! k) as [v0|] eqn:E; [|done]. injection Hv as <-.
    rewrite !fin_state in Hst. destruct (version_value k); [|by exists v0, st, ps]. simpl in Hst. injection Hst as <-.
    destruct (state_of v0) as [st0|] eqn:E0; simpl in Hl; [|by rewrite lookup_empty in Hl]. by exists v0, st0, ps.
  - intros (v & st & ps & -> & Hst & Hl & Hp). eexists _, st, ps. split; [done|]. rewrite !fin_state, Hst. by destruct (version_value k).
Qed.
Lemma twice_lists_once w lx d : lists_once d → lists_once (twice w lx d).
Proof.
  intros H m dg ps Hm Hl. apply (lists_once_man d dg); [done|]. destruct (twice_fields w lx d) as (_ & _ & _ & _ & _ & E & _).
  rewrite <-E. unfold man. by rewrite Hm.
Qed.
Theorem accepted_newest hash decode w lx s fs b d ver vb vd :
  vorder_ok w → validate_object hash decode w lx s = VDone fs →
  s !! "inventory.json" = Some b → decode b = Some d → all_numbered d → distinct_numbers d →
  newest d ver → s !! (ver +:+ "/inventory.json") = Some vb → decode vb = Some vd →
  ¬ reported fs "E064" →
  dc_type vd = dc_type d ∧ os_val (dc_head vd) = os_val (dc_head d) ∧ dc_contentdir vd = dc_contentdir d ∧
  (∀ k, (∃ v, has_version vd k v) ↔ ∃ v, has_version d k v) ∧
  (∀ k p, (∃ dg, state_lists vd k dg p) ↔ ∃ dg, state_lists d k dg p) ∧
  (lists_once vd → lists_once d → ∀ dg p, man_lists vd dg p → man_lists d dg p).
Proof.
  intros Hw H Hb Hd Hnum Hdist Hnew Hvb Hvd Hno.
  destruct (decide (is_equal (twice w lx vd) (twice w lx d) = Some true)) as [He|Hne].
  2:{ exfalso. by apply Hno, (validate_newest hash decode w lx s fs Hw H b d ver vb vd). }
  pose proof (is_equal_agrees _ _ He) as Ha. destruct (twice_fields w lx vd) as (_ & a2 & _ & a4 & a5 & _).
  destruct (twice_fields w lx d) as (_ & b2 & _ & b4 & b5 & _). split_and!.
  - rewrite <-a2, <-b2. apply Ha.
  - rewrite <-a4, <-b4. apply Ha.
  - rewrite <-a5, <-b5. apply Ha.
  - intros k. rewrite <-(has_version_twice w lx vd), <-(has_version_twice w lx d). setoid_rewrite has_version_vers. apply (ag_names _ _ Ha k).
  - intros k p. pose proof (is_equal_paths _ _ k p He) as Hp. setoid_rewrite twice_state_lists in Hp. done.
  - intros Hn1 Hn2 dg p Hm. apply (twice_man_lists w lx). apply (is_equal_manifest (twice w lx vd)); [done|by apply twice_lists_once..|].
    by apply twice_man_lists.
Qed.
