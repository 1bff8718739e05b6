(** What follows when the validator reports nothing but warnings. *)
From Coq Require Import Ascii.
From stdpp Require Import base list strings gmap.
From Coq Require Import ZArith Lia.
From Verif Require Import GoStr InventoryModel ObjectModel CrashSpec LoadModel ValidateModel ValidateSpec ValidateProofs ValidateProofs2 ValidateProofs3
  ValidateProofs4 CheckModel CheckSpec EqualProofs CheckProofs CheckProofs2 AcceptSpec AcceptProofs.

Lemma clean_not fs c : ws fs → reported fs c → str_head c ≠ Some "W"%char → False.
Proof. intros H [args Hf] Hc. destruct (H _ Hf) as [r Hr]. cbn [f_code] in Hr. subst c. by apply Hc. Qed.

(** * The inventories that are loaded *)
Lemma load_doc_findings hash decode w lx s pre od fs b : load_doc hash decode w lx s pre = (od, VDone fs) →
  s !! (pre +:+ "inventory.json") = Some b → ∃ d f, decode b = Some d ∧ validated w lx d f ∧ f ⊆ fs.
Proof.
  unfold load_doc. intros H Hb. rewrite Hb in H. destruct (decode b) as [d0|]; [|done].
  destruct (finalize w lx false d0) as [d1 r1] eqn:E1. destruct (finalize w lx false d1) as [d2 r2] eqn:E2.
  apply (f_equal snd) in H. cbn [snd] in H. apply vseq_done in H as (f1 & f2 & -> & _ & ->). exists d0, f1. split; [done|].
  split; [|set_solver]. unfold validated. by rewrite E1.
Qed.
Lemma load_versions_findings hash decode w lx s l m fs ver b : load_versions hash decode w lx s l = (m, VDone fs) → ver ∈ l →
  s !! (ver +:+ "/inventory.json") = Some b → ∃ d f, decode b = Some d ∧ validated w lx d f ∧ f ⊆ fs.
Proof.
  intros H Hin Hb. revert m fs H. induction l as [|v l IH]; [by apply elem_of_nil in Hin|]. intros m fs. cbn [load_versions].
  destruct (load_doc hash decode w lx s (v +:+ "/")) as [od r] eqn:E. destruct (load_versions hash decode w lx s l) as [m' r'] eqn:E'. intros H.
  assert (∃ f1 f2, r = VDone f1 ∧ r' = VDone f2 ∧ f1 ⊆ fs ∧ f2 ⊆ fs) as (f1 & f2 & -> & -> & S1 & S2).
  { destruct od.
    - injection H as _ H. apply vseq_done in H as (? & ? & ? & ? & ->). eexists _, _. split; [done|]. split; [done|]. split; set_solver.
    - injection H as _ H. apply vseq_done in H as (? & ? & ? & H & ->). destruct r' as [f2| |]; [|done..]. injection H as <-. eexists _, _. split; [done|]. split; [done|]. split; set_solver. }
  apply elem_of_cons in Hin as [->|Hin].
  - assert (v +:+ "/inventory.json" = (v +:+ "/") +:+ "inventory.json") as Hv by (by rewrite <-str_app_assoc). rewrite Hv in Hb.
    destruct (load_doc_findings _ _ _ _ _ _ _ _ _ E Hb) as (d & f & H1 & H2 & H3). exists d, f. split; [done|]. split; [done|]. set_solver.
  - destruct (IH Hin _ _ eq_refl) as (d & f & H1 & H2 & H3). exists d, f. split; [done|]. split; [done|]. set_solver.
Qed.
Lemma root_findings hash decode w lx s fs b : validate_object hash decode w lx s = VDone fs → s !! "inventory.json" = Some b →
  ∃ d f, decode b = Some d ∧ validated w lx d f ∧ f ⊆ fs.
Proof.
  unfold validate_object. destruct (load_doc hash decode w lx s "") as [[d|] r] eqn:E; [|by destruct r].
  destruct (load_versions _ _ _ _ _ _) as [vinv rv] eqn:E'. intros (f1 & f2 & -> & H & ->)%vseq_done Hb.
  destruct (load_doc_findings _ _ _ _ _ _ _ _ b E Hb) as (d0 & f & H1 & H2 & H3). exists d0, f. split; [done|]. split; [done|]. set_solver.
Qed.
Lemma twice_strings w lx n d ver : vorder_ok w → all_numbered d → distinct_numbers d →
  ver ∈ version_strings w n (twice w lx d) ↔ ∃ v, has_version d ver v.
Proof.
  intros Hw Hn Hd. unfold version_strings.
  assert (∀ x, x ∈ (vo w n (vers (twice w lx d))).*1 ↔ ∃ v, has_version d x v) as Hx.
  { intros x. rewrite elem_of_list_fmap. split.
    - intros ([k v] & -> & Hin). apply vo_in in Hin; [|done]. cbn [fst].
      destruct (proj1 (twice_names w lx d k)) as [v' Hv']; [by eexists|]. exists v'. by apply has_version_vers.
    - intros [v Hv%has_version_vers]. destruct (proj2 (twice_names w lx d x)) as [v' Hv']; [by eexists|].
      exists (x, v'). split; [done|]. by apply vo_in. }
  rewrite sorted_names_in, Hx; [done|..].
  - intros x [v Hv]%Hx. by eapply Hn.
  - intros a b k [v Hv]%Hx [v' Hv']%Hx. by eapply Hd.
Qed.
Lemma version_findings_in hash decode w lx s fs b d ver v vb : vorder_ok w → validate_object hash decode w lx s = VDone fs →
  s !! "inventory.json" = Some b → decode b = Some d → all_numbered d → distinct_numbers d → has_version d ver v →
  s !! (ver +:+ "/inventory.json") = Some vb → ∃ e f, decode vb = Some e ∧ validated w lx e f ∧ f ⊆ fs.
Proof.
  intros Hw H Hb Hdec Hn Hd Hv Hvb. revert H. unfold validate_object. destruct (load_doc hash decode w lx s "") as [[D|] r] eqn:E; [|by destruct r].
  destruct (load_versions _ _ _ _ _ _) as [vinv rv] eqn:E'. intros (f1 & f2 & -> & H & ->)%vseq_done.
  apply vseq_done in H as (f3 & f4 & -> & H & ->). apply load_doc_done in E as [Hod _]. change ("" +:+ "inventory.json") with "inventory.json" in Hod.
  rewrite Hb, Hdec in Hod. cbn [fmap option_fmap option_map] in Hod. apply (inj Some) in Hod. subst D.
  destruct (load_versions_findings _ _ _ _ _ _ _ _ ver vb E') as (e & f & H1 & H2 & H3); [|done|].
  - apply twice_strings; [done..|]. by exists v.
  - exists e, f. split; [done|]. split; [done|]. set_solver.
Qed.

(** * One inventory *)
Section doc.
  Context (w : vorder) (lx : lexicon) (Hw : vorder_ok w) (d : doc) (fs : list finding) (HV : validated w lx d fs) (Hc : ws fs).
  Lemma not_reported c : str_head c ≠ Some "W"%char → ¬ reported fs c.
  Proof using Hc. intros H1 H2. by apply (clean_not fs c). Qed.
  Lemma clean_upto : ∃ n, exactly_upto d n.
  Proof using Hw HV Hc. apply (sequence_iff w lx d fs Hw HV). split; by apply not_reported. Qed.
  Lemma clean_numbered : all_numbered d.
  Proof using Hw HV Hc. destruct clean_upto as (n & _ & H & _). intros ver v Hv. destruct (H ver v Hv) as (k & Hk & _). by exists k. Qed.
  Lemma clean_distinct : distinct_numbers d.
  Proof using Hw HV Hc. destruct clean_upto as (n & _ & _ & H). exact H. Qed.
End doc.
