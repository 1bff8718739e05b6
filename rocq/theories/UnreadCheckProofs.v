(** The validator reports inventories that cannot be read. *)
From Coq Require Import Ascii.
From stdpp Require Import base list strings gmap.
From Coq Require Import ZArith Lia.
From Verif Require Import GoStr InventoryModel ObjectModel LoadModel ValidateModel ValidateSpec ValidateProofs CheckModel CheckSpec CheckProofs CheckProofs2
  AcceptSpec AcceptProofs AcceptProofs2 GuaranteeSpec GuaranteeProofs GuaranteeProofs3 UnreadModel UnreadCheckModel.
From Verif Require ValidateProofs2.

Lemma root_dirs_has s v p b : s !! (v +:+ "/" +:+ p) = Some b → str_mem slash v = false → v ∈ root_dirs s.
Proof.
  intros Hb Hv. unfold root_dirs. apply elem_of_remove_dups, flat_map_in. exists (v +:+ "/" +:+ p, b). split; [by apply elem_of_map_to_list|].
  cbn [fst]. rewrite split_folder by done. destruct (split_slash p) eqn:E; [by destruct (split_on_ne slash p)|]. by left.
Qed.
Lemma blank_strings w n typ : vorder_ok w → version_strings w n (blank_doc typ) = [].
Proof.
  intros Hw. unfold version_strings. assert (vo w n (vers (blank_doc typ)) = []) as ->; [|reflexivity].
  apply Permutation_nil. symmetry. rewrite (Hw n _ (vers (blank_doc typ))). by vm_compute.
Qed.
(** The root inventory cannot be read. *)
Lemma unread_root hash decode w lx typ r s v p b :
  vorder_ok w → r "inventory.json" = Failed → s !! (v +:+ "/" +:+ p) = Some b → str_mem slash v = false → v ≠ "logs" → v ≠ "extensions" →
  ¬ only_warnings (validate_from hash decode w lx typ r s).
Proof.
  intros Hw Hr Hb Hv H1 H2 (fs & H & Hf). unfold validate_from, load_doc_from in H. cbv zeta in H. change ("" +:+ "inventory.json") with "inventory.json" in H.
  rewrite Hr in H. rewrite blank_strings in H by done. cbn [load_versions_from] in H.
  apply vseq_done in H as (fa & fb & _ & H & ->). apply vseq_done in H as (fc & fd & _ & H & ->). unfold check_object in H.
  apply vseq_done in H as (fe & ff & He & _ & ->). injection He as <-. rewrite blank_strings in Hf by done.
  destruct (Hf (Finding "E001" [v])) as [x Hx]; [|cbn in Hx; discriminate Hx].
  apply elem_of_app. right. apply elem_of_app. right. apply elem_of_app. left. unfold check_root. apply elem_of_app. left.
  apply flat_map_in. exists v. split; [by eapply root_dirs_has|]. apply elem_of_app. left.
  rewrite decide_False; [by left|]. intros [H|[H|H]]; [by apply elem_of_nil in H|done|done].
Qed.
(** The inventory of a version cannot be read. *)
Lemma versions_blank hash decode w lx typ r l ver : ver ∈ l → r (ver +:+ "/inventory.json") = Failed →
  (load_versions_from hash decode w lx typ r l).1 !! ver = Some (blank_doc typ).
Proof.
  intros Hl Hr. induction l as [|x l IH]; [by apply elem_of_nil in Hl|]. cbn [load_versions_from].
  destruct (load_doc_from hash decode w lx typ r (x +:+ "/")) as [od v] eqn:E1.
  destruct (load_versions_from hash decode w lx typ r l) as [m v'] eqn:E2. cbn [fst] in IH.
  destruct (decide (x = ver)) as [->|Hne].
  - unfold load_doc_from in E1. cbv zeta in E1. rewrite <- str_app_assoc in E1. change ("/" +:+ "inventory.json") with "/inventory.json" in E1. rewrite Hr in E1.
    injection E1 as <- <-. cbn [fst]. by rewrite lookup_insert.
  - apply elem_of_cons in Hl as [->|Hl]; [done|]. specialize (IH Hl). destruct od; cbn [fst]; [by rewrite lookup_insert_ne|done].
Qed.
Lemma blank_sums hash w s d vinv ver typ : (∀ x, hash "" x = None) → vinv !! ver = Some (blank_doc typ) → ver ∈ version_strings w 18 d →
  ∀ fs, check_files_and_versions hash w s d vinv ≠ VDone fs.
Proof.
  intros Hh Hv Hin fs H. unfold check_files_and_versions in H. cbv zeta in H. destruct (all_some (walk s <$> version_strings w 18 d)) as [walks|] eqn:Hw; [|done].
  apply vseq_done in H as (fa & fb & _ & H & ->). unfold content_manifest in H. rewrite Hw in H.
  destruct (all_some (file_sums hash (all_digests d vinv) s <$> concat walks)) as [sums|] eqn:Hs; [|done]. clear H.
  assert (∃ l, walk s ver = Some l) as [l Hl].
  { destruct (walk s ver) eqn:E; [by eexists|]. exfalso. apply (proj1 (ValidateProofs2.all_some_ok _) (ex_intro _ _ Hw) None); [|done].
    apply elem_of_list_fmap. by exists ver. }
  destruct l as [|f l]; [by apply walk_nonempty in Hl|].
  destruct (proj1 (walk_in _ _ _ f Hl)) as [[c Hc] _]; [by left|].
  assert (f ∈ concat walks) as Hf.
  { apply all_some_eq in Hw. apply elem_of_list_In, in_concat. exists (f :: l). split; [|by left]. apply elem_of_list_In.
    assert (Some (f :: l) ∈ Some <$> walks) as Hx by (rewrite <- Hw; apply elem_of_list_fmap; by exists ver).
    apply elem_of_list_fmap in Hx as (y & [= <-] & Hy). done. }
  apply (proj1 (ValidateProofs2.all_some_ok _) (ex_intro _ _ Hs) (file_sums hash (all_digests d vinv) s f)); [apply elem_of_list_fmap; by exists f|].
  unfold file_sums. rewrite Hc. set (g := λ alg, _).
  destruct (all_some (g <$> all_digests d vinv)) as [x|] eqn:Hx; [|done]. exfalso.
  apply (proj1 (ValidateProofs2.all_some_ok _) (ex_intro _ _ Hx) (g "")); [|unfold g; by rewrite Hh].
  apply elem_of_list_fmap. exists "". split; [done|]. exact (all_digests_version d vinv ver _ Hv).
Qed.
Lemma load_doc_from_findings hash decode w lx typ r pre od fs b d : load_doc_from hash decode w lx typ r pre = (od, VDone fs) →
  r (pre +:+ "inventory.json") = Bytes b → decode b = Some d → od = Some (twice w lx d) ∧ ∃ f, validated w lx d f ∧ f ⊆ fs.
Proof.
  unfold load_doc_from, twice. intros H Hb Hd. cbv zeta in H. rewrite Hb, Hd in H.
  destruct (finalize w lx false d) as [d1 r1] eqn:E1. cbn [fst]. destruct (finalize w lx false d1) as [d2 r2] eqn:E2. injection H as <- H. cbn [fst]. split; [done|].
  apply vseq_done in H as (f1 & f2 & -> & _ & ->). exists f1. split; [unfold validated; by rewrite E1|set_solver].
Qed.
Definition accepted (v : verdict) : Prop := ∃ fs, v = VDone fs ∧ ws fs.
Lemma accepted_seq a b : accepted (vseq a b) → accepted a ∧ accepted b.
Proof.
  intros (fs & (fa & fb & -> & -> & ->)%vseq_done & H). split; [exists fa|exists fb]; (split; [done|]); eapply ws_sub; try exact H; set_solver.
Qed.
Lemma versions_accepted hash decode w lx typ r l ver : ver ∈ l → accepted (load_versions_from hash decode w lx typ r l).2 →
  accepted (load_doc_from hash decode w lx typ r (ver +:+ "/")).2.
Proof.
  intros Hl. induction l as [|x l IH]; [by apply elem_of_nil in Hl|]. cbn [load_versions_from].
  destruct (load_doc_from hash decode w lx typ r (x +:+ "/")) as [od v] eqn:E1.
  destruct (load_versions_from hash decode w lx typ r l) as [m v'] eqn:E2. cbn [snd] in IH.
  intros H. assert (accepted v ∧ accepted v') as [H1 H2].
  { destruct od; cbn [snd] in H; apply accepted_seq in H as [H1 H2]; [done|]. apply accepted_seq in H2 as [_ H2]. done. }
  apply elem_of_cons in Hl as [->|Hl]; [by rewrite E1|by apply IH].
Qed.
Lemma digest_file_refused hash decode w lx typ r pre b d : r (pre +:+ "inventory.json") = Bytes b → decode b = Some d →
  r (pre +:+ "inventory.json." +:+ dc_alg d) = Failed → ¬ accepted (load_doc_from hash decode w lx typ r pre).2.
Proof.
  intros Hb Hd Hr. unfold load_doc_from. cbv zeta. rewrite Hb, Hd.
  destruct (finalize w lx false d) as [d1 r1]. destruct (finalize w lx false d1) as [d2 r2]. cbn [snd].
  rewrite <- !str_app_assoc. change ("inventory.json" +:+ "." +:+ dc_alg d) with ("inventory.json." +:+ dc_alg d). rewrite Hr.
  intros [_ [(fs & [= <-] & H) _]%accepted_seq]%accepted_seq. apply (clean_not _ "E060" H); [exists [pre]; by left|done].
Qed.
(** What an accepting run has loaded. *)
Lemma accepted_root hash decode w lx typ r s b d : vorder_ok w → r "inventory.json" = Bytes b → decode b = Some d →
  only_warnings (validate_from hash decode w lx typ r s) →
  accepted (load_doc_from hash decode w lx typ r "").2 ∧ all_numbered d ∧ distinct_numbers d ∧
  let l := load_versions_from hash decode w lx typ r (version_strings w 16 (twice w lx d)) in
  accepted l.2 ∧ accepted (check_object hash w s (twice w lx d) l.1).
Proof.
  intros Hw Hb Hd H. change (accepted (validate_from hash decode w lx typ r s)) in H. unfold validate_from in H.
  destruct (load_doc_from hash decode w lx typ r "") as [od v] eqn:E.
  assert (accepted v) as Hv.
  { destruct od as [D|]; [|by destruct v; destruct H as (? & ? & ?)]. destruct (load_versions_from _ _ _ _ _ _ _). by apply accepted_seq in H as [H _]. }
  destruct Hv as (fs & -> & Hf).
  destruct (load_doc_from_findings _ _ _ _ _ _ _ _ _ b d E) as [-> (f & HV & Hs)]; [exact Hb|done|].
  assert (ws f) as Hwf by (by eapply ws_sub).
  split; [by exists fs|]. split; [exact (clean_numbered w lx Hw d f HV Hwf)|]. split; [exact (clean_distinct w lx Hw d f HV Hwf)|].
  cbv zeta. destruct (load_versions_from _ _ _ _ _ _ _) as [vinv rv]. apply accepted_seq in H as [_ H]. by apply accepted_seq in H.
Qed.
Lemma unread_version hash decode w lx typ r s b d ver v :
  vorder_ok w → (∀ x, hash "" x = None) → r "inventory.json" = Bytes b → decode b = Some d → has_version d ver v →
  r (ver +:+ "/inventory.json") = Failed → ¬ only_warnings (validate_from hash decode w lx typ r s).
Proof.
  intros Hw Hh Hb Hd Hv Hr H. destruct (accepted_root _ _ _ _ _ _ _ b d Hw Hb Hd H) as (_ & Hn & Hdi & H1 & (fs & H2 & _)).
  assert (∀ n, ver ∈ version_strings w n (twice w lx d)) as Hin by (intros n; apply twice_strings; [done..|by exists v]).
  pose proof (versions_blank hash decode w lx typ r _ ver (Hin 16) Hr) as Hbl. unfold check_object in H2. apply vseq_done in H2 as (f1 & f2 & _ & H2 & _).
  exact (blank_sums hash w s _ _ ver typ Hh Hbl (Hin 18) f2 H2).
Qed.
Lemma unread_digest hash decode w lx typ r s b d ver v vb vd :
  vorder_ok w → r "inventory.json" = Bytes b → decode b = Some d → has_version d ver v → r (ver +:+ "/inventory.json") = Bytes vb → decode vb = Some vd →
  r (ver +:+ "/inventory.json." +:+ dc_alg vd) = Failed → ¬ only_warnings (validate_from hash decode w lx typ r s).
Proof.
  intros Hw Hb Hd Hv Hr Hvd Hf H. destruct (accepted_root _ _ _ _ _ _ _ b d Hw Hb Hd H) as (_ & Hn & Hdi & H1 & _).
  apply (versions_accepted _ _ _ _ _ _ _ ver) in H1; [|apply twice_strings; [done..|by exists v]].
  revert H1. apply (digest_file_refused hash decode w lx typ r (ver +:+ "/") vb vd); [by rewrite <- str_app_assoc|done|by rewrite <- str_app_assoc].
Qed.
(** Without failures it is the validator. *)
Section same.
  Context (s : storage) (r : driver) (HR : ∀ pre, r (pre +:+ "inventory.json") = match s !! (pre +:+ "inventory.json") with Some b => Bytes b | None => Missing end).
  Context (HD : ∀ pre alg, r (pre +:+ "inventory.json." +:+ alg) = match s !! (pre +:+ "inventory.json." +:+ alg) with Some b => Bytes b | None => Missing end).
  Lemma same_doc hash decode w lx typ pre : load_doc_from hash decode w lx typ r pre = load_doc hash decode w lx s pre.
  Proof using HR HD.
    unfold load_doc_from, load_doc. cbv zeta. rewrite HR. destruct (s !! (pre +:+ "inventory.json")) as [b|]; [|done]. destruct (decode b) as [d|]; [|done].
    rewrite <- !str_app_assoc. change ("inventory.json" +:+ "." +:+ dc_alg d) with ("inventory.json." +:+ dc_alg d). rewrite HD. by destruct (s !! _).
  Qed.
  Lemma same_versions hash decode w lx typ l : load_versions_from hash decode w lx typ r l = load_versions hash decode w lx s l.
  Proof using HR HD. induction l as [|x l IH]; [done|]. cbn [load_versions_from load_versions]. by rewrite same_doc, IH. Qed.
  Lemma same_verdict hash decode w lx typ : validate_from hash decode w lx typ r s = validate_object hash decode w lx s.
  Proof using HR HD. unfold validate_from, validate_object. rewrite same_doc. destruct (load_doc _ _ _ _ _ _) as [[d|] v]; [|done]. by rewrite same_versions. Qed.
End same.
