From Coq Require Import Ascii.
From stdpp Require Import base list strings gmap.
From Coq Require Import ZArith Lia.
From Verif Require Import GoStr InventoryModel InventorySpec ObjectModel LoadModel AreaModel AreaSpec ExtractProofs ValidateModel ValidateSpec
  ValidateProofs CheckModel CheckSpec AcceptSpec AcceptProofs GuaranteeSpec GuaranteeProofs GuaranteeProofs2 GuaranteeProofs3 JsonInvModel ForeignModel.

Lemma parse_text_of fits tm t0 w lx text : parse_text fits tm t0 w lx text = parse_of (decode_text fits tm t0) w lx text.
Proof. unfold parse_text, parse_of, decode_text. by destruct (load_text fits tm t0 text). Qed.

(** * Loading *)
Lemma finalize_alg w lx d d1 r : finalize w lx false d = (d1, r) → dc_alg d1 = dc_alg d.
Proof. unfold finalize. destruct (check_doc w lx _) as [pad r']. by intros [= <- _]. Qed.
Lemma finalize_man w lx d d1 r : finalize w lx false d = (d1, r) → man d1 = man d.
Proof. unfold finalize. destruct (check_doc w lx _) as [pad r']. by intros [= <- _]. Qed.
Lemma finalize_head w lx d d1 r : finalize w lx false d = (d1, r) → dc_head d1 = dc_head d.
Proof. unfold finalize. destruct (check_doc w lx _) as [pad r']. by intros [= <- _]. Qed.
Lemma finalize_vers w lx d d1 r ver : finalize w lx false d = (d1, r) → vers d1 !! ver = (λ v, (fin_version ver v).2) <$> vers d !! ver.
Proof.
  unfold finalize. destruct (check_doc w lx _) as [pad r']. intros [= <- _]. unfold vers at 1. cbn. rewrite map_lookup_imap.
  by destruct (vers d !! ver).
Qed.
Lemma fin_state ver v : default ∅ (state_of (fin_version ver v).2) = default ∅ (state_of v).
Proof. unfold fin_version. destruct (version_value ver); [|done]. unfold state_of. cbn. by destruct (vd_state v) as [[st e]|]. Qed.

Lemma accepted_loads hash decode w lx s : only_warnings (validate_object hash decode w lx s) →
  ∃ b d d1 f, s !! "inventory.json" = Some b ∧ decode b = Some d ∧ finalize w lx false d = (d1, VDone f) ∧ ws f ∧
    load_inventory hash (parse_of decode w lx) s "" = LInv (to_inventory d1) [].
Proof.
  intros (fs & H & Hc). unfold validate_object in H. destruct (load_doc hash decode w lx s "") as [[D|] r] eqn:E; [|by destruct r].
  destruct (load_versions _ _ _ _ _ _) as [vinv rv]. apply vseq_done in H as (f0 & f0' & -> & _ & ->).
  assert (ws f0) as Hc0 by (eapply ws_sub; [|exact Hc]; set_solver). clear Hc.
  unfold load_doc in E. change ("" +:+ "inventory.json") with "inventory.json" in E.
  destruct (s !! "inventory.json") as [b|] eqn:Eb; [|done]. destruct (decode b) as [d0|] eqn:Ed; [|done].
  destruct (finalize w lx false d0) as [d1 r1] eqn:E1. destruct (finalize w lx false d1) as [d2 r2] eqn:E2.
  apply (f_equal snd) in E. cbn [snd] in E. apply vseq_done in E as (f1 & f2 & -> & E & ->).
  apply vseq_done in E as (f3 & f4 & E & -> & ->). assert (ws f3) as H3 by (eapply ws_sub; [|exact Hc0]; set_solver).
  exists b, d0, d1, f1. split; [done|]. split; [done|]. split; [done|]. split; [eapply ws_sub; [|exact Hc0]; set_solver|].
  unfold load_inventory. change ("" +:+ "inventory.json") with "inventory.json". rewrite Eb. unfold parse_of. rewrite Ed, E1.
  change (inv_alg (to_inventory d1)) with (dc_alg d1). rewrite (finalize_alg _ _ _ _ _ E1).
  destruct (s !! ("inventory.json" +:+ "." +:+ dc_alg d0)) as [t|].
  2:{ exfalso. injection E as <-. apply (clean_not _ "E058" H3); [|done]. exists [""]. by left. }
  destruct (sidecar_parse t) as [dg|].
  2:{ exfalso. injection E as <-. apply (clean_not _ "E061" H3); [|done]. exists [""]. by left. }
  destruct (hash (dc_alg d0) b) as [dg'|]; [|done]. injection E as <-.
  destruct (decide (dg = dg')) as [|Hne]; [done|]. exfalso. apply (clean_not _ "E060" H3); [|done]. exists [""].
  apply when_in. split; [|done]. by rewrite bool_decide_false.
Qed.

(** * Extraction succeeds if every digest leads to its content *)
Lemma extract_files_passes X src alg area ints d exts s p ps data :
  ints = p :: ps → src !! p = Some data → x_hash X alg data = Some d →
  (∀ e, e ∈ exts → x_path X e area ≠ XErr) → (∀ e q, e ∈ exts → x_path X e area = XPath q → x_can X q = true) →
  snd (extract_files X src alg area ints d exts s) = SOk.
Proof.
  intros -> Hp Hh. revert s. induction exts as [|e exts IH]; intros s He Hq; [done|]. cbn [extract_files].
  destruct (x_path X e area) as [q| |] eqn:E.
  - unfold extract_file. rewrite Hp, (Hq e q) by (set_solver || done). rewrite Hh, decide_True by done. apply IH; intros; [apply He|eapply Hq]; set_solver.
  - done.
  - exfalso. apply (He e); [left|exact E].
Qed.
Lemma extract_succeeds X orc i src ver mf area t v : oracle_ok orc → inv_versions i !! requested_version i ver = Some v →
  (∀ d exts, v_state v !! d = Some exts → ∃ p ps data, inv_manifest i !! d = Some (p :: ps) ∧ src !! p = Some data ∧ x_hash X (inv_alg i) data = Some d) →
  (∀ e d, lists (v_state v) e d → x_path X e area ≠ XErr) →
  (∀ q, target_name X area (v_state v) q → x_can X q = true) →
  (mf = true → x_can X ("manifest." +:+ inv_alg i) = true) →
  snd (extract X orc i src ver mf area t) = SOk.
Proof.
  intros Ho Hv Hc Hx Hq Hm. rewrite (extract_body _ _ _ _ _ _ _ _ v) by done.
  assert (snd (body X orc i src (requested_version i ver) area v t) = SOk) as Hb.
  { unfold body. apply iterate_status, Forall_forall. intros [d exts] Hin. apply state_elem in Hin; [|done].
    destruct (Hc d exts Hin) as (p & ps & data & H1 & H2 & H3). exists p, ps. split; [done|]. cbn [fst snd].
    eapply extract_files_passes; [done|exact H2|exact H3| |].
    - intros e He. apply (Hx e d). by exists exts.
    - intros e q He Hp. apply Hq. exists d, e. split; [by exists exts|done]. }
  destruct (body _ _ _ _ _ _ _ _) as [s st]. cbn in Hb. subst st. destruct mf; [|done]. by rewrite Hm.
Qed.

(** * Accepted objects *)
Section accepted.
  Context (hash : string → string → option string) (decode : string → option doc) (w : vorder) (lx : lexicon) (s : storage).
  Context (Hw : vorder_ok w) (Hok : only_warnings (validate_object hash decode w lx s)).
  Lemma version_loaded d d1 r ver v : finalize w lx false d = (d1, r) → has_version d ver v →
    ∃ v1, inv_versions (to_inventory d1) !! ver = Some v1 ∧ v_state v1 = default ∅ (state_of v).
  Proof.
    intros E (vs & Hvs & Hv). unfold to_inventory. cbn. rewrite lookup_fmap, (finalize_vers _ _ _ _ _ ver E).
    unfold vers. rewrite Hvs. cbn. rewrite Hv. cbn. eexists. split; [reflexivity|]. unfold to_version. cbn. apply fin_state.
  Qed.
  Lemma state_listed d ver v dg exts : has_version d ver v → default ∅ (state_of v) !! dg = Some exts →
    ∃ st e, vd_state v = Some (st, e) ∧ st !! dg = Some exts.
  Proof.
    intros _. unfold state_of. destruct (vd_state v) as [[st e]|]; cbn; [|intros H; by rewrite lookup_empty in H].
    intros H. by exists st, e.
  Qed.
  Lemma accepted_content b d d1 f : s !! "inventory.json" = Some b → decode b = Some d → finalize w lx false d = (d1, VDone f) → ws f →
    no_empty_entry d → (∀ dg p, man_lists d dg p → to_lower dg = dg) →
    ∀ ver v dg exts, has_version d ver v → default ∅ (state_of v) !! dg = Some exts →
      ∃ p ps data, man d !! dg = Some (p :: ps) ∧ s !! p = Some data ∧ hash (dc_alg d) data = Some dg.
  Proof.
    intros Hb Hd Hfin Hf Hne Hlow ver v dg exts Hv Hs. destruct (accepted_assured _ _ _ _ _ Hw Hok) as [d' Ha].
    destruct (as_root _ _ _ _ Ha) as (b' & dg' & t & Hb' & He & _). rewrite str_app_nil_l, Hb in Hb'. injection Hb' as <-.
    rewrite Hd in He. injection He as <-. destruct (state_listed d ver v dg exts Hv Hs) as (st & e & Est & Hl).
    assert (validated w lx d f) as HV by (unfold validated; by rewrite Hfin).
    destruct (clean_states w lx Hw d f HV Hf ver v st e dg Hv Est (ex_intro _ _ Hl)) as (m & Hm & ps & Hml).
    pose proof (Hne m dg ps Hm Hml) as Hps. destruct ps as [|q ps]; [done|].
    assert (man_lists d dg q) as Hq by (exists m, (q :: ps); split; [done|]; split; [done|left]).
    destruct (as_content _ _ _ _ Ha d dg q (or_introl eq_refl) Hq) as [(c & Hc1 & Hc2) _]. rewrite (Hlow dg q Hq) in Hc2.
    exists q, ps, c. split; [unfold man; by rewrite Hm|done].
  Qed.
End accepted.

Theorem accepted_extracts hash decode w lx s : vorder_ok w → only_warnings (validate_object hash decode w lx s) →
  ∃ b d i, s !! "inventory.json" = Some b ∧ decode b = Some d ∧ load_inventory hash (parse_of decode w lx) s "" = LInv i [] ∧
    inv_alg i = dc_alg d ∧ inv_head i = os_val (dc_head d) ∧
    (∀ ver v, has_version d ver v → ∃ v1, inv_versions i !! ver = Some v1 ∧ v_state v1 = default ∅ (state_of v)) ∧
    (no_empty_entry d → (∀ dg p, man_lists d dg p → to_lower dg = dg) →
     ∀ X orc ver mf area t v v1, x_hash X = hash → oracle_ok orc → has_version d (requested_version i ver) v →
      inv_versions i !! requested_version i ver = Some v1 → v_state v1 = default ∅ (state_of v) →
      (∀ e d, lists (v_state v1) e d → x_path X e area ≠ XErr) →
      (∀ q, target_name X area (v_state v1) q → x_can X q = true) →
      (mf = true → x_can X ("manifest." +:+ dc_alg d) = true) →
      snd (extract X orc i s ver mf area t) = SOk).
Proof.
  intros Hw Hok. destruct (accepted_loads _ _ _ _ _ Hok) as (b & d & d1 & f & Hb & Hd & Hfin & Hf & Hl).
  exists b, d, (to_inventory d1). split; [done|]. split; [done|]. split; [done|].
  split; [exact (finalize_alg _ _ _ _ _ Hfin)|]. split; [unfold to_inventory; cbn; by rewrite (finalize_head _ _ _ _ _ Hfin)|].
  split; [intros ver v Hv; by eapply version_loaded|].
  intros Hne Hlow X orc ver mf area t v v1 Hh Ho Hv Hv1 Hst Hx Hq Hm. eapply extract_succeeds; [done|exact Hv1| |done|done|].
  - intros dg exts Hdg. rewrite Hst in Hdg.
    destruct (accepted_content hash decode w lx s Hw Hok b d d1 f Hb Hd Hfin Hf Hne Hlow _ v dg exts Hv Hdg) as (p & ps & data & H1 & H2 & H3).
    exists p, ps, data. rewrite Hh. change (inv_manifest (to_inventory d1)) with (man d1). rewrite (finalize_man _ _ _ _ _ Hfin).
    change (inv_alg (to_inventory d1)) with (dc_alg d1). by rewrite (finalize_alg _ _ _ _ _ Hfin).
  - change (inv_alg (to_inventory d1)) with (dc_alg d1). by rewrite (finalize_alg _ _ _ _ _ Hfin).
Qed.

(** * Without areas *)
Lemma picked_all X area exts : (∀ e, x_path X e area = XPath e) → picked X area exts = exts.
Proof. intros H. induction exts as [|e exts IH]; cbn [picked]; [done|]. by rewrite H, IH. Qed.
Lemma extract_whole X orc i src ver area t v : oracle_ok orc → inv_versions i !! requested_version i ver = Some v →
  (∀ e, x_path X e area = XPath e) → snd (extract X orc i src ver false area t) = SOk →
  ∃ t', extract X orc i src ver false area t = (t', SOk) ∧
    (∀ p, (¬ ∃ dg, lists (v_state v) p dg) → t' !! p = t !! p) ∧
    (∀ p dg, lists (v_state v) p dg → ∃ c dg', lists (v_state v) p dg' ∧ t' !! p = Some c ∧ x_hash X (inv_alg i) c = Some dg').
Proof.
  intros Ho Hv Hid. rewrite (extract_body _ _ _ _ _ _ _ _ v) by done.
  destruct (body X orc i src (requested_version i ver) area v t) as [s st] eqn:Eb. cbn. destruct st; [|done..]. intros _.
  exists (xs_files s). split; [done|]. unfold body in Eb. apply iterate_ok in Eb as [Hf _]. split.
  - intros p Hn. destruct (Hf p) as [[_ Hp]|(dg & exts & ints & data & Hin & Hp & _)]; [exact Hp|]. exfalso. apply Hn. exists dg, exts.
    apply state_elem in Hin; [|done]. by rewrite picked_all in Hp.
  - intros p dg (exts & Hs & He). destruct (Hf p) as [[Hp _]|(dg' & exts' & ints & data & Hin & Hp & _ & (q & qs & _ & _ & Hh) & Hl)].
    + exfalso. rewrite Forall_forall in Hp. apply (Hp (dg, exts)); [by apply state_elem|]. cbn [snd]. by rewrite picked_all.
    + exists data, dg'. split; [|done]. exists exts'. apply state_elem in Hin; [|done]. by rewrite picked_all in Hp.
Qed.
