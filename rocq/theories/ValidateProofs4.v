(** The codes reported by a validation do not depend on the map order. *)
From Coq Require Import Ascii ZArith Lia.
From stdpp Require Import base list strings gmap sorting numbers.
From Verif Require Import GoStr InventoryModel InventorySpec InventoryProofs ValidateModel ValidateSpec ValidateProofs ValidateProofs2 ValidateProofs3.

Lemma vall_perm {A} (f g : A → verdict) l l' fs :
  (∀ a fa, a ∈ l → f a = VDone fa → ∃ fb, g a = VDone fb ∧ ∀ x, x ∈ fa ↔ x ∈ fb) →
  l ≡ₚ l' → vall (f <$> l) = VDone fs → ∃ fs', vall (g <$> l') = VDone fs' ∧ ∀ x, x ∈ fs ↔ x ∈ fs'.
Proof.
  intros Hfg Hp Hv.
  assert (∀ a, a ∈ l → ∃ fa, f a = VDone fa) as Hok by (apply vall_map_ok; eauto).
  destruct (proj2 (vall_map_ok g l')) as [fs' Hv'].
  { intros a Ha. rewrite <- Hp in Ha. destruct (Hok a Ha) as [fa Hfa]. destruct (Hfg _ _ Ha Hfa) as (fb & Hb & _). eauto. }
  exists fs'. split; [done|]. intros x. rewrite (vall_map_done _ _ _ Hv), (vall_map_done _ _ _ Hv'). split.
  - intros (a & fa & Ha & Hfa & Hx). destruct (Hfg _ _ Ha Hfa) as (fb & Hb & Hab). exists a, fb.
    split; [by rewrite <- Hp|]. split; [done|]. by apply Hab.
  - intros (a & fb & Ha & Hfb & Hx). rewrite <- Hp in Ha. destruct (Hok a Ha) as [fa Hfa].
    destruct (Hfg _ _ Ha Hfa) as (fb' & Hb & Hab). exists a, fa. split; [done|]. split; [done|]. apply Hab. congruence.
Qed.
Lemma flat_map_perm {A} (f : A → list string) l l' : l ≡ₚ l' → flat_map f l ≡ₚ flat_map f l'.
Proof. intros H. by apply Permutation_flat_map. Qed.
Lemma str_sort_unique l l' : l ≡ₚ l' → str_sort l = str_sort l'.
Proof.
  intros H. assert (AntiSymm (=) str_le) by (intros a b; apply str_le_antisym).
  apply (StronglySorted_unique str_le); [apply str_sort_sorted..|]. by rewrite !str_sort_perm.
Qed.
Lemma vo_perm w1 w2 n {A} (m : gmap string A) : vorder_ok w1 → vorder_ok w2 → vo w1 n m ≡ₚ vo w2 n m.
Proof. intros H1 H2. by rewrite (H1 n A m), (H2 n A m). Qed.

Section two_orders.
  Context (w1 w2 : vorder) (Hw1 : vorder_ok w1) (Hw2 : vorder_ok w2) (lx : lexicon) (d : doc).

  Lemma start_order f : f ∈ start_findings w1 d → f ∈ start_findings w2 d.
  Proof using Hw1 Hw2.
    unfold start_findings. rewrite !elem_of_app, !flat_map_in. intros [H|[H|(p & Hp & H)]]; [by left|by right; left|].
    right. right. exists p. split; [|done]. by rewrite (vo_perm w2 w1).
  Qed.
  Lemma version_order m ver v fv : check_version w1 lx m ver v = VDone fv →
    ∃ fv', check_version w2 lx m ver v = VDone fv' ∧ ∀ x, x ∈ fv ↔ x ∈ fv'.
  Proof using Hw1 Hw2.
    unfold check_version.
    destruct (vd_created v), (vd_user v) as [[ue [un|] [ua|]]|], (vd_message v), (vd_state v) as [[st e]|]; try done.
    intros (fa & fb & Ha & Hb & ->)%vseq_done. rewrite Ha.
    eapply vall_perm in Hb as (fb' & -> & Hx); [|intros a x _ Hx; exists x; split; [exact Hx|done]|apply (vo_perm w1 w2); done].
    eexists. split; [reflexivity|]. intros x. by rewrite !elem_of_app, Hx.
  Qed.
  Lemma log_order (l l' : list (string * vdoc)) fs : l ≡ₚ l' →
    vall ((λ p : string * vdoc, check_logical w1 p.2) <$> l) = VDone fs →
    ∃ fs', vall ((λ p : string * vdoc, check_logical w2 p.2) <$> l') = VDone fs' ∧ ∀ x, x ∈ fs ↔ x ∈ fs'.
  Proof using Hw1 Hw2.
    intros Hp. apply vall_perm; [|done]. intros [ver v] fa _. cbn [snd]. unfold check_logical. destruct (state_of v) as [st|]; [|done].
    intros [= <-]. eexists. split; [done|].
    rewrite (str_sort_unique (flat_map snd (vo w1 10 st)) (flat_map snd (vo w2 10 st))); [done|].
    apply flat_map_perm. by apply vo_perm.
  Qed.
  Lemma all_some_in {A} (l : list (option A)) r : all_some l = Some r → ∀ x, x ∈ r ↔ Some x ∈ l.
  Proof.
    revert r. induction l as [|[a|] l IH]; simpl; intros r H x; [|..|done].
    - injection H as <-. by rewrite !elem_of_nil.
    - destruct (all_some l) as [r'|]; [|done]. injection H as <-. rewrite !elem_of_cons, (IH r' eq_refl). naive_solver.
  Qed.
  Lemma manifest_order fs : check_manifest w1 (fdoc w1 d) = VDone fs →
    ∃ fs', check_manifest w2 (fdoc w2 d) = VDone fs' ∧ ∀ x, x ∈ fs ↔ x ∈ fs'.
  Proof using Hw1 Hw2.
    unfold check_manifest. destruct (all_some _) as [sts|] eqn:E1; [|done].
    destruct (proj2 (all_some_ok ((λ p : string * vdoc, state_of p.2) <$> vo w2 1 (vers (fdoc w2 d))))) as [sts2 E2].
    { intros x Hx. eapply all_some_ok; [eauto|]. apply elem_of_list_fmap in Hx as (p & -> & Hp).
      apply elem_of_list_fmap. exists p. split; [done|].
      change (vers (fdoc w2 d)) with (vers (fdoc w1 d)) in Hp. by rewrite (vo_perm w1 w2). }
    rewrite E2. intros (fa & fb & Ha & Hb & ->)%vseq_done. injection Hb as <-.
    assert (∀ dg, dg ∈ flat_map (λ st : smap, (map_to_list st).*1) sts ↔ dg ∈ flat_map (λ st : smap, (map_to_list st).*1) sts2) as Hu.
    { intros dg. rewrite !flat_map_in. setoid_rewrite (all_some_in _ _ E1). setoid_rewrite (all_some_in _ _ E2).
      setoid_rewrite elem_of_list_fmap. change (vers (fdoc w2 d)) with (vers (fdoc w1 d)). by setoid_rewrite (vo_perm w1 w2). }
    eapply (vall_perm _ (λ p : string * list string,
              vseq (VDone (when (negb (bool_decide (p.1 ∈ flat_map (λ st : smap, (map_to_list st).*1) sts2))) (Finding "E107" [p.1])))
                   (vall (check_path "E100" "E099" [] <$> p.2)))) in Ha as (fa' & -> & Hx);
      [| |change (man (fdoc w1 d)) with (man (fdoc w2 d)); apply (vo_perm w1 w2); done].
    - simpl. eexists. split; [done|]. intros x. rewrite !elem_of_app, Hx.
      rewrite (str_sort_unique (flat_map snd (vo w1 2 (man (fdoc w1 d)))) (flat_map snd (vo w2 2 (man (fdoc w2 d))))); [done|].
      change (man (fdoc w1 d)) with (man (fdoc w2 d)). apply flat_map_perm. by apply vo_perm.
    - intros [dg ps] f _. cbn [fst snd]. intros H. exists f. split; [|done]. rewrite <- H. do 3 f_equal.
      by rewrite (bool_decide_ext _ _ (Hu dg)).
  Qed.
  (** E097 is reported for two digests that differ in letter case only. *)
  Lemma fix_block_e097 alg seen l fs : check_fixity_block alg seen l = VDone fs →
    reported fs "E097" ↔ ¬ (NoDup (to_lower <$> l.*1) ∧ ∀ x, x ∈ to_lower <$> l.*1 → x ∉ seen).
  Proof.
    revert seen fs. induction l as [|[dg ps] l IH]; intros seen fs; cbn [check_fixity_block].
    - intros [= <-]. split; [by intros ?%reported_nil|]. intros H. exfalso. apply H. split; [constructor|].
      intros x Hx. by apply elem_of_nil in Hx.
    - intros (fa & fb & Ha & Hb & ->)%(vseq_done (VDone _)). injection Ha as <-.
      apply vseq_done in Hb as (f1 & f2 & H1 & H2 & ->).
      rewrite !reported_app, reported_when, (IH _ _ H2), bool_decide_eq_true. cbn [f_code]. rewrite !fmap_cons. cbn [fst].
      assert (¬ reported f1 "E097") as Hn.
      { intros [args Hf]. apply (vall_map_done _ _ _ H1) in Hf as (p & fp & _ & Hp & Hf).
        eapply (only_path _ _ _ _ _ ["E100"; "E099"]) in Hp; [|done|set_solver..]. apply Hp in Hf. cbn in Hf. set_solver. }
      set (L := to_lower <$> l.*1). rewrite list.NoDup_cons. split.
      + intros [[Hin _]|[Hf|Hf]]; [|done|]; intros [[Ha Hb] Hc].
        * apply (Hc (to_lower dg)); [by left|done].
        * apply Hf. split; [done|]. intros x Hx [->|Hs]%elem_of_cons; [done|]. by apply (Hc x); [right|].
      + intros H. destruct (decide (to_lower dg ∈ seen)) as [Hs|Hs]; [by left|]. right. right. intros [Hb Hc]. apply H.
        split; [split; [|done]|].
        * intros Hin. apply (Hc _ Hin). by left.
        * intros x [->|Hx]%elem_of_cons; [done|]. intros Hxs. apply (Hc x Hx). by right.
  Qed.
  Lemma fix_block_order alg l l' fs : l ≡ₚ l' → check_fixity_block alg [] l = VDone fs →
    ∃ fs', check_fixity_block alg [] l' = VDone fs' ∧ ∀ c, reported fs c → reported fs' c.
  Proof.
    intros Hp Hb. destruct (proj2 (fix_block_ok alg [] l')) as [fs' Hb'].
    { intros dg ps p Hin. rewrite <- Hp in Hin. exact (proj1 (fix_block_ok alg [] l) (ex_intro _ _ Hb) dg ps p Hin). }
    exists fs'. split; [done|]. intros c [args Hf]. destruct (fix_block_in _ _ _ _ _ Hb Hf) as [[dg E]|(dg & ps & p & fp & Hin & Hpp & Hc & Hfp)].
    - injection E as -> _. assert (reported fs "E097") as H by (by exists args).
      rewrite (fix_block_e097 _ _ _ _ Hb'). rewrite (fix_block_e097 _ _ _ _ Hb) in H.
      assert (to_lower <$> l.*1 ≡ₚ to_lower <$> l'.*1) as HL by (by rewrite Hp). intros [Ha Hc]. apply H.
      split; [by rewrite HL|]. intros x Hx. rewrite HL in Hx. by apply Hc.
    - rewrite Hp in Hin. destruct (fix_block_path _ _ _ _ _ _ _ Hb' Hin Hpp) as (fp' & Hc' & Hall).
      exists args. apply Hall. congruence.
  Qed.
  Lemma fixity_order fs : check_fixity w1 (fdoc w1 d) = VDone fs →
    ∃ fs', check_fixity w2 (fdoc w2 d) = VDone fs' ∧ ∀ c, reported fs c → reported fs' c.
  Proof using Hw1 Hw2.
    unfold check_fixity. change (dc_fixity (fdoc w2 d)) with (dc_fixity (fdoc w1 d)). intros Hv.
    assert (∀ alg m, (alg, m) ∈ vo w1 3 (dc_fixity (fdoc w1 d)) → ∃ fa fb, check_fixity_block alg [] (vo w1 4 m) = VDone fa ∧
      check_fixity_block alg [] (vo w2 4 m) = VDone fb ∧ ∀ c, reported fa c → reported fb c) as Hx.
    { intros alg m Hin. destruct (proj1 (vall_map_ok _ _) (ex_intro _ _ Hv) _ Hin) as [fa Hfa]. cbn [fst snd] in Hfa.
      destruct (fix_block_order alg (vo w1 4 m) (vo w2 4 m) fa) as (fb & Hfb & H); [by apply vo_perm|done|]. eauto. }
    destruct (proj2 (vall_map_ok (λ p : string * smap, check_fixity_block p.1 [] (vo w2 4 p.2)) (vo w2 3 (dc_fixity (fdoc w1 d))))) as [fs' Hv'].
    { intros [alg m] Hin. rewrite (vo_perm w2 w1) in Hin by done. destruct (Hx alg m Hin) as (fa & fb & _ & H & _). eauto. }
    exists fs'. split; [done|]. intros c [args Hf]. apply (vall_map_done _ _ _ Hv) in Hf as ([alg m] & fa & Hin & Hfa & Hf).
    destruct (Hx alg m Hin) as (fa' & fb & Hfa' & Hfb & H). cbn [fst snd] in Hfa. assert (fa' = fa) as -> by congruence.
    destruct (H c) as [args' Hf']; [by exists args|]. exists args'. apply (vall_map_done _ _ _ Hv'). exists (alg, m), fb.
    split; [|done]. by rewrite (vo_perm w2 w1).
  Qed.
End two_orders.

(** ** Padding *)

Definition pad_class (ver : string) : Z := if zero_name ver then (Z.of_nat (String.length ver) - 2)%Z else 0%Z.
Lemma pad_class_pos ver : zero_name ver = true → (0 < pad_class ver)%Z.
Proof.
  intros H. unfold pad_class. rewrite H. unfold zero_name in H. destruct (drop_prefix "v0" ver) as [[|c r]|] eqn:E; [done| |done].
  apply drop_prefix_spec in E as ->. simpl. lia.
Qed.
Lemma pad_class_nonneg ver : (0 <= pad_class ver)%Z.
Proof. destruct (zero_name ver) eqn:E; [pose proof (pad_class_pos _ E); lia|]. unfold pad_class. by rewrite E. Qed.
Lemma check_padding_set pad ver : (zero_name ver = true ∨ nozero_name ver = true) → (0 <= pad)%Z →
  (check_padding pad ver).1 = pad ∧
  (∀ c, c = "E012" ∨ c = "E013" → reported (check_padding pad ver).2 c ↔ pad_class ver ≠ pad) ∧
  (reported (check_padding pad ver).2 "E011" → pad_class ver ≠ pad).
Proof.
  intros Hn Hp. unfold check_padding, pad_class. unfold reported. destruct (zero_name ver) eqn:E1.
  - rewrite (decide_False (P := pad = -1)%Z) by lia. cbn [fst snd]. split; [done|].
    destruct (decide (pad = _)) as [->|Hne].
    + split; [|intros [a H]; by apply elem_of_nil in H]. intros c _. split; [intros [a H]; by apply elem_of_nil in H|done].
    + split; [|intros [a H] ?; set_solver]. intros c [-> | ->]; (split; [intros _; by intros <-|intros _; exists [ver]; set_solver]).
  - destruct Hn as [|Hn]; [done|]. rewrite Hn. rewrite (decide_False (P := pad = -1)%Z) by lia. cbn [fst snd]. split; [done|].
    destruct (decide (pad = 0)%Z) as [->|Hne].
    + split; [|intros [a H]; by apply elem_of_nil in H]. intros c _. split; [intros [a H]; by apply elem_of_nil in H|done].
    + split; [|intros _; by intros <-]. intros c [-> | ->]; (split; [intros _; by intros <-|intros _; exists [ver]; set_solver]).
Qed.
Lemma check_padding_first ver : (zero_name ver = true ∨ nozero_name ver = true) → check_padding (-1) ver = (pad_class ver, []).
Proof.
  intros Hn. unfold check_padding, pad_class. destruct (zero_name ver) eqn:E1; [done|]. by destruct Hn as [| ->].
Qed.
Lemma pad_rest pad l : (∀ ver, ver ∈ l → zero_name ver = true ∨ nozero_name ver = true) → (0 <= pad)%Z →
  pad_final pad l = pad ∧
  (∀ c, c = "E012" ∨ c = "E013" → reported (pad_findings pad l) c ↔ ∃ ver, ver ∈ l ∧ pad_class ver ≠ pad) ∧
  (reported (pad_findings pad l) "E011" → ∃ ver, ver ∈ l ∧ pad_class ver ≠ pad).
Proof.
  intros Hn Hp. induction l as [|ver l IH].
  - split; [done|]. split.
    + intros c _. split; [by intros ?%reported_nil|]. intros (ver & H & _). by apply elem_of_nil in H.
    + by intros ?%reported_nil.
  - destruct IH as (IH1 & IH2 & IH3); [intros; apply Hn; by right|].
    destruct (check_padding_set pad ver) as (H1 & H2 & H3); [apply Hn; by left|done|].
    cbn [pad_final pad_findings]. rewrite H1. split; [done|]. split.
    + intros c Hc. rewrite reported_app, (H2 c Hc), (IH2 c Hc). setoid_rewrite elem_of_cons. naive_solver.
    + intros [H|H]%reported_app; [exists ver; split; [by left|by apply H3]|]. destruct (IH3 H) as (v & Hv & Hv').
      exists v. split; [by right|done].
Qed.
Lemma pad_all l : (∀ ver, ver ∈ l → zero_name ver = true ∨ nozero_name ver = true) →
  (∀ c, c = "E012" ∨ c = "E013" → reported (pad_findings (-1) l) c ↔ ∃ a b, a ∈ l ∧ b ∈ l ∧ pad_class a ≠ pad_class b) ∧
  (reported (pad_findings (-1) l) "E011" → ∃ a b, a ∈ l ∧ b ∈ l ∧ pad_class a ≠ pad_class b) ∧
  (∀ ver r, l = ver :: r → pad_final (-1) l = pad_class ver).
Proof.
  intros Hn. destruct l as [|ver l].
  - split; [|split; [by intros ?%reported_nil|done]]. intros c _. split; [by intros ?%reported_nil|].
    intros (a & b & H & _). by apply elem_of_nil in H.
  - cbn [pad_findings pad_final]. rewrite check_padding_first by (apply Hn; by left). cbn [fst snd app].
    destruct (pad_rest (pad_class ver) l) as (H1 & H2 & H3); [intros; apply Hn; by right|apply pad_class_nonneg|].
    split; [|split].
    + intros c Hc. rewrite (H2 c Hc). split.
      * intros (v & Hv & Hne). exists v, ver. split; [by right|]. split; [by left|done].
      * intros (a & b & Ha & Hb & Hne). destruct (decide (pad_class a = pad_class ver)) as [Ea|Ea].
        -- exists b. split; [|congruence]. apply elem_of_cons in Hb as [->|Hb]; [congruence|done].
        -- exists a. split; [|done]. by apply elem_of_cons in Ha as [->|Ha].
    + intros (v & Hv & Hne)%H3. exists v, ver. split; [by right|]. split; [by left|done].
    + intros v r [= <- <-]. done.
Qed.
Lemma valued_names w n d ver : vorder_ok w → all_numbered d →
  ver ∈ (valued (fdoc w d) (vo w n (vers (fdoc w d)))).*1 ↔ ∃ v, has_version d ver v.
Proof.
  intros Hw Hn. rewrite elem_of_list_fmap. split.
  - intros ([x v] & -> & (v0 & H & _)%valued_in); [|done]. exists v0. by apply has_version_vers.
  - intros [v Hv]. destruct (Hn _ _ Hv) as [k Hk]. exists (ver, (fin_version ver v).2). split; [done|].
    apply valued_in; [done|]. exists v. split; [by apply has_version_vers|]. split; [|done]. exists (Z.of_N k). by apply numbered_value.
Qed.

(** ** All codes *)

Lemma checkable_order w1 w2 lx d fs : vorder_ok w1 → vorder_ok w2 → validated w1 lx d fs → ∃ fs', validated w2 lx d fs'.
Proof. intros H1 H2 HV. apply verdict_iff; [done|]. eapply (verdict_iff w1 lx d); eauto. Qed.

Lemma codes_order1 w1 w2 lx d fs1 fs2 c :
  vorder_ok w1 → vorder_ok w2 → all_numbered d → distinct_numbers d →
  validated w1 lx d fs1 → validated w2 lx d fs2 → c ≠ "E011" → c ≠ "W001" →
  reported fs1 c → reported fs2 c.
Proof.
  intros Hw1 Hw2 Hn Hd HV1 HV2 H11 H01 Hc1.
  destruct (decide (c = "E104")) as [->|H104].
  { by apply (e104_iff _ _ _ _ Hw2 HV2), (e104_iff _ _ _ _ Hw1 HV1). }
  assert (∀ w ver, vorder_ok w → ver ∈ (valued (fdoc w d) (vo w 5 (vers (fdoc w d)))).*1 → zero_name ver = true ∨ nozero_name ver = true) as Hnm.
  { intros w ver Hw [v Hv]%valued_names; [|done..]. destruct (Hn _ _ Hv) as [k Hk]. by eapply numbered_name. }
  destruct Hc1 as [args Hf].
  openparts2 HV1 HP1 pad1 zs1 fr1 fl1 fm1 ff1 El1 Hlog1 Hman1 Hfix1.
  openparts2 HV2 HP2 pad2 zs2 fr2 fl2 fm2 ff2 El2 Hlog2 Hman2 Hfix2.
  apply HP1 in Hf.
  destruct Hf as [Hf|[[He Hf]|[Hf|[(ver & v & fv & Hv & Hcv & Hf)|[Hf|[Hf|[Hf|[Hf|Hf]]]]]]]].
  - exists args. apply HP2. left. by apply (start_order w1 w2).
  - exists args. apply HP2. right. by left.
  - assert (c = "E012" ∨ c = "E013") as Hc. { pose proof (only_pad _ _ _ Hf) as Ho. cbn in Ho. set_solver. }
    destruct (pad_all _ (λ ver, Hnm w1 ver Hw1)) as (H1 & _). destruct (pad_all _ (λ ver, Hnm w2 ver Hw2)) as (H2 & _).
    assert (reported (pad_findings (-1) (valued (fdoc w2 d) (vo w2 5 (vers (fdoc w2 d)))).*1) c) as [a Ha].
    { apply (H2 c Hc). destruct (proj1 (H1 c Hc)) as (x & y & Hx & Hy & Hne); [by eexists|]. exists x, y.
      rewrite valued_names in Hx, Hy |- * by done. rewrite valued_names by done. done. }
    exists a. apply HP2. do 2 right. by left.
  - destruct (version_order w1 w2 Hw1 Hw2 lx _ _ _ _ Hcv) as (fv' & Hcv' & Hx).
    exists args. apply HP2. do 3 right. left. exists ver, v, fv'. split; [|split; [done|by apply Hx]].
    apply valued_in in Hv; [|done]. by apply valued_in.
  - assert (dc_values (fdoc w1 d) = dc_values (fdoc w2 d)) as Ev by done.
    assert (∀ n n', recent_version (dc_values (fdoc w1 d)) "" (version_strings w1 n (fdoc w1 d)) =
            recent_version (dc_values (fdoc w2 d)) "" (version_strings w2 n' (fdoc w2 d))) as Er.
    { intros n n'. destruct (decide (vers d = ∅)) as [He|He].
      - assert (∀ w n, vorder_ok w → version_strings w n (fdoc w d) = []) as Hnil; [|by rewrite !Hnil].
        intros w m Hw. destruct (version_strings w m (fdoc w d)) as [|x l] eqn:Ex; [done|]. exfalso.
        assert (x ∈ version_strings w m (fdoc w d)) as Hin by (rewrite Ex; by left).
        apply version_strings_in in Hin as [v Hv%has_version_vers]; [|done..]. by rewrite He, lookup_empty in Hv.
      - eapply newest_unique; [done|by apply recent_newest..]. }
    exists args. apply HP2. do 4 right. left. revert Hf. unfold tail_findings. rewrite !elem_of_app, !when_in.
    intros [[Hf ->]|[[_ E]|[[Hf ->]|[Hf ->]]]].
    + left. split; [|done]. rewrite <- Hf. do 2 f_equal. apply (StronglySorted_unique Z.le);
        [apply StronglySorted_merge_sort; apply _..|]. rewrite !merge_sort_Permutation.
      destruct (loop_spec _ _ _ _ _ _ _ _ El1) as (_ & -> & _). destruct (loop_spec _ _ _ _ _ _ _ _ El2) as (_ & -> & _).
      change (vers (fdoc w2 d)) with (vers (fdoc w1 d)). change (dc_values (fdoc w2 d)) with (dc_values (fdoc w1 d)).
      by rewrite (vo_perm w2 w1).
    + by injection E as -> ->.
    + right. right. left. split; [|done]. rewrite <- Hf. apply bool_decide_ext. rewrite (Er 7 7). done.
    + right. right. right. split; [|done]. rewrite <- Hf. apply bool_decide_ext. rewrite !version_strings_in by done. done.
  - destruct (log_order w1 w2 Hw1 Hw2 _ (vo w2 9 (vers (fdoc w2 d))) _ (vo_perm w1 w2 9 _ Hw1 Hw2) Hlog1) as (fl' & El' & Hx).
    assert (fl' = fl2) as -> by congruence. exists args. apply HP2. do 5 right. left. by apply Hx.
  - destruct (manifest_order w1 w2 Hw1 Hw2 d _ Hman1) as (fm' & Em' & Hx). assert (fm' = fm2) as -> by congruence.
    exists args. apply HP2. do 6 right. left. by apply Hx.
  - destruct (fixity_order w1 w2 Hw1 Hw2 d _ Hfix1) as (ff' & Ef' & Hx). assert (ff' = ff2) as -> by congruence.
    destruct (Hx c) as [a Ha]; [by exists args|]. exists a. apply HP2. do 7 right. by left.
  - exists args. apply HP2. do 8 right. done.
Qed.
Lemma codes_order w1 w2 lx d fs1 : 
  vorder_ok w1 → vorder_ok w2 → all_numbered d → distinct_numbers d → validated w1 lx d fs1 →
  ∃ fs2, validated w2 lx d fs2 ∧ ∀ c, c ≠ "E011" → c ≠ "W001" → reported fs1 c ↔ reported fs2 c.
Proof.
  intros Hw1 Hw2 Hn Hd HV1. destruct (checkable_order w1 w2 lx d fs1 Hw1 Hw2 HV1) as [fs2 HV2].
  exists fs2. split; [done|]. intros c H1 H2. split.
  - by apply (codes_order1 w1 w2 lx d).
  - by apply (codes_order1 w2 w1 lx d).
Qed.

(** ** Uniform version names *)

Lemma zero_head ver n : numbered ver n → str_head (trim_prefix ver "v") = Some "0"%char ↔ zero_name ver = true.
Proof.
  intros (Hn & k & ->). change ("v" +:+ str_repeat "0" k +:+ dec_of_N n) with ("v" +:+ (str_repeat "0" k +:+ dec_of_N n)).
  rewrite trim_prefix_app. destruct (dec_of_N_digit n) as (c & s & E & Hc & Hc0). rewrite E.
  destruct k as [|k].
  - assert (c ≠ "0"%char) as Hc' by (apply Hc0; lia). split; [simpl; congruence|]. intros H. exfalso.
    apply zero_not_nozero in H. simpl in H. pose proof (dec_digits n) as Hd. rewrite E in Hd. simpl in Hd.
    apply andb_prop in Hd as [H1 H2]. rewrite H1, H2 in H. rewrite bool_decide_eq_false_2 in H by done. done.
  - split; [|done]. intros _. unfold zero_name.
    assert (drop_prefix "v0" ("v" +:+ str_repeat "0" (S k) +:+ String c s) = Some (str_repeat "0" k +:+ String c s)) as ->
      by (by apply drop_prefix_spec).
    pose proof (dec_digits n) as Hd. rewrite E, <- (digits_zeros k) in Hd.
    destruct (str_repeat "0" k +:+ String c s) eqn:E2; [by destruct k|done].
Qed.
Lemma uniform_class d : uniform d → ∃ k, ∀ ver v, has_version d ver v → pad_class ver = k.
Proof.
  intros [Hn [H|[len H]]].
  - exists 0%Z. intros ver v Hv. destruct (Hn _ _ Hv) as [n Hk]. unfold pad_class. destruct (zero_name ver) eqn:E; [|done].
    exfalso. by apply (H ver v Hv), (zero_head _ _ Hk).
  - exists (Z.of_nat len - 2)%Z. intros ver v Hv. destruct (Hn _ _ Hv) as [n Hk]. destruct (H _ _ Hv) as [H0 Hl].
    unfold pad_class. apply (zero_head _ _ Hk) in H0. by rewrite H0, Hl.
Qed.
Lemma uniform_distinct d : uniform d → distinct_numbers d.
Proof.
  intros [Hn Hu] ver1 v1 ver2 v2 k H1 H2 N1 N2.
  pose proof N1 as (Hk & k1 & E1). pose proof N2 as (_ & k2 & E2).
  assert (k1 = k2) as ->; [|congruence].
  destruct Hu as [Hu|[len Hu]].
  - assert (∀ ver v j, has_version d ver v → ver = "v" +:+ str_repeat "0" j +:+ dec_of_N k → j = 0) as Hj.
    { intros ver v [|j] Hv E; [done|]. exfalso. apply (Hu ver v Hv). rewrite E, trim_prefix_app. done. }
    rewrite (Hj _ _ _ H1 E1), (Hj _ _ _ H2 E2). done.
  - destruct (Hu _ _ H1) as [_ L1]. destruct (Hu _ _ H2) as [_ L2]. rewrite E1 in L1. rewrite E2 in L2.
    rewrite !str_length_app, str_length_repeat in L1. rewrite !str_length_app, str_length_repeat in L2. lia.
Qed.
Lemma uniform_order w1 w2 lx d fs1 : 
  vorder_ok w1 → vorder_ok w2 → uniform d → validated w1 lx d fs1 →
  ∃ fs2, validated w2 lx d fs2 ∧ same_codes fs1 fs2.
Proof.
  intros Hw1 Hw2 Hu HV1. pose proof (uniform_distinct _ Hu) as Hd. assert (all_numbered d) as Hn by (by destruct Hu).
  destruct (codes_order w1 w2 lx d fs1 Hw1 Hw2 Hn Hd HV1) as (fs2 & HV2 & Hc). exists fs2. split; [done|]. intros c.
  destruct (uniform_class d Hu) as [k Hk].
  assert (∀ w ver, vorder_ok w → ver ∈ (valued (fdoc w d) (vo w 5 (vers (fdoc w d)))).*1 → zero_name ver = true ∨ nozero_name ver = true) as Hnm.
  { intros w ver Hw [v Hv]%valued_names; [|done..]. destruct (Hn _ _ Hv) as [j Hj]. by eapply numbered_name. }
  destruct (decide (c = "E011")) as [->|H11].
  { assert (∀ w fs, vorder_ok w → validated w lx d fs → ¬ reported fs "E011") as Hno; [|split; intros H; exfalso; [by apply (Hno w1 fs1)|by apply (Hno w2 fs2)]].
    intros w fs Hw HV [args Hf]. openparts2 HV HP pad zs fr fl fm ff El Hlog Hman Hfix. apply HP in Hf. byparts Hf.
    destruct (pad_all _ (λ ver, Hnm w ver Hw)) as (_ & H & _).
    destruct H as (a & b & Ha & Hb & Hne); [by exists args|].
    apply valued_names in Ha as [va Ha], Hb as [vb Hb]; [|done..]. rewrite (Hk _ _ Ha), (Hk _ _ Hb) in Hne. done. }
  destruct (decide (c = "W001")) as [->|H01]; [|by apply Hc].
  assert (∀ w fs, vorder_ok w → validated w lx d fs → reported fs "W001" ↔ vers d ≠ ∅ ∧ (0 < k)%Z) as Hw; [|by rewrite (Hw w1 fs1 Hw1 HV1), (Hw w2 fs2 Hw2 HV2)].
  clear Hc. intros w fs Hw HV. destruct (e010_tail w lx d fs Hw HV) as (pad & zs & fr & El & _ & ->).
  destruct (loop_spec _ _ _ _ _ _ _ _ El) as (-> & _).
  destruct (pad_all _ (λ ver, Hnm w ver Hw)) as (_ & _ & H).
  destruct (valued (fdoc w d) (vo w 5 (vers (fdoc w d)))).*1 as [|ver r] eqn:E.
  - simpl. split; [lia|]. intros [He _]. exfalso. apply He, map_empty. intros ver. destruct (vers d !! ver) as [v|] eqn:Ev; [|done].
    assert (ver ∈ (valued (fdoc w d) (vo w 5 (vers (fdoc w d)))).*1) as Hin.
    { apply valued_names; [done..|]. exists v. by apply has_version_vers. }
    rewrite E in Hin. by apply elem_of_nil in Hin.
  - rewrite (H ver r eq_refl). assert (ver ∈ (valued (fdoc w d) (vo w 5 (vers (fdoc w d)))).*1) as Hin by (rewrite E; by left).
    apply valued_names in Hin as [v Hv]; [|done..]. rewrite (Hk _ _ Hv). split; [|tauto]. intros H0. split; [|done].
    intros He. apply has_version_vers in Hv. by rewrite He, lookup_empty in Hv.
Qed.
