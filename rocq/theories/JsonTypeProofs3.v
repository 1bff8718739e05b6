(** Accepted inventories have the right types. *)
From Coq Require Import Ascii.
From stdpp Require Import base list strings gmap.
From Coq Require Import ZArith Lia.
From Verif Require Import GoStr InventoryModel ObjectModel CrashSpec ValidateModel ValidateSpec ValidateProofs ValidateProofs2 ValidateProofs3 CheckModel CheckSpec CheckProofs AcceptSpec AcceptProofs
  GuaranteeProofs JsonModel JsonInvModel JsonTypeSpec JsonTypeProofs JsonTypeProofs2.

Lemma is_str_dec j : is_str j ∨ ¬ is_str j.
Proof. destruct j; try (right; by intros [? ?]). left. by eexists. Qed.
Lemma str_or_flaw j : (j ≠ JNull → ¬ is_str j → False) → j = JNull ∨ is_str j.
Proof. intros H. destruct j; try (by left); try (right; by eexists); exfalso; apply H; try done; by intros [? ?]. Qed.

Section inventory.
Context (fits : string → bool) (tm : string → option string) (t0 : string) (text : string) (l : list (string * json)) (d : doc).
Context (Hread : read text = Some (JObj l)) (Hdec : decode_text fits tm t0 text = Some d) (Ho : once_inventory l).
Context (w : vorder) (lx : lexicon) (fs : list finding) (Hw : vorder_ok w) (HV : validated w lx d fs) (Hc : ws fs).
Local Notation no_flaw := (λ c Hf, clean_not fs c Hc (flaw_reported fits tm t0 text l d Hread Hdec Ho w lx fs c Hw HV Hf)).

Lemma clean_version vs ver j : has "versions" l (JObj vs) → (ver, j) ∈ vs → ∃ ms, j = JObj ms ∧ typed_version tm ms.
Proof using Hread Hdec Ho Hw HV Hc.
  intros Hvs Hin. destruct (proj1 (proj1 (member_versions fits tm t0 text l d Hread Hdec Ho) vs Hvs) ver j Hin) as (v & Ev & Hv).
  destruct (clean_numbered w lx Hw d fs HV Hc ver v Hv) as [n Hn]. pose proof (numbered_value _ _ Hn) as Hz.
  destruct (version_reported w lx d fs Hw HV ver v _ Hv Hz) as ((c & Ecr & _) & _).
  assert (∃ ms, j = JObj ms) as [ms ->].
  { destruct j; cbn [dec_version fst] in Ev; try done; try (apply (inj Some) in Ev; subst v; done). by eexists. }
  exists ms. split; [done|]. cbn [dec_version fst] in Ev. apply (inj Some) in Ev. fold (read_version tm t0 ms) in Ev.
  assert (once_version ms) as Om. { destruct Ho as (_ & _ & _ & _ & _ & _ & O). destruct (O vs Hvs) as [_ O2]. by eapply O2. }
  assert (∀ c, version_flaw tm ms c → flaw tm l c) as Hf by (intros ? Hf; by eapply flaw_version).
  split.
  - destruct (has_dec "created" ms eq_refl) as [[j Hj]|Hno].
    + assert ((∃ x, j = JStr x ∧ is_Some (tm x)) ∨ ∀ x, j = JStr x → tm x = None) as [(x & -> & Hx)|Hx].
      { destruct j as [| | |x| |]; try (by right). destruct (tm x) as [t|] eqn:E; [left; exists x; rewrite E; eauto|right]. by intros ? [= <-]. }
      * by exists x.
      * exfalso. apply (no_flaw "E049"); [|done]. apply Hf. by eapply flaw_created.
    + exfalso. rewrite <- Ev in Ecr. unfold read_version in Ecr. by rewrite (proj2 (reads_created tm t0 ms _) Hno) in Ecr.
  - intros j Hj. apply str_or_flaw. intros H1 H2. apply (no_flaw "E094"); [|done]. apply Hf. by eapply flaw_message.
  - intros j Hj. destruct j as [| | | | |us]; [by left|..|].
    1-4: exfalso; apply (no_flaw "E054"); [apply Hf; by eapply flaw_user|done].
    right. exists us. split; [done|]. split.
    + intros j Hn'. apply str_or_flaw. intros H1 H2. apply (no_flaw "E054"); [|done]. apply Hf. by eapply flaw_name.
    + intros j Hn'. apply str_or_flaw. intros H1 H2. apply (no_flaw "E054"); [|done]. apply Hf. by eapply flaw_address.
  - intros j Hj. destruct j as [| | | | |st]; [by left|..|].
    1-4: exfalso; apply (no_flaw "E050"); [apply Hf; by eapply flaw_state|done].
    right. exists st. split; [done|]. intros k x Hx. destruct x as [| | | |ps|]; [by left| | | | |].
    1-3,5: exfalso; apply (no_flaw "E050"); [apply Hf; by eapply flaw_paths|done].
    right. exists ps. split; [done|]. intros p Hp. destruct (is_str_dec p) as [Hs|Hs]; [done|]. exfalso.
    assert (p = JNull ∨ p ≠ JNull) as [->|Hne] by (destruct p; (by left) || (by right)).
    2:{ apply (no_flaw "E050"); [|done]. apply Hf. by eapply flaw_path. }
    destruct (version_checked w lx d fs Hw HV ver v _ Hv Hz) as (fv & Hfv & _).
    assert (NoDup st.*1) as Hnd by (destruct Om as (_ & _ & _ & _ & _ & O); by apply O).
    pose proof (version_state tm t0 ms Om _ Hj) as Es. rewrite Ev in Es. cbn [dec_state] in Es.
    destruct (dec_smap ∅ (JObj st)) as [m e] eqn:Em. cbn beta iota in Es.
    assert (m !! k = Some (dec_strings (JArr ps)).1) as Hk.
    { rewrite <- (dec_members_lookup dec_strings st k _ Hnd Hx). apply (f_equal fst) in Em. cbn [fst] in Em. by rewrite <- Em. }
    eapply (version_paths w lx (man d) ver _ m e fv k _ "" Hw); [|exact Hfv|exact Hk| |done].
    + rewrite (fin_state_valued _ _ _ Hz), Es. done.
    + cbn [dec_strings fst]. apply elem_of_list_In, in_map_iff. exists JNull. split; [done|]. by apply elem_of_list_In.
Qed.
Lemma clean_typed : typed_inventory tm l.
Proof using Hread Hdec Ho Hw HV Hc.
  split.
  - destruct (has_dec "id" l eq_refl) as [[j Hj]|Hno]; [|by destruct (no_flaw "E036" (flaw_no_id tm l Hno))].
    destruct (is_str_dec j) as [[x ->]|Hs]; [|by destruct (no_flaw "E036" (flaw_id tm l j Hj Hs))]. exists x. split; [done|]. intros ->.
    refine (clean_not fs "E036" Hc (id_reported w lx d fs HV _) _); [|done]. exact (proj1 (member_id fits tm t0 text l d Hread Hdec Ho) _ Hj).
  - destruct (member_type fits tm t0 text l d Hread Hdec Ho) as (t & Ht & Ed). exists t. split; [done|]. intros ->.
    exact (clean_not fs "E036" Hc (type_reported w lx d fs HV Ed) ltac:(done)).
  - destruct (has_dec "digestAlgorithm" l eq_refl) as [[j Hj]|Hno]; [|by destruct (no_flaw "E036" (flaw_no_alg tm l Hno))].
    destruct (is_str_dec j) as [[x ->]|Hs]; [|by destruct (no_flaw "E025" (flaw_alg tm l j Hj Hs))]. exists x. split; [done|].
    pose proof (proj1 (member_alg fits tm t0 text l d Hread Hdec Ho) _ Hj) as E. cbn [dec_string fst] in E.
    destruct (decide (x = "sha512")) as [|H1]; [by left|]. destruct (decide (x = "sha256")) as [|H2]; [by right|]. exfalso. rewrite <- E in H1, H2.
    exact (clean_not fs "E025" Hc (unknown_alg_reported w lx d fs HV H1 H2) ltac:(done)).
  - destruct (has_dec "head" l eq_refl) as [[j Hj]|Hno]; [|by destruct (no_flaw "E036" (flaw_no_head tm l Hno))].
    destruct (is_str_dec j) as [[x ->]|Hs]; [|by destruct (no_flaw "E040" (flaw_head tm l j Hj Hs))]. exists x. split; [done|]. intros ->.
    pose proof (proj1 (member_head fits tm t0 text l d Hread Hdec Ho) _ Hj) as E. cbn [dec_ostr] in E. apply (inj Some) in E.
    refine (clean_not fs "E036" Hc (no_head_reported w lx d fs HV _ _) _); [by rewrite E..|done].
  - destruct (has_dec "manifest" l eq_refl) as [[j Hj]|Hno].
    + exists j. split; [done|]. intros ->. refine (no_flaw "E041" (flaw_no_manifest tm l _) _); [|done]. intros j' Hj'.
      destruct Ho as (_ & _ & _ & _ & O & _). by eapply has_unique.
    + exfalso. refine (no_flaw "E041" (flaw_no_manifest tm l _) _); [|done]. intros j' Hj'. by destruct (Hno j').
  - destruct (has_dec "versions" l eq_refl) as [[j Hj]|Hno]; [|by destruct (no_flaw "E008" (flaw_no_versions tm l Hno))].
    destruct j as [| | | | |vs].
    1-5: exfalso; refine (no_flaw "E008" (flaw_versions tm l _ Hj _) _); done.
    exists vs. split; [done|]. split; [|intros ver j; by apply clean_version].
    intros ->. pose proof (proj2 (proj1 (member_versions fits tm t0 text l d Hread Hdec Ho) _ Hj) eq_refl) as E.
    exact (clean_not fs "E008" Hc (no_versions_reported w lx d fs HV E) ltac:(done)).
Qed.
End inventory.

(** * Stored objects *)
Section object.
Context (fits : string → bool) (tm : string → option string) (t0 : string) (hash : string → string → option string) (w : vorder) (lx : lexicon).
Context (s : storage) (Hw : vorder_ok w).
Local Notation validate := (validate_object hash (decode_text fits tm t0) w lx s).
Lemma root_flaw text l c fs : s !! "inventory.json" = Some text → read text = Some (JObj l) → once_inventory l → flaw tm l c →
  validate = VDone fs → reported fs c.
Proof using Hw.
  intros Ht Hr Ho Hf H. destruct (root_findings _ _ _ _ _ _ _ H Ht) as (d & f & Hd & HV & Hs).
  exact (reported_mono _ _ _ Hs (flaw_reported fits tm t0 text l d Hr Hd Ho w lx f c Hw HV Hf)).
Qed.
Lemma root_type text l j fs : s !! "inventory.json" = Some text → read text = Some (JObj l) → once "type" l → has "type" l j → ¬ is_str j →
  validate ≠ VDone fs.
Proof using.
  intros Ht Hr Ho Hj Hs H. destruct (root_findings _ _ _ _ _ _ _ H Ht) as (d & f & Hd & _ & _).
  destruct (decoded fits tm t0 text l d Hr Hd) as (t & h & Ht' & _). apply Hs. rewrite (has_unique _ _ _ _ Ho Hj Ht'). by eexists.
Qed.
Lemma root_no_object text fs : s !! "inventory.json" = Some text → (∀ l, read text ≠ Some (JObj l)) → validate ≠ VDone fs.
Proof using.
  intros Ht Hr H. destruct (root_findings _ _ _ _ _ _ _ H Ht) as (d & f & Hd & _ & _). revert Hd. unfold decode_text, load_text.
  destruct (read text) as [j|] eqn:E; [|done]. unfold load_json. destruct (negb _); [done|]. destruct j; try done. by destruct (Hr l).
Qed.
Lemma accepted_root text l : s !! "inventory.json" = Some text → read text = Some (JObj l) → once_inventory l → only_warnings validate →
  typed_inventory tm l.
Proof using Hw.
  intros Ht Hr Ho (fs & H & Hws). destruct (root_findings _ _ _ _ _ _ _ H Ht) as (d & f & Hd & HV & Hs).
  refine (clean_typed fits tm t0 text l d Hr Hd Ho w lx f Hw HV _). intros x Hx. by apply Hws, Hs.
Qed.
Lemma accepted_version text l vs ver j vtext vl : s !! "inventory.json" = Some text → read text = Some (JObj l) → once_inventory l →
  has "versions" l (JObj vs) → (ver, j) ∈ vs → s !! (ver +:+ "/inventory.json") = Some vtext → read vtext = Some (JObj vl) → once_inventory vl →
  only_warnings validate → typed_inventory tm vl.
Proof using Hw.
  intros Ht Hr Ho Hvs Hin Hvt Hvr Hvo (fs & H & Hws). destruct (root_findings _ _ _ _ _ _ _ H Ht) as (d & f & Hd & HV & Hs).
  assert (ws f) as Hf by (intros x Hx; by apply Hws, Hs).
  destruct (proj1 (proj1 (member_versions fits tm t0 text l d Hr Hd Ho) vs Hvs) ver j Hin) as (v & _ & Hv).
  destruct (version_findings_in _ _ _ _ _ _ _ _ _ _ _ Hw H Ht Hd (clean_numbered w lx Hw d f HV Hf) (clean_distinct w lx Hw d f HV Hf) Hv Hvt)
    as (e & f' & He & HV' & Hs').
  refine (clean_typed fits tm t0 vtext vl e Hvr He Hvo w lx f' Hw HV' _). intros x Hx. by apply Hws, Hs'.
Qed.
End object.

(** The spelling of a name. *)
Lemma spelled_fold name k : is_ascii name = true → spelled name k → fold_name k = to_lower name.
Proof. intros Ha Hk. apply field_spelled in Hk; [|done]. unfold field in Hk. by apply bool_decide_eq_true in Hk. Qed.
Lemma member_swap n l1 k k' (j : json) l2 : k ≠ n → k' ≠ n → member n (l1 ++ (k, j) :: l2) = member n (l1 ++ (k', j) :: l2).
Proof.
  intros Hk Hk'. unfold member. rewrite !foldl_app. cbn [foldl fst snd]. by rewrite !bool_decide_eq_false_2.
Qed.
Lemma load_spelling fits tm t0 name l1 k k' j l2 :
  spelled name k → spelled name k' → is_ascii name = true → k ∉ ["type"; "head"] → k' ∉ ["type"; "head"] →
  load_json fits tm t0 (JObj (l1 ++ (k, j) :: l2)) = load_json fits tm t0 (JObj (l1 ++ (k', j) :: l2)).
Proof.
  intros Hk Hk' Ha Hn Hn'. apply (spelled_fold _ _ Ha) in Hk, Hk'. rewrite !elem_of_cons, elem_of_nil in Hn, Hn'.
  unfold load_json. rewrite !(member_swap _ l1 k k' j l2) by tauto.
  assert (all_fit fits (JObj (l1 ++ (k, j) :: l2)) = all_fit fits (JObj (l1 ++ (k', j) :: l2))) as ->
    by (cbn [all_fit]; rewrite !forallb_app; reflexivity).
  assert (∀ spec, dec_inventory tm t0 spec (l1 ++ (k, j) :: l2) = dec_inventory tm t0 spec (l1 ++ (k', j) :: l2)) as Hd.
  { intros spec. unfold dec_inventory. rewrite !foldl_app. cbn [foldl]. f_equal. unfold dec_member, field. by rewrite Hk, Hk'. }
  destruct (negb _); [done|]. destruct (member "type" _) as [[]|]; [done..| |done|done|done]; by rewrite Hd.
Qed.
