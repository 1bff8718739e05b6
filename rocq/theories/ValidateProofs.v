(** Proofs about the validation of an inventory. *)
From Coq Require Import Ascii.
From stdpp Require Import base list strings gmap sorting.
From Coq Require Import ZArith Lia.
From Verif Require Import GoStr InventoryModel InventorySpec InventoryProofs ValidateModel ValidateSpec.

(** * Verdicts *)

Lemma vseq_done a b fs : vseq a b = VDone fs ↔ ∃ fa fb, a = VDone fa ∧ b = VDone fb ∧ fs = fa ++ fb.
Proof. destruct a, b; simpl; naive_solver. Qed.
Lemma vall_done l fs : vall l = VDone fs ↔ ∃ fss, l = VDone <$> fss ∧ fs = concat fss.
Proof.
  revert fs. induction l as [|a l IH]; intros fs; simpl.
  - split; [intros [= <-]; by exists []|]. intros (fss & E & ->). by destruct fss.
  - rewrite vseq_done. split.
    + intros (fa & fb & -> & H & ->). apply IH in H as (fss & -> & ->). by exists (fa :: fss).
    + intros ([|fa fss] & E & ->); [done|]. injection E as -> ->.
      exists fa, (concat fss). split; [done|]. split; [|done]. apply IH. by exists fss.
Qed.
(** The findings of a loop. *)
Lemma vall_map_done {A} (f : A → verdict) l fs :
  vall (f <$> l) = VDone fs →
  ∀ x, x ∈ fs ↔ ∃ a fa, a ∈ l ∧ f a = VDone fa ∧ x ∈ fa.
Proof.
  revert fs. induction l as [|a l IH]; intros fs; simpl.
  - intros [= <-] x. split; [by rewrite elem_of_nil|]. intros (a & _ & H & _). by apply elem_of_nil in H.
  - intros (fa & fb & Ha & Hb & ->)%vseq_done x. specialize (IH fb Hb x). rewrite elem_of_app, IH. split.
    + intros [H|(a' & fa' & H1 & H2 & H3)]; [exists a, fa; repeat split; try done; by left|].
      exists a', fa'. repeat split; try done. by right.
    + intros (a' & fa' & H1 & H2 & H3). apply elem_of_cons in H1 as [->|H1].
      * rewrite Ha in H2. injection H2 as ->. by left.
      * right. eauto.
Qed.
Lemma vall_map_ok {A} (f : A → verdict) l :
  (∃ fs, vall (f <$> l) = VDone fs) ↔ ∀ a, a ∈ l → ∃ fs, f a = VDone fs.
Proof.
  induction l as [|a l IH]; simpl.
  - split; [intros _ a H; by apply elem_of_nil in H|]. intros _. by exists [].
  - split.
    + intros (fs & (fa & fb & Ha & Hb & ->)%vseq_done) a' H. apply elem_of_cons in H as [->|H]; [by exists fa|].
      apply IH; eauto.
    + intros H. destruct (H a) as [fa Ha]; [by left|]. destruct (proj2 IH) as [fb Hb].
      { intros a' Ha'. apply H. by right. }
      exists (fa ++ fb). apply vseq_done. eauto.
Qed.
Lemma vall_map_cases {A} (f : A → verdict) l :
  (∀ a, a ∈ l → ∀ fs m, f a ≠ VError fs m) → ∀ fs m, vall (f <$> l) ≠ VError fs m.
Proof.
  induction l as [|a l IH]; [done|]. rewrite fmap_cons. intros H. cbn [vall].
  assert (∀ fs m, vall (f <$> l) ≠ VError fs m) as H2 by (apply IH; intros; apply H; by right).
  intros fs m. destruct (f a) as [fa|fa ma|] eqn:E; simpl; [|by destruct (H a (elem_of_list_here _ _) fa ma)|done].
  destruct (vall (f <$> l)) as [fb|fb mb|]; simpl; [done| |done]. by destruct (H2 fb mb).
Qed.

Lemma when_in b f x : x ∈ when b f ↔ b = true ∧ x = f.
Proof. destruct b; simpl; rewrite ?elem_of_list_singleton, ?elem_of_nil; naive_solver. Qed.
Lemma flat_map_in {A B} (f : A → list B) l x : x ∈ flat_map f l ↔ ∃ a, a ∈ l ∧ x ∈ f a.
Proof. rewrite elem_of_list_In, in_flat_map. setoid_rewrite elem_of_list_In. done. Qed.

(** All findings of a list have one of these codes. *)
Definition only (cs : list string) (fs : list finding) : Prop := ∀ f, f ∈ fs → f_code f ∈ cs.
Lemma only_app cs fs fs' : only cs (fs ++ fs') ↔ only cs fs ∧ only cs fs'.
Proof. unfold only. setoid_rewrite elem_of_app. naive_solver. Qed.
Lemma only_nil cs : only cs [].
Proof. intros f H. by apply elem_of_nil in H. Qed.
Lemma only_when cs b f : f_code f ∈ cs → only cs (when b f).
Proof. intros H x (_ & ->)%when_in. done. Qed.
Lemma only_weaken cs cs' fs : cs ⊆ cs' → only cs fs → only cs' fs.
Proof. intros H1 H2 f Hf. apply H1, H2, Hf. Qed.
Lemma only_flat_map {A} cs (f : A → list finding) l : (∀ a, a ∈ l → only cs (f a)) → only cs (flat_map f l).
Proof. intros H x (a & Ha & Hx)%flat_map_in. by apply (H a). Qed.
Lemma only_vall {A} cs (f : A → verdict) l fs :
  (∀ a fa, a ∈ l → f a = VDone fa → only cs fa) → vall (f <$> l) = VDone fs → only cs fs.
Proof. intros H Hv x Hx. apply (vall_map_done _ _ _ Hv) in Hx as (a & fa & H1 & H2 & H3). by eapply H. Qed.
Lemma only_not c cs fs : only cs fs → c ∉ cs → ¬ reported fs c.
Proof. intros H Hc (args & Ha). apply H in Ha. done. Qed.
Lemma reported_app fs fs' c : reported (fs ++ fs') c ↔ reported fs c ∨ reported fs' c.
Proof. unfold reported. setoid_rewrite elem_of_app. naive_solver. Qed.
Lemma reported_nil c : ¬ reported [] c.
Proof. intros (args & H). by apply elem_of_nil in H. Qed.
Lemma reported_when b f c : reported (when b f) c ↔ b = true ∧ f_code f = c.
Proof.
  unfold reported. setoid_rewrite when_in. split; [naive_solver|]. intros [-> <-]. exists (f_args f). by destruct f.
Qed.

(** * Paths *)

Lemma str_last_app a c : str_last (a +:+ String c "") = Some c.
Proof.
  induction a as [|d a IH]; [done|]. rewrite str_app_cons. simpl. rewrite IH.
  by destruct (a +:+ String c "") eqn:E; [destruct a|].
Qed.
Lemma str_last_some s c : str_last s = Some c → ∃ a, s = a +:+ String c "".
Proof.
  induction s as [|d s IH]; [done|]. simpl. destruct s as [|e s].
  - intros [= ->]. by exists "".
  - intros H. destruct (IH H) as [a ->]. by exists (String d a).
Qed.
Lemma split_on_cons_sep c s : split_on c (String c s) = "" :: split_on c s.
Proof. simpl. by rewrite decide_True. Qed.
Lemma split_on_snoc c s : ∃ l, split_on c (s +:+ String c "") = l ++ [""].
Proof.
  induction s as [|d s [l IH]].
  - exists [""]. simpl. by rewrite decide_True.
  - rewrite str_app_cons. simpl. rewrite IH. destruct (decide (d = c)).
    + by exists ("" :: l).
    + destruct l as [|w l]; simpl.
      * exists [String d ""]. exfalso.
        assert (length (split_on c (s +:+ String c "")) ≥ 2) as H.
        { clear IH. induction s as [|e s IHs]; [simpl; rewrite decide_True by done; simpl; lia|].
          rewrite str_app_cons. simpl. destruct (decide (e = c)); simpl; [lia|].
          destruct (split_on c (s +:+ String c "")); simpl in *; lia. }
        rewrite IH in H. simpl in H. lia.
      * by exists (String d w :: l).
Qed.

Lemma check_path_done cs ce args p fs :
  cs ≠ ce →
  check_path cs ce args p = VDone fs →
  p ≠ "" ∧
  (Finding cs (p :: args) ∈ fs ↔ (∃ r, p = String slash r) ∨ (∃ r, p = r +:+ "/")) ∧
  ((Finding cs (p :: args) ∈ fs ∨ Finding ce (p :: args) ∈ fs) ↔ malformed p) ∧
  (∀ f, f ∈ fs → f = Finding cs (p :: args) ∨ f = Finding ce (p :: args)).
Proof.
  intros Hne. unfold check_path. destruct p as [|h r] eqn:Ep; [done|]. rewrite <- Ep.
  assert (str_head p = Some h) as -> by (by subst).
  destruct (str_last p) as [l|] eqn:El; [|by subst]. intros [= <-].
  assert (∀ x, x ∈ flat_map (λ e, when (bad_element e) (Finding ce (p :: args)))
     (split_slash (if decide (h = slash) then r else p)) ↔
     x = Finding ce (p :: args) ∧ ∃ e, e ∈ split_slash (if decide (h = slash) then r else p) ∧ (e = "" ∨ e = "." ∨ e = "..")) as Hel.
  { intros x. rewrite flat_map_in. setoid_rewrite when_in. unfold bad_element. setoid_rewrite bool_decide_eq_true.
    subst p. naive_solver. }
  assert (bool_decide (h = slash ∨ l = slash) = true ↔ (∃ r, p = String slash r) ∨ (∃ r, p = r +:+ "/")) as Hsl.
  { rewrite bool_decide_eq_true. split.
    - intros [-> | ->]; [left; by exists r|]. right. by apply str_last_some in El.
    - intros [[r' ->]|[r' Hr]]; [left; by injection Ep|]. right. rewrite Hr in El.
      change "/" with (String slash "") in El. rewrite str_last_app in El. by injection El. }
  split; [by subst|]. split; [|split].
  - rewrite elem_of_app, when_in, Hel, Hsl. naive_solver.
  - rewrite !elem_of_app, !when_in, !Hel, Hsl. unfold malformed. split.
    + intros H.
      assert (((∃ r, p = String slash r) ∨ (∃ r, p = r +:+ "/")) ∨
              ∃ e, e ∈ split_slash (if decide (h = slash) then r else p) ∧ (e = "" ∨ e = "." ∨ e = "..")) as [[[r' Hr]|[r' Hr]]|(e & He & Hb)]
        by naive_solver.
      * exists "". split; [|by left]. rewrite Hr. unfold split_slash. rewrite split_on_cons_sep. by left.
      * exists "". split; [|by left]. rewrite Hr. change "/" with (String slash "").
        destruct (split_on_snoc slash r') as [l' E]. unfold split_slash. rewrite E. apply elem_of_app. right. by left.
      * exists e. split; [|done]. destruct (decide (h = slash)) as [->|]; [|done]. subst p.
        unfold split_slash. rewrite split_on_cons_sep. by right.
    + intros (e & He & Hb). destruct (decide (h = slash)) as [->|Hh]; [left; left; split; [left; by exists r|done]|].
      right. right. split; [done|]. by exists e.
  - intros f. rewrite elem_of_app, when_in, Hel. naive_solver.
Qed.
Lemma check_path_ok cs ce args p : (∃ fs, check_path cs ce args p = VDone fs) ↔ p ≠ "".
Proof.
  unfold check_path. destruct p as [|h r]; [naive_solver|]. split; [done|]. intros _.
  destruct (str_last (String h r)) as [l|] eqn:E; [eauto|]. exfalso. clear -E. revert h E.
  induction r as [|c r IH]; intros h E; [done|]. simpl in E. by apply (IH c).
Qed.
Lemma check_path_noerr cs ce args p fs m : check_path cs ce args p ≠ VError fs m.
Proof. unfold check_path. destruct (str_head p), (str_last p); done. Qed.

(** * Version names *)

Lemma digit_cases c : is_digit c = true →
  c ∈ ["0"; "1"; "2"; "3"; "4"; "5"; "6"; "7"; "8"; "9"]%char.
Proof. destruct c as [[] [] [] [] [] [] [] []]; try (by vm_compute); intros _; set_solver. Qed.
Lemma digits_uint s : digits_only s = true →
  ∃ d, DecimalString.NilEmpty.uint_of_string s = Some d ∧ DecimalString.NilEmpty.string_of_uint d = s.
Proof.
  induction s as [|c s IH]; simpl; [by exists Decimal.Nil|]. intros [Hc Hs]%andb_prop.
  destruct (IH Hs) as (d & Hd & Es). rewrite Hd. apply digit_cases in Hc.
  repeat (apply elem_of_cons in Hc as [->|Hc];
    [eexists; split; [reflexivity|]; simpl; by rewrite Es|]).
  by apply elem_of_nil in Hc.
Qed.
Lemma digits_dec s : digits_only s = true → s ≠ "" → str_head s ≠ Some "0"%char →
  ∃ n, (1 <= n)%N ∧ s = dec_of_N n.
Proof.
  intros Hs Hne H0. destruct (digits_uint s Hs) as (d & Hd & Es). exists (N.of_uint d).
  assert (Decimal.nzhead d = d ∧ d ≠ Decimal.Nil ∧ ∀ d', d ≠ Decimal.D0 d') as (Hz & Hn & Hd0).
  { destruct d; simpl in Es; try (split; [done|]; split; [done|]; intros d'; done).
    all: by subst s. }
  assert (N.to_uint (N.of_uint d) = d) as Hu.
  { rewrite DecimalN.Unsigned.to_of. unfold Decimal.unorm. rewrite Hz. by destruct d. }
  split.
  - destruct (N.of_uint d) eqn:E; [|lia]. simpl in Hu. subst d. by destruct (Hd0 Decimal.Nil).
  - unfold dec_of_N. rewrite Hu. unfold DecimalString.NilZero.string_of_uint. by destruct d.
Qed.
Lemma dec_digits n : digits_only (dec_of_N n) = true.
Proof.
  pose proof (dec_of_N_digits n) as H. revert H. generalize (dec_of_N n). intros s.
  unfold InventoryProofs.all_digits. induction s as [|c s IH]; simpl; [done|]. intros H.
  inversion H as [|? ? Hc Hs]; subst. apply andb_true_intro. split; [|by apply IH].
  unfold is_digit. apply andb_true_intro. split; apply N.leb_le; lia.
Qed.
Lemma digits_zeros k s : digits_only (str_repeat "0" k +:+ s) = digits_only s.
Proof. induction k as [|k IH]; [done|]. simpl. done. Qed.
(** Every digit string is some zeros and a number. *)
Lemma digits_split s : digits_only s = true →
  ∃ k t, s = str_repeat "0" k +:+ t ∧ digits_only t = true ∧ str_head t ≠ Some "0"%char.
Proof.
  induction s as [|c s IH]; [by exists 0, ""|]. intros H. pose proof H as [Hc Hs]%andb_prop.
  destruct (decide (c = "0"%char)) as [->|Hn].
  - destruct (IH Hs) as (k & t & -> & H1 & H2). by exists (S k), t.
  - exists 0, (String c s). split; [done|]. split; [done|]. simpl. congruence.
Qed.

Lemma numbered_value ver n : numbered ver n → version_value ver = Some (Z.of_N n).
Proof.
  intros (Hn & k & ->). unfold version_value.
  destruct (dec_of_N_digit n) as (c & s & E & Hc & Hc0).
  change ("v" +:+ str_repeat "0" k +:+ dec_of_N n) with (String "v" (str_repeat "0" k +:+ dec_of_N n)).
  change (trim_left (String "v" (str_repeat "0" k +:+ dec_of_N n)) "v0") with (trim_left (str_repeat "0" k +:+ dec_of_N n) "v0").
  rewrite E. rewrite trim_left_zeros; [|done|].
  - rewrite <- E. apply atoi_dec_of_N.
  - assert (c ≠ "0"%char) by (apply Hc0; lia).
    assert (c ≠ "v"%char) by (intros ->; vm_compute in Hc; destruct Hc as [_ Hc]; by destruct Hc).
    apply not_true_is_false. rewrite str_mem_spec. simpl. set_solver.
Qed.
Lemma numbered_vnum ver n : numbered ver n → vnum ver = Some n.
Proof.
  intros (Hn & k & ->). change ("v" +:+ str_repeat "0" k +:+ dec_of_N n) with (String "v" (str_repeat "0" k +:+ dec_of_N n)).
  unfold vnum. apply N_of_dec_zeros, N_of_dec_of_N.
Qed.
Lemma numbered_fun ver n m : numbered ver n → numbered ver m → n = m.
Proof. intros H1%numbered_vnum H2%numbered_vnum. congruence. Qed.
Lemma numbered_name ver n : numbered ver n → zero_name ver = true ∨ nozero_name ver = true.
Proof.
  intros (Hn & k & ->). change ("v" +:+ str_repeat "0" k +:+ dec_of_N n) with (String "v" (str_repeat "0" k +:+ dec_of_N n)).
  destruct (dec_of_N_digit n) as (c & s & E & Hc & Hc0). pose proof (dec_digits n) as Hd. rewrite E in *.
  destruct k as [|k].
  - right. simpl. simpl in Hd. apply andb_prop in Hd as [-> ->]. rewrite bool_decide_eq_false_2; [done|].
    apply Hc0. lia.
  - left. unfold zero_name.
    assert (drop_prefix "v0" (String "v" (str_repeat "0" (S k) +:+ String c s)) = Some (str_repeat "0" k +:+ String c s)) as ->
      by (by apply drop_prefix_spec).
    rewrite <- (digits_zeros k) in Hd. destruct (str_repeat "0" k +:+ String c s) eqn:E2; [by destruct k|done].
Qed.
Lemma zero_not_nozero ver : zero_name ver = true → nozero_name ver = false.
Proof.
  unfold zero_name. destruct (drop_prefix "v0" ver) as [r|] eqn:E; [|done]. apply drop_prefix_spec in E as ->.
  intros _. simpl. done.
Qed.
Lemma name_numbered ver z : version_value ver = Some z → zero_name ver = true ∨ nozero_name ver = true →
  ∃ n, numbered ver n ∧ z = Z.of_N n.
Proof.
  intros Hz Hname.
  assert (∃ s, ver = String "v" s ∧ digits_only s = true) as (s & -> & Hs).
  { destruct Hname as [H|H].
    - unfold zero_name in H. destruct (drop_prefix "v0" ver) as [r|] eqn:E; [|done].
      apply drop_prefix_spec in E as ->. exists (String "0" r). split; [done|]. simpl. by destruct r.
    - destruct ver as [|c [|d r]]; [done|by destruct c as [[] [] [] [] [] [] [] []]|].
      destruct c as [[] [] [] [] [] [] [] []]; try done. exists (String d r). split; [done|].
      cbn [nozero_name] in H. apply andb_prop in H as [[H1 _]%andb_prop H2]. simpl. by rewrite H1, H2. }
  destruct (digits_split s Hs) as (k & t & -> & Ht & H0).
  destruct (decide (t = "")) as [->|Hne].
  - exfalso. revert Hz. clear. unfold version_value. rewrite str_app_nil_r.
    change (trim_left (String "v" (str_repeat "0" k)) "v0") with (trim_left (str_repeat "0" k) "v0").
    assert (trim_left (str_repeat "0" k) "v0" = "") as -> by (induction k; done). done.
  - destruct (digits_dec t Ht Hne H0) as (n & Hn & ->). exists n.
    assert (numbered (String "v" (str_repeat "0" k +:+ dec_of_N n)) n) as H by (split; [done|]; by exists k).
    split; [done|]. apply numbered_value in H. congruence.
Qed.
Lemma numbered_nonempty ver n : numbered ver n → ver ≠ "".
Proof. by intros (_ & k & ->). Qed.

(** * The parts of a validation *)

(** The document after the first part of Finalize. *)
Definition fdoc (w : vorder) (d : doc) : doc :=
  Doc (dc_id d) (dc_type d) (dc_alg d) (dc_head d) (dc_contentdir d) (Some (man d))
    (Some (map_imap (λ ver v, Some (fin_version ver v).2) (vers d))) (dc_fixity d)
    (fin_values (vers d)) (fin_algs w (dc_fixalgs d) (dc_fixity d)) (dc_padding d).
Definition start_findings (w : vorder) (d : doc) : list finding :=
  when (bool_decide (dc_manifest d = None)) (Finding "E041" ["manifest"]) ++
  when (bool_decide (dc_versions d = None)) (Finding "E041" ["versions"]) ++
  flat_map (λ p : string * vdoc, (fin_version p.1 p.2).1) (vo w 0 (vers d)).
Definition tail_findings (w : vorder) (pad : Z) (zs : list Z) (d1 : doc) : list finding :=
  when (negb (in_sequence 0 (merge_sort Z.le zs))) (Finding "E010" []) ++
  when (bool_decide (0 < pad)%Z) (Finding "W001" []) ++
  when (bool_decide (os_val (dc_head d1) ≠ recent_version (dc_values d1) "" (version_strings w 7 d1) ∧ os_val (dc_head d1) ≠ ""))
    (Finding "E040" [os_val (dc_head d1)]) ++
  when (bool_decide (os_val (dc_head d1) ≠ "" ∧ os_val (dc_head d1) ∉ version_strings w 8 d1)) (Finding "E040" [os_val (dc_head d1)]).
Definition rest_findings (lx : lexicon) (d : doc) : list finding :=
  when (bool_decide (dc_id d = "")) (Finding "E036" ["id"]) ++
  when (bool_decide (dc_id d ≠ "") && negb (lx_uri lx (dc_id d))) (Finding "W005" [dc_id d]) ++
  (if os_err (dc_head d) then [Finding "E040" ["head"]]
   else when (bool_decide (os_val (dc_head d) = "")) (Finding "E036" ["head"])) ++
  when (bool_decide (dc_type d = "")) (Finding "E036" ["type"]) ++
  when (bool_decide (dc_alg d = "")) (Finding "E036" ["digestAlgorithm"]) ++
  (if decide (dc_alg d = "sha512" ∨ dc_alg d = "sha256")
   then when (bool_decide (dc_alg d = "sha256")) (Finding "W004" [dc_alg d])
   else [Finding "E025" [dc_alg d]]) ++
  when (bool_decide (dc_contentdir d = "." ∨ dc_contentdir d = "..") || str_mem slash (dc_contentdir d))
       (Finding "E017" [dc_contentdir d]).

(** A validation with a verdict, part by part. *)
Record parts (w : vorder) (lx : lexicon) (d : doc) (fs : list finding) := Parts {
  pt_pad : Z; pt_zs : list Z; pt_r : list finding; pt_l : list finding; pt_m : list finding; pt_f : list finding;
  pt_loop : check_versions_loop w lx (fdoc w d) (-1) (vo w 5 (vers (fdoc w d))) = (pt_pad, pt_zs, VDone pt_r);
  pt_log : vall ((λ p : string * vdoc, check_logical w p.2) <$> vo w 9 (vers (fdoc w d))) = VDone pt_l;
  pt_man : check_manifest w (fdoc w d) = VDone pt_m;
  pt_fix : check_fixity w (fdoc w d) = VDone pt_f;
  pt_all : fs = start_findings w d ++ when (bool_decide (vers (fdoc w d) = ∅)) (Finding "E008" []) ++ pt_r ++
             tail_findings w pt_pad pt_zs (fdoc w d) ++ pt_l ++ pt_m ++ pt_f ++ rest_findings lx d
}.
Lemma validated_parts w lx d fs : validated w lx d fs → inhabited (parts w lx d fs).
Proof.
  unfold validated, finalize. cbn zeta. change (negb false) with true. rewrite !andb_true_l.
  fold (fdoc w d). fold (start_findings w d). unfold check_doc, check_versions.
  destruct (check_versions_loop w lx (fdoc w d) (-1) (vo w 5 (vers (fdoc w d)))) as [[pad zs] r] eqn:El.
  cbn [snd]. intros (fa & fb & Ha & Hb & ->)%vseq_done. injection Ha as <-.
  apply vseq_done in Hb as (fv & fc & Hv & Hc & ->).
  apply vseq_done in Hv as (f8 & fv' & H8 & Hv & ->). injection H8 as <-.
  apply vseq_done in Hv as (fr & ft & -> & Ht & ->).
  apply vseq_done in Ht as (ft' & fl & Ht & Hl & ->). injection Ht as <-.
  apply vseq_done in Hc as (fm & fc' & Hm & Hc & ->).
  apply vseq_done in Hc as (ff & fe & Hf & Hc & ->). injection Hc as <-.
  constructor. refine (Parts w lx d _ pad zs fr fl fm ff El Hl Hm Hf _).
  unfold tail_findings, rest_findings. rewrite <- !(assoc_L (++)). done.
Qed.
Lemma parts_validated w lx d pad zs fr fl fm ff :
  check_versions_loop w lx (fdoc w d) (-1) (vo w 5 (vers (fdoc w d))) = (pad, zs, VDone fr) →
  vall ((λ p : string * vdoc, check_logical w p.2) <$> vo w 9 (vers (fdoc w d))) = VDone fl →
  check_manifest w (fdoc w d) = VDone fm →
  check_fixity w (fdoc w d) = VDone ff →
  ∃ fs, validated w lx d fs.
Proof.
  intros El Hl Hm Hf. unfold validated, finalize. cbn zeta. change (negb false) with true. rewrite !andb_true_l.
  fold (fdoc w d). unfold check_doc, check_versions. rewrite El. cbn [snd]. rewrite Hl, Hm, Hf. simpl. eauto.
Qed.

(** ** Lookup in the finalised document *)

Lemma has_version_vers d ver v : has_version d ver v ↔ vers d !! ver = Some v.
Proof.
  unfold has_version, vers. destruct (dc_versions d) as [vs|]; simpl; [naive_solver|].
  rewrite lookup_empty. naive_solver.
Qed.
Lemma man_lists_man d dg p : man_lists d dg p ↔ ∃ ps, man d !! dg = Some ps ∧ p ∈ ps.
Proof.
  unfold man_lists, man. destruct (dc_manifest d) as [m|]; simpl; [naive_solver|].
  setoid_rewrite lookup_empty. naive_solver.
Qed.
Lemma fdoc_vers w d ver v1 : vers (fdoc w d) !! ver = Some v1 ↔ ∃ v, vers d !! ver = Some v ∧ v1 = (fin_version ver v).2.
Proof.
  unfold vers at 1. simpl. rewrite map_lookup_imap. destruct (vers d !! ver) as [v|]; simpl; naive_solver.
Qed.
Lemma fdoc_man w d : man (fdoc w d) = man d.
Proof. done. Qed.
Lemma fdoc_values w d ver : dc_values (fdoc w d) !! ver =
  match vers d !! ver with Some _ => version_value ver | None => None end.
Proof. simpl. unfold fin_values. rewrite map_lookup_imap. by destruct (vers d !! ver). Qed.
Lemma fdoc_empty w d : vers (fdoc w d) = ∅ ↔ vers d = ∅.
Proof.
  rewrite !map_empty. split; intros H ver; specialize (H ver).
  - destruct (vers d !! ver) as [v|] eqn:E; [|done].
    assert (vers (fdoc w d) !! ver = Some (fin_version ver v).2) as H2 by (apply fdoc_vers; eauto). congruence.
  - destruct (vers (fdoc w d) !! ver) as [v|] eqn:E; [|done]. apply fdoc_vers in E as (v' & E & _). congruence.
Qed.
Lemma vo_in w n {A} (m : gmap string A) k a : vorder_ok w → (k, a) ∈ vo w n m ↔ m !! k = Some a.
Proof. intros Hw. rewrite (Hw n A m). apply elem_of_map_to_list. Qed.
Lemma vo_in' w n {A} (m : gmap string A) p : vorder_ok w → p ∈ vo w n m ↔ m !! p.1 = Some p.2.
Proof. intros Hw. destruct p. by apply vo_in. Qed.

(** ** The loop over the versions *)

(** Padding findings of the loop. *)
Fixpoint pad_findings (pad : Z) (l : list string) : list finding :=
  match l with
  | [] => []
  | ver :: l' => (check_padding pad ver).2 ++ pad_findings (check_padding pad ver).1 l'
  end.
Fixpoint pad_final (pad : Z) (l : list string) : Z :=
  match l with
  | [] => pad
  | ver :: l' => pad_final (check_padding pad ver).1 l'
  end.
Definition valued (d : doc) (l : list (string * vdoc)) : list (string * vdoc) :=
  filter (λ p, is_Some (dc_values d !! p.1)) l.
Lemma loop_spec w lx d pad l pad' zs r :
  check_versions_loop w lx d pad l = (pad', zs, r) →
  pad' = pad_final pad ((valued d l).*1) ∧
  zs = omap (λ p, dc_values d !! p.1) l ∧
  (∀ fs, r = VDone fs → ∀ f, f ∈ fs ↔ f ∈ pad_findings pad ((valued d l).*1) ∨
     ∃ ver v fv, (ver, v) ∈ valued d l ∧ check_version w lx (man d) ver v = VDone fv ∧ f ∈ fv) ∧
  ((∃ fs, r = VDone fs) ↔ ∀ ver v, (ver, v) ∈ valued d l → ∃ fv, check_version w lx (man d) ver v = VDone fv).
Proof.
  revert pad pad' zs r. induction l as [|[ver v] l IH]; intros pad pad' zs r; cbn [check_versions_loop].
  - intros [= <- <- <-]. split; [done|]. split; [done|]. split.
    + intros fs [= <-] f. rewrite elem_of_nil. simpl. split; [done|]. intros [H|(? & ? & ? & H & _)]; by apply elem_of_nil in H.
    + split; [intros _ ? ? H; by apply elem_of_nil in H|]. intros _. by exists [].
  - unfold valued. destruct (dc_values d !! ver) as [z|] eqn:Ez.
    + rewrite filter_cons_True by (cbn [fst]; rewrite Ez; by eexists). fold (valued d l).
      destruct (check_padding pad ver) as [pad1 fp] eqn:Ep.
      destruct (check_versions_loop w lx d pad1 l) as [[pad2 zs2] r2] eqn:El.
      intros [= <- <- <-]. destruct (IH _ _ _ _ El) as (-> & -> & H3 & H4).
      split; [simpl; by rewrite Ep|]. split; [cbn [omap list_omap fst]; by rewrite Ez|]. split.
      * intros fs Hfs f. apply (vseq_done (VDone fp)) in Hfs as (fa & fb & Ha & Hb & ->).
        injection Ha as <-. apply vseq_done in Hb as (fv & fr & Hv & -> & ->).
        rewrite !elem_of_app, (H3 fr eq_refl). cbn [fmap list_fmap pad_findings fst]. rewrite Ep. cbn [fst snd].
        rewrite elem_of_app. split.
        -- intros [H|[H|[H|(ver' & v' & fv' & H & H' & H'')]]]; [by left; left| |by left; right|].
           ++ right. exists ver, v, fv. split; [by left|done].
           ++ right. exists ver', v', fv'. split; [by right|done].
        -- intros [[H|H]|(ver' & v' & fv' & H & H' & H'')]; [by left|by right; right; left|].
           apply elem_of_cons in H as [[= -> ->]|H]; [right; left; congruence|]. right. right. right. by exists ver', v', fv'.
      * split.
        -- intros (fs & (fa & fb & Ha & Hb & _)%(vseq_done (VDone fp))) ver' v' H.
           apply vseq_done in Hb as (fv & fr & Hv & -> & _).
           apply elem_of_cons in H as [[= -> ->]|H]; [eauto|]. apply H4; eauto.
        -- intros H. destruct (H ver v) as [fv Hv]; [by left|].
           destruct (proj2 H4) as [fr ->]; [intros; apply H; by right|]. rewrite Hv. simpl. eauto.
    + rewrite filter_cons_False by (cbn [fst]; rewrite Ez; by intros [? ?]). fold (valued d l).
      intros El. destruct (IH _ _ _ _ El) as (-> & -> & H3 & H4).
      split; [done|]. split; [cbn [omap list_omap fst]; by rewrite Ez|]. done.
Qed.
Lemma valued_in w n d ver v : vorder_ok w →
  (ver, v) ∈ valued (fdoc w d) (vo w n (vers (fdoc w d))) ↔
  ∃ v0, vers d !! ver = Some v0 ∧ is_Some (version_value ver) ∧ v = (fin_version ver v0).2.
Proof.
  intros Hw. unfold valued. rewrite elem_of_list_filter. rewrite vo_in by done. rewrite fdoc_vers.
  cbn [fst]. rewrite fdoc_values. split.
  - intros (H & v0 & E & ->). rewrite E in H. eauto.
  - intros (v0 & E & H & ->). rewrite E. eauto.
Qed.

(** ** The codes of each part *)

Ltac codes := repeat first
  [ apply only_nil
  | apply only_app; split
  | apply only_when; cbn [f_code]; set_solver
  | apply only_flat_map; intros
  | match goal with |- only _ (if ?b then _ else _) => destruct b end
  | match goal with |- only _ [_] => apply (only_when _ true); cbn [f_code]; set_solver end ].

Lemma only_start w d : only ["E041"; "E104"; "W007"] (start_findings w d).
Proof. unfold start_findings. codes. unfold fin_version. destruct (version_value _); cbn [fst]; codes. Qed.
Lemma only_pad pad l : only ["E011"; "E012"; "E013"; "E104"] (pad_findings pad l).
Proof.
  revert pad. induction l as [|ver l IH]; intros pad; [codes|]. cbn [pad_findings]. apply only_app. split; [|apply IH].
  unfold check_padding. destruct (zero_name ver), (nozero_name ver), (decide (pad = -1)%Z); cbn [snd]; codes;
    intros f Hf; set_solver.
Qed.
Lemma only_path cs ce args p fs l : cs ≠ ce → cs ∈ l → ce ∈ l → check_path cs ce args p = VDone fs → only l fs.
Proof.
  intros Hne H1 H2 H f Hf. apply check_path_done in H as (_ & _ & _ & H); [|done]. by destruct (H f Hf) as [->| ->].
Qed.
Lemma only_version w lx m ver v fv : check_version w lx m ver v = VDone fv →
  only ["E049"; "E054"; "W008"; "W009"; "E094"; "E050"; "E096"; "E053"; "E052"] fv.
Proof.
  unfold check_version.
  destruct (vd_created v), (vd_user v) as [[ue [un|] [ua|]]|], (vd_message v), (vd_state v) as [[st se]|]; try done.
  intros (fa & fb & Ha & Hb & ->)%vseq_done. injection Ha as <-. apply only_app. split; [codes|].
  eapply only_vall; [|exact Hb]. intros [dg ps] fa _ Hp. cbn [fst snd] in Hp.
  apply vseq_done in Hp as (f1 & f2 & H1 & H2 & ->). injection H1 as <-. apply only_app. split; [codes|].
  eapply only_vall; [|exact H2]. intros p f _ Hf. eapply only_path, Hf; [done|set_solver..].
Qed.
Lemma only_tail w pad zs d : only ["E010"; "W001"; "E040"] (tail_findings w pad zs d).
Proof. unfold tail_findings. codes. Qed.
Lemma only_e095 l : only ["E095"] (e095_pairs l).
Proof. induction l as [|a [|b l] IH]; [codes..|]. cbn [e095_pairs]. apply only_app. split; [codes|]. apply IH. Qed.
Lemma only_e101 l : only ["E101"] (e101_pairs l).
Proof. induction l as [|a [|b l] IH]; [codes..|]. cbn [e101_pairs]. apply only_app. split; [codes|]. apply IH. Qed.
Lemma only_log w (l : list (string * vdoc)) fs : vall ((λ p : string * vdoc, check_logical w p.2) <$> l) = VDone fs → only ["E095"] fs.
Proof.
  apply only_vall. intros [ver v] fa _. cbn [snd]. unfold check_logical. destruct (state_of v); [|done].
  intros [= <-]. apply only_e095.
Qed.
Lemma only_man w d fs : check_manifest w d = VDone fs → only ["E107"; "E100"; "E099"; "E101"] fs.
Proof.
  unfold check_manifest. destruct (all_some _) as [sts|]; [|done]. intros (fa & fb & Ha & Hb & ->)%vseq_done.
  injection Hb as <-. apply only_app. split; [|eapply only_weaken, only_e101; set_solver].
  eapply only_vall; [|exact Ha]. intros [dg ps] f _ Hp. cbn [fst snd] in Hp.
  apply vseq_done in Hp as (f1 & f2 & H1 & H2 & ->). injection H1 as <-. apply only_app. split; [codes|].
  eapply only_vall; [|exact H2]. intros p f _ Hf. eapply only_path, Hf; [done|set_solver..].
Qed.
Lemma only_fix_block alg seen l fs : check_fixity_block alg seen l = VDone fs → only ["E097"; "E100"; "E099"] fs.
Proof.
  revert seen fs. induction l as [|[dg ps] l IH]; intros seen fs; cbn [check_fixity_block]; [intros [= <-]; codes|].
  intros (fa & fb & Ha & Hb & ->)%vseq_done. injection Ha as <-.
  apply vseq_done in Hb as (f1 & f2 & H1 & H2 & ->). apply only_app. split; [codes|]. apply only_app. split; [|by eapply IH].
  eapply only_vall; [|exact H1]. intros p f _ Hf. eapply only_path, Hf; [done|set_solver..].
Qed.
Lemma only_fix w d fs : check_fixity w d = VDone fs → only ["E097"; "E100"; "E099"] fs.
Proof. apply only_vall. intros [alg m] f _. apply only_fix_block. Qed.
Lemma only_rest lx d : only ["E036"; "W005"; "E040"; "W004"; "E025"; "E017"] (rest_findings lx d).
Proof. unfold rest_findings. codes. Qed.

Lemma not_in_part c cs fs args : only cs fs → bool_decide (c ∈ cs) = false → Finding c args ∉ fs.
Proof. intros H1 H2%bool_decide_eq_false H. by apply H1 in H. Qed.

(** All findings of a validation. *)
Lemma findings_in w lx d fs (P : parts w lx d fs) f :
  f ∈ fs ↔
    f ∈ start_findings w d ∨ (vers d = ∅ ∧ f = Finding "E008" []) ∨
    f ∈ pad_findings (-1) ((valued (fdoc w d) (vo w 5 (vers (fdoc w d)))).*1) ∨
    (∃ ver v fv, (ver, v) ∈ valued (fdoc w d) (vo w 5 (vers (fdoc w d))) ∧
       check_version w lx (man d) ver v = VDone fv ∧ f ∈ fv) ∨
    f ∈ tail_findings w (pt_pad _ _ _ _ P) (pt_zs _ _ _ _ P) (fdoc w d) ∨
    f ∈ pt_l _ _ _ _ P ∨ f ∈ pt_m _ _ _ _ P ∨ f ∈ pt_f _ _ _ _ P ∨ f ∈ rest_findings lx d.
Proof.
  destruct P as [pad zs fr fl fm ff El Hl Hm Hf Hall]. simpl. rewrite Hall, !elem_of_app, when_in, bool_decide_eq_true, fdoc_empty.
  destruct (loop_spec _ _ _ _ _ _ _ _ El) as (_ & _ & H & _). rewrite (H fr eq_refl). rewrite fdoc_man. tauto.
Qed.

(** Removes the alternatives that cannot carry a code. *)
Ltac nopart := exfalso;
  match goal with H : Finding _ _ ∈ _ |- _ => revert H end;
  (eapply not_in_part;
    [first [apply only_start | apply only_pad | by eapply only_version | apply only_tail | by eapply only_log
           | by eapply only_man | by eapply only_fix | apply only_rest] | vm_compute; reflexivity]).
Ltac byparts H :=
  destruct H as [H|[[? H]|[H|[(?ver & ?v & ?fv & ?Hv & ?Hc & H)|[H|[H|[H|[H|H]]]]]]]]; try done; try nopart.
Ltac openparts HV P :=
  destruct (validated_parts _ _ _ _ HV) as [P];
  pose proof (pt_loop _ _ _ _ P); pose proof (pt_log _ _ _ _ P); pose proof (pt_man _ _ _ _ P); pose proof (pt_fix _ _ _ _ P).
Ltac openparts2 HV HP pad zs fr fl fm ff El Hl Hm Hx :=
  let P := fresh "P" in
  destruct (validated_parts _ _ _ _ HV) as [P]; pose proof (findings_in _ _ _ _ P) as HP;
  let Hall := fresh "Hall" in
  destruct P as [pad zs fr fl fm ff El Hl Hm Hx Hall]; cbn [pt_pad pt_zs pt_l pt_m pt_f] in HP; clear Hall.

(** * Strings in byte order *)

Lemma str_le_refl a : str_le a a.
Proof. apply str_leb_compare. by rewrite compare_refl. Qed.
Lemma str_le_antisym a b : str_le a b → str_le b a → a = b.
Proof.
  intros H1 H2. destruct (decide (a = b)) as [|Hn]; [done|]. exfalso.
  assert (str_lt a b) as H by (by apply str_lt_le). unfold str_lt in H. unfold str_le in H2.
  revert H H2. unfold String.ltb, String.leb. rewrite (String.compare_antisym b a).
  by destruct (String.compare a b).
Qed.
(** Strings between a string and one of its extensions start with it. *)
Lemma between_prefix p b t : str_le p b → str_le b (p +:+ t) → ∃ u, b = p +:+ u.
Proof.
  revert b. induction p as [|c p IH]; intros b H1 H2; [by exists b|].
  destruct b as [|d b].
  - exfalso. by assert (String c p = "") by (apply str_le_antisym; [done|apply str_le_nil]).
  - rewrite str_app_cons in H2. apply str_le_cons_inv in H1. apply str_le_cons_inv in H2.
    assert (c = d) as <-.
    { destruct H1 as [H1|[H1 _]]; [|done]. destruct H2 as [H2|[H2 _]]; [lia|]. done. }
    destruct (IH b) as [u ->]; [| |by exists u].
    + destruct H1 as [H1|[_ H1]]; [lia|done].
    + destruct H2 as [H2|[_ H2]]; [lia|done].
Qed.

Lemma trim_right_id b c : str_last b ≠ Some c → trim_right b (String c "") = b.
Proof.
  induction b as [|d b IH]; [done|]. intros H. simpl. destruct b as [|e b].
  - simpl in *. destruct (ascii_dec d c) eqn:E; [congruence|].
    assert (d ≠ c) by congruence. 
    replace (trim_right "" (String c "")) with "" by done.
    destruct (str_mem d (String c "")) eqn:Em; [|by simpl in Em; rewrite Em]. 
    apply str_mem_spec in Em. set_solver.
  - rewrite IH by done. done.
Qed.
Lemma trim_suffix_id b c : str_last b ≠ Some c → trim_suffix_char c b = b.
Proof.
  induction b as [|d b IH]; [done|]. intros H. simpl. destruct b as [|e b].
  - rewrite decide_False; [done|]. intros ->. by apply H.
  - by rewrite IH.
Qed.

(** * E101 *)

(** Neighbours of a list. *)
Lemma e101_in l f : f ∈ e101_pairs l ↔ ∃ l1 a b l2, l = l1 ++ a :: b :: l2 ∧
  has_prefix (trim_right b "/" +:+ "/") a = true ∧ f = Finding "E101" [a; trim_right b "/" +:+ "/"].
Proof.
  induction l as [|a [|b l] IH].
  - simpl. rewrite elem_of_nil. split; [done|]. by intros ([] & ? & ? & ? & ? & _).
  - simpl. rewrite elem_of_nil. split; [done|]. by intros ([|? []] & ? & ? & ? & ? & _).
  - cbn [e101_pairs]. rewrite elem_of_app, when_in, IH. split.
    + intros [[H ->]|(l1 & a' & b' & l2 & E & H & ->)]; [by exists [], a, b, l|].
      exists (a :: l1), a', b', l2. by rewrite E.
    + intros ([|x l1] & a' & b' & l2 & E & H & ->).
      * injection E as -> -> ->. by left.
      * injection E as -> E. right. eauto 10.
Qed.
Lemma e095_in l f : f ∈ e095_pairs l ↔ ∃ l1 a b l2, l = l1 ++ a :: b :: l2 ∧
  has_prefix (trim_suffix_char slash a +:+ "/") b = true ∧ f = Finding "E095" [a; b].
Proof.
  induction l as [|a [|b l] IH].
  - simpl. rewrite elem_of_nil. split; [done|]. by intros ([] & ? & ? & ? & ? & _).
  - simpl. rewrite elem_of_nil. split; [done|]. by intros ([|? []] & ? & ? & ? & ? & _).
  - cbn [e095_pairs]. rewrite elem_of_app, when_in, IH. split.
    + intros [[H ->]|(l1 & a' & b' & l2 & E & H & ->)]; [by exists [], a, b, l|].
      exists (a :: l1), a', b', l2. by rewrite E.
    + intros ([|x l1] & a' & b' & l2 & E & H & ->).
      * injection E as -> -> ->. by left.
      * injection E as -> E. right. eauto 10.
Qed.
Lemma sorted_neighbours l1 a b l2 : StronglySorted str_le (l1 ++ a :: b :: l2) → str_le a b.
Proof.
  induction l1 as [|x l1 IH]; simpl; intros H; inversion H as [|? ? H1 H2]; subst; [|by apply IH].
  by inversion H2.
Qed.
Lemma manifest_paths w d p : vorder_ok w → p ∈ flat_map snd (vo w 2 (man d)) ↔ ∃ dg, man_lists d dg p.
Proof.
  intros Hw. rewrite flat_map_in. setoid_rewrite man_lists_man. split.
  - intros ([dg ps] & H & Hp). apply vo_in in H; [|done]. by exists dg, ps.
  - intros (dg & ps & H & Hp). exists (dg, ps). split; [|done]. by apply vo_in.
Qed.
Lemma e101_trailing_slash w lx d fs :
  vorder_ok w → validated w lx d fs → reported fs "E101" →
  ∃ dg p r, man_lists d dg p ∧ p = r +:+ "/".
Proof.
  intros Hw HV (args & Hf). openparts HV P. apply (findings_in _ _ _ _ P) in Hf. byparts Hf.
  revert Hf. destruct P as [pad zs fr fl fm ff El Hl Hm Hx Hall]. simpl in *. clear Hall El Hl Hx.
  unfold check_manifest in Hm. destruct (all_some _) as [sts|]; [|done]. apply vseq_done in Hm as (fa & fb & Ha & Hb & ->).
  injection Hb as <-. intros [Hf|Hf]%elem_of_app.
  - exfalso. apply (vall_map_done _ _ _ Ha) in Hf as ([dg ps] & fx & _ & Hx & Hf). cbn [fst snd] in Hx.
    apply vseq_done in Hx as (f1 & f2 & H1' & H2' & ->). injection H1' as <-. apply elem_of_app in Hf as [Hf|Hf].
    + by apply when_in in Hf as [_ [=]].
    + apply (vall_map_done _ _ _ H2') in Hf as (p & fp & _ & Hp & Hf).
      eapply (only_path _ _ _ _ _ ["E100"; "E099"]) in Hp; [|done|set_solver..]. apply Hp in Hf. cbn in Hf. set_solver.
  - apply e101_in in Hf as (l1 & a & b & l2 & E & Hpre & _).
    assert (str_le a b) as Hle. { apply (sorted_neighbours l1 a b l2). rewrite <- E. apply str_sort_sorted. }
    assert (b ∈ flat_map snd (vo w 2 (man d))) as Hb.
    { rewrite <- str_sort_perm. rewrite fdoc_man in E. rewrite E. apply elem_of_app. right. right. by left. }
    apply manifest_paths in Hb as [dg Hb]; [|done].
    destruct (decide (str_last b = Some slash)) as [Hl|Hl].
    + apply str_last_some in Hl as [r ->]. by exists dg, (r +:+ String slash ""), r.
    + exfalso. rewrite trim_right_id in Hpre by done. apply has_prefix_spec in Hpre as [t ->].
      rewrite <- str_app_assoc in Hle.
      assert (b = b +:+ ("/" +:+ t)) as Hb2 by (apply str_le_antisym; [apply str_le_prefix|done]).
      apply (f_equal String.length) in Hb2. rewrite !str_length_app in Hb2. simpl in Hb2. lia.
Qed.

(** * E095 *)

Lemma fin_state ver v : state_of (fin_version ver v).2 =
  match version_value ver with Some _ => Some (default ∅ (state_of v)) | None => state_of v end.
Proof. unfold fin_version, state_of. destruct (version_value ver); simpl; [|done]. by destruct (vd_state v) as [[]|]. Qed.
Lemma state_lists_state d ver dg p :
  state_lists d ver dg p ↔ ∃ v st ps, vers d !! ver = Some v ∧ state_of v = Some st ∧ st !! dg = Some ps ∧ p ∈ ps.
Proof.
  unfold state_lists, state_of. setoid_rewrite has_version_vers. split.
  - intros (v & st & e & ps & H1 & H2 & H3 & H4). exists v, st, ps. by rewrite H2.
  - intros (v & st & ps & H1 & H2 & H3 & H4). destruct (vd_state v) as [[st' e]|] eqn:E; [|done].
    injection H2 as <-. by exists v, st', e, ps.
Qed.
Lemma state_paths w n d ver v1 st p :
  vorder_ok w → vers (fdoc w d) !! ver = Some v1 → state_of v1 = Some st →
  p ∈ flat_map snd (vo w n st) ↔ ∃ dg, state_lists d ver dg p.
Proof.
  intros Hw (v & Hv & ->)%fdoc_vers Hst. rewrite fin_state in Hst. rewrite flat_map_in.
  setoid_rewrite state_lists_state. split.
  - intros ([dg ps] & H & Hp). apply vo_in in H; [|done]. cbn [snd] in Hp. exists dg, v, st, ps. split; [done|].
    split; [|done]. destruct (version_value ver); [|done]. destruct (state_of v); [by injection Hst as <-|].
    injection Hst as <-. by rewrite lookup_empty in H.
  - intros (dg & v' & st' & ps & H1 & H2 & H3 & H4). assert (v' = v) as -> by congruence. rewrite H2 in Hst.
    assert (st' = st) as -> by (destruct (version_value ver); by injection Hst).
    exists (dg, ps). split; [|done]. by apply vo_in.
Qed.
Lemma sorted_app_l {A} (R : A → A → Prop) l1 l2 x y : StronglySorted R (l1 ++ l2) → x ∈ l1 → y ∈ l2 → R x y.
Proof.
  induction l1 as [|a l1 IH]; simpl; intros H Hx Hy; [by apply elem_of_nil in Hx|].
  inversion H as [|? ? H1 H2]; subst. apply elem_of_cons in Hx as [->|Hx]; [|by apply IH].
  rewrite List.Forall_forall in H2. apply H2, elem_of_list_In, elem_of_app. by right.
Qed.
Lemma sorted_successor l p q :
  StronglySorted str_le l → p ∈ l → q ∈ l → str_lt p q → (∀ r, r ∈ l → ¬ (str_lt p r ∧ str_lt r q)) →
  ∃ l1 l2, l = l1 ++ p :: q :: l2.
Proof.
  induction l as [|x l IH]; intros Hs Hp Hq Hlt Hb; [by apply elem_of_nil in Hp|].
  inversion Hs as [|? ? Hs1 Hs2]; subst. rewrite List.Forall_forall in Hs2.
  pose proof (proj1 (str_lt_le p q) Hlt) as [Hle Hne].
  destruct (decide (p ∈ l)) as [Hpl|Hpl].
  - assert (q ∈ l) as Hql.
    { apply elem_of_cons in Hq as [->|Hq]; [|done]. exfalso. apply Hne, str_le_antisym; [done|].
      apply Hs2. by apply elem_of_list_In. }
    destruct IH as (l1 & l2 & ->); try done. { intros r Hr. apply Hb. by right. }
    by exists (x :: l1), l2.
  - apply elem_of_cons in Hp as [<-|Hp]; [|done]. apply elem_of_cons in Hq as [->|Hq]; [done|].
    destruct l as [|y l]; [by apply elem_of_nil in Hq|]. exists [], l. simpl. do 2 f_equal.
    apply elem_of_cons in Hq as [->|Hq]; [done|]. destruct (decide (y = q)) as [|Hyq]; [done|]. exfalso.
    apply (Hb y); [right; by left|]. split; apply str_lt_le; (split; [|]).
    + apply Hs2. by left.
    + intros <-. apply Hpl. by left.
    + inversion Hs1 as [|? ? _ H2]; subst. rewrite List.Forall_forall in H2. by apply H2, elem_of_list_In.
    + done.
Qed.
Lemma e095_version w lx d fs args :
  vorder_ok w → validated w lx d fs →
  Finding "E095" args ∈ fs ↔ ∃ ver v st, vers (fdoc w d) !! ver = Some v ∧ state_of v = Some st ∧
    Finding "E095" args ∈ e095_pairs (str_sort (flat_map snd (vo w 10 st))).
Proof.
  intros Hw HV. openparts HV P. split.
  - intros Hf. apply (findings_in _ _ _ _ P) in Hf. byparts Hf.
    apply (vall_map_done _ _ _ (pt_log _ _ _ _ P)) in Hf as ([ver v] & fv & Hin & Hv & Hf). cbn [snd] in Hv.
    unfold check_logical in Hv. destruct (state_of v) as [st|] eqn:Est; [|done]. injection Hv as <-.
    apply vo_in in Hin; [|done]. by exists ver, v, st.
  - intros (ver & v & st & Hv & Hst & Hf). apply (findings_in _ _ _ _ P). do 5 right. left.
    apply (vall_map_done _ _ _ (pt_log _ _ _ _ P)). exists (ver, v). cbn [snd]. unfold check_logical. rewrite Hst.
    eexists. split; [by apply vo_in|]. split; [done|]. done.
Qed.
(** The state of a version of the finalised document. *)
Lemma validated_state w lx d fs ver v :
  vorder_ok w → validated w lx d fs → vers (fdoc w d) !! ver = Some v → ∃ st, state_of v = Some st.
Proof.
  intros Hw HV Hv. openparts HV P.
  destruct (proj1 (vall_map_ok (λ p : string * vdoc, check_logical w p.2) (vo w 9 (vers (fdoc w d))))
    (ex_intro _ _ (pt_log _ _ _ _ P)) (ver, v)) as [fl Hl].
  { by apply vo_in. }
  cbn [snd] in Hl. unfold check_logical in Hl. destruct (state_of v); [eauto|done].
Qed.

Lemma e095_exact w lx d fs :
  vorder_ok w → validated w lx d fs →
  (∀ ver dg p r, state_lists d ver dg p → p ≠ r +:+ "/") →
  reported fs "E095" ↔
  ∃ ver dg dg' p q, state_lists d ver dg p ∧ state_lists d ver dg' q ∧ dir_of p q ∧
    ∀ dg'' r, state_lists d ver dg'' r → ¬ (str_lt p r ∧ str_lt r q).
Proof.
  intros Hw HV Hns. unfold reported. setoid_rewrite (e095_version w lx d fs _ Hw HV). split.
  - intros (args & ver & v & st & Hv & Hst & Hf). apply e095_in in Hf as (l1 & a & b & l2 & E & Hpre & _).
    assert (∀ x, x ∈ l1 ++ a :: b :: l2 ↔ ∃ dg, state_lists d ver dg x) as Hx.
    { intros x. rewrite <- E, str_sort_perm. by eapply state_paths. }
    destruct (proj1 (Hx a)) as [dg Ha]; [set_solver|]. destruct (proj1 (Hx b)) as [dg' Hb]; [set_solver|].
    exists ver, dg, dg', a, b. split; [done|]. split; [done|]. split.
    + apply has_prefix_spec in Hpre as [t ->]. rewrite trim_suffix_id.
      * exists t. by rewrite str_app_assoc.
      * intros [r Hr]%str_last_some. by eapply Hns in Hr.
    + intros dg'' r Hr [H1 H2]. assert (r ∈ l1 ++ a :: b :: l2) as Hin by (apply Hx; eauto).
      pose proof (str_sort_sorted (flat_map snd (vo w 10 st))) as Hs. rewrite E in Hs.
      apply str_lt_le in H1 as [H1 H1']. apply str_lt_le in H2 as [H2 H2'].
      apply elem_of_app in Hin as [Hin|Hin].
      * apply H1', str_le_antisym; [done|]. eapply sorted_app_l; [exact Hs|done|by left].
      * apply elem_of_cons in Hin as [->|Hin]; [done|]. apply H2', str_le_antisym; [done|].
        apply elem_of_cons in Hin as [->|Hin]; [apply str_le_refl|].
        replace (l1 ++ a :: b :: l2) with ((l1 ++ [a; b]) ++ l2) in Hs by (by rewrite <- (assoc_L (++))).
        eapply sorted_app_l; [exact Hs|set_solver|done].
  - intros (ver & dg & dg' & p & q & Hp & Hq & [t ->] & Hb).
    pose proof Hp as (v0 & st0 & ps & Hv0 & _)%state_lists_state.
    assert (vers (fdoc w d) !! ver = Some (fin_version ver v0).2) as Hv by (apply fdoc_vers; eauto).
    destruct (validated_state _ _ _ _ _ _ Hw HV Hv) as [st Hst].
    assert (∀ x, x ∈ str_sort (flat_map snd (vo w 10 st)) ↔ ∃ dg, state_lists d ver dg x) as Hx.
    { intros x. rewrite str_sort_perm. by eapply state_paths. }
    destruct (sorted_successor (str_sort (flat_map snd (vo w 10 st))) p (p +:+ "/" +:+ t)) as (l1 & l2 & E).
    + apply str_sort_sorted.
    + apply Hx. eauto.
    + apply Hx. eauto.
    + apply str_lt_le. split; [apply str_le_prefix|]. intros Hb2.
      apply (f_equal String.length) in Hb2. rewrite !str_length_app in Hb2. simpl in Hb2. lia.
    + intros r [dg'' Hr]%Hx. by eapply Hb.
    + exists [p; p +:+ "/" +:+ t], ver, (fin_version ver v0).2, st. split; [done|]. split; [done|].
      apply e095_in. exists l1, p, (p +:+ "/" +:+ t), l2. split; [done|]. split; [|done].
      apply has_prefix_spec. exists t. rewrite trim_suffix_id; [by rewrite str_app_assoc|].
      intros [r Hr]%str_last_some. by eapply Hns in Hr.
Qed.
(** Reported if every path that continues [p] as a string lies below [p]. *)
Lemma e095_complete w lx d fs ver dg dg' p q :
  vorder_ok w → validated w lx d fs →
  (∀ ver dg p r, state_lists d ver dg p → p ≠ r +:+ "/") →
  state_lists d ver dg p → state_lists d ver dg' q → dir_of p q →
  (∀ dg'' t, state_lists d ver dg'' (p +:+ t) → t = "" ∨ ∃ u, t = "/" +:+ u) →
  reported fs "E095".
Proof.
  intros Hw HV Hns Hp Hq Hd Hpre. unfold reported. setoid_rewrite (e095_version w lx d fs _ Hw HV).
  destruct Hd as [t ->].
  pose proof Hp as (v0 & st0 & ps & Hv0 & _)%state_lists_state.
  assert (vers (fdoc w d) !! ver = Some (fin_version ver v0).2) as Hv by (apply fdoc_vers; eauto).
  destruct (validated_state _ _ _ _ _ _ Hw HV Hv) as [st Hst].
  assert (∀ x, x ∈ str_sort (flat_map snd (vo w 10 st)) ↔ ∃ dg, state_lists d ver dg x) as Hx.
  { intros x. rewrite str_sort_perm. by eapply state_paths. }
  assert (str_lt p (p +:+ "/" +:+ t)) as Hlt.
  { apply str_lt_le. split; [apply str_le_prefix|]. intros Hb2.
    apply (f_equal String.length) in Hb2. rewrite !str_length_app in Hb2. simpl in Hb2. lia. }
  assert (∃ l1 q' l2, str_sort (flat_map snd (vo w 10 st)) = l1 ++ p :: q' :: l2 ∧ str_lt p q' ∧ str_le q' (p +:+ "/" +:+ t))
    as (l1 & q' & l2 & E & Hlt' & Hle).
  { pose proof (str_sort_sorted (flat_map snd (vo w 10 st))) as Hs.
    assert (p ∈ str_sort (flat_map snd (vo w 10 st))) as Hpi by (apply Hx; eauto).
    assert (p +:+ "/" +:+ t ∈ str_sort (flat_map snd (vo w 10 st))) as Hqi by (apply Hx; eauto).
    revert Hs Hpi Hqi Hlt. clear. generalize (str_sort (flat_map snd (vo w 10 st))) as l.
    generalize (p +:+ "/" +:+ t) as q. clear. intros q l. induction l as [|x l IH]; intros Hs Hp Hq Hlt; [by apply elem_of_nil in Hp|].
    inversion Hs as [|? ? Hs1 Hs2]; subst. rewrite List.Forall_forall in Hs2.
    pose proof (proj1 (str_lt_le p q) Hlt) as [Hle Hne].
    destruct (decide (p ∈ l)) as [Hpl|Hpl].
    - assert (q ∈ l) as Hql.
      { apply elem_of_cons in Hq as [->|Hq]; [|done]. exfalso. apply Hne, str_le_antisym; [done|].
        apply Hs2. by apply elem_of_list_In. }
      destruct IH as (l1 & q' & l2 & -> & H1 & H2); try done. by exists (x :: l1), q', l2.
    - apply elem_of_cons in Hp as [<-|Hp]; [|done]. apply elem_of_cons in Hq as [->|Hq]; [done|].
      destruct l as [|y l]; [by apply elem_of_nil in Hq|]. exists [], y, l. split; [done|]. split.
      + apply str_lt_le. split; [apply Hs2; by left|]. intros <-. apply Hpl. by left.
      + apply elem_of_cons in Hq as [->|Hq]; [apply str_le_refl|].
        inversion Hs1 as [|? ? _ H2]; subst. rewrite List.Forall_forall in H2. by apply H2, elem_of_list_In. }
  exists [p; q'], ver, (fin_version ver v0).2, st. split; [done|]. split; [done|].
  apply e095_in. exists l1, p, q', l2. split; [done|]. split; [|done].
  apply str_lt_le in Hlt' as [Hle' Hne]. destruct (between_prefix _ _ _ Hle' Hle) as [u ->].
  assert (p +:+ u ∈ str_sort (flat_map snd (vo w 10 st))) as Hin by (rewrite E; set_solver).
  apply Hx in Hin as [dg'' Hin]. destruct (Hpre _ _ Hin) as [->|[u' ->]]; [by rewrite str_app_nil_r in Hne|].
  apply has_prefix_spec. exists u'. rewrite trim_suffix_id; [by rewrite str_app_assoc|].
  intros [r Hr]%str_last_some. by eapply Hns in Hr.
Qed.
