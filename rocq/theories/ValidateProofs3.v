(** Proofs about the validation of an inventory: version numbers, head, map order. *)
From Coq Require Import Ascii ZArith Lia.
From stdpp Require Import base list strings gmap sorting numbers.
From Verif Require Import GoStr InventoryModel InventorySpec InventoryProofs ValidateModel ValidateSpec ValidateProofs ValidateProofs2.

(** * E104 *)

Lemma pad_e104 pad l args : Finding "E104" args ∈ pad_findings pad l ↔
  ∃ ver, ver ∈ l ∧ zero_name ver = false ∧ nozero_name ver = false ∧ args = [ver].
Proof.
  revert pad. induction l as [|ver l IH]; intros pad; cbn [pad_findings].
  - rewrite elem_of_nil. split; [done|]. intros (ver & H & _). by apply elem_of_nil in H.
  - rewrite elem_of_app, IH.
    assert (Finding "E104" args ∈ (check_padding pad ver).2 ↔ zero_name ver = false ∧ nozero_name ver = false ∧ args = [ver]) as ->.
    { unfold check_padding. destruct (zero_name ver), (nozero_name ver); repeat case_decide; cbn [snd];
        rewrite ?elem_of_cons, ?elem_of_nil; naive_solver. }
    setoid_rewrite elem_of_cons. naive_solver.
Qed.
Lemma e104_iff w lx d fs : vorder_ok w → validated w lx d fs →
  reported fs "E104" ↔ ∃ ver v, has_version d ver v ∧ ∀ n, ¬ numbered ver n.
Proof.
  intros Hw HV. openparts2 HV HP pad zs fr fl fm ff El Hlog Hman Hfix. unfold reported. split.
  - intros [args Hf]. apply HP in Hf. byparts Hf.
    + unfold start_findings in Hf. rewrite !elem_of_app, !when_in in Hf.
      destruct Hf as [[_ [=]]|[[_ [=]]|Hf]]. apply flat_map_in in Hf as ([ver v] & Hin & Hf). cbn [fst snd] in Hf.
      apply vo_in in Hin; [|done]. exists ver, v. split; [by apply has_version_vers|].
      intros n Hn%numbered_value. unfold fin_version in Hf. rewrite Hn in Hf. cbn [fst] in Hf.
      rewrite elem_of_app, !when_in in Hf. by destruct Hf as [[_ [=]]|[_ [=]]].
    + apply pad_e104 in Hf as (ver & Hin & Hz & Hnz & ->). apply elem_of_list_fmap in Hin as ([ver' v] & -> & Hin).
      apply valued_in in Hin as (v0 & Hv0 & _); [|done]. cbn [fst] in *. exists ver', v0. split; [by apply has_version_vers|].
      intros n Hn%numbered_name. destruct Hn; congruence.
  - intros (ver & v & Hv%has_version_vers & Hn). destruct (version_value ver) as [z|] eqn:Ez.
    + exists [ver]. apply HP. do 2 right. left. apply pad_e104. exists ver. split.
      { apply elem_of_list_fmap. exists (ver, (fin_version ver v).2). split; [done|]. apply valued_in; [done|].
        exists v. split; [done|]. split; [by eexists|done]. }
      destruct (zero_name ver) eqn:E1; [exfalso|destruct (nozero_name ver) eqn:E2; [exfalso|done]];
        (destruct (name_numbered ver z Ez) as (n & Hn' & _); [by auto|by eapply Hn]).
    + exists [ver]. apply HP. left. unfold start_findings. rewrite !elem_of_app. do 2 right.
      apply flat_map_in. exists (ver, v). split; [by apply vo_in|]. unfold fin_version. cbn [fst snd]. rewrite Ez. by left.
Qed.

(** * E010 *)

Lemma in_sequence_spec k l : in_sequence k l = true ↔ l = seqZ (k + 1) (Z.of_nat (length l)).
Proof.
  revert k. induction l as [|z l IH]; intros k; cbn [in_sequence]; [done|].
  cbn [length]. rewrite seqZ_cons by lia. replace (Z.pred (Z.of_nat (S (length l)))) with (Z.of_nat (length l)) by lia.
  destruct (decide (k = z - 1)%Z) as [->|Hn].
  - rewrite IH. replace (z - 1 + 1)%Z with z by lia. replace (Z.succ z) with (z + 1)%Z by lia. split; [congruence|]. by intros [= H].
  - split; [done|]. intros [= H _]. lia.
Qed.
Lemma seqZ_sorted k n : StronglySorted Z.le (seqZ k n).
Proof.
  destruct (decide (0 <= n)%Z) as [Hn|Hn]; [|rewrite seqZ_nil by lia; constructor].
  revert k. pattern n. apply natlike_ind; [| |done].
  - intros k. rewrite seqZ_nil by lia. constructor.
  - intros m Hm IH k. rewrite seqZ_cons by lia. constructor.
    + replace (Z.pred (Z.succ m)) with m by lia. apply IH.
    + apply List.Forall_forall. intros x Hx%elem_of_list_In%elem_of_seqZ. lia.
Qed.
Lemma in_sequence_perm l : in_sequence 0 (merge_sort Z.le l) = true ↔ l ≡ₚ seqZ 1 (Z.of_nat (length l)).
Proof.
  rewrite in_sequence_spec. change (0 + 1)%Z with 1%Z.
  assert (length (merge_sort Z.le l) = length l) as Hl by (by rewrite merge_sort_Permutation).
  rewrite Hl. split.
  - intros <-. by rewrite merge_sort_Permutation.
  - intros H. apply (StronglySorted_unique Z.le).
    + apply StronglySorted_merge_sort; apply _.
    + apply seqZ_sorted.
    + by rewrite merge_sort_Permutation.
Qed.

(** The numbers of the versions. *)
Lemma zs_in w lx d pad zs fr z : vorder_ok w →
  check_versions_loop w lx (fdoc w d) (-1) (vo w 5 (vers (fdoc w d))) = (pad, zs, VDone fr) →
  z ∈ zs ↔ ∃ ver v, has_version d ver v ∧ version_value ver = Some z.
Proof.
  intros Hw (_ & -> & _)%loop_spec. rewrite elem_of_list_omap. split.
  - intros ([ver v] & Hin & Hz). apply vo_in in Hin; [|done]. apply fdoc_vers in Hin as (v0 & Hv0 & _). cbn [fst] in Hz.
    rewrite fdoc_values, Hv0 in Hz. exists ver, v0. by rewrite has_version_vers.
  - intros (ver & v & Hv%has_version_vers & Hz). exists (ver, (fin_version ver v).2). split; [apply vo_in, fdoc_vers; eauto|].
    cbn [fst]. by rewrite fdoc_values, Hv.
Qed.
Lemma omap_nodup {A B} (f : A → option B) l : NoDup l →
  (∀ x y b, x ∈ l → y ∈ l → f x = Some b → f y = Some b → x = y) → NoDup (omap f l).
Proof.
  induction l as [|a l IH]; intros Hl H; [constructor|]. apply list.NoDup_cons in Hl as [Ha Hl].
  assert (NoDup (omap f l)) as Hr. { apply IH; [done|]. intros x y b Hx Hy. apply H; by right. }
  cbn [omap list_omap]. destruct (f a) as [b|] eqn:E; [|done]. apply list.NoDup_cons. split; [|done].
  intros (y & Hy & Ey)%elem_of_list_omap. apply Ha. rewrite (H a y b); [done|by left|by right|done..].
Qed.
Lemma omap_nodup_inv {A B} (f : A → option B) l x y b : NoDup (omap f l) → x ∈ l → y ∈ l → f x = Some b → f y = Some b → x = y.
Proof.
  induction l as [|a l IH]; [by intros _ H%elem_of_nil|]. cbn [omap list_omap].
  intros Hn Hx Hy Ex Ey.
  assert (NoDup (omap f l)) as Hr. { destruct (f a); [by apply list.NoDup_cons in Hn as [_ ?]|done]. }
  apply elem_of_cons in Hx as [->|Hx], Hy as [->|Hy]; [done| | |by apply IH].
  - exfalso. rewrite Ex in Hn. apply list.NoDup_cons in Hn as [Hn _]. apply Hn, elem_of_list_omap. eauto.
  - exfalso. rewrite Ey in Hn. apply list.NoDup_cons in Hn as [Hn _]. apply Hn, elem_of_list_omap. eauto.
Qed.
Lemma vo_nodup w n {A} (m : gmap string A) : vorder_ok w → NoDup (vo w n m).
Proof. intros Hw. rewrite (Hw n A m). apply NoDup_map_to_list. Qed.


Lemma zs_nodup w lx d pad zs fr : vorder_ok w → all_numbered d →
  check_versions_loop w lx (fdoc w d) (-1) (vo w 5 (vers (fdoc w d))) = (pad, zs, VDone fr) →
  NoDup zs ↔ distinct_numbers d.
Proof.
  intros Hw Hnum (_ & -> & _)%loop_spec. split.
  - intros Hn ver1 v1 ver2 v2 k H1%has_version_vers H2%has_version_vers N1%numbered_value N2%numbered_value.
    eapply (omap_nodup_inv _ _ (ver1, (fin_version ver1 v1).2) (ver2, (fin_version ver2 v2).2) (Z.of_N k)) in Hn;
      [by injection Hn|apply vo_in, fdoc_vers; eauto..| |].
    + cbn [fst]. by rewrite fdoc_values, H1.
    + cbn [fst]. by rewrite fdoc_values, H2.
  - intros Hd. apply omap_nodup; [by apply vo_nodup|]. intros [ver1 v1] [ver2 v2] z H1 H2 E1 E2. cbn [fst] in *.
    apply vo_in in H1; [|done]. apply vo_in in H2; [|done].
    pose proof H1 as (v1' & H1' & _)%fdoc_vers. pose proof H2 as (v2' & H2' & _)%fdoc_vers.
    rewrite fdoc_values, H1' in E1. rewrite fdoc_values, H2' in E2.
    apply has_version_vers in H1', H2'. destruct (Hnum _ _ H1') as [n1 N1], (Hnum _ _ H2') as [n2 N2].
    rewrite (numbered_value _ _ N1) in E1. rewrite (numbered_value _ _ N2) in E2. assert (n1 = n2) as <- by (apply (inj Z.of_N); congruence).
    assert (ver1 = ver2) as -> by (by eapply Hd). f_equal. congruence.
Qed.
Lemma e010_tail w lx d fs : vorder_ok w → validated w lx d fs →
  ∃ pad zs fr, check_versions_loop w lx (fdoc w d) (-1) (vo w 5 (vers (fdoc w d))) = (pad, zs, VDone fr) ∧
    (reported fs "E010" ↔ in_sequence 0 (merge_sort Z.le zs) = false) ∧
    (reported fs "W001" ↔ (0 < pad)%Z).
Proof.
  intros Hw HV. openparts2 HV HP pad zs fr fl fm ff El Hlog Hman Hfix. exists pad, zs, fr. split; [done|].
  split; unfold reported; split.
  - intros [args Hf]. apply HP in Hf. byparts Hf. unfold tail_findings in Hf. rewrite !elem_of_app, !when_in in Hf.
    destruct Hf as [[Hf _]|[[_ [=]]|[[_ [=]]|[_ [=]]]]]. by destruct (in_sequence _ _).
  - intros Hi. exists []. apply HP. do 4 right. left. unfold tail_findings. rewrite !elem_of_app, !when_in. left. by rewrite Hi.
  - intros [args Hf]. apply HP in Hf. byparts Hf.
    unfold tail_findings in Hf. rewrite !elem_of_app, !when_in in Hf.
    destruct Hf as [[_ [=]]|[[Hf _]|[[_ [=]]|[_ [=]]]]]. by apply bool_decide_eq_true in Hf.
  - intros Hi. exists []. apply HP. do 4 right. left. unfold tail_findings. rewrite !elem_of_app, !when_in. right. left.
    by rewrite bool_decide_eq_true.
Qed.
Lemma sequence_iff w lx d fs : vorder_ok w → validated w lx d fs →
  (¬ reported fs "E104" ∧ ¬ reported fs "E010") ↔ ∃ n, exactly_upto d n.
Proof.
  intros Hw HV. rewrite (e104_iff w lx d fs Hw HV).
  destruct (e010_tail w lx d fs Hw HV) as (pad & zs & fr & El & -> & _).
  rewrite not_false_iff_true, in_sequence_perm.
  pose proof (zs_in w lx d pad zs fr) as Hzs. pose proof (zs_nodup w lx d pad zs fr) as Hnd.
  split.
  - intros [H104 Hp].
    assert (all_numbered d) as Hnum.
    { intros ver v Hv. destruct (version_value ver) as [z|] eqn:Ez.
      - destruct (zero_name ver) eqn:E1; [destruct (name_numbered ver z Ez) as (n & Hn & _); eauto|].
        destruct (nozero_name ver) eqn:E2; [destruct (name_numbered ver z Ez) as (n & Hn & _); eauto|].
        exfalso. apply H104. exists ver, v. split; [done|]. intros n Hn%numbered_name. destruct Hn; congruence.
      - exfalso. apply H104. exists ver, v. split; [done|]. intros n Hn%numbered_value. congruence. }
    exists (N.of_nat (length zs)). split; [|split].
    + intros k Hk. assert (Z.of_N k ∈ zs) as Hin by (rewrite Hp; apply elem_of_seqZ; lia).
      apply Hzs in Hin as (ver & v & Hv & Hz); [|done..]. exists ver, v. split; [done|].
      destruct (Hnum _ _ Hv) as [n Hn]. rewrite (numbered_value _ _ Hn) in Hz. by assert (k = n) as -> by (apply (inj Z.of_N); congruence).
    + intros ver v Hv. destruct (Hnum _ _ Hv) as [n Hn]. exists n. split; [done|].
      assert (Z.of_N n ∈ zs) as Hin by (apply Hzs; [done..|]; exists ver, v; split; [done|by apply numbered_value]).
      rewrite Hp in Hin. apply elem_of_seqZ in Hin. lia.
    + intros ver1 v1 ver2 v2 k. apply Hnd; [done..|]. rewrite Hp. apply NoDup_seqZ.
  - intros (n & H1 & H2 & H3).
    assert (all_numbered d) as Hnum. { intros ver v Hv. destruct (H2 _ _ Hv) as (k & Hk & _). eauto. }
    split.
    + intros (ver & v & Hv & Hn). destruct (Hnum _ _ Hv) as [k Hk]. by eapply Hn.
    + assert (zs ≡ₚ seqZ 1 (Z.of_N n)) as Hp.
      { apply NoDup_Permutation; [by apply Hnd|apply NoDup_seqZ|]. intros z. rewrite Hzs by done. rewrite elem_of_seqZ. split.
        - intros (ver & v & Hv & Hz). destruct (H2 _ _ Hv) as (k & Hk & Hle). rewrite (numbered_value _ _ Hk) in Hz.
          injection Hz as <-. destruct Hk as [Hk _]. lia.
        - intros Hz. destruct (H1 (Z.to_N z)) as (ver & v & Hv & Hk); [lia|]. exists ver, v. split; [done|].
          rewrite (numbered_value _ _ Hk). f_equal. lia. }
      assert (length zs = N.to_nat n) as Hlen. { rewrite Hp, seqZ_length. lia. }
      rewrite Hlen, Hp. by rewrite N_nat_Z.
Qed.

(** * E040 *)

Lemma nums_numbered l : (∀ s, s ∈ l → ∃ n, numbered s n) →
  ∃ ps, nums l = Some ps ∧ ps.*2 = l ∧ ∀ n s, (n, s) ∈ ps → numbered s n.
Proof.
  induction l as [|s l IH]; intros H.
  - exists []. split; [done|]. split; [done|]. intros n s Hin. by apply elem_of_nil in Hin.
  - destruct IH as (ps & E & E2 & Hps); [intros; apply H; by right|]. destruct (H s) as [n Hn]; [by left|].
    exists ((n, s) :: ps). cbn [nums]. rewrite (numbered_vnum _ _ Hn), E. split; [done|]. split; [rewrite fmap_cons, E2; done|].
    intros n' s' [[= -> ->]|Hin]%elem_of_cons; [done|by apply Hps].
Qed.
Lemma last_with_in n ps : n ∈ ps.*1 → ∃ s, last_with n ps = Some s ∧ (n, s) ∈ ps.
Proof.
  induction ps as [|[m s] ps IH]; simpl; [by intros H%elem_of_nil|]. intros H.
  destruct (last_with n ps) as [t|] eqn:E.
  - destruct (decide (n ∈ ps.*1)) as [Hin|Hin].
    + destruct (IH Hin) as (t' & [= <-] & Ht). exists t. split; [done|by right].
    + exfalso. clear -E Hin. induction ps as [|[m s] ps IH]; [done|]. simpl in *. apply not_elem_of_cons in Hin as [H1 H2].
      destruct (last_with n ps); [by apply IH|]. by rewrite decide_False in E.
  - apply elem_of_cons in H as [<-|H]; [|by destruct (IH H) as (t & ? & _)].
    rewrite decide_True by done. exists s. split; [done|by left].
Qed.
Lemma sorted_names_in l x : (∀ s, s ∈ l → ∃ n, numbered s n) →
  (∀ s t n, s ∈ l → t ∈ l → numbered s n → numbered t n → s = t) →
  x ∈ sorted_names l ↔ x ∈ l.
Proof.
  intros Hn Hd. unfold sorted_names. destruct (nums_numbered l Hn) as (ps & -> & E & Hps).
  rewrite elem_of_list_fmap. setoid_rewrite merge_sort_Permutation. split.
  - intros (n & -> & Hin). destruct (last_with_in _ _ Hin) as (s & -> & Hs). simpl. rewrite <- E.
    apply elem_of_list_fmap. by exists (n, s).
  - intros Hx. rewrite <- E in Hx. apply elem_of_list_fmap in Hx as ([n s] & -> & Hin). cbn [snd].
    assert (n ∈ ps.*1) as H1 by (apply elem_of_list_fmap; by exists (n, s)).
    exists n. split; [|done]. destruct (last_with_in _ _ H1) as (t & -> & Ht). simpl.
    apply (Hd s t n); [| |by apply Hps..]; rewrite <- E; apply elem_of_list_fmap; [by exists (n, s)|by exists (n, t)].
Qed.
Lemma recent_max values r l :
  (∀ x, x ∈ l → x ≠ "" ∧ ∃ n, values !! x = Some (Z.of_N n)) →
  (r ≠ "" → ∃ n, values !! r = Some (Z.of_N n)) →
  (r = "" → l ≠ []) →
  let m := recent_version values r l in
  m ≠ "" ∧ (m = r ∨ m ∈ l) ∧ (∃ n, values !! m = Some (Z.of_N n)) ∧
  (∀ x a b, (x ∈ l ∨ (x = r ∧ r ≠ "")) → values !! x = Some (Z.of_N a) → values !! m = Some (Z.of_N b) → (a <= b)%N).
Proof.
  revert r. induction l as [|y l IH]; intros r Hl Hr Hne; cbn [recent_version].
  - assert (r ≠ "") as Hr0 by (intros H; by apply Hne). split; [done|]. split; [by left|]. split; [by apply Hr|].
    intros x a b [H|[-> _]] Ha Hb; [by apply elem_of_nil in H|]. assert (a = b) as -> by (apply (inj Z.of_N); congruence). lia.
  - set (r' := if decide (r = "") then y else if version_le values y r then r else y).
    destruct (Hl y) as [Hy0 [ny Hy]]; [by left|].
    assert (∀ n, as_uint (Z.of_N n) = Z.of_N n) as Hu. { intros n. unfold as_uint. rewrite decide_False by lia. done. }
    assert (r' ≠ "" ∧ (r' = r ∨ r' = y) ∧ (∃ n, values !! r' = Some (Z.of_N n)) ∧
      ∀ x a b, (x = y ∨ (x = r ∧ r ≠ "")) → values !! x = Some (Z.of_N a) → values !! r' = Some (Z.of_N b) → (a <= b)%N)
      as (H1 & H2 & H3 & H4).
    { unfold r'. destruct (decide (r = "")) as [->|Hr0].
      - split; [done|]. split; [by right|]. split; [eauto|]. intros x a b [->|[_ H]] Ha Hb; [|done].
        assert (a = b) as -> by (apply (inj Z.of_N); congruence). lia.
      - destruct (Hr Hr0) as [nr Hnr]. unfold version_le. rewrite Hy, Hnr, !Hu.
        case_bool_decide as Hc.
        + split; [done|]. split; [by left|]. split; [eauto|]. intros x a b [->|[-> _]] Ha Hb.
          * rewrite Hy in Ha. rewrite Hnr in Hb. injection Ha as Ha. injection Hb as Hb. lia.
          * assert (a = b) as -> by (apply (inj Z.of_N); congruence). lia.
        + split; [done|]. split; [by right|]. split; [eauto|]. intros x a b [->|[-> _]] Ha Hb.
          * assert (a = b) as -> by (apply (inj Z.of_N); congruence). lia.
          * rewrite Hnr in Ha. rewrite Hy in Hb. injection Ha as Ha. injection Hb as Hb. lia. }
    destruct (IH r') as (G1 & G2 & G3 & G4).
    { intros x Hx. apply Hl. by right. } { done. } { done. }
    split; [done|]. split; [|split; [done|]].
    { destruct G2 as [->|G2]; [|right; by right]. destruct H2 as [->| ->]; [by left|right; by left]. }
    intros x a b Hx Ha Hb.
    assert (x ∈ l ∨ (x = y ∨ (x = r ∧ r ≠ ""))) as [Hxl|Hxy].
    { destruct Hx as [[->|Hx]%elem_of_cons|Hx]; auto. }
    + by apply (G4 x a b); [left|..].
    + destruct H3 as [n' Hn']. pose proof (H4 x a n' Hxy Ha Hn'). pose proof (G4 r' n' b (or_intror (conj eq_refl H1)) Hn' Hb). lia.
Qed.
Lemma version_names w n d x : vorder_ok w → x ∈ (vo w n (vers (fdoc w d))).*1 ↔ ∃ v, has_version d x v.
Proof.
  intros Hw. rewrite elem_of_list_fmap. split.
  - intros ([ver v] & -> & Hin). apply vo_in in Hin; [|done]. apply fdoc_vers in Hin as (v0 & H & _). exists v0. by apply has_version_vers.
  - intros [v Hv%has_version_vers]. exists (x, (fin_version x v).2). split; [done|]. apply vo_in, fdoc_vers; eauto.
Qed.
Lemma version_strings_in w n d x : vorder_ok w → all_numbered d → distinct_numbers d →
  x ∈ version_strings w n (fdoc w d) ↔ ∃ v, has_version d x v.
Proof.
  intros Hw Hn Hd. unfold version_strings. rewrite sorted_names_in; [by apply version_names|..].
  - intros s [v Hv]%version_names; [|done]. by eapply Hn.
  - intros s t k [v Hv]%version_names [v' Hv']%version_names; [|done..]. by eapply Hd.
Qed.
(** The recent version is the newest one. *)
Lemma recent_newest w n d : vorder_ok w → all_numbered d → distinct_numbers d → vers d ≠ ∅ →
  newest d (recent_version (dc_values (fdoc w d)) "" (version_strings w n (fdoc w d))).
Proof.
  intros Hw Hn Hd He.
  assert (∀ x, x ∈ version_strings w n (fdoc w d) → ∃ v k, has_version d x v ∧ numbered x k ∧ dc_values (fdoc w d) !! x = Some (Z.of_N k)) as Hx.
  { intros x [v Hv]%version_strings_in; [|done..]. destruct (Hn _ _ Hv) as [k Hk]. exists v, k. split; [done|]. split; [done|].
    apply has_version_vers in Hv. rewrite fdoc_values, Hv. by apply numbered_value. }
  destruct (recent_max (dc_values (fdoc w d)) "" (version_strings w n (fdoc w d))) as (G1 & G2 & G3 & G4).
  - intros x H. destruct (Hx x H) as (v & k & _ & Hk & Hv). split; [by eapply numbered_nonempty|eauto].
  - done.
  - intros _ E. apply He. apply map_empty. intros ver. destruct (vers d !! ver) as [v|] eqn:Ev; [|done]. exfalso.
    apply has_version_vers in Ev. assert (ver ∈ version_strings w n (fdoc w d)) as H by (apply version_strings_in; eauto).
    rewrite E in H. by apply elem_of_nil in H.
  - destruct G2 as [G2|G2]; [done|]. destruct (Hx _ G2) as (v & k & Hv & Hk & Hz). exists v, k. split; [done|]. split; [done|].
    intros ver' v' n' Hv' Hn'. assert (ver' ∈ version_strings w n (fdoc w d)) as Hin by (apply version_strings_in; eauto).
    destruct (Hx _ Hin) as (v2 & k2 & Hv2 & Hk2 & Hz2). rewrite (numbered_fun _ _ _ Hn' Hk2).
    by apply (G4 ver'); [left|..].
Qed.
Lemma newest_unique d x y : distinct_numbers d → newest d x → newest d y → x = y.
Proof.
  intros Hd (v & n & Hv & Hn & Hmax) (v' & n' & Hv' & Hn' & Hmax').
  assert (n = n') as <-. { pose proof (Hmax _ _ _ Hv' Hn'). pose proof (Hmax' _ _ _ Hv Hn). lia. }
  by eapply Hd.
Qed.
Lemma e040_iff w lx d fs : vorder_ok w → validated w lx d fs → all_numbered d → distinct_numbers d →
  os_err (dc_head d) = false → os_val (dc_head d) ≠ "" →
  reported fs "E040" ↔ ¬ newest d (os_val (dc_head d)).
Proof.
  intros Hw HV Hn Hd Herr Hne. openparts2 HV HP pad zs fr fl fm ff El Hlog Hman Hfix. unfold reported. split.
  - intros [args Hf] Hnew.
    assert (vers d ≠ ∅) as He.
    { intros E. destruct Hnew as (v & n & Hv & _). apply has_version_vers in Hv. by rewrite E, lookup_empty in Hv. }
    apply HP in Hf. byparts Hf.
    + unfold tail_findings in Hf. rewrite !elem_of_app, !when_in in Hf.
      destruct Hf as [[_ [=]]|[[_ [=]]|[[Hf _]|[Hf _]]]]; apply bool_decide_eq_true in Hf.
      * destruct Hf as [Hf _]. apply Hf. change (os_val (dc_head (fdoc w d))) with (os_val (dc_head d)).
        eapply newest_unique; [done|done|]. by apply recent_newest.
      * destruct Hf as [_ Hf]. apply Hf. apply version_strings_in; [done..|]. destruct Hnew as (v & n & Hv & _). by exists v.
    + unfold rest_findings in Hf. rewrite !elem_of_app, !when_in, Herr, when_in in Hf.
      destruct Hf as [[_ [=]]|[[_ [=]]|[[_ [=]]|[[_ [=]]|[[_ [=]]|[Hf|[_ [=]]]]]]]].
      destruct (decide (dc_alg d = "sha512" ∨ dc_alg d = "sha256")); [rewrite when_in in Hf; by destruct Hf as [_ [=]]|].
      by apply elem_of_list_singleton in Hf.
  - intros Hnew. exists [os_val (dc_head d)]. apply HP. do 4 right. left. unfold tail_findings. rewrite !elem_of_app, !when_in.
    right. right. left. split; [|done]. apply bool_decide_eq_true. split; [|done]. intros E. apply Hnew.
    change (os_val (dc_head (fdoc w d))) with (os_val (dc_head d)) in E.
    destruct (decide (vers d = ∅)) as [He|He]; [|rewrite E; by apply recent_newest]. exfalso.
    apply Hne. rewrite E. assert (version_strings w 7 (fdoc w d) = []) as ->; [|done].
    destruct (version_strings w 7 (fdoc w d)) as [|x l] eqn:Ex; [done|]. exfalso.
    assert (x ∈ version_strings w 7 (fdoc w d)) as Hin by (rewrite Ex; by left).
    apply version_strings_in in Hin as [v Hv%has_version_vers]; [|done..]. by rewrite He, lookup_empty in Hv.
Qed.
