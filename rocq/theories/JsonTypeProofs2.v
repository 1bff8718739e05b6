(** Wrong types are reported. *)
From Coq Require Import Ascii.
From stdpp Require Import base list strings gmap.
From Coq Require Import ZArith Lia.
From Verif Require Import GoStr InventoryModel ObjectModel CrashSpec ValidateModel ValidateSpec ValidateProofs ValidateProofs2 ValidateProofs3 CheckModel CheckSpec CheckProofs AcceptSpec
  JsonModel JsonInvModel JsonTypeSpec JsonTypeProofs.

Lemma wrong_string c j : j ≠ JNull → ¬ is_str j → dec_ostr c j = Some (OStr (os_val (default (OStr "" false) c)) true).
Proof. intros H1 H2. destruct j; try done. exfalso. apply H2. by eexists. Qed.
Lemma wrong_strings j : j ≠ JNull → (∀ ps, j ≠ JArr ps) → (dec_strings j).2 = true.
Proof. intros H1 H2. destruct j; try done. by destruct (H2 l). Qed.
Lemma wrong_element ps p : p ∈ ps → p ≠ JNull → ¬ is_str p → (dec_strings (JArr ps)).2 = true.
Proof.
  intros Hin H1 H2. cbn [dec_strings snd]. apply existsb_exists. exists p. split; [by apply elem_of_list_In|].
  destruct p; try done. exfalso. apply H2. by eexists.
Qed.
Lemma wrong_member st k j : (k, j) ∈ st → (dec_strings j).2 = true → ∃ m, dec_state None (JObj st) = Some (m, true).
Proof.
  intros Hin Hj. cbn [dec_state dec_smap dec_map]. unfold dec_smap, dec_map, dec_members. eexists. repeat f_equal.
  apply existsb_exists. exists (k, j). split; [by apply elem_of_list_In|done].
Qed.

(** The members of a version. *)
Section version.
Context (tm : string → option string) (t0 : string) (ms : list (string * json)) (Ho : once_version ms).
Definition read_version : vdoc := foldl (dec_version_member tm t0) (VDoc None None None None) ms.
Lemma version_created j : has "created" ms j → vd_created read_version = dec_time tm t0 None j.
Proof using Ho. intros H. destruct Ho as (O & _). exact (proj1 (reads_created tm t0 ms _) O j H). Qed.
Lemma version_message j : has "message" ms j → vd_message read_version = dec_ostr None j.
Proof using Ho. intros H. destruct Ho as (_ & O & _). exact (proj1 (reads_message tm t0 ms _) O j H). Qed.
Lemma version_user j : has "user" ms j → vd_user read_version = dec_user None j.
Proof using Ho. intros H. destruct Ho as (_ & _ & O & _). exact (proj1 (reads_user tm t0 ms _) O j H). Qed.
Lemma version_state j : has "state" ms j → vd_state read_version = dec_state None j.
Proof using Ho. intros H. destruct Ho as (_ & _ & _ & O & _). exact (proj1 (reads_state tm t0 ms _) O j H). Qed.
Lemma user_block_name us j : has "user" ms (JObj us) → has "name" us j → ∃ u, vd_user read_version = Some u ∧ u_name u = dec_ostr None j.
Proof using Ho.
  intros H Hj. rewrite (version_user _ H). destruct Ho as (_ & _ & _ & _ & O & _). destruct (O us H) as [O1 _].
  pose proof (proj1 (reads_name us (None, None)) O1 j Hj) as E. cbn [dec_user]. destruct (foldl dec_user_member (None, None) us) as [a n]. eexists. split; [done|exact E].
Qed.
Lemma user_block_address us j : has "user" ms (JObj us) → has "address" us j → ∃ u, vd_user read_version = Some u ∧ u_addr u = dec_ostr None j.
Proof using Ho.
  intros H Hj. rewrite (version_user _ H). destruct Ho as (_ & _ & _ & _ & O & _). destruct (O us H) as [_ O1].
  pose proof (proj1 (reads_address us (None, None)) O1 j Hj) as E. cbn [dec_user]. destruct (foldl dec_user_member (None, None) us) as [a n]. eexists. split; [done|exact E].
Qed.

Lemma version_flaw_reported w lx d fs ver z c : vorder_ok w → validated w lx d fs → has_version d ver read_version → version_value ver = Some z →
  version_flaw tm ms c → reported fs c.
Proof using Ho.
  intros Hw HV Hv Hz Hf. destruct (version_reported w lx d fs Hw HV ver _ z Hv Hz) as ((cr & Hc & R1) & R2 & R3 & R4 & R5 & R6).
  destruct Hf as [j Hj Hx|j Hj H1 H2|j Hj H1 H2|us j Hu Hj H1 H2|us j Hu Hj H1 H2|j Hj H1 H2|st k j Hj Hin H1 H2|st k ps p Hj Hin Hp H1 H2].
  - apply R1. rewrite (version_created j Hj) in Hc. destruct j as [| | |x| |]; cbn [dec_time] in Hc; try done; try (by injection Hc as <-).
    rewrite (Hx x eq_refl) in Hc. by injection Hc as <-.
  - eapply R2; [rewrite (version_message j Hj); by apply wrong_string|done].
  - destruct j; try done; try (by destruct (H2 l)); (eapply R3; [rewrite (version_user _ Hj); reflexivity|reflexivity]).
  - destruct (user_block_name us j Hu Hj) as (u & Hu' & E). rewrite wrong_string in E by done. by eapply R4.
  - destruct (user_block_address us j Hu Hj) as (u & Hu' & E). rewrite wrong_string in E by done. by eapply R5.
  - destruct j; try done; try (by destruct (H2 l)); eapply R6; rewrite (version_state _ Hj); reflexivity.
  - destruct (wrong_member st k j Hin (wrong_strings j H1 H2)) as [m E]. apply (R6 m). by rewrite (version_state _ Hj).
  - destruct (wrong_member st k (JArr ps) Hin (wrong_element ps p Hp H1 H2)) as [m E]. apply (R6 m). by rewrite (version_state _ Hj).
Qed.
End version.

Section inventory.
Context (fits : string → bool) (tm : string → option string) (t0 : string) (text : string) (l : list (string * json)) (d : doc).
Context (Hread : read text = Some (JObj l)) (Hdec : decode_text fits tm t0 text = Some d) (Ho : once_inventory l).
Lemma member_id : (∀ j, has "id" l j → dc_id d = (dec_string "" j).1) ∧ ((∀ j, ¬ has "id" l j) → dc_id d = "").
Proof using Hread Hdec Ho.
  destruct (decoded fits tm t0 text l d Hread Hdec) as (t & h & _ & _ & E & _). cbv zeta in E. rewrite E. destruct Ho as (O & _).
  destruct (reads_id tm t0 l (raw0 (spec_of t))) as [H1 H2]. split; [intros j; exact (H1 O j)|exact H2].
Qed.
Lemma member_alg : (∀ j, has "digestAlgorithm" l j → dc_alg d = (dec_string "" j).1) ∧ ((∀ j, ¬ has "digestAlgorithm" l j) → dc_alg d = "").
Proof using Hread Hdec Ho.
  destruct (decoded fits tm t0 text l d Hread Hdec) as (t & h & _ & _ & _ & _ & E & _). cbv zeta in E. rewrite E. destruct Ho as (_ & _ & O & _).
  destruct (reads_alg tm t0 l (raw0 (spec_of t))) as [H1 H2]. split; [intros j; exact (H1 O j)|exact H2].
Qed.
Lemma member_head : (∀ j, has "head" l j → Some (dc_head d) = dec_ostr (Some (OStr "" false)) j) ∧ ((∀ j, ¬ has "head" l j) → dc_head d = OStr "" false).
Proof using Hread Hdec Ho.
  destruct (decoded fits tm t0 text l d Hread Hdec) as (t & h & _ & Eh & _ & _ & _ & E & _). cbv zeta in E, Eh. rewrite E. destruct Ho as (_ & _ & _ & O & _).
  destruct (reads_head tm t0 l (raw0 (spec_of t))) as [H1 H2]. fold (dec_inventory tm t0 (spec_of t) l) in H1, H2. rewrite Eh in H1, H2.
  split; [intros j; exact (H1 O j)|]. intros H. apply (inj Some). exact (H2 H).
Qed.
Lemma member_manifest : (∀ j, has "manifest" l j → dc_manifest d = dec_manifest j) ∧ ((∀ j, ¬ has "manifest" l j) → dc_manifest d = None).
Proof using Hread Hdec Ho.
  destruct (decoded fits tm t0 text l d Hread Hdec) as (t & h & _ & _ & _ & _ & _ & _ & E & _). cbv zeta in E. rewrite E. destruct Ho as (_ & _ & _ & _ & O & _).
  destruct (reads_manifest tm t0 l (raw0 (spec_of t))) as [H1 H2]. split; [intros j; exact (H1 O j)|exact H2].
Qed.
Lemma member_type : ∃ t, has "type" l (JStr t) ∧ dc_type d = t.
Proof using Hread Hdec Ho.
  destruct (decoded fits tm t0 text l d Hread Hdec) as (t & h & Ht & _ & _ & E & _). cbv zeta in E. exists t. split; [done|]. rewrite E. destruct Ho as (_ & O & _).
  exact (proj1 (reads_type tm t0 l (raw0 (spec_of t))) O _ Ht).
Qed.
Lemma member_versions :
  (∀ vs, has "versions" l (JObj vs) → (∀ ver j, (ver, j) ∈ vs → ∃ v, (dec_version tm t0 j).1 = Some v ∧ has_version d ver v) ∧
     (vs = [] → vers d = ∅)) ∧
  (∀ j, has "versions" l j → (∀ vs, j ≠ JObj vs) → vers d = ∅) ∧ ((∀ j, ¬ has "versions" l j) → vers d = ∅).
Proof using Hread Hdec Ho.
  destruct (decoded fits tm t0 text l d Hread Hdec) as (t & h & _ & _ & _ & _ & _ & _ & _ & Hv & Hn). cbv zeta in Hv, Hn.
  destruct Ho as (_ & _ & _ & _ & _ & O & O'). destruct (reads_versions tm t0 l (raw0 (spec_of t))) as [H1 H2]. specialize (H1 O).
  fold (dec_inventory tm t0 (spec_of t) l) in H1, H2.
  assert ((r_versions (dec_inventory tm t0 (spec_of t) l) = None ∨ r_versions (dec_inventory tm t0 (spec_of t) l) = Some ∅) → vers d = ∅) as Hemp.
  { intros He. apply map_empty. intros ver. destruct (vers d !! ver) as [v|] eqn:E; [|done]. exfalso. apply has_version_vers, Hv in E as (vs & E1 & E2).
    destruct He as [He|He]; rewrite He in E1; [done|]. injection E1 as <-. by rewrite lookup_empty in E2. }
  split; [|split].
  - intros vs Hvs. pose proof (H1 _ Hvs) as E. cbn [dec_versions dec_map] in E. destruct (O' vs Hvs) as [Hnd _]. split.
    + intros ver j Hin. pose proof (dec_members_lookup (dec_version tm t0) vs ver j Hnd Hin) as El.
      destruct (dec_version tm t0 j) as [[v|] e]; cbn [fst] in El; [|by apply (Hn _ _ E) in El].
      exists v. split; [done|]. apply Hv. eexists. split; [exact E|exact El].
    + intros ->. apply Hemp. right. exact E.
  - intros j Hj Hx. apply Hemp. rewrite (H1 _ Hj). destruct j; try (by right); [by left|by destruct (Hx l0)].
  - intros H. apply Hemp. right. exact (H2 H).
Qed.

Lemma flaw_reported w lx fs c : vorder_ok w → validated w lx d fs → flaw tm l c → reported fs c.
Proof using Hread Hdec Ho.
  intros Hw HV Hf. destruct Hf as [j Hj H|H|j Hj H|H|j Hj H|H|H|j Hj H|H|vs ver n ms c Hvs Hin Hn Hf].
  - eapply id_reported; [exact HV|]. rewrite (proj1 member_id j Hj). destruct j; try done. exfalso. apply H. by eexists.
  - eapply id_reported; [exact HV|]. exact (proj2 member_id H).
  - assert (dc_alg d = "") as E. { rewrite (proj1 member_alg j Hj). destruct j; try done. exfalso. apply H. by eexists. }
    eapply unknown_alg_reported; [exact HV|by rewrite E..].
  - eapply alg_reported; [exact HV|]. exact (proj2 member_alg H).
  - eapply head_reported; [exact HV|]. pose proof (proj1 member_head j Hj) as E. destruct j; cbn [dec_ostr] in E; try done; injection E as E; try (by rewrite E).
    exfalso. apply H. by eexists.
  - pose proof (proj2 member_head H) as E. eapply no_head_reported; [exact HV|by rewrite E..].
  - eapply no_manifest_reported; [exact HV|]. destruct (has_dec "manifest" l eq_refl) as [[j Hj]|Hno]; [|exact (proj2 member_manifest Hno)].
    rewrite (proj1 member_manifest j Hj). by rewrite (H j Hj).
  - eapply no_versions_reported; [exact HV|]. exact (proj1 (proj2 member_versions) j Hj H).
  - eapply no_versions_reported; [exact HV|]. exact (proj2 (proj2 member_versions) H).
  - destruct (proj1 (proj1 member_versions vs Hvs) ver _ Hin) as (v & Ev & Hv). cbn [dec_version fst] in Ev. apply (inj Some) in Ev. subst v.
    destruct Ho as (_ & _ & _ & _ & _ & _ & O'). destruct (O' vs Hvs) as [_ O2].
    exact (version_flaw_reported tm t0 ms (O2 ver ms Hin) w lx d fs ver _ c Hw HV Hv (numbered_value _ _ Hn) Hf).
Qed.
End inventory.
