(** The loader reads the inventory that was written. *)
From Coq Require Import Ascii.
From stdpp Require Import base list strings gmap.
From Coq Require Import ZArith Lia.
From Verif Require Import GoStr InventoryModel InventorySpec InventoryProofs ObjectModel LoadModel CrashSpec ValidateModel ValidateSpec ValidateProofs ValidateProofs2
  ValidateProofs4 CheckModel CheckProofs PublishSpec LayoutSpec JsonModel JsonSpec JsonProofs JsonInvModel JsonInvSpec JsonInvProofs.

Lemma padded_numbered pad k : (1 <= k)%N → numbered (version_name pad k) k.
Proof.
  intros Hk. split; [done|]. unfold version_name. case_decide; [by exists 0|].
  exists (S (Z.to_nat pad - String.length (dec_of_N k))). done.
Qed.
Lemma padded_class pad k : (0 <= pad)%Z → (1 <= k)%N →
  (pad = 0 ∨ Z.of_nat (String.length (version_name pad k)) = pad + 2)%Z → pad_class (version_name pad k) = pad.
Proof.
  intros Hp Hk H. pose proof (padded_numbered pad k Hk) as Hn. unfold pad_class. destruct (decide (pad = 0)%Z) as [->|Hne].
  - destruct (zero_name (version_name 0 k)) eqn:E; [|done]. exfalso. apply (zero_head _ _ Hn) in E.
    unfold version_name in E. rewrite decide_True in E by lia. rewrite trim_prefix_app in E.
    destruct (dec_of_N_digit k) as (c & s & Es & _ & Hc). rewrite Es in E. injection E as ->. apply Hc; [lia|done].
  - destruct H as [H|H]; [done|]. assert (zero_name (version_name pad k) = true) as ->; [|lia].
    apply (zero_head _ _ Hn). unfold version_name. rewrite decide_False by lia. rewrite <- (str_app_assoc "v" "0"). rewrite trim_prefix_app. done.
Qed.

Lemma written_version ver v : (fin_version ver (vdoc_of v)).2 = vdoc_of v.
Proof. unfold fin_version. by destruct (version_value ver). Qed.
Lemma to_version_of v : to_version (vdoc_of v) = v.
Proof. by destruct v. Qed.
Lemma doc_versions i ver v : has_version (doc_of i) ver v ↔ ∃ x, inv_versions i !! ver = Some x ∧ v = vdoc_of x.
Proof.
  unfold has_version, doc_of. cbn [dc_versions]. split.
  - intros (vs & [= <-] & H). rewrite lookup_fmap in H. destruct (inv_versions i !! ver) as [x|]; [|done]. injection H as <-. by exists x.
  - intros (x & Hx & ->). eexists. split; [reflexivity|]. rewrite lookup_fmap. by rewrite Hx.
Qed.
Lemma named_checkable i : named_inventory i → checkable (doc_of i).
Proof.
  intros []. split; [|split].
  - intros dg p (m & ps & [= <-] & Hm & Hp) ->. by apply (ni_manifest dg ps).
  - intros alg dg p (m & ps & Hm & Hps & Hp) ->. by apply (ni_fixity alg m Hm dg ps).
  - intros ver v Hv. destruct (version_value ver).
    + apply doc_versions in Hv as (x & Hx & ->). split; [done|]. intros dg p (v' & st & e & ps & Hv' & Hst & Hps & Hp) ->.
      apply doc_versions in Hv' as (y & Hy & ->). rewrite Hx in Hy. injection Hy as <-. injection Hst as <- <-. by apply (ni_versions ver x Hx dg ps).
    + apply doc_versions in Hv as (x & Hx & ->). done.
Qed.
Lemma loop_pad w lx d pad l : (check_versions_loop w lx d pad l).1.1 = pad_final pad ((valued d l).*1).
Proof. destruct (check_versions_loop w lx d pad l) as [[p z] r] eqn:E. by apply loop_spec in E as [-> _]. Qed.
Lemma finalize_pad w lx d : dc_padding (finalize w lx false d).1 = pad_final (-1) ((valued (fdoc w d) (vo w 5 (vers (fdoc w d)))).*1).
Proof.
  unfold finalize. cbn [negb andb]. fold (fdoc w d). destruct (check_doc w lx (fdoc w d)) as [pad r] eqn:E. cbn [fst dc_padding].
  unfold check_doc in E. destruct (check_versions w lx (fdoc w d)) as [pad' r'] eqn:E2. injection E as <- _.
  unfold check_versions in E2. rewrite <- (loop_pad w lx). destruct (check_versions_loop _ _ _ _ _) as [[p z] r2]. apply (f_equal fst) in E2. cbn [fst] in *. by rewrite <- E2.
Qed.
Lemma written_padding w lx i : vorder_ok w → numbered_inventory i → dc_padding (finalize w lx false (doc_of i)).1 = inv_padding i.
Proof.
  intros Hw (Hne & Hp & Hv). rewrite finalize_pad.
  assert (all_numbered (doc_of i)) as Hn.
  { intros ver v Hv'. apply doc_versions in Hv' as (x & Hx & ->). destruct (Hv _ _ Hx) as (k & Hk & -> & _). exists k. by apply padded_numbered. }
  set (l := (valued (fdoc w (doc_of i)) (vo w 5 (vers (fdoc w (doc_of i))))).*1).
  assert (∀ ver, ver ∈ l ↔ is_Some (inv_versions i !! ver)) as Hl.
  { intros ver. unfold l. rewrite valued_names by done. split.
    - intros (v & Hv'). apply doc_versions in Hv' as (x & Hx & _). by exists x.
    - intros (x & Hx). exists (vdoc_of x). apply doc_versions. by exists x. }
  destruct (pad_all l) as (_ & _ & Hf).
  { intros ver Hver. apply Hl in Hver as [x Hx]. destruct (Hv _ _ Hx) as (k & Hk & -> & _). by apply (numbered_name _ k), padded_numbered. }
  destruct l as [|ver r] eqn:E.
  - exfalso. apply Hne. apply map_empty. intros ver. destruct (inv_versions i !! ver) eqn:Ei; [|done].
    assert (ver ∈ []) as H by (apply Hl; by rewrite Ei). by apply elem_of_nil in H.
  - rewrite (Hf ver r eq_refl). assert (ver ∈ ver :: r) as [x Hx]%Hl by left. destruct (Hv _ _ Hx) as (k & Hk & -> & Hlen). by apply padded_class.
Qed.

Section loader.
  Context (fits : string → bool) (tm : string → option string) (t0 : string) (w : vorder) (lx : lexicon).
  Lemma parse_written i : vorder_ok w → utf8_inventory i → timely tm i → named_inventory i → numbered_inventory i →
    ∃ i', parse_text fits tm t0 w lx (inventory_text i) = Some i' ∧ same_record i i'.
  Proof.
    intros Hw Hu Ht Hn Hv. unfold parse_text. rewrite load_written_text by done.
    destruct (proj2 (verdict_iff w lx (doc_of i) Hw) (named_checkable _ Hn)) as [fs Hfs]. unfold validated in Hfs.
    pose proof (written_padding w lx i Hw Hv) as Hpad. destruct (finalize_fields w lx (doc_of i)) as (E1 & E2 & E3 & E4 & E5 & E6 & E7 & E8).
    destruct (finalize w lx false (doc_of i)) as [d1 r]. cbn [fst snd] in *. rewrite Hfs. eexists. split; [reflexivity|].
    constructor; cbn [to_inventory inv_id inv_type inv_alg inv_head inv_contentdir inv_manifest inv_versions inv_fixity inv_padding]; try (by rewrite ?E4); try done.
    rewrite E8. apply map_eq. intros ver. rewrite lookup_fmap, map_lookup_imap. unfold vers, doc_of. cbn [dc_versions default from_option id].
    rewrite lookup_fmap. destruct (inv_versions i !! ver) as [v|]; [|done]. cbn [fmap option_fmap option_map mbind option_bind].
    by rewrite written_version, to_version_of.
  Qed.
End loader.
