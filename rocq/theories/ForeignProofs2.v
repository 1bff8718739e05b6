From Coq Require Import Ascii.
From stdpp Require Import base list strings gmap.
From Coq Require Import ZArith Lia.
From Verif Require Import GoStr InventoryModel InventorySpec InventoryProofs ObjectModel ObjectSpec ObjectProofs LoadModel AreaModel AreaSpec ExtractProofs
  CrashSpec PathProofs CrashProofs LoadProofs ValidateModel ValidateSpec ValidateProofs ValidateProofs4 CheckModel CheckSpec CheckProofs AcceptSpec AcceptProofs AcceptProofs2
  GuaranteeSpec GuaranteeProofs GuaranteeProofs2 GuaranteeProofs3 JsonInvModel JsonInvProofs2 IngestProofs5 IngestProofs6 JsonTypeProofs ForeignModel ForeignProofs ForeignSpec SessionProofs.

(** * The loaded inventory counts its versions *)
Section doc.
  Context (w : vorder) (lx : lexicon) (Hw : vorder_ok w) (d d1 : doc) (fs : list finding).
  Context (Hfin : finalize w lx false d = (d1, VDone fs)) (Hc : ws fs).
  Lemma fin_validated : validated w lx d fs.
  Proof using Hfin. unfold validated. by rewrite Hfin. Qed.
  Lemma loaded_padding ver v : has_version d ver v → dc_padding d1 = pad_class ver.
  Proof using Hw Hfin Hc.
    intros Hv. pose proof fin_validated as HV. pose proof (clean_numbered w lx Hw d fs HV Hc) as Hn.
    pose proof (finalize_pad w lx d) as Hp. rewrite Hfin in Hp. cbn [fst] in Hp. rewrite Hp.
    set (l := (valued (fdoc w d) (vo w 5 (vers (fdoc w d)))).*1).
    assert (∀ x, x ∈ l ↔ ∃ v, has_version d x v) as Hl by (intros x; unfold l; by apply valued_names).
    destruct (pad_all l) as (_ & _ & Hf).
    { intros x Hx. apply Hl in Hx as [vx Hx]. destruct (Hn _ _ Hx) as [k Hk]. by apply (numbered_name _ k). }
    destruct l as [|x r] eqn:E.
    - exfalso. assert (ver ∈ []) as H by (apply Hl; by exists v). by apply elem_of_nil in H.
    - rewrite (Hf x r eq_refl). assert (x ∈ x :: r) as [vx Hx]%Hl by left. exact (clean_class w lx Hw d fs HV Hc _ _ _ _ Hx Hv).
  Qed.
  Lemma loaded_name ver v n : has_version d ver v → numbered ver n → ver = version_name (dc_padding d1) n.
  Proof using Hw Hfin Hc.
    intros Hv Hn. rewrite (loaded_padding ver v Hv). pose proof Hn as (Hn1 & k & Ek). unfold pad_class. destruct (zero_name ver) eqn:Ez.
    - pose proof (pad_class_pos ver Ez) as Hpos. unfold pad_class in Hpos. rewrite Ez in Hpos. unfold version_name. rewrite decide_False by lia.
      apply (zero_head _ _ Hn) in Ez. destruct k as [|k].
      { exfalso. rewrite Ek in Ez. cbn [str_repeat] in Ez. rewrite str_app_nil_l, trim_prefix_app in Ez.
        destruct (dec_of_N_digit n) as (c & s & Es & _ & Hc0). rewrite Es in Ez. injection Ez as ->. apply Hc0; [lia|done]. }
      assert (Z.to_nat (Z.of_nat (String.length ver) - 2) - String.length (dec_of_N n) = k) as ->.
      { rewrite Ek, !str_length_app, str_length_repeat. cbn [String.length]. lia. }
      rewrite Ek at 1. cbn [str_repeat]. done.
    - unfold version_name. rewrite decide_True by lia. destruct k as [|k]; [exact Ek|]. exfalso.
      assert (zero_name ver = true) as H; [|congruence]. apply (zero_head _ _ Hn). rewrite Ek, trim_prefix_app. done.
  Qed.
  Lemma loaded_contiguous : ∃ n, (1 <= n)%N ∧ contiguous (to_inventory d1) n.
  Proof using Hw Hfin Hc.
    pose proof fin_validated as HV. destruct (clean_upto w lx Hw d fs HV Hc) as (n & H1 & H2 & H3).
    destruct (clean_head w lx Hw d fs HV Hc) as [_ (vh & kh & Hvh & Hkh & Hmax)]. destruct (H2 _ _ Hvh) as (k' & Hk' & Hle).
    assert (k' = kh) as -> by (eapply (inj Some); rewrite <- (vname_vnum (dc_padding d1) kh), <- (vname_vnum (dc_padding d1) k'); f_equal;
      rewrite <- (loaded_name _ _ _ Hvh Hkh); by rewrite <- (loaded_name _ _ _ Hvh Hk')).
    assert (1 <= kh)%N as Hpos by apply Hkh.
    assert (kh = n) as ->.
    { destruct (H1 n) as (ver & v & Hv & Hn); [lia|]. pose proof (Hmax _ _ _ Hv Hn). lia. }
    exists n. split; [done|]. split.
    - rewrite decide_False by lia. change (inv_head (to_inventory d1)) with (os_val (dc_head d1)). rewrite (finalize_head _ _ _ _ _ Hfin).
      exact (loaded_name _ _ _ Hvh Hkh).
    - intros ver. change (inv_padding (to_inventory d1)) with (dc_padding d1). change (inv_versions (to_inventory d1)) with (to_version <$> vers d1).
      rewrite lookup_fmap, (finalize_vers _ _ _ _ _ ver Hfin), !fmap_is_Some. split.
      + intros [v Hv]. assert (has_version d ver v) as Hh by (by apply has_version_vers). destruct (H2 _ _ Hh) as (k & Hk & Hkn).
        exists k. split; [split; [apply Hk|done]|]. exact (loaded_name _ _ _ Hh Hk).
      + intros (k & Hk & ->). destruct (H1 k Hk) as (x & v & Hx & Hkx). rewrite <- (loaded_name _ _ _ Hx Hkx). exists v. by apply has_version_vers.
  Qed.
  Lemma loaded_cdir : plain_name (content_name (to_inventory d1)).
  Proof using Hw Hfin Hc.
    pose proof fin_validated as HV. destruct (clean_cdir w lx d fs HV Hc) as (H1 & H2 & H3).
    assert (inv_contentdir (to_inventory d1) = dc_contentdir d) as E.
    { cbn. revert Hfin. unfold finalize. destruct (check_doc w lx _) as [pad r']. by intros [= <- _]. }
    unfold content_name. rewrite E. case_decide; [repeat split; done|]. repeat split; [done..|].
    apply not_true_is_false. intros Hm. apply mem_split in Hm as (a & b & Hab). by apply (H3 a b).
  Qed.
  Lemma loaded_alg : str_mem slash (inv_alg (to_inventory d1)) = false.
  Proof using Hw Hfin Hc.
    pose proof fin_validated as HV. change (inv_alg (to_inventory d1)) with (dc_alg d1). rewrite (finalize_alg _ _ _ _ _ Hfin).
    destruct (decide (dc_alg d = "sha512")) as [->|N1]; [done|]. destruct (decide (dc_alg d = "sha256")) as [->|N2]; [done|]. exfalso.
    apply (no_code fs Hc "E025"); [done|]. exact (unknown_alg_reported w lx d fs HV N1 N2).
  Qed.
End doc.

(** * Old versions are extracted as before *)
Lemma extract_kept X orc s i s' i' ver mf area t v : oracle_ok orc → ver ≠ "" → ver ≠ "latest" →
  inv_versions i !! ver = Some v → inv_versions i' !! ver = Some v → inv_alg i' = inv_alg i →
  (∀ dg exts, v_state v !! dg = Some exts →
    ∃ p ps ps', inv_manifest i !! dg = Some (p :: ps) ∧ inv_manifest i' !! dg = Some (p :: ps') ∧ s' !! p = s !! p) →
  extract X orc i' s' ver mf area t = extract X orc i s ver mf area t.
Proof.
  intros Ho N1 N2 Hv Hv' Ha H.
  assert (∀ j, requested_version j ver = ver) as Hr by (intros j; unfold requested_version; rewrite decide_False; [done|]; by intros [?|?]).
  rewrite (extract_body _ _ _ _ _ _ _ _ v) by (by rewrite Hr). rewrite (extract_body _ _ _ _ _ _ _ _ v) by (by rewrite Hr).
  rewrite !Hr, Ha. unfold body. rewrite Ha. rewrite (iterate_eq X s s' (inv_alg i) area (inv_manifest i) (inv_manifest i')); [done|].
  intros dg exts Hd. apply state_elem in Hd; [|done]. exact (H dg exts Hd).
Qed.

(** Inventory [j] and storage [sj] contain what [i] and [s] contain, as far as versions up to [n] are concerned. *)
Record holds (i : inventory) (n : N) (s : storage) (j : inventory) (sj : storage) : Prop := Holds {
  ho_head : ∃ m, (n <= m)%N ∧ head_number j m;
  ho_alg : inv_alg j = inv_alg i;
  ho_pad : inv_padding j = inv_padding i;
  ho_cdir : inv_contentdir j = inv_contentdir i;
  ho_vers : ∀ ver v, inv_versions i !! ver = Some v → inv_versions j !! ver = Some v;
  ho_man : ∀ dg ps, inv_manifest i !! dg = Some ps → ∃ ext, inv_manifest j !! dg = Some (ps ++ ext);
  ho_files : ∀ k q, (1 <= k <= n)%N → CrashSpec.below (version_name (inv_padding i) k) q → sj !! q = s !! q
}.
Lemma holds_same i n s j j' sj : same_record j j' → holds i n s j sj → holds i n s j' sj.
Proof.
  intros Hs [(m & Hm & Hh) H2 H3 H4 H5 H6 H7]. split.
  - exists m. split; [done|]. by apply (head_number_same j).
  - by rewrite (sr_alg _ _ Hs).
  - by rewrite (sr_pad _ _ Hs).
  - by rewrite (sr_cdir _ _ Hs).
  - by rewrite (sr_vers _ _ Hs).
  - by rewrite (sr_man _ _ Hs).
  - done.
Qed.
Lemma holds_files i n s j sj sj' E ops :
  plain_name (content_name i) → str_mem slash (inv_alg i) = false → holds i n s j sj → clean_names E ops →
  crash sj (ob_trace (orun E ops (open_object j))) sj' →
  ∀ k q, (1 <= k <= n)%N → CrashSpec.below (version_name (inv_padding i) k) q → sj' !! q = s !! q.
Proof.
  intros Hcd Halg [(m & Hm & Hh) H2 H3 H4 H5 H6 H7] Hcl Hcr k q Hk Hb. rewrite <- (H7 k q Hk Hb).
  destruct (decide (sj' !! q = sj !! q)) as [|Hd]; [done|]. exfalso.
  assert (content_name j = content_name i) as Ec by (unfold content_name; by rewrite H4).
  destruct (writes_where E j m ops sj sj' q Hh ltac:(by rewrite Ec) Hcl Hcr Hd) as [-> | [-> | [Hx|(k' & Hk' & Hx)]]].
  - by apply not_below in Hb.
  - apply not_below in Hb; [done|]. unfold sidecar_name. rewrite H2. by rewrite str_mem_app, Halg.
  - pose proof (below_inj _ "extensions" _ (version_name_no_slash _ _) eq_refl Hb Hx) as Heq. revert Heq. unfold version_name. destruct (decide _); done.
  - rewrite H3 in Hx. pose proof (below_inj _ _ _ (version_name_no_slash _ _) (version_name_no_slash _ _) Hb Hx) as Heq.
    apply InventoryProofs.version_name_inj in Heq. lia.
Qed.
Lemma holds_step i n s j sj sj' E ops :
  plain_name (content_name i) → str_mem slash (inv_alg i) = false → holds i n s j sj → clean_names E ops →
  crash sj (ob_trace (orun E ops (open_object j))) sj' →
  holds i n s j sj' ∧ holds i n s (ob_inv (orun E ops (open_object j))) sj'.
Proof.
  intros Hcd Halg Hho Hcl Hcr. pose proof (holds_files _ _ _ _ _ _ _ _ Hcd Halg Hho Hcl Hcr) as Hf.
  destruct Hho as [(m & Hm & Hh) H2 H3 H4 H5 H6 H7]. split; [split; try done; by exists m|].
  assert (content_name j = content_name i) as Ec by (unfold content_name; by rewrite H4).
  destruct (sess_run E j m (λ _, True) ltac:(by rewrite Ec) (λ _ _, I) ops (open_object j) (λ _ _, I) Hcl (sess_open _ m _ (head_number_is _ _ Hh)))
    as ((m' & Hh' & Hm' & _) & Hp & Hc & Ha & _). split.
  - exists m'. split; [lia|]. by apply head_is_number.
  - by rewrite Ha.
  - by rewrite Hp.
  - by rewrite Hc.
  - intros ver v Hv. apply versions_immutable; [apply Hh|by apply H5].
  - intros dg ps Hps. destruct (H6 dg ps Hps) as [ext He].
    destruct (grows_run E (inv_manifest j) ops (open_object j) (λ e qs Hq, ex_intro _ [] (eq_trans Hq (f_equal Some (eq_sym (app_nil_r qs))))) dg _ He) as [ext' He'].
    exists (ext ++ ext'). by rewrite app_assoc.
  - done.
Qed.
Lemma holds_later i n s j sj : head_number i n → plain_name (content_name i) → str_mem slash (inv_alg i) = false → later s i sj j → holds i n s j sj.
Proof.
  intros Hh Hcd Halg. induction 1 as [|s1 i1 s2 i2 E ops _ IH Hcl Hcr Hs].
  - split; try done; [by exists n|]. intros dg ps Hps. exists []. by rewrite app_nil_r.
  - destruct (holds_step _ _ _ _ _ _ _ _ Hcd Halg IH Hcl Hcr) as [K1 K2]. destruct Hs as [Hs|Hs]; eapply holds_same; eauto.
Qed.

Section accepted.
  Context (hash : string → string → option string) (decode : string → option doc) (w : vorder) (lx : lexicon) (s : storage).
  Context (Hw : vorder_ok w) (Hok : only_warnings (validate_object hash decode w lx s)).
  Theorem accepted_kept : ∃ b d i n, s !! "inventory.json" = Some b ∧ decode b = Some d ∧ load_inventory hash (parse_of decode w lx) s "" = LInv i [] ∧
    head_number i n ∧ plain_name (content_name i) ∧ str_mem slash (inv_alg i) = false ∧
    (no_empty_entry d → ∀ j sj X orc ver mf area t, holds i n s j sj → is_Some (inv_versions i !! ver) → oracle_ok orc →
      extract X orc j sj ver mf area t = extract X orc i s ver mf area t).
  Proof using Hw Hok.
    destruct (accepted_loads _ _ _ _ _ Hok) as (b & d & d1 & f & Hb & Hd & Hfin & Hf & Hl).
    destruct (loaded_contiguous w lx Hw d d1 f Hfin Hf) as (n & Hn & Hcont). pose proof (loaded_cdir w lx Hw d d1 f Hfin Hf) as Hcd.
    pose proof (loaded_alg w lx Hw d d1 f Hfin Hf) as Halg.
    exists b, d, (to_inventory d1), n. split; [done|]. split; [done|]. split; [done|]. split.
    { destruct Hcont as [H1 H2]. split; [|done]. exists n. split; [lia|]. split; [|intros x Hx; by apply H2].
      intros _. rewrite decide_False in H1 by lia. split; [done|]. rewrite H1. apply H2. exists n. split; [lia|done]. }
    split; [done|]. split; [done|]. intros Hne j sj X orc ver mf area t Hho [v Hv] Ho.
    destruct (accepted_assured _ _ _ _ _ Hw Hok) as [d' Ha].
    destruct (as_root _ _ _ _ Ha) as (b' & dg' & t' & Hb' & He & _). rewrite str_app_nil_l, Hb in Hb'. injection Hb' as <-.
    rewrite Hd in He. injection He as <-.
    assert (ver ≠ "" ∧ ver ≠ "latest") as [N1 N2].
    { assert (is_Some (inv_versions (to_inventory d1) !! ver)) as H by by eexists. apply (proj2 Hcont) in H as (k & Hk & ->).
      split; [apply version_name_nonempty|]. unfold version_name. destruct (decide _); discriminate. }
    assert (∃ v0, has_version d ver v0 ∧ v_state v = default ∅ (state_of v0)) as (v0 & Hv0 & Hst).
    { change (inv_versions (to_inventory d1)) with (to_version <$> vers d1) in Hv. rewrite lookup_fmap, (finalize_vers _ _ _ _ _ ver Hfin) in Hv.
      destruct (vers d !! ver) as [v0|] eqn:E0; [|done]. cbn in Hv. injection Hv as <-. exists v0. split; [by apply has_version_vers|].
      unfold to_version. cbn [v_state]. apply fin_state. }
    apply (extract_kept X orc s (to_inventory d1) sj j ver mf area t v); try done; [by apply (ho_vers _ _ _ _ _ Hho)|by apply (ho_alg _ _ _ _ _ Hho)|].
    intros dg exts Hdg. rewrite Hst in Hdg. destruct (state_listed d ver v0 dg exts Hv0 Hdg) as (st & e & Est & Hls).
    destruct (clean_states w lx Hw d f (fin_validated w lx d d1 f Hfin) Hf ver v0 st e dg Hv0 Est (ex_intro _ _ Hls)) as (m & Hm & ps & Hml).
    pose proof (Hne m dg ps Hm Hml) as Hps. destruct ps as [|q ps]; [done|].
    assert (inv_manifest (to_inventory d1) !! dg = Some (q :: ps)) as Hq.
    { change (inv_manifest (to_inventory d1)) with (man d1). rewrite (finalize_man _ _ _ _ _ Hfin). unfold man. by rewrite Hm. }
    destruct (ho_man _ _ _ _ _ Hho dg _ Hq) as [ext Hext]. exists q, ps, (ps ++ ext). split; [done|]. split; [done|].
    assert (man_lists d dg q) as Hmq by (exists m, (q :: ps); split; [done|]; split; [done|left]).
    destruct (as_content _ _ _ _ Ha d dg q (or_introl eq_refl) Hmq) as [_ (vr & vv & a & b0 & Hvr & Eq)].
    destruct (clean_numbered w lx Hw d f (fin_validated w lx d d1 f Hfin) Hf vr vv Hvr) as [k Hk].
    pose proof (loaded_name w lx Hw d d1 f Hfin Hf vr vv k Hvr Hk) as Evr.
    apply (ho_files _ _ _ _ _ Hho k).
    - split; [apply Hk|]. assert (is_Some (inv_versions (to_inventory d1) !! vr)) as H.
      { change (inv_versions (to_inventory d1)) with (to_version <$> vers d1). rewrite lookup_fmap, (finalize_vers _ _ _ _ _ vr Hfin), !fmap_is_Some.
        exists vv. by apply has_version_vers. }
      apply (proj2 Hcont) in H as (k' & Hk' & E'). rewrite Evr in E'. apply InventoryProofs.version_name_inj in E'. lia.
    - change (inv_padding (to_inventory d1)) with (dc_padding d1). rewrite <- Evr. exists (a +:+ "/" +:+ b0). exact Eq.
  Qed.
End accepted.
