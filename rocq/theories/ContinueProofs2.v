(** Proofs about complete sessions on objects of any origin: what the loader returns for a sound object. *)
From Coq Require Import Ascii.
From stdpp Require Import base list strings gmap.
From Coq Require Import ZArith Lia.
From Verif Require Import GoStr PathModel InventoryModel ObjectModel InventorySpec InventoryProofs ObjectSpec ObjectProofs LookupProofs AddProofs
  CrashSpec LoadModel PathProofs CrashProofs LoadProofs SessionProofs PublishSpec PublishProofs PublishProofs2 PublishProofs3 PublishProofs4
  ValidateModel ValidateSpec ValidateProofs ValidateProofs4 CheckModel CheckSpec CheckProofs AcceptSpec AcceptProofs AcceptProofs2 AcceptProofs3
  JsonInvModel ForeignModel ForeignProofs ForeignProofs2 ContinueSpec ContinueProofs.

Lemma malformed_tail ver c r : str_mem slash ver = false → str_mem slash c = false → ¬ malformed (ver +:+ "/" +:+ c +:+ "/" +:+ r) → clean_rel r.
Proof.
  intros Hv Hc H. unfold clean_rel. apply List.Forall_forall. intros x Hx. apply elem_of_list_In in Hx.
  assert (x ∈ split_slash (ver +:+ "/" +:+ c +:+ "/" +:+ r)) as Hin.
  { rewrite split_folder by done. rewrite split_folder by done. by right; right. }
  assert (x ≠ "" ∧ x ≠ "." ∧ x ≠ "..") as (H1 & H2 & H3).
  { split; [|split]; intros ->; apply H; eexists; (split; [exact Hin|]); auto. }
  split; [done|]. split; [done|]. split; [done|]. pose proof (split_on_elem_no_sep slash r) as Hs. rewrite stdpp.list.Forall_forall in Hs. by apply Hs.
Qed.

(** One inventory of the object. *)
Lemma good_doc hash decode s d c e j k :
  sound_object hash decode s d c → inventory_in decode s d e → sound_doc e → plain_style decode s d → plain_name c →
  inv_manifest j = man e → inv_fixity j = dc_fixity e → inv_alg j = dc_alg e → content_name j = c → contiguous j k →
  (∀ ver v, inv_versions j !! ver = Some v → ∃ v', has_version e ver v' ∧ v_state v = default ∅ (state_of v')) →
  (∀ ver v', has_version e ver v' → ∃ v, inv_versions j !! ver = Some v ∧ v_state v = default ∅ (state_of v')) →
  (∀ l r x, (1 <= l <= k)%N → s !! cpath j l r = Some x → ∃ dg, man_lists e dg (cpath j l r)) →
  good hash s j k.
Proof.
  intros HO Hin He HS Hc Em Ef Ea Ec Hct Hv1 Hv2 Hl. pose proof (so_truthful _ _ _ _ _ HO e Hin) as [T1 T2 [T3 T4] T5].
  assert (∀ p dg, lists (inv_manifest j) p dg ↔ man_lists e dg p) as Hm.
  { intros p dg. rewrite Em. unfold lists, man_lists, man. destruct (dc_manifest e) as [m|]; cbn.
    - split; [intros (ps & H1 & H2); by exists m, ps|intros (m' & ps & [= <-] & H1 & H2); by exists ps].
    - split; [intros (ps & H1 & _); by rewrite lookup_empty in H1|by intros (m' & ps & H1 & _)]. }
  split.
  - done.
  - intros ver v dg Hv Hs. destruct (Hv1 _ _ Hv) as (v' & Hv' & Est). rewrite Est in Hs. unfold state_of in Hs. destruct (vd_state v') as [[st er]|] eqn:Ev; cbn in Hs.
    + destruct (sd_states _ He ver v' st er dg Hv' Ev Hs) as (m & Hm1 & Hm2). rewrite Em. unfold man. by rewrite Hm1.
    + rewrite lookup_empty in Hs. by apply is_Some_None in Hs.
  - intros dg Hs. rewrite Em in Hs. unfold man in Hs. destruct (dc_manifest e) as [m|] eqn:E; cbn in Hs; [|rewrite lookup_empty in Hs; by apply is_Some_None in Hs].
    destruct (sd_used _ He m dg E Hs) as (ver & v' & st & er & Hv' & Est & Hst). destruct (Hv2 _ _ Hv') as (v & Hv & Es). exists ver, v. split; [done|].
    rewrite Es. unfold state_of. by rewrite Est.
  - intros dg ps. rewrite Em. unfold man. destruct (dc_manifest e) as [m|] eqn:E; cbn; [|by rewrite lookup_empty]. by apply T3.
  - intros dg p Hp%Hm. destruct (T1 _ _ Hp) as [(x & Hx & Hh) _]. exists x. split; [done|]. rewrite Ea, Hh. by rewrite (ps_man _ _ _ HS e dg p Hin Hp).
  - intros dg p Hp%Hm. destruct (T1 _ _ Hp) as [_ (ver & v' & r & Hv' & ->)]. destruct (Hv2 _ _ Hv') as (v & Hv & _).
    destruct (proj1 (proj2 Hct ver) ltac:(by eexists)) as (l & Hl' & ->). exists l, r. split; [done|]. split.
    + eapply malformed_tail; [apply version_name_no_slash| |exact (sd_man_paths _ He _ _ Hp)]. apply Hc.
    + unfold cpath. by rewrite Ec.
  - intros alg blk fd ps. rewrite Ef. by apply T4.
  - intros alg fd p (blk & ps & Hb & Hps & Hp). rewrite Ef in Hb. assert (fix_lists e alg fd p) as Hfl by (by exists blk, ps).
    destruct (T2 _ _ _ Hfl) as [(x & Hx & Hh) (dg & Hdg)]. split; [|exists dg; by apply Hm]. exists x. split; [done|].
    rewrite Hh. by rewrite (ps_fix _ _ _ HS e alg fd p Hin Hfl).
  - intros alg. rewrite Ef. intros Hs x. destruct (T5 alg x (or_intror Hs)) as (h & Hh & _). by exists h.
  - intros l r x Hk Hx. destruct (Hl l r x Hk Hx) as [dg Hdg]. exists dg. by apply Hm.
Qed.

(** The versions of an inventory that a document has as well. *)
Definition common (e : doc) (vs : gmap string version) : gmap string version :=
  map_imap (λ ver v, if vers e !! ver then Some v else None) vs.
Lemma common_some e vs ver v v' : vs !! ver = Some v → has_version e ver v' → common e vs !! ver = Some v.
Proof. intros H1 H2%has_version_vers. unfold common. rewrite map_lookup_imap, H1. cbn. by rewrite H2. Qed.
Lemma common_inv e vs ver v : common e vs !! ver = Some v → vs !! ver = Some v ∧ ∃ v', has_version e ver v'.
Proof.
  unfold common. rewrite map_lookup_imap. destruct (vs !! ver) as [y|]; [|done]. cbn. destruct (vers e !! ver) as [v'|] eqn:E; [|done].
  intros [= <-]. split; [done|]. exists v'. by apply has_version_vers.
Qed.

Section object.
  Context (hash : string → string → option string) (decode : string → option doc) (s : storage) (d : doc) (c : string).
  Context (Hhex : hex_hash hash) (HO : sound_object hash decode s d c) (HS : plain_style decode s d).
  Context (w : vorder) (lx : lexicon) (Hw : vorder_ok w) (d1 : doc) (fs : list finding) (Hfin : finalize w lx false d = (d1, VDone fs)).
  Notation i := (to_inventory d1).
  Notation pad := (inv_padding i).
  Notation vn := (version_name pad).

  Lemma fin_clean : ws fs.
  Proof using HO Hw Hfin.
    destruct (sound_validated w lx Hw d (so_doc _ _ _ _ _ HO)) as (f & Ef & Hf). rewrite Hfin in Ef. injection Ef as <-. exact Hf.
  Qed.
  Lemma vname_of ver v k : has_version d ver v → numbered ver k → ver = vn k.
  Proof using HO Hw Hfin. exact (loaded_name w lx Hw d d1 fs Hfin fin_clean ver v k). Qed.
  Lemma pad_none : (pad <= 0)%Z.
  Proof using HO HS Hw Hfin.
    destruct (sd_head _ (so_doc _ _ _ _ _ HO)) as [_ (v & n & Hv & Hn & _)].
    change (dc_padding d1 <= 0)%Z. rewrite (loaded_padding w lx Hw d d1 fs Hfin fin_clean _ _ Hv). unfold pad_class.
    destruct (zero_name _) eqn:Ez; [|lia]. exfalso. apply (zero_head _ _ Hn) in Ez. by apply (ps_names _ _ _ HS _ _ Hv).
  Qed.
  Lemma vn_numbered k : (1 <= k)%N → numbered (vn k) k.
  Proof using HO HS Hw Hfin. intros Hk. split; [done|]. exists 0. unfold version_name. by rewrite decide_True by apply pad_none. Qed.
  Lemma head_top : ∃ n, (1 <= n)%N ∧ newest d (vn n) ∧ contiguous i n ∧ ∀ ver, (∃ v, has_version d ver v) ↔ ∃ k, (1 <= k <= n)%N ∧ ver = vn k.
  Proof using HO HS Hw Hfin.
    destruct (loaded_contiguous w lx Hw d d1 fs Hfin fin_clean) as (n & Hn & Hct). exists n. split; [done|].
    assert (∀ ver, (∃ v, has_version d ver v) ↔ ∃ k, (1 <= k <= n)%N ∧ ver = vn k) as Hv.
    { intros ver. rewrite <- (proj2 Hct ver). change (inv_versions i) with (to_version <$> vers d1).
      rewrite lookup_fmap, (finalize_vers _ _ _ _ _ ver Hfin), !fmap_is_Some. split; intros [v H]; exists v; by apply has_version_vers. }
    split; [|done]. destruct (proj2 (Hv (vn n))) as [v H]; [exists n; split; [lia|done]|]. exists v, n. split; [done|]. split; [by apply vn_numbered|].
    intros ver' v' n' Hv' Hn'. rewrite (vname_of _ _ _ Hv' Hn') in Hv'. destruct (proj1 (Hv (vn n'))) as (l & Hl & E); [by eexists|].
    apply version_name_inj in E. lia.
  Qed.
  Lemma cdir_same : inv_contentdir i = dc_contentdir d.
  Proof using Hfin. cbn. revert Hfin. unfold finalize. destruct (check_doc w lx _) as [p r']. by intros [= <- _]. Qed.
  Lemma fix_same : inv_fixity i = dc_fixity d.
  Proof using Hfin. cbn. revert Hfin. unfold finalize. destruct (check_doc w lx _) as [p r']. by intros [= <- _]. Qed.
  Lemma id_same : inv_id i = dc_id d ∧ inv_type i = dc_type d.
  Proof using Hfin. cbn. revert Hfin. unfold finalize. destruct (check_doc w lx _) as [p r']. by intros [= <- _]. Qed.
  Lemma alg_same : inv_alg i = dc_alg d.
  Proof using Hfin. exact (finalize_alg _ _ _ _ _ Hfin). Qed.
  Lemma content_same : content_name i = c.
  Proof using HO Hfin.
    unfold content_name. rewrite cdir_same. destruct (so_cdir _ _ _ _ _ HO) as [[-> ->]|[H ->]]; [by rewrite decide_True|by rewrite decide_False].
  Qed.
  Lemma c_plain : plain_name c.
  Proof using HO Hw Hfin. rewrite <- content_same. exact (loaded_cdir w lx Hw d d1 fs Hfin fin_clean). Qed.
  Lemma alg_plain : str_mem slash (inv_alg i) = false.
  Proof using HO Hw Hfin. exact (loaded_alg w lx Hw d d1 fs Hfin fin_clean). Qed.
  Lemma root_state ver v : inv_versions i !! ver = Some v ↔ ∃ v', has_version d ver v' ∧ v = to_version (fin_version ver v').2.
  Proof using Hfin.
    change (inv_versions i) with (to_version <$> vers d1). rewrite lookup_fmap, (finalize_vers _ _ _ _ _ ver Hfin). split.
    - destruct (vers d !! ver) as [v'|] eqn:E; [|done]. cbn. intros [= <-]. exists v'. split; [by apply has_version_vers|done].
    - intros (v' & H%has_version_vers & ->). by rewrite H.
  Qed.
  Lemma to_fin_state ver v' : v_state (to_version (fin_version ver v').2) = default ∅ (state_of v').
  Proof using. unfold to_version. cbn [v_state]. apply fin_state. Qed.

  (** The inventory of version [k] in the form of the root inventory. *)
  Definition member (e : doc) (k : N) : inventory :=
    Inventory (inv_id i) (inv_type i) (inv_alg i) (vn k) (inv_contentdir i) (man e)
      (common e (inv_versions i)) (dc_fixity e) (inv_fixalgs i) pad false false.
  Definition family (k : N) : inventory :=
    match s !! (vn k +:+ "/inventory.json") with
    | Some b => match decode b with Some e => member e k | None => i end
    | None => i
    end.

  Lemma version_inventory k v : has_version d (vn k) v → (1 <= k)%N → ∃ e b dg, s !! (vn k +:+ "/inventory.json") = Some b ∧ decode b = Some e ∧
    hash (dc_alg d) b = Some dg ∧ s !! (vn k +:+ "/inventory.json." +:+ dc_alg d) = Some (dg +:+ " inventory.json") ∧ dc_alg e = dc_alg d ∧
    sound_doc e ∧ inventory_in decode s d e ∧ contiguous (member e k) k ∧
    (∀ ver' v', has_version e ver' v' → ∃ v, has_version d ver' v ∧ state_of v = state_of v').
  Proof using HO HS Hw Hfin.
    intros Hv Hk. destruct (so_versions _ _ _ _ _ HO _ _ Hv) as (e & (b & dg & B1 & B2 & B3 & B4 & B5) & He & _ & _ & Hh & Hst).
    assert (inventory_in decode s d e) as Hin.
    { right. exists (vn k), v, b. split; [done|]. split; [|done]. by rewrite <- str_app_assoc in B1. }
    rewrite <- !str_app_assoc in B1, B5. pose proof (ps_alg _ _ _ HS e Hin) as Ea. rewrite Ea in B3, B5.
    exists e, b, dg. split; [exact B1|]. split; [done|]. split; [done|]. split; [exact B5|]. split; [done|]. split; [done|]. split; [done|]. split; [|done].
    assert (∀ ver v' m, has_version e ver v' → numbered ver m → ver = vn m) as Hnm.
    { intros ver v' m Hv' Hm. destruct (Hst _ _ Hv') as (v0 & Hv0 & _). by eapply vname_of. }
    destruct (sd_head _ He) as [_ (vh & m & Hvh & Hm & Hmax)]. rewrite Hh in Hvh, Hm.
    assert (m = k) as -> by (eapply numbered_fun; [exact Hm|by apply vn_numbered]).
    split; [by rewrite decide_False by lia|]. intros ver. cbn [inv_versions member inv_padding]. split.
    - intros [x [_ [v' E]]%common_inv]. destruct (proj1 (sd_names _ He) _ _ E) as [l Hl]. exists l. split; [split; [apply Hl|by eapply Hmax]|by eapply Hnm].
    - intros (l & Hl & ->). destruct (sd_upto _ He) as (n & _ & H1 & H2 & _).
      assert (k <= n)%N as Hkn by (destruct (H2 _ _ Hvh) as (k' & Hk' & Hle); by rewrite (numbered_fun _ _ _ Hm Hk')).
      destruct (H1 l) as (ver & v' & Hv' & Hnum); [lia|]. rewrite (Hnm _ _ _ Hv' Hnum) in Hv'. destruct (Hst _ _ Hv') as (v0 & Hv0 & _).
      assert (inv_versions i !! vn l = Some (to_version (fin_version (vn l) v0).2)) as H0 by (apply root_state; by exists v0).
      eexists. by eapply common_some.
  Qed.
  Lemma member_good e k n b : contiguous i n → (1 <= k <= n)%N → s !! (vn k +:+ "/inventory.json") = Some b → decode b = Some e →
    dc_alg e = dc_alg d → sound_doc e → inventory_in decode s d e → contiguous (member e k) k →
    (∀ ver' v', has_version e ver' v' → ∃ v, has_version d ver' v ∧ state_of v = state_of v') → good hash s (member e k) k.
  Proof using HO HS Hw Hfin.
    intros Hct Hk Hb Hd Ea He Hin Hck Hst.
    assert (∀ l r, cpath (member e k) l r = vn l +:+ "/" +:+ c +:+ "/" +:+ r) as Hcp.
    { intros l r. unfold cpath. change (content_name (member e k)) with (content_name i). by rewrite content_same. }
    eapply (good_doc hash decode s d c e); try done.
    - exact c_plain.
    - cbn [inv_alg member]. by rewrite alg_same.
    - change (content_name (member e k)) with (content_name i). exact content_same.
    - intros ver v. cbn [inv_versions member]. intros [Ey [v' E]]%common_inv. exists v'. split; [done|].
      apply root_state in Ey as (v0 & Hv0 & ->). rewrite to_fin_state. destruct (Hst _ _ E) as (v1 & Hv1 & <-).
      apply has_version_vers in Hv0, Hv1. rewrite Hv1 in Hv0. by injection Hv0 as ->.
    - intros ver v' Hv'. destruct (Hst _ _ Hv') as (v0 & Hv0 & E0). exists (to_version (fin_version ver v0).2). split; [|by rewrite to_fin_state, E0].
      eapply common_some; [|exact Hv']. apply root_state. by exists v0.
    - intros l r x Hl. rewrite Hcp. intros Hx.
      destruct (proj1 (proj2 Hct (vn l))) as (l' & Hl' & E'); [apply (proj2 Hct); exists l; split; [lia|done]|].
      assert (∀ m, (1 <= m <= n)%N → ∃ v, has_version d (vn m) v) as Hhv.
      { intros m Hm. assert (is_Some (inv_versions i !! vn m)) as [y Hy] by (apply (proj2 Hct); by exists m). apply root_state in Hy as (v' & Hv' & _). by exists v'. }
      destruct (Hhv l) as [v1 Hv1]; [lia|]. destruct (Hhv k) as [v2 Hv2]; [lia|].
      apply (so_listed _ _ _ _ _ HO (vn l) (vn k) v1 v2 l k r x b e); try done; [apply vn_numbered; lia|apply vn_numbered; lia|lia].
  Qed.

  Lemma sound_kept E : e_hash E = hash → ∃ n, (1 <= n)%N ∧ newest d (vn n) ∧ kept (swap E s) s i n n family ∧ ∀ ver, (∃ v, has_version d ver v) ↔ ∃ k, (1 <= k <= n)%N ∧ ver = vn k.
  Proof using HO HS Hw Hfin.
    intros Eh. destruct head_top as (n & Hn & Hnew & Hct & Hver). exists n. split; [done|]. split; [done|]. split; [|done].
    assert (∀ k, (1 <= k <= n)%N → ∃ v, has_version d (vn k) v) as Hhv by (intros k Hk; apply Hver; by exists k).
    split.
    - change (e_hash (swap E s)) with (e_hash E). rewrite Eh. eapply (good_doc hash decode s d c d).
      + exact HO.
      + by left.
      + apply (so_doc _ _ _ _ _ HO).
      + done.
      + exact c_plain.
      + exact (finalize_man _ _ _ _ _ Hfin).
      + exact fix_same.
      + exact alg_same.
      + exact content_same.
      + done.
      + intros ver v (v' & Hv' & ->)%root_state. exists v'. split; [done|]. apply to_fin_state.
      + intros ver v' Hv'. exists (to_version (fin_version ver v').2). split; [|apply to_fin_state]. apply root_state. by exists v'.
      + intros l r x Hl. unfold cpath. rewrite content_same. intros Hx. destruct (Hhv l Hl) as [v1 Hv1]. destruct (Hhv n) as [v2 Hv2]; [lia|].
        destruct (so_root _ _ _ _ _ HO) as (b & dg & B1 & B2 & _). rewrite str_app_nil_l in B1.
        apply (so_listed _ _ _ _ _ HO (vn l) (vn n) v1 v2 l n r x b d); try done; [apply vn_numbered; lia|apply vn_numbered; lia|lia|].
        rewrite <- B1. by apply (so_newest _ _ _ _ _ HO).
    - exact pad_none.
    - rewrite content_same. exact c_plain.
    - exact alg_plain.
    - intros k Hk. destruct (Hhv k Hk) as [v Hv]. destruct (version_inventory k v Hv) as (e & b & dg & B1 & B2 & B3 & B4 & Ea & He & Hin & Hck & Hst); [lia|].
      assert (family k = member e k) as -> by (unfold family; rewrite B1, B2; done).
      assert (e_json (swap E s) (member e k) = b) as Ej by (unfold swap; cbn [e_json inv_head member]; by rewrite B1).
      split.
      + rewrite Ej. exact B1.
      + exists dg. rewrite Ej, alg_same. change (e_hash (swap E s)) with (e_hash E). rewrite Eh. split; [done|exact B4].
      + change (e_hash (swap E s)) with (e_hash E). rewrite Eh. by eapply member_good.
      + done.
      + intros l Hl. assert (is_Some (inv_versions (member e k) !! vn l)) as [z Hz] by (apply (proj2 Hck); by exists l).
        rewrite Hz. by apply common_inv in Hz as [-> _].
    - intros p x Hx. destruct (so_files _ _ _ _ _ HO p x Hx) as [H|[H|[H|(ver & v & Hv & H)]]].
      + left. rewrite alg_same. exact H.
      + right. left. exact H.
      + right. right. left. exact H.
      + right. right. right. destruct (proj1 (Hver ver)) as (k & Hk & ->); [by exists v|]. destruct H as [->|[(b & e & B1 & B2 & ->)|(r & ->)]].
        * left. exists k. split; [done|]. by left.
        * left. exists k. split; [done|]. right. rewrite alg_same. rewrite (ps_alg _ _ _ HS e); [done|]. right. exists (vn k), v, b. done.
        * right. exists k, r. split; [done|]. unfold cpath. by rewrite content_same.
  Qed.
End object.
