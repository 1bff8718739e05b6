(** Proofs about complete update sessions: the stored object between two calls. *)
From Coq Require Import Ascii.
From stdpp Require Import base list strings gmap.
From Coq Require Import ZArith Lia.
From Verif Require Import GoStr PathModel InventoryModel ObjectModel InventorySpec InventoryProofs ObjectSpec ObjectProofs LookupProofs AddProofs
  CrashSpec LoadModel PathProofs CrashProofs LoadProofs SessionProofs PublishSpec PublishProofs.

(** The content path of version [k]. *)
Definition cpath (i : inventory) (k : N) (r : string) : string := version_name (inv_padding i) k +:+ "/" +:+ content_name i +:+ "/" +:+ r.

(** Inventory [i] with [n] versions is in order for storage [s]. *)
Record good (hash : string → string → option string) (s : storage) (i : inventory) (n : N) : Prop := Good {
  g_contig : contiguous i n;
  g_states : ∀ ver v d, inv_versions i !! ver = Some v → is_Some (v_state v !! d) → is_Some (inv_manifest i !! d);
  g_used : ∀ d, is_Some (inv_manifest i !! d) → ∃ ver v, inv_versions i !! ver = Some v ∧ is_Some (v_state v !! d);
  g_nonempty : ∀ d ps, inv_manifest i !! d = Some ps → ps ≠ [];
  g_content : describes hash i s;
  g_paths : ∀ d p, lists (inv_manifest i) p d → ∃ k r, (1 <= k <= n)%N ∧ clean_rel r ∧ p = cpath i k r;
  g_full : fix_full i;
  g_fix : ∀ alg fd p, fix_entry i alg fd p → (∃ data, s !! p = Some data ∧ hash alg data = Some fd) ∧ ∃ d, lists (inv_manifest i) p d;
  g_known : ∀ alg, is_Some (inv_fixity i !! alg) → ∀ x, ∃ d, hash alg x = Some d;
  g_listed : ∀ k r x, (1 <= k <= n)%N → s !! cpath i k r = Some x → ∃ d, lists (inv_manifest i) (cpath i k r) d
}.

Lemma contiguous_is i n : contiguous i n → head_is i n.
Proof.
  intros [Hh Hv]. split; [done|]. split.
  - intros Hn. apply Hv. exists n. split; [lia|]. by rewrite Hh, decide_False.
  - intros ver. apply Hv.
Qed.
Lemma contiguous_ext i i' n : ext_rel i i' → contiguous i n → contiguous i' n.
Proof.
  intros He [Hh Hv]. split.
  - by rewrite (er_head _ _ He), (er_pad _ _ He).
  - intros ver. by rewrite (ext_rel_is_some _ _ _ He), (er_pad _ _ He).
Qed.
Lemma cpath_same i i' k r : inv_padding i' = inv_padding i → inv_contentdir i' = inv_contentdir i → cpath i' k r = cpath i k r.
Proof. intros Hp Hc. unfold cpath, content_name. by rewrite Hp, Hc. Qed.

(** Only what is stored below the content directories matters. *)
Lemma good_frame hash s s' i n :
  (∀ k r, (1 <= k <= n)%N → s' !! cpath i k r = s !! cpath i k r) → good hash s i n → good hash s' i n.
Proof.
  intros Hs []. split; try done.
  - intros d p Hl. destruct (g_paths0 d p Hl) as (k & r & Hk & _ & ->). rewrite Hs by done. by apply g_content0.
  - intros alg fd p Hp. destruct (g_fix0 alg fd p Hp) as [Hd [d Hl]]. split; [|by exists d].
    destruct (g_paths0 d p Hl) as (k & r & Hk & _ & ->). by rewrite Hs.
  - intros k r x Hk. rewrite Hs by done. by apply g_listed0.
Qed.

Lemma ext_other i i' ver v : ext_rel i i' → ver ≠ inv_head i → inv_versions i' !! ver = Some v ↔ inv_versions i !! ver = Some v.
Proof. intros He Hn. by rewrite (er_vers _ _ He). Qed.

Section step.
  Context (hash : string → string → option string) (s : storage) (i i' : inventory) (n : N).
  Context (HG : good hash s i n) (He : ext_rel i i').

  Lemma states_step : (∀ e, is_Some (inv_manifest i !! e) → is_Some (inv_manifest i' !! e)) → (∀ e, key i' e → is_Some (inv_manifest i' !! e)) →
    ∀ ver v d, inv_versions i' !! ver = Some v → is_Some (v_state v !! d) → is_Some (inv_manifest i' !! d).
  Proof using HG He.
    intros Hm Hk ver v d Hv Hd. destruct (decide (ver = inv_head i)) as [-> |Hn].
    - apply Hk. exists v. split; [|done]. unfold head_version. by rewrite (er_head _ _ He).
    - apply Hm. apply (ext_other _ _ _ _ He Hn) in Hv. by eapply (g_states _ _ _ _ HG).
  Qed.
  Lemma used_step : (∀ e, key i e → key i' e) → ∀ d, is_Some (inv_manifest i !! d) →
    ∃ ver v, inv_versions i' !! ver = Some v ∧ is_Some (v_state v !! d).
  Proof using HG He.
    intros Hk d Hd. destruct (g_used _ _ _ _ HG d Hd) as (ver & v & Hv & Hs). destruct (decide (ver = inv_head i)) as [-> |Hn].
    - destruct (Hk d) as (v' & Hv' & Hs'); [by exists v|]. exists (inv_head i'), v'. done.
    - exists ver, v. split; [|done]. by apply (ext_other _ _ _ _ He Hn).
  Qed.
  Lemma good_quiet : inv_manifest i' = inv_manifest i → inv_fixity i' = inv_fixity i → (∀ e, key i e → key i' e) →
    (∀ e, key i' e → key i e ∨ is_Some (inv_manifest i !! e)) → good hash s i' n.
  Proof using HG He.
    intros Hm Hf Hk Hk'. pose proof HG as []. split.
    - by eapply contiguous_ext.
    - apply states_step; rewrite Hm; [done|]. intros e [H|H]%Hk'; [|done]. destruct H as (v & Hv & Hd). by eapply g_states0.
    - rewrite Hm. by apply used_step.
    - by rewrite Hm.
    - intros d p. unfold describes in *. rewrite Hm, (er_alg _ _ He). apply g_content0.
    - intros d p. rewrite Hm. intros (k & r & Hkr & Hr & ->)%g_paths0. exists k, r. split; [done|]. split; [done|].
      symmetry. apply cpath_same; apply He.
    - intros a b. rewrite Hf. apply g_full0.
    - intros a e p. unfold fix_entry. rewrite Hf, Hm. apply g_fix0.
    - rewrite Hf. apply g_known0.
    - intros k r x Hkn. rewrite (cpath_same i i') by apply He. rewrite Hm. by apply g_listed0.
  Qed.
End step.

Lemma good_add hash s i i' n d mp ps r data :
  good hash s i n → ext_rel i i' → n ≠ 0%N → hash (inv_alg i) data = Some d → clean_rel r → mp = cpath i n r →
  (∀ e, ¬ lists (inv_manifest i) mp e) →
  inv_manifest i' = <[d := default [] (inv_manifest i !! d) ++ mp :: ps]> (inv_manifest i) → Forall (eq mp) ps →
  (∀ e, key i' e ↔ key i e ∨ e = d) →
  (∀ a e p, fix_entry i' a e p → fix_entry i a e p ∨ (hash a data = Some e ∧ p = mp)) → fix_full i' →
  (∀ a, is_Some (inv_fixity i' !! a) → ∀ x, ∃ h, hash a x = Some h) →
  good hash (<[mp := data]> s) i' n.
Proof.
  intros HG He Hn Hd Hr Emp Hfr Hm Hps Hk Hfix Hfull Hknown. pose proof HG as [].
  assert (∀ p e, lists (inv_manifest i') p e ↔ lists (inv_manifest i) p e ∨ (p = mp ∧ e = d)) as Hl.
  { intros p e. rewrite Hm. unfold lists. destruct (decide (e = d)) as [-> |Hne].
    - rewrite lookup_insert. split.
      + intros (qs & [= <-] & Hp). apply elem_of_app in Hp as [Hp|Hp].
        * left. destruct (inv_manifest i !! d) as [l|] eqn:El; simpl in Hp; [by exists l|by apply elem_of_nil in Hp].
        * right. apply elem_of_cons in Hp as [->|Hp]; [done|]. rewrite Forall_forall in Hps. apply Hps in Hp. done.
      + intros [(qs & Hq & Hp)|[-> _]]; eexists; (split; [reflexivity|]).
        * rewrite Hq. simpl. apply elem_of_app. by left.
        * apply elem_of_app. right. by left.
    - rewrite lookup_insert_ne by done. split; [by left|]. by intros [H|[_ ->]]. }
  assert (∀ e, is_Some (inv_manifest i' !! e) ↔ is_Some (inv_manifest i !! e) ∨ e = d) as Hsome.
  { intros e. rewrite Hm. apply is_Some_insert. }
  assert (∀ p e, lists (inv_manifest i) p e → p ≠ mp) as Hne by (intros p e H ->; by eapply Hfr).
  split.
  - by eapply contiguous_ext.
  - eapply states_step; [exact HG|done| |].
    + intros e H. apply Hsome. by left.
    + intros e [(v & Hv & H)| ->]%Hk; apply Hsome; [left; by eapply g_states0|by right].
  - intros e [H| ->]%Hsome.
    + eapply used_step; [exact HG|done| |done]. intros e' H'. apply Hk. by left.
    + destruct (proj2 (Hk d) (or_intror eq_refl)) as (v & Hv & Hs). exists (inv_head i'), v. done.
  - intros e qs. rewrite Hm. intros [[<- <-]|[_ H]]%lookup_insert_Some; [|by eapply g_nonempty0]. by destruct (default [] _).
  - intros e p [H|[-> ->]]%Hl.
    + rewrite lookup_insert_ne by (apply not_eq_sym; by eapply Hne). rewrite (er_alg _ _ He). by apply g_content0.
    + rewrite lookup_insert, (er_alg _ _ He). by exists data.
  - intros e p [H|[-> ->]]%Hl.
    + destruct (g_paths0 _ _ H) as (k & r' & Hk' & Hr' & ->). exists k, r'. split; [done|]. split; [done|]. symmetry. apply cpath_same; apply He.
    + exists n, r. split; [lia|]. split; [done|]. rewrite Emp. symmetry. apply cpath_same; apply He.
  - done.
  - intros a e p [H|[H ->]]%Hfix.
    + destruct (g_fix0 _ _ _ H) as [Hx [e' Hl']]. split; [|exists e'; apply Hl; by left].
      by rewrite lookup_insert_ne by (apply not_eq_sym; by eapply Hne).
    + split; [|exists d; apply Hl; by right]. rewrite lookup_insert. by exists data.
  - done.
  - intros k r' x Hk'. rewrite (cpath_same i i') by apply He. destruct (decide (cpath i k r' = mp)) as [-> |Hx].
    + intros _. exists d. apply Hl. by right.
    + rewrite lookup_insert_ne by done. intros H. destruct (g_listed0 k r' x Hk' H) as [e He']. exists e. apply Hl. by left.
Qed.

(** * One call *)
Section calls.
  Context (E : env) (s0 : storage) (Hhex : hex_hash (e_hash E)).
  Definition now (o : object) : storage := apply_evs (ob_trace o) s0.
  (** What one call may do. *)
  Definition step_ok (n : N) (o o' : object) : Prop :=
    good (e_hash E) (now o') (ob_inv o') n ∧ ext_rel (ob_inv o) (ob_inv o') ∧ ob_echo o' = ob_echo o ∧
    ∀ p, (∀ r, p ≠ cpath (ob_inv o) n r) → now o' !! p = now o !! p.

  Lemma step_quiet n o i' upd :
    good (e_hash E) (now o) (ob_inv o) n → ext_rel (ob_inv o) i' → inv_manifest i' = inv_manifest (ob_inv o) →
    inv_fixity i' = inv_fixity (ob_inv o) → (∀ e, key (ob_inv o) e → key i' e) →
    (∀ e, key i' e → key (ob_inv o) e ∨ is_Some (inv_manifest (ob_inv o) !! e)) →
    step_ok n o (Object i' (ob_echo o) upd (ob_trace o)).
  Proof using.
    intros HG He Hm Hf Hk Hk'. split; [|done]. unfold now. cbn [ob_trace ob_inv]. by eapply good_quiet.
  Qed.
  Lemma step_same n o upd : good (e_hash E) (now o) (ob_inv o) n → step_ok n o (Object (ob_inv o) (ob_echo o) upd (ob_trace o)).
  Proof using. intros HG. apply step_quiet; [done|reflexivity|done|done|done|by left]. Qed.
  Lemma step_refl n o : good (e_hash E) (now o) (ob_inv o) n → step_ok n o o.
  Proof using. intros HG. split; [done|]. split; [done|]. done. Qed.
  Lemma step_upd n u o o' : step_ok n (set_upd u o) o' → step_ok n o o'.
  Proof using. done. Qed.

  Lemma add_reader_ok n o orc data f fs m :
    oracle_ok orc → n ≠ 0%N → (inv_padding (ob_inv o) <= 0)%Z → plain_name (content_name (ob_inv o)) → supported E (ob_inv o) →
    good (e_hash E) (now o) (ob_inv o) n → clean_rel m → (∀ d, ¬ lists (inv_manifest (ob_inv o)) (manifest_name (ob_inv o) m) d) →
    step_ok n o (add_reader E orc data (f :: fs) (manifest_name (ob_inv o) m) o).1.
  Proof using Hhex.
    intros Ho Hn Hp Hc Hs HG Hm Hfr. set (i := ob_inv o) in *. set (mp := manifest_name i m) in *.
    pose proof (contiguous_is _ _ (g_contig _ _ _ _ HG)) as Hh.
    assert (mp = cpath i n m) as Emp.
    { unfold mp, cpath. rewrite manifest_name_clean; [|rewrite (proj1 Hh), decide_False by done; apply version_name_plain|done|done].
      by rewrite (proj1 Hh), decide_False by done. }
    assert (mp ≠ "") as Hmp by apply manifest_name_nonempty.
    unfold add_reader. fold i. set (algs := remove_dups (inv_fixalgs i ++ [inv_alg i])).
    assert (∀ a, a ∈ algs → a = inv_alg i ∨ a ∈ inv_fixalgs i) as Halgs.
    { intros a Ha. apply (proj1 (elem_of_remove_dups _ _)) in Ha. apply elem_of_app in Ha as [Ha|Ha%elem_of_list_singleton]; auto. }
    destruct (checksums_total E algs data) as [cs Hcs]; [intros a Ha; by apply Hs, Halgs|]. rewrite Hcs.
    destruct (Hs (inv_alg i) data (or_introl eq_refl)) as [d Hd].
    assert (assoc (inv_alg i) cs = Some d) as Ha.
    { rewrite (assoc_checksums _ _ _ _ _ Hcs); [done|]. apply elem_of_remove_dups, elem_of_app. right. by left. }
    destruct (Hhex _ _ _ Hd) as [[Hne _] Hlow].
    unfold on_inv. cbn [ob_inv emit set_upd]. fold i. unfold add_file. rewrite Ha, Hlow.
    set (i1 := add_fixities mp cs i). destruct (add_fixities_frame mp cs i) as (Fv & Fm & Fh & Fp & Fa). fold i1 in Fv, Fm, Fh, Fp, Fa.
    pose proof (ext_rel_add_fixities mp cs i) as He1. fold i1 in He1.
    destruct (state_files_spec orc 0 mp d f fs i1 n Ho (ext_rel_head_is _ _ _ He1 Hh) Hn ltac:(by rewrite Fp) Hne Hmp)
      as (i' & ps & Eq & Hman & Hps & Hfix & Hk).
    pose proof (ext_rel_add_state_files orc 0 mp d (f :: fs) i1) as He2. rewrite Eq in *. cbn [fst] in He2.
    destruct (fixities_spec mp cs i) as (X1 & X2 & X3 & X4). fold i1 in X1, X2, X3, X4.
    split; [|split; [by etransitivity|split; [done|]]].
    - unfold now. cbn [fst ob_inv ob_trace set_inv emit set_upd]. rewrite <- app_assoc. cbn [app].
      change [ECreate mp; EAppend mp data] with (write_file mp data). rewrite apply_evs_app, apply_write.
      eapply (good_add _ _ i _ n d mp ps m data); try done.
      + by etransitivity.
      + rewrite Fm in Hman. exact Hman.
      + intros e. rewrite Hk. by rewrite (key_same i i1).
      + intros a e p (b & l & Hb & Hl & Hin). rewrite Hfix in Hb. destruct (X1 a e p) as [H|[H ->]]; [by exists b, l|by left|].
        right. split; [|done]. by eapply checksums_entry.
      + intros a b e l Hb Hl. rewrite Hfix in Hb. by eapply (X3 (g_full _ _ _ _ HG)).
      + intros a Hb x. rewrite Hfix in Hb. apply X4 in Hb as [Hb|[e Hin]]; [by apply (g_known _ _ _ _ HG)|].
        apply Hs, Halgs. by eapply checksums_entry.
    - intros p Hout. unfold now. cbn [fst ob_trace set_inv emit set_upd]. rewrite <- app_assoc. cbn [app].
      change [ECreate mp; EAppend mp data] with (write_file mp data). rewrite apply_evs_app, apply_write.
      apply lookup_insert_ne. rewrite Emp. intros <-. by apply (Hout m).
  Qed.

  Lemma state_paths_cons f fs area ps : state_paths E (f :: fs) area = Some ps → ∃ p l, ps = p :: l.
  Proof using. simpl. destruct (e_state_path E f area); [|done]. destruct (state_paths E fs area); [|done]. intros [= <-]. eauto. Qed.
  Lemma build_cons i f fs area ps m : build_names E i (f :: fs) area = Some (ps, m) →
    ∃ p l mp, ps = p :: l ∧ e_manifest_path E f area = Some mp ∧ m = manifest_name i mp.
  Proof using.
    unfold build_names. destruct (state_paths E (f :: fs) area) as [qs|] eqn:Es; [|done]. destruct (e_manifest_path E f area) as [mp|] eqn:Em; [|done].
    intros [= -> <-]. destruct (state_paths_cons _ _ _ _ Es) as (p & l & ->). by exists p, l, mp.
  Qed.

  Lemma sop_ok n orc op o :
    n ≠ 0%N → (inv_padding (ob_inv o) <= 0)%Z → plain_name (content_name (ob_inv o)) → supported E (ob_inv o) → proper E orc op o →
    good (e_hash E) (now o) (ob_inv o) n → step_ok n o (sop_step E orc op o).1.
  Proof using Hhex.
    intros Hn Hp Hc Hs (Ho & Hct & Hft) HG. destruct op as [data path area dedup|data files area|f dg|a b dg|b dg]; cbn [sop_step].
    - unfold ob_add. destruct (inv_writeable _); [|by apply step_refl].
      destruct (build_names E (ob_inv o) [path] area) as [[ps m]|] eqn:Eb; [|by apply step_refl].
      destruct (build_cons _ _ _ _ _ _ Eb) as (p & l & mp & -> & Emp & ->).
      destruct (e_state_path E path area) as [np|]; [|by apply step_refl]. set (o1 := set_upd _ o).
      assert (step_ok n o o1) as Hsame by (by apply step_same).
      assert (step_ok n o (add_reader E (shift_oracle orc) data (p :: l) (manifest_name (ob_inv o) mp) o1).1) as Hadd.
      { apply (add_reader_ok n o1); try done; [by apply oracle_ok_shift|by apply Hct|by apply Hft]. }
      destruct dedup; [|exact Hadd]. destruct (e_hash E _ data) as [d|]; [|exact Hsame].
      destruct (already_exists _ _ _ _ _) as [[]|]; [exact Hsame| |exact Hsame].
      destruct (get_duplicates _ _); [exact Hadd|]. unfold on_inv. change (ob_inv o1) with (ob_inv o).
      pose proof (ext_rel_copy np d (ob_inv o)) as He. pose proof (copy_manifest np d (ob_inv o)) as Hm.
      pose proof (λ e, copy_key np d (ob_inv o) e) as Hk. pose proof (λ e, copy_key_mono np d (ob_inv o) e) as Hk'.
      assert (inv_fixity (copy_file np d (ob_inv o)).1 = inv_fixity (ob_inv o)) as Hf.
      { unfold copy_file. destruct (_ !! d); [|done]. destruct (head_version _); [|done]. cbv zeta. by destruct (decide _). }
      destruct (copy_file np d (ob_inv o)) as [i' st]. cbn [fst] in *. apply (step_quiet n o i'); try done.
      intros e [H|[-> H]]%Hk; auto.
    - unfold ob_add_reader. destruct files as [|f fs]; [by apply step_refl|]. destruct (inv_writeable _); [|by apply step_refl].
      destruct (build_names E (ob_inv o) (f :: fs) area) as [[ps m]|] eqn:Eb; [|by apply step_refl].
      destruct (build_cons _ _ _ _ _ _ Eb) as (p & l & mp & -> & Emp & ->). apply add_reader_ok; try done; [by apply Hct|by apply Hft].
    - unfold ob_delete. destruct (inv_writeable _); [|by apply step_refl].
      destruct (already_exists _ _ _ _ _) as [[]|]; [|by apply step_refl..]. unfold on_inv.
      pose proof (ext_rel_delete f (ob_inv o)) as He. pose proof (delete_manifest f (ob_inv o)) as Hm.
      pose proof (λ e, delete_key f (ob_inv o) e) as Hk.
      assert (inv_fixity (delete_file f (ob_inv o)).1 = inv_fixity (ob_inv o)) as Hf.
      { unfold delete_file. destruct (head_version _); [|done]. cbn [fst]. by destruct (state_has _ _). }
      destruct (delete_file f (ob_inv o)) as [i' st]. cbn [fst] in *. apply (step_quiet n o i'); try done.
      + intros e. apply Hk.
      + intros e H. left. by apply Hk.
    - unfold ob_rename. destruct (inv_writeable _); [|by apply step_refl].
      destruct (already_exists _ _ _ _ _) as [[]|]; [|by apply step_refl..]. unfold on_inv.
      pose proof (ext_rel_rename a b (ob_inv o)) as He. pose proof (rename_manifest a b (ob_inv o)) as Hm.
      pose proof (λ e, rename_key a b (ob_inv o) e) as Hk.
      assert (inv_fixity (rename_file a b (ob_inv o)).1 = inv_fixity (ob_inv o)) as Hf.
      { unfold rename_file. destruct (head_version _); [|done]. cbn [fst]. by destruct (state_has _ _). }
      destruct (rename_file a b (ob_inv o)) as [i' st]. cbn [fst] in *. apply (step_quiet n o i'); try done.
      + intros e. apply Hk.
      + intros e H. left. by apply Hk.
    - unfold ob_copy. destruct (inv_writeable _); [|by apply step_refl]. unfold on_inv.
      pose proof (ext_rel_copy b dg (ob_inv o)) as He. pose proof (copy_manifest b dg (ob_inv o)) as Hm.
      pose proof (λ e, copy_key b dg (ob_inv o) e) as Hk. pose proof (λ e, copy_key_mono b dg (ob_inv o) e) as Hk'.
      assert (inv_fixity (copy_file b dg (ob_inv o)).1 = inv_fixity (ob_inv o)) as Hf.
      { unfold copy_file. destruct (_ !! dg); [|done]. destruct (head_version _); [|done]. cbv zeta. by destruct (decide _). }
      destruct (copy_file b dg (ob_inv o)) as [i' st]. cbn [fst] in *. apply (step_quiet n o i'); try done.
      intros e [H|[-> H]]%Hk; auto.
  Qed.
  Lemma echo_ok n orc o : good (e_hash E) (now o) (ob_inv o) n → step_ok n o (ob_echo_delete E orc o).1.
  Proof using.
    intros HG. unfold ob_echo_delete. destruct (e_state_path E _ _) as [b|]; [|by apply step_refl]. set (pre := if decide _ then _ else _). unfold on_inv.
    pose proof (ext_rel_echo orc (ob_upd o) pre (ob_inv o)) as He. pose proof (echo_manifest orc (ob_upd o) pre (ob_inv o)) as Hm.
    pose proof (λ e, echo_key orc (ob_upd o) pre (ob_inv o) e) as Hk.
    assert (inv_fixity (echo_delete orc (ob_upd o) pre (ob_inv o)).1 = inv_fixity (ob_inv o)) as Hf.
    { unfold echo_delete. destruct (head_version _); [|done]. generalize (filter (λ f, has_prefix pre f = true ∧ f ∉ ob_upd o)
        (flat_map snd (o_state orc 0 (inv_head (ob_inv o)) (v_state v)))). clear. intros l. generalize (ob_inv o). clear o.
      induction l as [|f l IH]; intros i; [done|]. simpl.
      assert (inv_fixity (delete_file f i).1 = inv_fixity i) as H.
      { unfold delete_file. destruct (head_version _); [|done]. cbn [fst]. by destruct (state_has _ _). }
      destruct (delete_file f i) as [j []]; cbn [fst] in *; [by rewrite IH|done..]. }
    destruct (echo_delete orc (ob_upd o) pre (ob_inv o)) as [i' st]. cbn [fst] in *. apply (step_quiet n o i'); try done.
    + intros e. apply Hk.
    + intros e H. left. by apply Hk.
  Qed.
End calls.
