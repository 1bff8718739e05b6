(** Proofs about METS and PREMIS documents: storing them. *)
From Coq Require Import Ascii.
From stdpp Require Import base list strings gmap.
From Coq Require Import ZArith Lia.
From Verif Require Import GoStr PathModel PathProofs InventoryModel InventorySpec InventoryProofs ObjectModel ObjectSpec ObjectProofs CrashSpec CrashProofs LoadModel LoadProofs PublishSpec RunProofs SessionProofs PublishProofs PublishProofs2 PublishProofs3 PublishProofs4 IngestProofs6 AreaModel ValidateModel MetaModel JsonlModel JsonlProofs MigrateModel
  MetafileProofs MetsModel MetsSpec MetsProofs.

Lemma add_call E orc data f area o o' :
  ob_add E orc data f area false o = (o', SOk) →
  ∃ mp, e_manifest_path E f area = Some mp ∧ let m := manifest_name (ob_inv o) mp in
  ob_trace o' = ob_trace o ++ write_file m data ∧ ext_rel (ob_inv o) (ob_inv o') ∧
  ∃ d, e_hash E (inv_alg (ob_inv o)) data = Some d ∧ lists (inv_manifest (ob_inv o')) m (to_lower d).
Proof.
  unfold ob_add. destruct (inv_writeable _); [|done]. unfold build_names. destruct (state_paths E [f] area) as [ps|] eqn:Hp; [|done].
  destruct (e_manifest_path E f area) as [mp|] eqn:Hm; [|done]. destruct (e_state_path E f area) as [np|] eqn:Hnp; [|done]. cbv zeta. intros H. exists mp. split; [done|]. cbv zeta.
  apply (add_reader_ok E (shift_oracle orc) data ps _ (set_upd (ob_upd o ++ [np]) o) o'); [|apply manifest_name_nonempty|done].
  intros ->. cbn [state_paths] in Hp. repeat case_match; done.
Qed.
Lemma sops_app E a b o : sops_run E (a ++ b) o = andThen (sops_run E a o) (sops_run E b).
Proof.
  revert o; induction a as [|[orc op|orc op|msg] a IH]; intros o; cbn [app sops_run]; [done|..|done].
  - destruct (sop_step E orc op o) as [o1 []]; cbn [andThen]; [apply IH|done..].
  - destruct (sop_step E orc op o) as [o1 []]; cbn [andThen]; [apply IH|apply IH|done].
Qed.
Lemma two_calls E s orc1 orc2 md fm ma pd fp pa rest o o' :
  sops_run E (HCall orc1 (SAdd md fm ma false) :: HCall orc2 (SAddReader pd [fp] pa) :: rest) o = (o', SOk) →
  guarded_sops E (proper E) (HCall orc1 (SAdd md fm ma false) :: HCall orc2 (SAddReader pd [fp] pa) :: rest) o →
  keeps_file E s (ob_inv o) fm ma md o' ∧ keeps_file E s (ob_inv o) fp pa pd o'.
Proof.
  cbn [sops_run guarded_sops]. intros Hrun [Hg1 Hg]. cbn [sop_step] in *.
  destruct (ob_add E orc1 md fm ma false o) as [o1 []] eqn:H1; cbn [andThen after_ok] in *; [|done..]. destruct Hg as [Hg2 Hg].
  destruct (ob_add_reader E orc2 pd [fp] pa o1) as [o2 []] eqn:H2; cbn [andThen after_ok] in *; [|done..].
  apply add_call in H1 as (q1 & Hq1 & Ht1 & Hx1 & d1 & Hd1 & Hl1). pose proof H2 as H2'.
  apply add_reader_call in H2 as (f & q2 & Hf & Hq2 & Ht2 & Hx2 & d2 & Hd2 & Hl2). injection Hf as <-.
  assert (∀ q, manifest_name (ob_inv o1) q = manifest_name (ob_inv o) q) as Hmn.
  { intros q. unfold manifest_name, content_dir. by rewrite (er_head _ _ Hx1), (er_cdir _ _ Hx1). }
  rewrite Hmn in Ht2, Hl2. rewrite (er_alg _ _ Hx1) in Hd2.
  assert (has s (manifest_name (ob_inv o) q1) (to_lower d1) md o1) as Hh1.
  { split; [|done]. by rewrite Ht1, apply_evs_app, apply_write, lookup_insert. }
  pose proof (sop_has E s _ _ _ orc2 (SAddReader pd [fp] pa) o1 Hg2 Hh1) as Hh1'. cbn [sop_step] in Hh1'. rewrite H2' in Hh1'. cbn [fst] in Hh1'.
  assert (has s (manifest_name (ob_inv o) q2) (to_lower d2) pd o2) as Hh2.
  { split; [|done]. by rewrite Ht2, apply_evs_app, apply_write, lookup_insert. }
  pose proof (sops_has E s _ _ _ rest o2 Hg Hh1') as [R1 R2]. pose proof (sops_has E s _ _ _ rest o2 Hg Hh2) as [R3 R4]. rewrite Hrun in R1, R2, R3, R4. cbn [fst] in *.
  split; [by exists q1, d1|by exists q2, d2].
Qed.

Lemma hook_run {A} (view : gmap string A → fview) w O E l areas C exts orcs o D P : to_lower (mc_type C) ≠ "extension" →
  documents view w O E l areas C exts (ob_inv o) = inl (D, P) → mets_after view w O E l areas C exts orcs o = sops_run E (hook_calls orcs O C l D P) o.
Proof. intros Ht HD. unfold mets_after. by rewrite HD, decide_False. Qed.
Lemma stored E O l C orcs o D P rest o' s : is_Some (area_path l "content") →
  sops_run E (hook_calls orcs O C l D P ++ rest) o = (o', SOk) → guarded_sops E (proper E) (hook_calls orcs O C l D P ++ rest) o →
  (∃ f a, kept_as l C (mc_mets C) = Some (f, a) ∧ keeps_file E s (ob_inv o) f a (mo_mets O D) o') ∧
  (∃ f a, kept_as l C (mc_premis C) = Some (f, a) ∧ keeps_file E s (ob_inv o) f a (mo_premis O P) o').
Proof.
  intros [c Hc]. unfold hook_calls, mets_calls, kept_as, mets_path. rewrite Hc. cbn [fmap option_fmap option_map].
  destruct (decide (to_lower (mc_type C) = "area")) as [He|He]; cbn [imap]; intros Hr Hg; cbn [app] in Hr, Hg;
    destruct (two_calls E s _ _ _ _ _ _ _ _ _ o o' Hr Hg) as [H1 H2]; (split; do 2 eexists; (split; [reflexivity|]); done).
Qed.

(** In a session of an object that the software made, all that the documents need is given. *)
Lemma session_ready E P parse s i now msg un ua echo o1 o : hex_hash (e_hash E) → json_ok P (e_json E) parse → supported E i →
  (fresh i ∧ declared s) ∨ (∃ i0, published E P parse s i0 ∧ load_inventory (e_hash E) parse s "" = LInv i []) →
  ob_start now msg un ua echo (open_object i) = (o1, SOk) → calls E o1 o → content_name i = "content" →
  resolvable (ob_inv o) ∧ conventional (ob_inv o) ∧ is_Some (inv_versions (ob_inv o) !! inv_head (ob_inv o)).
Proof.
  intros Hhex Hj Hs Hor Hst Hcalls Hc.
  assert (∃ n fam, kept E s i n n fam) as (n & fam & Hk).
  { destruct Hor as [[Hf Hd]|(i0 & Hp & Hl)]; [exists 0%N, (λ _, i); by apply fresh_kept|].
    destruct (loaded_kept E P parse s i0 i Hhex Hj Hp Hl) as (n & fam & _ & Hk). by exists n, fam. }
  assert (base E s n (open_object i)) as Hbase.
  { split; [|done]. exists fam. unfold PublishProofs2.now, open_object. cbn [ob_trace ob_inv apply_evs foldl]. eapply kept_same; [apply same_flags|done]. }
  destruct (start_working E s n _ _ _ _ _ _ _ Hst Hbase) as [W1 _].
  assert (content_name (ob_inv o1) = "content") as Hc1.
  { unfold ob_start, on_inv in Hst. cbn [ob_inv set_echo open_object] in Hst. match type of Hst with context [new_version now msg un ua ?y] => set (j := y) in * end.
    destruct (new_version_spec j n now msg un ua) as (st & Heq & _); [exact (contiguous_is _ _ (g_contig _ _ _ _ (kp_good _ _ _ _ _ _ Hk)))|].
    rewrite Heq in Hst. by injection Hst as <-. }
  assert (content_name (ob_inv o) = "content") as Hc2.
  { clear -Hcalls Hc1. induction Hcalls as [|orc op o o1 st o2 Hin Hg Hstep Hst Hrest IH]; [done|]. apply IH. clear IH Hrest. revert Hc1. unfold content_name.
    destruct op; cbn [in_update ostep] in *; try done.
    - pose proof (ef_ext _ _ _ _ (sop_effect E orc op o)) as He. rewrite Hstep in He. cbn [fst] in He. by rewrite (er_cdir _ _ He).
    - by injection Hstep as <- <-.
    - unfold ob_end_area in Hstep. destruct (ob_echo o).
      + pose proof (ef_ext _ _ _ _ (echo_effect E (SCopy "" "") orc o)) as He. destruct (ob_echo_delete E orc o) as [o3 []]; cbn [andThen fst] in *; injection Hstep as <- <-;
          cbn [ob_inv set_echo set_upd]; by rewrite (er_cdir _ _ He).
      + cbn [andThen] in Hstep. by injection Hstep as <- <-. }
  destruct (calls_working E s Hhex _ _ _ Hcalls W1) as ([fam2 Hk2] & _ & _). pose proof (kp_good _ _ _ _ _ _ Hk2) as HG. split_and!.
  - intros ver v d Hv Hd. destruct (g_states _ _ _ _ HG ver v d Hv Hd) as [ps Hps]. pose proof (g_nonempty _ _ _ _ HG d ps Hps) as Hne. destruct ps as [|p ps]; [done|]. by exists p, ps.
  - intros q d Hq. destruct (g_paths _ _ _ _ HG d q Hq) as (k & r & _ & _ & ->). unfold cpath. rewrite Hc2. exists (version_name (inv_padding (ob_inv o)) k), r.
    split; [|done]. apply (version_name_plain (inv_padding (ob_inv o)) k).
  - apply (proj2 (g_contig _ _ _ _ HG)). exists (n + 1)%N. split; [lia|]. rewrite (proj1 (g_contig _ _ _ _ HG)). by rewrite decide_False by lia.
Qed.
