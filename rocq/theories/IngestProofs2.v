(** The state of the handle while files are added one after the other. *)
From Coq Require Import Ascii.
From stdpp Require Import base list strings gmap.
From Coq Require Import ZArith Lia.
From Verif Require Import GoStr PathModel InventoryModel ObjectModel InventorySpec InventoryProofs ObjectSpec ObjectProofs LookupProofs AddProofs
  ClaimsInventory ClaimsInventory2 CrashSpec LoadModel PathProofs CrashProofs LoadProofs SessionProofs PublishSpec PublishProofs PublishProofs2
  PublishProofs3 PublishProofs4 AreaModel IngestModel IngestSpec IngestProofs.

(** What adding a file does to the manifest and to the storage. *)
Lemma ob_add_man E orc data path area dedup o np d mp m :
  oracle_ok orc → head_is (ob_inv o) m → m ≠ 0%N → inv_writeable (ob_inv o) = true →
  e_state_path E path area = Some np → e_manifest_path E path area = Some mp →
  (inv_padding (ob_inv o) <= 0)%Z → newest_single (ob_inv o) np →
  e_hash E (inv_alg (ob_inv o)) data = Some d → d ≠ "" → to_lower d = d →
  (∀ a, a ∈ inv_fixalgs (ob_inv o) → is_Some (e_hash E a data)) →
  let o' := (ob_add E orc data path area dedup o).1 in
  ob_echo o' = ob_echo o ∧ (∀ p, p ∈ ob_upd o' → p ∈ ob_upd o ∨ p = np) ∧ (∀ p, p ∈ ob_upd o → p ∈ ob_upd o') ∧
  ((inv_manifest (ob_inv o') = inv_manifest (ob_inv o) ∧ ob_trace o' = ob_trace o ∧
      (newest_record (ob_inv o) np d ∨ is_Some (inv_manifest (ob_inv o) !! d))) ∨
   (inv_manifest (ob_inv o') = <[d := default [] (inv_manifest (ob_inv o) !! d) ++ [manifest_name (ob_inv o) mp]]> (inv_manifest (ob_inv o)) ∧
    ob_trace o' = ob_trace o ++ write_file (manifest_name (ob_inv o) mp) data)).
Proof.
  intros Ho Hh Hm Hw Hsp Hmp Hp Hns Hd Hne Hlow Hfix. unfold ob_add. rewrite Hw.
  assert (build_names E (ob_inv o) [path] area = Some ([np], manifest_name (ob_inv o) mp)) as ->.
  { unfold build_names. cbn [state_paths]. by rewrite Hsp, Hmp. }
  rewrite Hsp. set (o1 := set_upd _ o).
  assert (∀ p, p ∈ ob_upd o1 ↔ p ∈ ob_upd o ∨ p = np) as Hu1.
  { intros p. unfold o1. cbn [ob_upd set_upd]. by rewrite elem_of_app, elem_of_list_singleton. }
  destruct (add_reader_single E (shift_oracle orc) data np (manifest_name (ob_inv o) mp) o1 d m)
    as (o2 & R1 & R2 & _ & R4 & _); auto using oracle_ok_shift, manifest_name_nonempty.
  assert ((∀ p, p ∈ ob_upd o2 ↔ p ∈ ob_upd o1 ∨ p = np) ∧ ob_echo o2 = ob_echo o) as [Hu2 He2].
  { unfold add_reader in R1. destruct (checksums _ _ _); [|done]. unfold on_inv in R1.
    destruct (add_file _ _ _ _ _) as [i2 st]. apply (f_equal fst) in R1. cbn [fst] in R1. subst o2. cbn [ob_upd ob_echo set_inv emit set_upd]. split; [|done].
    intros p. by rewrite elem_of_app, elem_of_list_singleton. }
  assert (let o' := o2 in ob_echo o' = ob_echo o ∧ (∀ p, p ∈ ob_upd o' → p ∈ ob_upd o ∨ p = np) ∧ (∀ p, p ∈ ob_upd o → p ∈ ob_upd o') ∧
    (inv_manifest (ob_inv o') = <[d := default [] (inv_manifest (ob_inv o) !! d) ++ [manifest_name (ob_inv o) mp]]> (inv_manifest (ob_inv o)) ∧
     ob_trace o' = ob_trace o ++ write_file (manifest_name (ob_inv o) mp) data)) as (H1 & H2 & H3 & H4).
  { split; [done|]. split; [intros p; rewrite Hu2, Hu1; tauto|]. split; [intros p; rewrite Hu2, Hu1; tauto|]. by split. }
  cbv zeta in *. destruct dedup.
  - rewrite Hd. destruct (already_exists_good orc 0 (ob_inv o) np d m) as (b & Hb1 & Hb2); auto. rewrite Hb1. destruct b.
    + cbn [fst]. split; [done|]. split; [intros p; rewrite Hu1; tauto|]. split; [intros p; rewrite Hu1; tauto|]. left. split; [done|]. split; [done|]. left. by apply Hb2.
    + destruct (get_duplicates (ob_inv o) d) as [|q qs] eqn:Hdup.
      * rewrite R1. cbn [fst]. split; [done|]. split; [done|]. split; [done|]. by right.
      * unfold get_duplicates in Hdup. rewrite decide_False in Hdup by done.
        assert (inv_manifest (copy_file np d (ob_inv o1)).1 = inv_manifest (ob_inv o)) as Hcm.
        { unfold copy_file. change (ob_inv o1) with (ob_inv o). destruct (_ !! _); [|done]. destruct (head_version _); [|done]. by destruct (decide _). }
        unfold on_inv. destruct (copy_file np d (ob_inv o1)) as [i2 st2]. cbn [fst] in *. split; [done|].
        split; [intros p; cbn [ob_upd set_inv]; rewrite Hu1; tauto|]. split; [intros p; cbn [ob_upd set_inv]; rewrite Hu1; tauto|]. left. split; [done|]. split; [done|].
        right. destruct (inv_manifest (ob_inv o) !! d); [by eexists|done].
  - rewrite R1. cbn [fst]. split; [done|]. split; [done|]. split; [done|]. by right.
Qed.

Lemma calls_trans E o1 o2 o3 : calls E o1 o2 → calls E o2 o3 → calls E o1 o3.
Proof. induction 1; [done|]. intros H'. econstructor; eauto. Qed.

(** A new version is a copy of the newest one. *)
Record copied (E : env) (s : storage) (i : inventory) (n : N) (echo : bool) (o1 : object) : Prop := Copied {
  cp_working : working E s n o1;
  cp_trace : ob_trace o1 = [];
  cp_upd : ob_upd o1 = [];
  cp_echo : ob_echo o1 = echo;
  cp_man : inv_manifest (ob_inv o1) = inv_manifest i;
  cp_alg : inv_alg (ob_inv o1) = inv_alg i;
  cp_pad : inv_padding (ob_inv o1) = inv_padding i;
  cp_cdir : inv_contentdir (ob_inv o1) = inv_contentdir i;
  cp_09 : inv09 (ob_inv o1);
  cp_head : inv_head (ob_inv o1) = version_name (inv_padding i) (n + 1);
  cp_current : ∀ p d, current (ob_inv o1) p d ↔ current i p d;
  cp_newest : ∀ p d, newest_record (ob_inv o1) p d → current i p d ∨ newest_record i p d ∧ ∀ e, ¬ current i p e;
  cp_old : ∀ ver, is_Some (inv_versions i !! ver) → ver ≠ inv_head (ob_inv o1) ∧ inv_versions (ob_inv o1) !! ver = inv_versions i !! ver
}.
Lemma start_copied E s i n fam nw msg un ua echo :
  kept E s i n n fam → supported E i → (∀ ver v, inv_versions i !! ver = Some v → unique_paths (v_state v)) →
  ∃ o1, ob_start nw msg un ua echo (open_object i) = (o1, SOk) ∧ copied E s i n echo o1.
Proof.
  intros Hk Hsup Hu. pose proof (contiguous_is _ _ (g_contig _ _ _ _ (kp_good _ _ _ _ _ _ Hk))) as Hh.
  set (i0 := set_modified false (set_writeable false i)).
  assert (head_is i0 n) as Hh0 by done.
  destruct (new_version_spec i0 n nw msg un ua Hh0) as (st & Eq & Hnone & H0 & Hn).
  change (inv_padding i0) with (inv_padding i) in *. change (inv_versions i0) with (inv_versions i) in *. change (inv_head i0) with (inv_head i) in *.
  set (h := version_name (inv_padding i) (n + 1)) in *.
  assert (∀ p d, lists st p d ↔ current i p d) as Hcur.
  { intros p d. destruct (decide (n = 0%N)) as [-> |Hn0].
    - rewrite H0 by done. split; [intros (ps & H & _); by rewrite lookup_empty in H|].
      intros (v & Hv & _). destruct Hh as (_ & _ & Hh3). destruct (Hh3 _ (ex_intro _ v Hv)) as (k & Hk' & _). lia.
    - destruct (Hn Hn0) as (old & Hold & ->). split; [intros H; by exists old|]. intros (v & Hv & Hl). by rewrite Hold in Hv; injection Hv as <-. }
  unfold ob_start, on_inv, open_object. cbn [ob_inv set_echo]. fold i0. rewrite Eq. eexists. split; [done|].
  assert (ob_start nw msg un ua echo (open_object i) = (set_inv (set_writeable true (set_versions (<[h:=Version nw msg un ua st]> (inv_versions i)) (set_head h i0))) (set_echo echo (open_object i)), SOk)) as Hst.
  { unfold ob_start, on_inv, open_object. cbn [ob_inv set_echo]. fold i0. by rewrite Eq. }
  assert (unique_paths st) as Hust.
  { destruct (decide (n = 0%N)) as [-> |Hn0].
    - rewrite H0 by done. split; [intros p d1 d2 (ps & H & _); by rewrite lookup_empty in H|]. intros d ps H. by rewrite lookup_empty in H.
    - destruct (Hn Hn0) as (old & Hold & ->). by eapply Hu. }
  split; cbn [ob_inv ob_trace ob_upd ob_echo set_inv set_echo open_object set_writeable set_versions set_head set_modified inv_manifest inv_alg
    inv_padding inv_contentdir inv_head inv_versions]; try done.
  - destruct (start_working E s n _ _ _ _ _ _ _ Hst) as [HW _]; [|exact HW].
    split; [|done]. exists fam. unfold now, open_object. cbn [ob_trace ob_inv apply_evs foldl]. eapply kept_same; [apply same_flags|done].
  - exists (n + 1)%N. unfold head_is. cbn [inv_head inv_versions inv_padding inv_writeable set_inv ob_inv set_writeable set_versions set_head set_modified].
    rewrite decide_False by lia. split; [split; [done|split]|split; [lia|split; [apply (kp_pad _ _ _ _ _ _ Hk)|]]].
    + intros _. rewrite lookup_insert. by eexists.
    + intros ver Hv. destruct (decide (ver = h)) as [-> |Hne]; [exists (n + 1)%N; split; [lia|done]|]. rewrite lookup_insert_ne in Hv by done.
      destruct Hh as (_ & _ & Hh3). destruct (Hh3 _ Hv) as (k & Hk1 & ->). exists k. split; [lia|done].
    + intros ver v [[<- <-]|[Hne Hv]]%lookup_insert_Some; [done|by eapply Hu].
  - intros p d. rewrite <- Hcur. unfold current, recorded. cbn [inv_head inv_versions set_inv ob_inv set_writeable set_versions set_head set_modified].
    rewrite lookup_insert. split; [by intros (v & [= <-] & H)|]. intros H. by eexists.
  - intros p d (k & (v & Hv & Hl) & Hmax).
    cbn [inv_head inv_versions inv_padding set_inv ob_inv set_writeable set_versions set_head set_modified] in Hv, Hmax.
    apply lookup_insert_Some in Hv as [[Hkk <-]|[Hne Hv]]; [left; by apply Hcur|]. right. split.
    + exists k. split; [by exists v|]. intros k' d' (v' & Hv' & Hl'). apply (Hmax k' d'). exists v'. split; [|done].
      cbn [inv_versions set_inv ob_inv set_writeable set_versions]. rewrite lookup_insert_ne; [done|].
      intros E2. assert (inv_versions i !! h = Some v') as H3; [rewrite E2; exact Hv'|]. by rewrite Hnone in H3.
    + intros e He. apply Hcur in He. assert (n + 1 <= k)%N as Hle.
      { apply (Hmax (n + 1)%N e). eexists. cbn [inv_versions set_inv ob_inv set_writeable set_versions]. by rewrite lookup_insert. }
      destruct Hh as (_ & _ & Hh3). destruct (Hh3 _ (ex_intro _ v Hv)) as (k' & Hk' & E2). apply version_name_inj in E2. lia.
  - intros ver Hv. assert (ver ≠ h) as Hne by (intros ->; rewrite Hnone in Hv; by apply is_Some_None in Hv). split; [done|]. by rewrite lookup_insert_ne.
Qed.
