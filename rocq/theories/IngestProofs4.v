(** The whole ingest: folders, end of the update, close. *)
From Coq Require Import Ascii.
From stdpp Require Import base list strings gmap.
From Coq Require Import ZArith Lia.
From Verif Require Import GoStr PathModel InventoryModel ObjectModel InventorySpec InventoryProofs ObjectSpec ObjectProofs LookupProofs AddProofs
  ClaimsInventory ClaimsInventory2 CrashSpec LoadModel PathProofs CrashProofs LoadProofs SessionProofs PublishSpec PublishProofs PublishProofs2
  PublishProofs3 PublishProofs4 AreaModel AreaSpec IngestModel IngestSpec IngestProofs IngestProofs2 IngestProofs3.

Section run.
  Context (E : env) (Hhex : hex_hash (e_hash E)) (s : storage) (i : inventory) (n : N) (fam : N → inventory) (Hk : kept E s i n n fam).
  Context (Hsup : supported E i) (folders : list (string * node)) (dedup echo : bool) (o1 : object) (Hcp : copied E s i n echo o1).
  Context (Hpl : placed E folders) (Had : addressed E dedup i folders).
  Context (Hgood : ∀ a t, (a, t) ∈ folders → good_folder t).
  Notation progress := (progress E s i n folders echo o1).

  Lemma visits_progress orcs area l : (∀ k, oracle_ok (orcs k)) → ∀ k L o,
    progress L o → (∀ p c, VFile p c ∈ l → ∃ x, c = Some x ∧ offered folders area p x) →
    (∀ p, VDir p ∈ l → is_Some (e_state_path E p area) ∧ is_Some (e_manifest_path E p area)) →
    NoDup (vfiles l) → (∀ p x, p ∈ vfiles l → (area, p, x) ∉ L) →
    ∃ o' L', add_visits E orcs k area dedup l o = (o', SOk) ∧ progress L' o' ∧
      ∀ a p x, (a, p, x) ∈ L' ↔ (a, p, x) ∈ L ∨ (a = area ∧ VFile p (Some x) ∈ l).
  Proof using Hhex Hk Hsup Hcp Hpl Had.
    intros Horc. induction l as [|v l IH]; intros k L o Hp Hf Hd Hnd HL.
    { exists o, L. split; [done|]. split; [done|]. intros a p x. split; [by left|]. intros [?|[_ H]]; [done|by apply elem_of_nil in H]. }
    cbn [add_visits]. destruct v as [p c|p].
    - destruct (Hf p c ltac:(left)) as (x & -> & Hoff).
      destruct (progress_add E Hhex s i n fam Hk Hsup folders dedup echo o1 Hcp Hpl Had L o (orcs k) area p x) as (o2 & Ha & Hp2); auto.
      { intros x'. apply HL. apply vfiles_elem. exists (Some x). left. }
      rewrite Ha. cbn [andThen]. change (vfiles (VFile p (Some x) :: l)) with (p :: vfiles l) in Hnd. apply stdpp.list.NoDup_cons in Hnd as [Hn Hnd].
      destruct (IH (S k) ((area, p, x) :: L) o2) as (o' & L' & Hr & Hp' & HL'); auto.
      { intros q c Hq. apply Hf. by right. }
      { intros q Hq. apply Hd. by right. }
      { intros q y Hq [[= -> ->]|Hin]%elem_of_cons; [done|]. apply (HL q y); [|done]. change (q ∈ p :: vfiles l). by right. }
      exists o', L'. split; [done|]. split; [done|]. intros a q y. rewrite HL'. rewrite !elem_of_cons. split.
      + intros [[[= -> -> ->]|?]|[-> ?]]; [right; split; [done|by left]|by left|right; split; [done|by right]].
      + intros [?|[-> [[= -> ->]|?]]]; [left; by right|left; by left|by right].
    - destruct (Hd p ltac:(left)) as [[np Hnp] [m Hm]]. unfold ob_add_dir. destruct (pg_working _ _ _ _ _ _ _ _ _ Hp) as (_ & _ & ->).
      unfold build_names. cbn [state_paths]. rewrite Hnp, Hm. cbn [andThen].
      destruct (IH (S k) L o) as (o' & L' & Hr & Hp' & HL'); auto.
      { intros q c Hq. apply Hf. by right. }
      { intros q Hq. apply Hd. by right. }
      exists o', L'. split; [done|]. split; [done|]. intros a q y. rewrite HL'. rewrite !elem_of_cons. split.
      + intros [?|[-> ?]]; [by left|right; split; [done|by right]].
      + intros [?|[-> [?|?]]]; [by left|done|by right].
  Qed.

  Lemma folders_progress orcs l : (∀ j k, oracle_ok (orcs j k)) → (∀ f, f ∈ l → f ∈ folders) → NoDup (fst <$> l) → ∀ j L o,
    progress L o → (∀ a p x, (a, p, x) ∈ L → a ∉ fst <$> l) →
    ∃ o' L', add_folders E orcs j dedup (given l) o = (o', SOk) ∧ progress L' o' ∧
      ∀ a p x, (a, p, x) ∈ L' ↔ (a, p, x) ∈ L ∨ offered l a p x.
  Proof using Hhex Hk Hsup Hcp Hpl Had Hgood.
    intros Horc. induction l as [|[a t] l IH]; intros Hsub Hnd j L o Hp HL.
    { exists o, L. split; [done|]. split; [done|]. intros a p x. split; [by left|]. intros [?|(t & H & _)]; [done|by apply elem_of_nil in H]. }
    change (given ((a, t) :: l)) with ((a, Some t) :: given l). cbn [add_folders add_folder].
    assert ((a, t) ∈ folders) as Hin by (apply Hsub; left). pose proof (Hgood _ _ Hin) as Hg.
    cbn [fmap list_fmap fst] in Hnd, HL. apply stdpp.list.NoDup_cons in Hnd as [Hna Hnd].
    destruct (visits_progress (orcs j) a (walk "." t) (Horc j) 0 L o) as (o2 & L2 & Hr2 & Hp2 & HL2); auto.
    { intros p c Hv. apply (folder_files t p c Hg) in Hv as (x & -> & Hx). exists x. split; [done|]. by exists t. }
    { intros p Hv. apply (folder_dirs t p Hg) in Hv. by apply (pl_dir _ _ Hpl a t). }
    { by apply folder_nodup. }
    { intros p x Hv Hin'. apply (HL _ _ _ Hin'). left. }
    rewrite Hr2. cbn [andThen].
    assert (∀ a' p x, (a', p, x) ∈ L2 ↔ (a', p, x) ∈ L ∨ (a' = a ∧ has_file t p x)) as HL3.
    { intros a' p x. rewrite HL2. apply or_iff_compat_l, and_iff_compat_l. rewrite (folder_files t p (Some x) Hg). split; [by intros (? & [= <-] & ?)|].
      intros H. by exists x. }
    destruct (IH ltac:(intros f Hf; apply Hsub; by right) Hnd (S j) L2 o2) as (o' & L' & Hr & Hp' & HL'); auto.
    { intros a' p x [Hl|[-> _]]%HL3; [|done]. intros Hl'. apply (HL _ _ _ Hl). by right. }
    exists o', L'. split; [done|]. split; [done|]. intros a' p x. rewrite HL', HL3. split.
    - intros [[?|[-> ?]]|(t' & Ht' & ?)]; [by left|right; exists t; split; [left|done]|right; exists t'; split; [by right|done]].
    - intros [?|(t' & [[= -> ->]|Ht']%elem_of_cons & ?)]; [left; by left|left; by right|right; by exists t'].
  Qed.
End run.

(** The base path of echo deletion. *)
Definition base_of (b : string) : string := if decide (b = ".") then "" else b.

(** EndUpdate without hooks. *)
Lemma end_shape E s n orc o b :
  working E s n o → inv_modified (ob_inv o) = true → oracle_ok orc → (ob_echo o = true → e_state_path E "." "" = Some b) →
  ∃ o3, ob_end E orc (HDone []) o = (o3, SOk) ∧ ext_rel (ob_inv o) (ob_inv o3) ∧ inv_manifest (ob_inv o3) = inv_manifest (ob_inv o) ∧
    (∀ p d, current (ob_inv o3) p d ↔ current (ob_inv o) p d ∧ (ob_echo o = true → has_prefix (base_of b) p = true → p ∈ ob_upd o)) ∧
    (inv09 (ob_inv o) → inv09 (ob_inv o3)) ∧
    (∀ k r, now s o3 !! cpath (ob_inv o) k r = now s o !! cpath (ob_inv o) k r).
Proof.
  intros Hwk Hm Ho Hb. pose proof Hwk as ([fam Hk] & Hs & Hw).
  assert (is_Some (inv_versions (ob_inv o) !! inv_head (ob_inv o))) as Hhv.
  { pose proof (contiguous_is _ _ (g_contig _ _ _ _ (kp_good _ _ _ _ _ _ Hk))) as (_ & H & _). apply H. lia. }
  assert (∃ o2, (if ob_echo o then ob_echo_delete E orc o else (o, SOk)) = (o2, SOk) ∧ ext_rel (ob_inv o) (ob_inv o2) ∧
    inv_manifest (ob_inv o2) = inv_manifest (ob_inv o) ∧
    (∀ p d, current (ob_inv o2) p d ↔ current (ob_inv o) p d ∧ (ob_echo o = true → has_prefix (base_of b) p = true → p ∈ ob_upd o)) ∧
    (inv09 (ob_inv o) → inv09 (ob_inv o2)) ∧ ob_trace o2 = ob_trace o) as (o2 & E2 & X2 & M2 & C2 & I2 & T2).
  { destruct (ob_echo o).
    - destruct (echo_exact E orc o b Ho (Hb eq_refl) Hhv) as (o2 & E2 & C2 & _ & T2 & _). exists o2. split; [done|].
      assert (o2 = (ob_echo_delete E orc o).1) as -> by (by rewrite E2).
      split; [|split; [|split; [|split; [apply inv09_echo|done]]]].
      + unfold ob_echo_delete. rewrite (Hb eq_refl). unfold on_inv. pose proof (ext_rel_echo orc (ob_upd o) (if decide (b = ".") then "" else b) (ob_inv o)) as H.
        by destruct (echo_delete _ _ _ _).
      + unfold ob_echo_delete. rewrite (Hb eq_refl). unfold on_inv. pose proof (echo_manifest orc (ob_upd o) (if decide (b = ".") then "" else b) (ob_inv o)) as H.
        by destruct (echo_delete _ _ _ _).
      + intros p d. rewrite C2. unfold base_of. tauto.
    - exists o. split; [done|]. split; [apply ext_rel_refl|]. split; [done|].
      split; [|done]. intros p d. split; [intros H; split; [done|done]|by intros [H _]]. }
  rewrite ob_end_unfold, Hw, Hm. cbn [negb]. rewrite E2. cbn [andThen sops_run]. unfold store_inventory. rewrite (er_wr _ _ X2), Hw.
  destruct (Hs (inv_alg (ob_inv o)) (e_json E (ob_inv o2))) as [dg Hdg]; [by left|]. rewrite (er_alg _ _ X2), Hdg. cbn [andThen].
  eexists. split; [done|]. change (ob_inv (emit ?l o2)) with (ob_inv o2). split; [done|]. split; [done|]. split; [done|]. split; [done|].
  intros k r. unfold now. unfold emit. cbn [ob_trace]. rewrite T2, apply_evs_app, app_nil_l, apply_evs_app, !apply_write.
  assert (inv_head (ob_inv o2) = version_name (inv_padding (ob_inv o)) (n + 1)) as ->.
  { rewrite (er_head _ _ X2), (proj1 (g_contig _ _ _ _ (kp_good _ _ _ _ _ _ Hk))). by rewrite decide_False by lia. }
  apply lookup_two; apply cpath_vfile; [done|]. apply sidecar_slash, (kp_alg _ _ _ _ _ _ Hk).
Qed.
Lemma close_ok E s n orc o :
  settled E s n o →
  ∃ o4, ob_close E orc o = (o4, SOk) ∧ ob_inv o4 = ob_inv o ∧ ∀ k r, now s o4 !! cpath (ob_inv o) k r = now s o !! cpath (ob_inv o) k r.
Proof.
  intros ((fam & Hk & _) & Hs & Hw & Hm & _). unfold ob_close. rewrite Hw, Hm. cbn [negb]. rewrite clean_ob by done. cbn [andThen].
  unfold store_inventory. rewrite Hw. destruct (Hs (inv_alg (ob_inv o)) (e_json E (ob_inv o))) as [dg Hdg]; [by left|]. rewrite Hdg. cbn [andThen].
  unfold store_extensions. eexists. split; [done|]. split; [done|]. intros k r. unfold now, emit. cbn [ob_trace].
  rewrite !apply_evs_app. change (flat_map _ (e_ext_files E)) with (ext_events E). rewrite apply_evs_other.
  - change (apply_evs [] ?x) with x. rewrite !apply_write. apply lookup_two; apply (slash_ne _ _ (cpath_slash _ _ _)); [done|].
    apply sidecar_slash, (kp_alg _ _ _ _ _ _ Hk).
  - eapply Forall_impl; [apply ext_events_below|]. intros e Hb He. cbv beta in Hb. rewrite He in Hb. by apply (cpath_not_below _ _ _ "extensions") in Hb; [|left].
Qed.

(** What the ingest leaves behind. *)
Record outcome (E : env) (s : storage) (i : inventory) (folders : list (string * node)) (echo : bool) (s' : storage) (i' : inventory) : Prop :=
Outcome {
  oc_complete : complete E s i s' i';
  oc_alg : inv_alg i' = inv_alg i;
  oc_pad : inv_padding i' = inv_padding i;
  oc_current : ∀ np d, current i' np d ↔ brings E i folders np d ∨
    (∀ d', ¬ brings E i folders np d') ∧ current i np d ∧
    (echo = true → ∀ b, e_state_path E "." "" = Some b → has_prefix (base_of b) np = false);
  oc_unique : ∀ ver v, inv_versions i' !! ver = Some v → unique_paths (v_state v);
  oc_first : ∀ d c cs, inv_manifest i !! d = Some (c :: cs) → ∃ cs', inv_manifest i' !! d = Some (c :: cs');
  oc_man : ∀ c d, lists (inv_manifest i') c d → lists (inv_manifest i) c d ∧ s' !! c = s !! c ∨
    ∃ a p x, offered folders a p x ∧ e_hash E (inv_alg i) x = Some d ∧ s' !! c = Some x;
  oc_loads : ∀ P parse, json_ok P (e_json E) parse → P i' →
    ∃ i2, load_inventory (e_hash E) parse s' "" = LInv i2 [] ∧ same_record i' i2
}.
Lemma ingest_outcome E s i n fam orcs orc1 orc2 r folders :
  hex_hash (e_hash E) → kept E s i n n fam → supported E i → (∀ ver v, inv_versions i !! ver = Some v → unique_paths (v_state v)) →
  (∀ j k, oracle_ok (orcs j k)) → oracle_ok orc1 → (rq_echo r = true → is_Some (e_state_path E "." "")) →
  placed E folders → addressed E (rq_dedup r) i folders → changes E i folders →
  (∀ a t, (a, t) ∈ folders → good_folder t) → NoDup (fst <$> folders) →
  ∃ o', ingest E orcs orc1 orc2 r (given folders) (HDone []) (open_object i) = (o', SOk) ∧
    outcome E s i folders (rq_echo r) (apply_evs (ob_trace o') s) (ob_inv o') ∧
    inv_head (ob_inv o') = version_name (inv_padding i) (n + 1).
Proof.
  intros Hhex Hk Hsup Hu Horcs Horc Hecho Hpl Had Hch Hgood Hnd.
  destruct (start_copied E s i n fam (rq_now r) (rq_msg r) (rq_name r) (rq_addr r) (rq_echo r) Hk Hsup Hu) as (o1 & Hst & Hcp).
  unfold ingest. rewrite Hst. cbn [andThen].
  destruct (folders_progress E Hhex s i n fam Hk Hsup folders (rq_dedup r) (rq_echo r) o1 Hcp Hpl Had Hgood orcs folders Horcs) with (j := 0) (L := @nil file) (o := o1)
    as (o2 & L & Hf & Hp & HL); auto.
  { by eapply progress_start. }
  { intros a p x Hin. by apply elem_of_nil in Hin. }
  rewrite Hf. cbn [andThen].
  assert (∀ a p x, (a, p, x) ∈ L ↔ offered folders a p x) as HL'.
  { intros a p x. rewrite HL. split; [intros [Hin|?]; [by apply elem_of_nil in Hin|done]|by right]. }
  clear HL. destruct Hch as (np0 & d0 & (a0 & p0 & x0 & Ho0 & Hnp0 & Hd0) & Hnc0).
  assert (inv_modified (ob_inv o2) = true) as Hm2.
  { apply (pg_mod _ _ _ _ _ _ _ _ _ Hp a0 p0 x0 np0 d0); auto. by apply HL'. }
  pose proof (pg_working _ _ _ _ _ _ _ _ _ Hp) as Hwk.
  assert (∃ b, rq_echo r = true → e_state_path E "." "" = Some b) as [b Hb].
  { destruct (rq_echo r); [|by exists ""]. destruct Hecho as [b Hb]; [done|]. by exists b. }
  pose proof (pg_echo _ _ _ _ _ _ _ _ _ Hp) as He2.
  destruct (end_shape E s n orc1 o2 b Hwk Hm2 Horc) as (o3 & Hend & Hx3 & Hman3 & Hcur3 & H93 & Hfr3); [by rewrite He2|].
  rewrite Hend. cbn [andThen].
  assert (guarded_end E (proper E) (λ _, True) orc1 (HDone []) o2) as Hg.
  { cbn [guarded_end]. split; [done|]. destruct (if ob_echo o2 then _ else _) as [o5 []]; cbn [after_ok]; [|done..]. split; [done|].
    cbn [sops_run after_ok]. by destruct (store_inventory E true false o5) as [o6 []]. }
  destruct (end_settled E s Hhex n orc1 (HDone []) o2 o3 Hend Hg Hwk Hm2) as [n3 Hset].
  destruct (close_ok E s n3 orc2 o3 Hset) as (o4 & Hcl & Hi4 & Hfr4). exists o4. split; [done|].
  assert (complete E s i (apply_evs (ob_trace o4) s) (ob_inv o4)) as Hcomp.
  { refine (Complete _ _ _ _ _ o3 orc2 o4 _ Hcl eq_refl eq_refl). apply updates_one.
    exact (Update E _ _ _ _ _ orc1 (HDone []) (open_object i) o1 o2 o3 Hst (pg_calls _ _ _ _ _ _ _ _ _ Hp) Hm2 Hg Hend). }
  pose proof (pg_ext _ _ _ _ _ _ _ _ _ Hp) as Hx2.
  assert (inv_alg (ob_inv o4) = inv_alg i) as Halg by (rewrite Hi4, (er_alg _ _ Hx3), (er_alg _ _ Hx2); apply Hcp).
  assert (∀ k q, now s o4 !! cpath i k q = now s o2 !! cpath i k q) as Hfr.
  { intros k q. rewrite <- (cpath_same i (ob_inv o3) k q), Hfr4, (cpath_same (ob_inv o2) (ob_inv o3) k q), Hfr3; [done|..].
    - apply (er_pad _ _ Hx3).
    - apply (er_cdir _ _ Hx3).
    - rewrite (er_pad _ _ Hx3), (er_pad _ _ Hx2). apply Hcp.
    - rewrite (er_cdir _ _ Hx3), (er_cdir _ _ Hx2). apply Hcp. }
  assert (∀ x, ∃ d, e_hash E (inv_alg i) x = Some d) as Hh by (intros x; apply Hsup; by left).
  assert (∀ np d, current (ob_inv o2) np d ↔ brings E i folders np d ∨ (∀ d', ¬ brings E i folders np d') ∧ current i np d) as Hcur2.
  { intros np d. destruct (is_done E L np) as [(a & p & x & Hin & Hnp)|Hno].
    - destruct (Hh x) as [e He]. destruct (pg_done _ _ _ _ _ _ _ _ _ Hp a p x np e Hin Hnp He) as [_ Hocc].
      assert (brings E i folders np e) as Hbr by (exists a, p, x; split; [by apply HL'|done]).
      rewrite <- occ_current, Hocc. destruct (decide (d = e)) as [->|Hne].
      + split; [by left|lia].
      + split; [lia|]. intros [(a' & p' & x' & Ho' & Hnp' & Hd')|[Hn _]]; [|by apply Hn in Hbr]. exfalso. apply Hne.
        apply HL' in Hin. destruct (pl_state _ _ Hpl _ _ _ _ _ _ _ Hin Ho' Hnp Hnp') as [<- <-].
        destruct Hin as (t & Ht & Hx), Ho' as (t' & Ht' & Hx'). assert (t' = t) as -> by exact (same_entry _ _ _ _ Hnd Ht Ht').
        assert (x' = x) as -> by exact (has_file_unique t p _ _ (Hgood _ _ Ht) Hx' Hx). congruence.
    - assert (∀ d', ¬ brings E i folders np d') as Hnb.
      { intros d' (a & p & x & Ho & Hnp & _). apply HL' in Ho. by apply (Hno a p x Ho). }
      rewrite <- occ_current, (pg_rest _ _ _ _ _ _ _ _ _ Hp np Hno), occ_current, (cp_current _ _ _ _ _ _ Hcp). split; [by right|].
      intros [Hb'|[_ H]]; [by apply Hnb in Hb'|done]. }
  split; [|rewrite Hi4, (er_head _ _ Hx3), (er_head _ _ Hx2); apply Hcp].
  split; try done.
  - rewrite Hi4, (er_pad _ _ Hx3), (er_pad _ _ Hx2). apply Hcp.
  - intros np d. rewrite Hi4, Hcur3, Hcur2, He2. split.
    + intros [[Hbr|[Hn Hc]] Hd]; [by left|]. right. split; [done|]. split; [done|]. intros Het b' Hb'. rewrite (Hb Het) in Hb'. injection Hb' as <-.
      destruct (has_prefix (base_of b) np) eqn:Hpre; [|done]. exfalso. specialize (Hd Het eq_refl).
      destruct (pg_upd _ _ _ _ _ _ _ _ _ Hp np Hd) as (a & p & x & Hin & Hnp). destruct (Hh x) as [e He]. apply (Hn e). exists a, p, x.
      split; [by apply HL'|done].
    + intros [(a & p & x & Ho & Hnp & Hd)|(Hn & Hc & Hd)].
      * split; [left; by exists a, p, x|]. intros _ _. apply HL' in Ho. apply (pg_done _ _ _ _ _ _ _ _ _ Hp a p x np d Ho Hnp Hd).
      * split; [by right|]. intros Het Hpre. rewrite (Hd Het b (Hb Het)) in Hpre. done.
  - rewrite Hi4. destruct H93 as (m & _ & _ & _ & H); [|done].
    by apply (progress_09 E Hhex s i n Hsup folders (rq_echo r) o1 Hcp L).
  - intros d c cs Hm. rewrite Hi4, Hman3. destruct (er_man _ _ Hx2 d (c :: cs)) as [ext Hext]; [by rewrite (cp_man _ _ _ _ _ _ Hcp)|].
    by exists (cs ++ ext).
  - intros c d. rewrite Hi4, Hman3. intros Hl. change (apply_evs (ob_trace o4) s) with (now s o4).
    destruct (pg_man _ _ _ _ _ _ _ _ _ Hp c d Hl) as [Hold|(a & p & x & m & Hin & Hm & -> & Hd & Hx)].
    + left. split; [done|]. destruct (g_paths _ _ _ _ (kp_good _ _ _ _ _ _ Hk) _ _ Hold) as (k & q & Hkn & _ & ->). rewrite Hfr.
      apply (pg_frame _ _ _ _ _ _ _ _ _ Hp). intros r' Heq. apply cpath_inj in Heq. lia.
    + right. exists a, p, x. split; [by apply HL'|]. split; [done|]. by rewrite Hfr.
  - intros P parse Hj HP. destruct Hset as ((fam3 & Hk3 & _) & _ & Hw3 & Hm3 & _).
    apply (close_loads E P parse orc2 o3 o4 s Hhex Hj (kp_alg _ _ _ _ _ _ Hk3) Hw3 Hm3 Hcl). by rewrite <- Hi4.
Qed.
