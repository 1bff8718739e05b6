(** Proofs about handles that are open at the same time. *)
From Coq Require Import Ascii.
From stdpp Require Import base list strings gmap.
From Coq Require Import ZArith Lia.
From Verif Require Import GoStr PathModel PathProofs InventoryModel InventorySpec InventoryProofs ObjectModel ObjectSpec ObjectProofs CrashSpec CrashProofs LoadModel LoadProofs
  SessionProofs PublishSpec PublishProofs2 PublishProofs3 PublishProofs4 IngestProofs6 ConcurSpec.

Lemma merged_forall (Q : ev → Prop) ls m rest : merged ls m rest → Forall (Forall Q) ls → Forall Q m.
Proof.
  induction 1 as [|ls k e l m rest Hk _ IH]; intros H; [constructor|].
  pose proof (Forall_lookup_1 _ _ _ _ H Hk) as Hel. apply stdpp.list.Forall_cons in Hel as [He Hl]. constructor; [done|]. apply IH. by apply Forall_insert.
Qed.

(** Where a handle writes. *)
Lemma trace_where E n pad alg h : opened_on E n pad alg h →
  Forall (λ e, ev_path e = "inventory.json" ∨ ev_path e = sidecar_name alg ∨ below "extensions" (ev_path e) ∨
               ∃ k, (n < k)%N ∧ below (version_name pad k) (ev_path e)) (trace_of E h).
Proof.
  intros [(k & Hk & Hn) <- <- Hc Hcl]. destruct h as [i ops]. cbn [fst snd] in *. unfold trace_of. cbn [fst snd]. apply head_number_is in Hn.
  set (Q := λ q, root_file i q ∨ in_new_version i k q).
  pose proof (sess_run E i k Q Hc (λ p H, or_intror H) ops (open_object i) (λ p H, or_introl H) Hcl (sess_open i k _ Hn)) as Hs.
  destruct Hs as (_ & _ & _ & _ & _ & Ht). eapply stdpp.list.Forall_impl; [exact Ht|]. cbv beta. intros e [[H|[H|H]]|(k' & Hk' & H)]; auto.
  right. right. right. exists k'. split; [lia|done].
Qed.
Lemma trace_not_closed E n pad alg h : opened_on E n pad alg h → not_closed h →
  Forall (λ e, ∃ k, (n < k)%N ∧ below (version_name pad k) (ev_path e)) (trace_of E h).
Proof.
  intros [(k & Hk & Hn) <- <- Hc Hcl] Hno. destruct h as [i ops]. cbn [fst snd] in *. unfold trace_of. cbn [fst snd]. apply head_number_is in Hn.
  pose proof (sess_run_noclose E i k (λ q, in_new_version i k q) Hc (λ p H, H) ops (open_object i) Hno Hcl (sess_open i k _ Hn)) as Hs.
  destruct Hs as (_ & _ & _ & _ & _ & Ht). eapply stdpp.list.Forall_impl; [exact Ht|]. cbv beta. intros e (k' & Hk' & H). exists k'. split; [lia|done].
Qed.

Lemma where_earlier n pad alg k p q : str_mem slash alg = false → (1 <= k <= n)%N → below (version_name pad k) p →
  q = "inventory.json" ∨ q = sidecar_name alg ∨ below "extensions" q ∨ (∃ k, (n < k)%N ∧ below (version_name pad k) q) → q ≠ p.
Proof.
  intros Ha Hk Hb Hq ->. destruct Hq as [->|[->|[Hx|(k' & Hk' & Hx)]]].
  - by apply not_below in Hb.
  - apply not_below in Hb; [done|]. unfold sidecar_name. by rewrite str_mem_app, Ha.
  - pose proof (below_inj _ "extensions" _ (version_name_no_slash _ _) eq_refl Hb Hx) as Heq. revert Heq. unfold version_name.
    destruct (decide _); done.
  - pose proof (below_inj _ _ _ (version_name_no_slash _ _) (version_name_no_slash _ _) Hb Hx) as Heq.
    apply version_name_inj in Heq. lia.
Qed.
Lemma versions_kept E n pad alg hs m rest s s' k p : str_mem slash alg = false →
  Forall (opened_on E n pad alg) hs → merged (trace_of E <$> hs) m rest → crash s m s' →
  (1 <= k <= n)%N → below (version_name pad k) p → s' !! p = s !! p.
Proof.
  intros Ha Hh Hm Hc Hk Hb. eapply crash_other; [exact Hc|].
  eapply merged_forall; [exact Hm|]. rewrite Forall_fmap. eapply stdpp.list.Forall_impl; [exact Hh|]. intros h Ho. cbn [compose].
  eapply stdpp.list.Forall_impl; [by apply (trace_where E n pad alg h)|]. cbv beta. intros e He. by eapply where_earlier.
Qed.
Lemma root_kept E n pad alg hs m rest s s' p :
  Forall (λ h, opened_on E n pad alg h ∧ not_closed h) hs → merged (trace_of E <$> hs) m rest → crash s m s' →
  str_mem slash p = false → s' !! p = s !! p.
Proof.
  intros Hh Hm Hc Hp. eapply crash_other; [exact Hc|].
  eapply merged_forall; [exact Hm|]. rewrite Forall_fmap. eapply stdpp.list.Forall_impl; [exact Hh|]. intros h [Ho Hno]. cbn [compose].
  eapply stdpp.list.Forall_impl; [by eapply trace_not_closed|]. cbv beta. intros e (k & _ & Hb) <-. by eapply not_below in Hb.
Qed.

(** ** One handle is closed *)
Lemma apply_ev_local e s1 s2 p : s1 !! p = s2 !! p → apply_ev e s1 !! p = apply_ev e s2 !! p.
Proof.
  intros H. destruct e as [q|q b]; cbn [apply_ev].
  - destruct (decide (q = p)) as [-> |Hne]; [by rewrite !lookup_insert|by rewrite !lookup_insert_ne].
  - destruct (decide (q = p)) as [-> |Hne]; [by rewrite !lookup_insert, H|by rewrite !lookup_insert_ne].
Qed.
Lemma merged_own p k l ls m rest : merged ls m rest → ls !! k = Some l → rest !! k = Some [] →
  (∀ j l', j ≠ k → ls !! j = Some l' → avoids p l') → ∀ s1 s2, s1 !! p = s2 !! p → apply_evs m s1 !! p = apply_evs l s2 !! p.
Proof.
  intros Hm. revert l. induction Hm as [ls|ls k' e l' m rest Hk' _ IH]; intros l Hl Hr Hav s1 s2 Hs.
  - rewrite Hl in Hr. by injection Hr as ->.
  - change (apply_evs (e :: m) s1) with (apply_evs m (apply_ev e s1)). destruct (decide (k' = k)) as [-> |Hne].
    + rewrite Hl in Hk'. injection Hk' as ->. change (apply_evs (e :: l') s2) with (apply_evs l' (apply_ev e s2)).
      apply IH; [|done| |by apply apply_ev_local].
      * apply list_lookup_insert. by apply lookup_lt_Some in Hl.
      * intros j lj Hj Hlj. rewrite list_lookup_insert_ne in Hlj by done. by eapply Hav.
    + pose proof (Hav _ _ Hne Hk') as Hae. apply stdpp.list.Forall_cons in Hae as [He Hl']. apply IH; [|done| |].
      * by rewrite list_lookup_insert_ne.
      * intros j lj Hj Hlj. destruct (decide (j = k')) as [-> |Hjk].
        -- rewrite list_lookup_insert in Hlj by (by apply lookup_lt_Some in Hk'). injection Hlj as <-. exact Hl'.
        -- rewrite list_lookup_insert_ne in Hlj by done. by eapply Hav.
      * by rewrite apply_ev_other.
Qed.

Lemma closed_loads E P parse s i n fam : hex_hash (e_hash E) → json_ok P (e_json E) parse → closed E s i n fam → P i →
  ∃ i', load_inventory (e_hash E) parse s "" = LInv i' [] ∧ same_record i i'.
Proof.
  intros Hhex Hj Hc HP. destruct (jo_decode _ _ _ Hj i HP) as (i' & Hp & Hr). exists i'. split; [|done].
  unfold load_inventory. cbv zeta. change ("" +:+ "inventory.json") with "inventory.json". rewrite (cl_root _ _ _ _ _ Hc), Hp.
  destruct (cl_side _ _ _ _ _ Hc) as (dg & Hd & Hs). rewrite (sr_alg _ _ Hr). change ("inventory.json" +:+ "." +:+ inv_alg i) with (sidecar_name (inv_alg i)).
  rewrite Hs. rewrite sidecar_round_trip by (by eapply Hhex). rewrite Hd. by rewrite decide_True.
Qed.
Lemma one_closes E P parse s i0 i o1 orc o2 hs m rest :
  hex_hash (e_hash E) → json_ok P (e_json E) parse →
  published E P parse s i0 → load_inventory (e_hash E) parse s "" = LInv i [] → supported E i →
  updates E (open_object i) o1 → ob_close E orc o1 = (o2, SOk) → P (ob_inv o2) →
  Forall (λ h, (∃ n pad alg, opened_on E n pad alg h) ∧ not_closed h ∧ ∀ p d, lists (inv_manifest (ob_inv o2)) p d → avoids p (trace_of E h)) hs →
  merged (ob_trace o2 :: (trace_of E <$> hs)) m rest → rest !! 0 = Some [] →
  ∃ i', load_inventory (e_hash E) parse (apply_evs m s) "" = LInv i' [] ∧ same_record (ob_inv o2) i' ∧ describes (e_hash E) i' (apply_evs m s).
Proof.
  intros Hhex Hj Hpub Hl Hsup Hu Hcl HP Hhs Hm Hr.
  assert (complete E s i (apply_evs (ob_trace o2) s) (ob_inv o2)) as Hcomp by (exact (Complete _ _ _ _ _ o1 orc o2 Hu Hcl eq_refl eq_refl)).
  destruct (loaded_kept E P parse s i0 i Hhex Hj Hpub Hl) as (n & fam & _ & Hk).
  destruct (complete_closed E s i _ _ n fam Hhex Hk Hsup Hcomp) as (n' & fam' & Hc').
  assert (∀ p, (∀ h, h ∈ hs → avoids p (trace_of E h)) → apply_evs m s !! p = apply_evs (ob_trace o2) s !! p) as Hown.
  { intros p Hp. eapply (merged_own p 0); [exact Hm|done|exact Hr| |done]. intros [|j] l' Hj' Hl'; [done|]. cbn [lookup list_lookup] in Hl'.
    apply list_lookup_fmap_Some in Hl' as (h & Hlh & ->). apply Hp. by eapply elem_of_list_lookup_2. }
  rewrite stdpp.list.Forall_forall in Hhs.
  assert (∀ p, str_mem slash p = false → apply_evs m s !! p = apply_evs (ob_trace o2) s !! p) as Hroot.
  { intros p Hp. apply Hown. intros h Hh. destruct (Hhs h Hh) as ((n1 & pad & alg & Ho) & Hno & _).
    eapply stdpp.list.Forall_impl; [by eapply trace_not_closed|]. cbv beta. intros e (q & _ & Hb) <-. by eapply not_below in Hb. }
  destruct (closed_loads E P parse _ _ _ _ Hhex Hj Hc' HP) as (i' & Hl' & Hr'). exists i'.
  pose proof (cl_kept _ _ _ _ _ Hc') as Hk'. split; [|split; [done|]].
  - rewrite <- Hl'. unfold load_inventory. cbv zeta. change ("" +:+ "inventory.json") with "inventory.json". rewrite (Hroot "inventory.json") by done.
    rewrite (cl_root _ _ _ _ _ Hc'). destruct (parse _) as [j|] eqn:Hpj; [|done].
    assert (j = i') as ->.
    { unfold load_inventory in Hl'. cbv zeta in Hl'. change ("" +:+ "inventory.json") with "inventory.json" in Hl'. rewrite (cl_root _ _ _ _ _ Hc'), Hpj in Hl'.
      repeat (case_match; try done; try congruence). }
    rewrite (Hroot ("inventory.json" +:+ "." +:+ inv_alg i')); [done|]. change ("inventory.json" +:+ "." +:+ inv_alg i') with (sidecar_name (inv_alg i')).
    unfold sidecar_name. rewrite str_mem_app, (sr_alg _ _ Hr'). by rewrite (kp_alg _ _ _ _ _ _ Hk').
  - intros d p Hd. rewrite (sr_man _ _ Hr') in Hd. rewrite (sr_alg _ _ Hr').
    destruct (g_content _ _ _ _ (kp_good _ _ _ _ _ _ Hk') d p Hd) as (data & Hs & Hh). exists data. split; [|done]. rewrite <- Hs. apply Hown.
    intros h Hin. destruct (Hhs h Hin) as (_ & _ & Hav). by eapply Hav.
Qed.
