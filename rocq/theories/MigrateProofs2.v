(** One content is converted. *)
From Coq Require Import Ascii.
From stdpp Require Import base list strings gmap.
From Coq Require Import ZArith Lia.
From Verif Require Import GoStr PathModel InventoryModel InventorySpec ObjectModel ObjectSpec CrashSpec PublishSpec InventoryProofs ObjectProofs
  ClaimsInventory2 CrashProofs AreaModel ValidateModel JsonlModel MigrateModel MigrateSpec MigrateProofs.

Lemma already_migrated_spec m cs : already_migrated m cs = true ↔ ∃ h (r : gmap string string), m !! h = Some r ∧ is_Some (r !! cs).
Proof.
  unfold already_migrated. rewrite existsb_exists. split.
  - intros ([h r] & Hin & Hb%bool_decide_eq_true). apply elem_of_list_In, elem_of_map_to_list in Hin. eauto.
  - intros (h & r & Hm & Hr). exists (h, r). split; [by apply elem_of_list_In, elem_of_map_to_list|]. by apply bool_decide_eq_true.
Qed.
Lemma mark_other h c v m cs : cs ≠ c → already_migrated (mark h c v m) cs = already_migrated m cs.
Proof.
  intros Hne. apply eq_true_iff_eq. rewrite !already_migrated_spec. unfold mark. split.
  - intros (k & r & Hk & Hr). destruct (decide (k = h)) as [->|Hkh].
    + rewrite lookup_insert in Hk. injection Hk as <-. rewrite lookup_insert_ne in Hr by done.
      destruct (m !! h) as [r|] eqn:Hm; cbn [default] in Hr; [eauto|]. rewrite lookup_empty in Hr. by destruct Hr.
    + rewrite lookup_insert_ne in Hk by done. eauto.
  - intros (k & r & Hk & Hr). destruct (decide (k = h)) as [->|Hkh].
    + exists h, (<[c := v]> r). rewrite lookup_insert, Hk. split; [done|]. by rewrite lookup_insert_ne.
    + exists k, r. by rewrite lookup_insert_ne.
Qed.
Lemma mark_self h c v m : already_migrated (mark h c v m) c = true.
Proof. apply already_migrated_spec. unfold mark. eexists h, _. rewrite lookup_insert. split; [done|]. rewrite lookup_insert. eauto. Qed.
Lemma mark_keeps h c v m cs : already_migrated m cs = true → already_migrated (mark h c v m) cs = true.
Proof. intros H. destruct (decide (cs = c)) as [->|Hne]; [apply mark_self|by rewrite mark_other]. Qed.

Lemma planned_iff i n D D' cs f p : (∀ cs f, D cs f ↔ D' cs f) → planned i n D cs f p ↔ planned i n D' cs f p.
Proof. intros H. unfold planned. by rewrite H. Qed.
Lemma migrated_iff E S i n D D' np d : (∀ cs f, D cs f ↔ D' cs f) → migrated E S i n D np d ↔ migrated E S i n D' np d.
Proof.
  intros H. pose proof (planned_iff i n D D') as Hp. unfold migrated, made, moved, given_up.
  setoid_rewrite (λ cs f p, Hp cs f p H). done.
Qed.

Section job.
  Context (E : env) (S : surroundings) (i : inventory) (n : N) (metas : string → Prop) (T : string → mfun → Prop).
  Context (Hau : automated i n) (Hma : migratable E S i n metas T) (Hfun : ∀ cs f f', T cs f → T cs f' → f = f').
  Context (Hhex : hex_hash (e_hash E)) (Hne : nonempty_hash E) (Hsup : supported E i).

  Lemma earlier_not_head : earlier i n ≠ inv_head i.
  Proof using Hau.
    destruct Hau as [[Hh _] Hn _ _ _ _]. rewrite decide_False in Hh by lia. rewrite Hh. unfold earlier. intros Heq%version_name_inj. lia.
  Qed.
  Lemma earlier_some : ∃ v, inv_versions i !! earlier i n = Some v.
  Proof using Hau.
    destruct Hau as [[_ Hv] Hn _ _ _ _]. apply (proj2 (Hv (earlier i n))). exists (n - 1)%N. split; [lia|done].
  Qed.
  Lemma inv09_start : inv09 i.
  Proof using Hau.
    destruct Hau as [[Hh Hv] Hn Hp Hu Hw _]. exists n. split; [|split; [lia|done]]. split; [done|]. split.
    - intros _. rewrite decide_False in Hh by lia. rewrite Hh. apply Hv. exists n. split; [lia|done].
    - intros ver Hs. by apply Hv.
  Qed.
  Lemma planned_unique cs cs' f f' p : planned i n T cs f p → planned i n T cs' f' p → cs = cs'.
  Proof using Hau.
    intros [_ (v & Hv & L1)] [_ (v' & Hv' & L2)]. rewrite Hv in Hv'. injection Hv' as <-.
    destruct (au_unique _ _ Hau _ _ Hv) as [Hu _]. eauto.
  Qed.
  Lemma new_place_unique cs f e m e' m' : new_place E S i n cs f e m → new_place E S i n cs f e' m' → e = e' ∧ m = m'.
  Proof. intros (p & mm & H1 & H2 & H3 & ->) (p' & mm' & H1' & H2' & H3' & ->). rewrite H1 in H1'. injection H1' as <-. rewrite H2 in H2'. injection H2' as <-. rewrite H3 in H3'. by injection H3' as <-. Qed.

  (** Everything but the originals was done for the contents in [D]. *)
  Record progress (s : storage) (o0 : object) (D : string → mfun → Prop) (o : object) : Prop := Progress {
    pr_inv : inv09 (ob_inv o);
    pr_ext : ext_rel i (ob_inv o);
    pr_state : ∀ np d, current (ob_inv o) np d ↔ migrated E S i n D np d;
    pr_stored : ∀ cs f y e m, D cs f → product E S i n cs f y → new_place E S i n cs f e m →
      ∃ d, e_hash E (inv_alg i) y = Some d ∧ lists (inv_manifest (ob_inv o)) m d ∧ now s o !! m = Some y;
    pr_rest : ∀ q, (∀ cs f y e m, D cs f → product E S i n cs f y → new_place E S i n cs f e m → q ≠ m) → now s o !! q = now s o0 !! q
  }.

  Lemma dest_name_conv cs f p b : T cs f → (b = true → metas cs) → dest_name f p (inv_head i) b = converted_name f i p.
  Proof using Hma.
    intros HT Hb. unfold dest_name, converted_name. destruct (mf_strategy f) eqn:Hs; [done..|]. destruct b; [|done].
    exfalso. by apply (ma_first _ _ _ _ _ _ Hma cs f HT Hs), Hb.
  Qed.
  Lemma dest_names_conv cs f srcs b : T cs f → (b = true → metas cs) → (∀ p, p ∈ srcs → converted_name f i p ≠ "") →
    dest_names f srcs (inv_head i) b = Some (converted_name f i <$> srcs).
  Proof using Hma.
    intros HT Hb. induction srcs as [|p srcs IH]; intros Hp; [done|]. cbn [dest_names]. rewrite (dest_name_conv cs f p b HT Hb).
    rewrite decide_False by (apply Hp; by left). rewrite IH by (intros q Hq; apply Hp; by right). done.
  Qed.
  Lemma targets_built cs f srcs : (∀ p, p ∈ srcs → planned i n T cs f p) →
    ∃ exts, extract_names (ms_extract S) (converted_name f i <$> srcs) = Some exts ∧ state_paths E exts "content" = Some (converted_name f i <$> srcs) ∧
      (∀ e, head exts = Some e → ∃ p mm, head srcs = Some p ∧ ms_extract S (converted_name f i p) = XPath e ∧ e_manifest_path E e "content" = Some mm) ∧
      (srcs ≠ [] → exts ≠ []).
  Proof using Hma.
    induction srcs as [|p srcs IH]; intros Hp; [by exists []|].
    destruct IH as (exts & H1 & H2 & _); [intros q Hq; apply Hp; by right|].
    destruct (ma_target _ _ _ _ _ _ Hma cs f p (Hp p ltac:(by left))) as (_ & e & m & He & Hs & Hm).
    exists (e :: exts). cbn [fmap list_fmap extract_names state_paths]. change (list_fmap _ _ ?g srcs) with (g <$> srcs). rewrite He, H1, Hs, H2.
    split; [done|]. split; [done|]. split; [|done]. intros e' [= <-]. by exists p, m.
  Qed.

  Lemma job_runs D s o0 o cs f b :
    progress s o0 D o → T cs f → (b = true → metas cs) →
    ∃ p0 ps x srcs exts m e0 v, job E S (earlier i n) b (ob_inv o) cs f = JMarked p0 (JRun srcs (converted_name f i <$> srcs) exts p0 m x) ∧
      inv_manifest i !! cs = Some (p0 :: ps) ∧ ms_read S p0 = Some x ∧ inv_versions i !! earlier i n = Some v ∧ v_state v !! cs = Some srcs ∧ srcs ≠ [] ∧
      build_names E (ob_inv o) exts "content" = Some (converted_name f i <$> srcs, m) ∧ head exts = Some e0 ∧ new_place E S i n cs f e0 m ∧
      (∀ y, product E S i n cs f y ↔ mf_run f p0 e0 x = Some y) ∧ head (default [] (inv_manifest (ob_inv o) !! cs)) = Some p0.
  Proof using Hau Hma.
    intros Hpr HT Hb. pose proof (pr_ext _ _ _ _ Hpr) as He.
    destruct (ma_source _ _ _ _ _ _ Hma cs f HT) as (Hcs & (p1 & Hp1) & p0 & ps & x & Hman & Hx).
    destruct Hp1 as (v & Hv & srcs & Hsrcs & Hp1).
    assert (∀ p, p ∈ srcs → planned i n T cs f p) as Hpl. { intros p Hp. split; [done|]. exists v. split; [done|]. by exists srcs. }
    destruct (targets_built cs f srcs Hpl) as (exts & X1 & X2 & X3 & X4).
    assert (srcs ≠ []) as Hsn by (intros ->; by apply elem_of_nil in Hp1). specialize (X4 Hsn).
    destruct exts as [|e0 es]; [done|]. destruct (X3 e0 eq_refl) as (p & mm & Hp & Hpe & Hmm).
    destruct (er_man _ _ He _ _ Hman) as [ext Hman'].
    assert (get_state_files (ob_inv o) (earlier i n) cs = Some srcs) as Hg.
    { unfold get_state_files. rewrite decide_False.
      - rewrite (er_vers _ _ He) by apply earlier_not_head. by rewrite Hv.
      - unfold earlier. rewrite (pad_name _ _ (au_pad _ _ Hau)). intros [H|H]; [by apply version_name_nonempty in H|].
        unfold version_name in H. rewrite decide_True in H by lia. by destruct (dec_of_N (n - 1)). }
    set (m := manifest_name i mm).
    assert (manifest_name (ob_inv o) mm = m) as Hmn.
    { unfold m, manifest_name, content_dir. by rewrite (er_head _ _ He), (er_cdir _ _ He). }
    assert (new_place E S i n cs f e0 m) as Hnp.
    { exists p, mm. split; [|done]. unfold first_name. rewrite Hv, Hsrcs. destruct srcs; [done|]. by injection Hp as ->. }
    exists p0, ps, x, srcs, (e0 :: es), m, e0, v. split.
    { unfold job. rewrite Hman'. cbn [app]. rewrite Hg, (er_head _ _ He). rewrite (dest_names_conv cs f srcs b HT Hb).
      - rewrite Hx. rewrite X1, Hmm, Hmn. done.
      - intros q Hq. by apply (ma_target _ _ _ _ _ _ Hma cs f q (Hpl q Hq)). }
    split; [done|]. split; [done|]. split; [done|]. split; [done|]. split; [done|]. split.
    { unfold build_names. rewrite X2, Hmm, Hmn. done. }
    split; [done|]. split; [done|]. split.
    - intros y. split.
      + intros (p0' & ps' & x' & e' & m' & H1 & H2 & H3 & H4). rewrite Hman in H1. injection H1 as <- <-. rewrite Hx in H2. injection H2 as <-.
        by destruct (new_place_unique _ _ _ _ _ _ Hnp H3) as [<- <-].
      + intros Hy. by exists p0, ps, x, e0, m.
    - rewrite Hman'. done.
  Qed.
End job.
