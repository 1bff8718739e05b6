(** The whole automated version. *)
From Coq Require Import Ascii.
From stdpp Require Import base list strings gmap.
From Coq Require Import ZArith Lia.
From Verif Require Import GoStr PathModel InventoryModel InventorySpec ObjectModel ObjectSpec CrashSpec PublishSpec InventoryProofs ObjectProofs
  ClaimsInventory2 CrashProofs LoadModel LoadProofs HookProofs AreaModel ValidateModel ValidateSpec JsonlModel JsonlSpec MigrateModel MigrateSpec MigrateProofs MigrateProofs2 MigrateProofs3.

Section loop.
  Context (E : env) (S : surroundings) (i : inventory) (n : N) (metas : string → Prop) (T : string → mfun → Prop).
  Context (Hau : automated i n) (Hma : migratable E S i n metas T) (Hfun : ∀ cs f f', T cs f → T cs f' → f = f').
  Context (Hhex : hex_hash (e_hash E)) (Hne : nonempty_hash E) (Hsup : supported E i).
  Notation progress := (progress E S i n).

  Lemma loop_ok s o0 orcs ml todo : (∀ k j, oracle_ok (orcs k j)) → (∀ cs, cs ∈ ml → metas cs) →
    ∀ k (D : string → mfun → Prop) mig lines o, progress s o0 D o → (∀ cs f, D cs f → T cs f) →
    NoDup todo.*1 → (∀ cs f, (cs, f) ∈ todo → T cs f ∧ (∀ f', ¬ D cs f') ∧ already_migrated mig cs = false) →
    ∃ o' mig' lines', mi_loop E S orcs k (earlier i n) ml todo mig lines o = (o', mig', lines', SOk) ∧
      progress s o0 (λ cs f, D cs f ∨ (cs, f) ∈ todo) o' ∧
      (∀ line, line ∈ lines' ↔ line ∈ lines ∨ ∃ cs f, (cs, f) ∈ todo ∧ line_of E S i n cs f line ∧ line ∈ lines') ∧
      (∀ cs f, (cs, f) ∈ todo → ∃ line, line ∈ lines' ∧ line_of E S i n cs f line) ∧
      (∀ cs, already_migrated mig cs = true → already_migrated mig' cs = true) ∧
      (∀ cs f, (cs, f) ∈ todo → already_migrated mig' cs = true).
  Proof using Hau Hma Hfun Hhex Hne Hsup.
    intros Ho Hml. induction todo as [|[cs f] todo IH]; intros k D mig lines o Hpr HD Hnd Htodo.
    { exists o, mig, lines. split; [done|]. split.
      - destruct Hpr as [H1 H2 H3 H4 H5]. split; [done|done| | |].
        + intros np d. rewrite H3. apply migrated_iff. intros c g. split; [by left|]. intros [H|H%elem_of_nil]; done.
        + intros c g y e m [Hc|Hc%elem_of_nil]; [by apply H4|done].
        + intros q Hq. apply H5. intros c g y e m Hc. eapply Hq. by left.
      - split; [intros line; split; [by left|]; intros [H|(c & g & H%elem_of_nil & _)]; done|].
        split; [intros c g H; by apply elem_of_nil in H|]. split; [done|]. intros c g H; by apply elem_of_nil in H. }
    cbn [fmap list_fmap fst] in Hnd. apply stdpp.list.NoDup_cons in Hnd as [Hnin Hnd].
    destruct (Htodo cs f ltac:(by left)) as (HT & Hno & Hal).
    cbn [mi_loop]. rewrite Hal.
    assert (bool_decide (cs ∈ ml) = true → metas cs) as Hb by (intros H%bool_decide_eq_true; by apply Hml).
    destruct (job_step E S i n metas T Hau Hma Hfun Hhex Hne Hsup D s o0 o cs f (bool_decide (cs ∈ ml)) (orcs k) (Ho k) Hpr HD HT Hno Hb)
      as (p0 & ps & x & srcs & exts & m & e0 & o1 & err & Hjob & Hman & Hhead & Hnp & Hrun & Herr & Hpr1).
    cbv zeta. rewrite Hjob, Hrun, Hhead. change (default "" (Some p0)) with p0.
    assert (inv_head (ob_inv o) = inv_head i) as -> by apply (er_head _ _ (pr_ext _ _ _ _ _ _ _ _ Hpr)).
    set (line := (m, MRes p0 err (mf_id f))).
    assert (line_of E S i n cs f line) as Hline by (exists e0, m, p0, ps, err; done).
    destruct (IH (k + 1) (also D cs f) (mark (inv_head i) cs p0 mig) (lines ++ [line]) o1 Hpr1) as (o' & mig' & lines' & Heq & Hpr' & L1 & L2 & L3 & L4).
    { intros c g [Hc|[-> ->]]; [by apply HD|done]. }
    { done. }
    { intros c g Hc. destruct (Htodo c g ltac:(by right)) as (K1 & K2 & K3).
      assert (c ≠ cs) as Hcc. { intros ->. apply Hnin. apply elem_of_list_fmap. by exists (cs, g). }
      split; [done|]. split; [intros f' [H|[H _]]; [by apply K2 in H|done]|]. by rewrite mark_other. }
    exists o', mig', lines'. split; [exact Heq|]. split.
    - destruct Hpr' as [H1 H2 H3 H4 H5].
      assert (∀ c g, (also D cs f c g ∨ (c, g) ∈ todo) ↔ (D c g ∨ (c, g) ∈ (cs, f) :: todo)) as Hiff.
      { intros c g. unfold also. rewrite elem_of_cons. split; [intros [[H|[-> ->]]|H]; tauto|]. intros [H|[[= -> ->]|H]]; tauto. }
      split; [done|done| | |].
      + intros np d. rewrite H3. by apply migrated_iff.
      + intros c g y e m' Hc. apply H4. by apply Hiff.
      + intros q Hq. apply H5. intros c g y e m' Hc. eapply Hq. by apply Hiff.
    - assert (∀ l, l ∈ lines' ↔ (l ∈ lines ∨ l = line) ∨ ∃ c g, (c, g) ∈ todo ∧ line_of E S i n c g l ∧ l ∈ lines') as L1'.
      { intros l. rewrite <- elem_of_list_singleton, <- elem_of_app. apply L1. }
      assert (line ∈ lines') as Hin by (apply L1'; left; by right).
      split; [|split; [|split]].
      + intros l. split.
        * intros Hl. apply L1' in Hl as [[Hl| ->]|(c & g & Hc & Hl)]; [by left|right; exists cs, f; split; [by left|done]|]. right. exists c, g. split; [by right|done].
        * intros [Hl|(c & g & _ & _ & Hl)]; [apply L1'; left; by left|done].
      + intros c g [[= -> ->]|Hc]%elem_of_cons; [by exists line|by apply L2].
      + intros c Hc. apply L3. by apply mark_keeps.
      + intros c g [[= -> ->]|Hc]%elem_of_cons; [apply L3, mark_self|by eapply L4].
  Qed.
End loop.

Lemma repack_some Z compress t : codec_ok Z → ∃ b, repack Z compress (z_br Z t) = Some b.
Proof. intros HZ. unfold repack. destruct (HZ t) as [-> _]. destruct (decide _); [eauto|]. destruct (decide _); cbn [fmap option_fmap option_map]; eauto. Qed.

Lemma side_written Z E l J orc b o np m : codec_ok Z → oracle_ok orc → hex_hash (e_hash E) → nonempty_hash E → supported E (ob_inv o) →
  inv09 (ob_inv o) → inv_writeable (ob_inv o) = true → side_file E l J (ob_inv o) np m →
  ∃ o' data, repack Z (js_compress J) (z_br Z b) = Some data ∧ write_jsonl Z E l J orc (z_br Z b) o = (o', SOk) ∧ ext_rel (ob_inv o) (ob_inv o') ∧
    (∀ p e, p ≠ np → current (ob_inv o') p e ↔ current (ob_inv o) p e) ∧ ob_trace o' = ob_trace o ++ write_file m data.
Proof.
  intros HZ Ho Hhex Hne Hsup H Hw Hside. unfold write_jsonl, side_file in *. destruct (repack_some Z (js_compress J) b HZ) as [data ->].
  destruct (write_target l J (inv_head (ob_inv o))) as [files area|p|e]; [| |done].
  2:{ subst p. eexists _, data. split; [done|]. split; [done|]. done. }
  destruct Hside as (f & mm & -> & Hnp & Hmm & ->). cbv iota beta.
  assert (build_names E (ob_inv o) [f] area = Some ([np], manifest_name (ob_inv o) mm)) as Hb.
  { unfold build_names. cbn [state_paths]. by rewrite Hnp, Hmm. }
  pose proof (build_names_nonempty _ _ _ _ _ _ Hb) as Hm. pose proof (ef_ext _ _ _ _ (sop_effect E orc (SAddReader data [f] area) o)) as Hext.
  cbn [sop_step] in Hext. unfold ob_add_reader in *. rewrite Hw, Hb in *.
  destruct (Hsup (inv_alg (ob_inv o)) data (or_introl eq_refl)) as [d Hd]. destruct (Hhex _ _ _ Hd) as [_ Hlow].
  pose proof H as (k & Hh & Hk & Hp & _).
  destruct (AddProofs.add_reader_single E orc data np (manifest_name (ob_inv o) mm) o d k) as (o' & Heq & _ & Hocc & Htr & _); try done.
  { by apply Hk. }
  { by left. }
  { by apply inv09_newest. }
  { by eapply Hne. }
  { intros a Ha. destruct (Hsup a data (or_intror Ha)) as [? ->]. eauto. }
  rewrite Heq in *. exists o', data. split; [done|]. split; [done|]. split; [done|]. split; [|done].
  intros p e Hpn. rewrite <- !AddProofs.occ_current. by rewrite Hocc.
Qed.

Lemma migration_ok Z L E l J S w orc orcs meta s o x n np m :
  let i := ob_inv o in let T cs f := mi_files x !! cs = Some f in
  automated i n → migratable E S i n (λ cs, is_Some (meta !! cs)) T → (∀ cs f, T cs f → already_migrated (mi_migrated x) cs = false) →
  hex_hash (e_hash E) → nonempty_hash E → supported E i → codec_ok Z → vorder_ok w → oracle_ok orc → (∀ k j, oracle_ok (orcs k j)) →
  side_file E l J i np m → (∀ cs f e m', T cs f → new_place E S i n cs f e m' → m' ≠ m) →
  ∃ o' x' lines data, do_new_version Z L E l J S w orc orcs (Some meta) o x = (o', x', SOk) ∧
    ext_rel i (ob_inv o') ∧
    (∀ q d, q ≠ np → current (ob_inv o') q d ↔ migrated E S i n T q d) ∧
    (∀ cs f y e m', T cs f → product E S i n cs f y → new_place E S i n cs f e m' →
       ∃ d, e_hash E (inv_alg i) y = Some d ∧ lists (inv_manifest (ob_inv o')) m' d ∧ now s o' !! m' = Some y) ∧
    (∀ q, q ≠ m → (∀ cs f y e m', T cs f → product E S i n cs f y → new_place E S i n cs f e m' → q ≠ m') → now s o' !! q = now s o !! q) ∧
    mi_files x' = ∅ ∧ mi_done x' = true ∧ (∀ cs f, T cs f → already_migrated (mi_migrated x') cs = true) ∧
    mi_buf x' = <[inv_head i := lines]> (mi_buf x) ∧ repack Z (js_compress J) (z_br Z (text_of L lines)) = Some data ∧ now s o' !! m = Some data ∧
    (∀ line, line ∈ lines → ∃ cs f, T cs f ∧ line_of E S i n cs f line) ∧
    (∀ cs f, T cs f → ∃ line, line ∈ lines ∧ line_of E S i n cs f line).
Proof.
  intros i T Hau Hma Hnew Hhex Hne Hsup HZ Hw Ho Hos Hside Hsm.
  destruct (previous_version orc i n Ho (au_versions _ _ Hau) (au_many _ _ Hau) (au_pad _ _ Hau)) as [r Hprev].
  assert (∀ cs f, (cs, f) ∈ vo w 0 (mi_files x) ↔ T cs f) as Hin. { intros cs f. rewrite (Hw 0). apply elem_of_map_to_list. }
  assert (progress E S i n s o (λ _ _, False) o) as Hpr0.
  { split; [by apply (inv09_start i n)|done| |done|done]. intros q d. unfold migrated, made, moved, given_up, planned. naive_solver. }
  destruct (loop_ok E S i n (λ cs, is_Some (meta !! cs)) T Hau Hma ltac:(unfold T; congruence) Hhex Hne Hsup s o orcs ((map_to_list meta).*1) (vo w 0 (mi_files x)) Hos)
    with (k := 0) (D := λ (_ : string) (_ : mfun), False) (mig := mi_migrated x) (lines := @nil (string * mres)) (o := o)
    as (o1 & mig' & lines & Hloop & Hpr & L1 & L2 & _ & L4).
  { intros cs Hcs. apply elem_of_list_fmap in Hcs as ([c a] & -> & Hc%elem_of_map_to_list). cbn [fst]. eauto. }
  { done. }
  { done. }
  { rewrite (Hw 0). apply NoDup_fst_map_to_list. }
  { intros cs f Hc. apply Hin in Hc. split; [done|]. split; [tauto|by eapply Hnew]. }
  pose proof (pr_ext _ _ _ _ _ _ _ _ Hpr) as He1.
  assert (side_file E l J (ob_inv o1) np m) as Hside1.
  { unfold side_file in *. rewrite (er_head _ _ He1). destruct (write_target l J (inv_head i)); [|done..].
    destruct Hside as (f & mm & H1 & H2 & H3 & ->). exists f, mm. split; [done|]. split; [done|]. split; [done|].
    unfold manifest_name, content_dir. by rewrite (er_head _ _ He1), (er_cdir _ _ He1). }
  destruct (side_written Z E l J (shift_oracle orc) (text_of L lines) o1 np m HZ (AddProofs.oracle_ok_shift _ Ho) Hhex Hne) as (o2 & data & Hpack & Hwrite & He2 & Hc2 & Ht2).
  { intros a z. rewrite (er_alg _ _ He1), (er_fixalgs _ _ He1). apply Hsup. }
  { apply Hpr. }
  { rewrite (er_wr _ _ He1). apply Hau. }
  { done. }
  assert (∀ q, now s o2 !! q = if decide (q = m) then Some data else now s o1 !! q) as Hnow.
  { intros q. unfold now. rewrite Ht2, apply_evs_app, apply_write. destruct (decide (q = m)) as [->|]; [apply lookup_insert|by rewrite lookup_insert_ne]. }
  exists o2, (MiSt ∅ mig' true (<[inv_head i := lines]> (mi_buf x))), lines, data. split.
  { unfold do_new_version. cbv zeta. fold i. rewrite Hprev. cbv iota beta. rewrite Hloop, Hwrite. done. }
  split; [by transitivity (ob_inv o1)|]. split.
  { intros q d Hq. rewrite Hc2 by done. rewrite (pr_state _ _ _ _ _ _ _ _ Hpr). apply migrated_iff. intros cs f. rewrite Hin. tauto. }
  split.
  { intros cs f y e m' HT Hy Hm'. destruct (pr_stored _ _ _ _ _ _ _ _ Hpr cs f y e m') as (d & Hd & Hl & Hst); [right; by apply Hin|done|done|].
    exists d. split; [done|]. split.
    - destruct Hl as (ps & Hps & Hx). apply (er_man _ _ He2) in Hps as [ex Hps]. eexists. split; [done|]. set_solver.
    - rewrite Hnow, decide_False; [done|]. by eapply Hsm. }
  split.
  { intros q Hq Hqs. rewrite Hnow, decide_False by done. apply Hpr. intros cs f y e m' [H|H%Hin]; [done|]. by apply Hqs. }
  split; [done|]. split; [done|]. split; [intros cs f HT; eapply L4, Hin, HT|]. split; [done|]. split; [done|]. split; [by rewrite Hnow, decide_True|]. split.
  - intros line Hline. apply L1 in Hline as [H%elem_of_nil|(cs & f & H1 & H2 & _)]; [done|]. exists cs, f. split; [by apply Hin|done].
  - intros cs f HT. apply (L2 cs f). by apply Hin.
Qed.
