(** Proofs about the filesystem extension: sessions, histories, the report. *)
From Coq Require Import Ascii.
From stdpp Require Import base list strings gmap.
From Coq Require Import ZArith Lia.
From Verif Require Import GoStr PathModel PathProofs InventoryModel InventorySpec InventoryProofs LookupProofs ClaimsInventory2 AddProofs ObjectModel ObjectSpec ObjectProofs CrashSpec CrashProofs
  LoadModel LoadProofs AreaModel AreaSpec AreaProofs ValidateModel PublishSpec PublishProofs PublishProofs2 PublishProofs3 PublishProofs4 InheritProofs IngestProofs6
  JsonlModel JsonlSpec JsonlProofs JsonlProofs2 JsonlProofs3 FsModel FsSpec FsProofs.
From Verif Require ThumbProofs3.

(** Listed content is not touched. *)
Lemma sops_stable E ops o o' s p d : guarded_sops E (proper E) ops o → sops_run E ops o = (o', SOk) → lists (inv_manifest (ob_inv o)) p d →
  apply_evs (ob_trace o') s !! p = apply_evs (ob_trace o) s !! p.
Proof.
  revert o. induction ops as [|[orc op|orc op|msg] ops IH]; intros o; cbn [guarded_sops sops_run]; [by intros _ [= ->]|..|done].
  - intros [(_ & _ & Hp) Hg] Hr Hl. pose proof (ef_ext _ _ _ _ (sop_effect E orc op o)) as He. destruct (sop_step E orc op o) as [o1 []] eqn:Hs; cbn [andThen after_ok fst] in *; [|done..].
    rewrite (IH o1 Hg Hr); [by eapply sop_stable|by eapply ext_rel_lists].
  - intros [(_ & _ & Hp) Hg] Hr Hl. pose proof (ef_ext _ _ _ _ (sop_effect E orc op o)) as He. destruct (sop_step E orc op o) as [o1 []] eqn:Hs; cbn [fst] in *; [..|done];
      (rewrite (IH o1 Hg Hr); [by eapply sop_stable|by eapply ext_rel_lists]).
Qed.

(** * One session *)
Section session.
  Context (E : env) (Z : codec) (l : list subpaths) (J : jstore).
  Context (Hhex : hex_hash (e_hash E)) (HZ : codec_ok Z) (HE : manifest_by E l) (HJ : agreeing l J) (Hname : str_mem slash (js_name J) = false).

  (** A session in which a side file with the text [t] is written. *)
  Lemma side_session s i n fam now msg un ua echo orc orc2 orc3 o1 o2 o3 a o4 o5 b o6 o7 o8 o9 t :
    kept E s i n n fam → supported E i →
    ob_start now msg un ua echo (open_object i) = (o1, SOk) → PublishSpec.calls E o1 o2 → inv_modified (ob_inv o2) = true →
    (if ob_echo o2 then ob_echo_delete E orc o2 else (o2, SOk)) = (o3, SOk) →
    guarded_sops E (proper E) a o3 → sops_run E a o3 = (o4, SOk) →
    proper_side Z E l J orc2 o4 → (inv_head (ob_inv o4) = inv_head (ob_inv o1) → inv_head (ob_inv o1) ≠ "" → write_jsonl Z E l J orc2 (z_br Z t) o4 = (o5, SOk)) →
    guarded_sops E (proper E) b o5 → sops_run E b o5 = (o6, SOk) →
    on_inv (clean orc) o6 = (o7, SOk) → store_inventory E true false o7 = (o8, SOk) → ob_close E orc3 o8 = (o9, SOk) →
    let s' := apply_evs (ob_trace o9) s in let i' := ob_inv o9 in
    complete E s i s' i' ∧
    ((∀ ver, is_Some (inv_versions i' !! ver) ↔ ver = inv_head i' ∨ is_Some (inv_versions i !! ver)) ∧ inv_versions i !! inv_head i' = None) ∧
    (∃ p d, read_target l J i' (inv_head i') = Some p ∧ lists (inv_manifest i') p d) ∧
    read_jsonl Z l J i' s' (inv_head i') = Some t ∧ inv_head i' = inv_head (ob_inv o4).
  Proof using Hhex HZ HE HJ Hname.
    intros Hk Hsup Hst Hcalls Hmod Hecho Hg1 Hr1 Hside Hw Hg2 Hr2 Hcl Hstore Hclose. cbv zeta.
    assert (base E s n (open_object i)) as Hbase.
    { split; [|done]. exists fam. unfold PublishProofs2.now, open_object. cbn [ob_trace ob_inv apply_evs foldl]. eapply kept_same; [apply same_flags|done]. }
    destruct (start_working E s n _ _ _ _ _ _ _ Hst Hbase) as [W1 Ht1].
    pose proof (ThumbProofs3.calls_ext _ _ _ Hcalls) as He1. pose proof (calls_working E s Hhex _ _ _ Hcalls W1) as W2.
    assert (working E s n o3 ∧ ext_rel (ob_inv o2) (ob_inv o3) ∧ inv_modified (ob_inv o3) = true) as (W3 & He2 & M3).
    { destruct (ob_echo o2); [|by injection Hecho as <-]. pose proof (echo_working E s n orc o2 W2) as W.
      pose proof (ef_ext _ _ _ _ (echo_effect E (SCopy "" "") orc o2)) as He. pose proof (echo_modified E orc o2 Hmod) as HM. rewrite Hecho in W, He, HM. done. }
    pose proof (ThumbProofs3.sops_ext _ _ _ _ Hr1) as He3.
    pose proof (sops_working E s Hhex n a o3 Hg1 W3) as W4. rewrite Hr1 in W4. cbn [fst] in W4.
    assert (inv_head (ob_inv o1) ≠ "") as Hh1.
    { destruct W1 as ([f1 K1] & _). rewrite (proj1 (g_contig _ _ _ _ (kp_good _ _ _ _ _ _ K1))), decide_False by lia. apply version_name_nonempty. }
    assert (inv_head (ob_inv o4) = inv_head (ob_inv o1)) as Hh4.
    { rewrite (er_head _ _ He3), (er_head _ _ He2). apply (er_head _ _ He1). }
    specialize (Hw Hh4 Hh1).
    assert (∃ data files area, write_target l J (inv_head (ob_inv o4)) = JAdd files area ∧ repack Z (js_compress J) (z_br Z t) = Some data ∧
              ob_add_reader E orc2 data files area o4 = (o5, SOk)) as (data & files & area & Htg & Hrp & Hadd).
    { destruct Hside as [_ Hside]. pose proof Hw as Hw'. unfold write_jsonl in Hw'. destruct (write_target l J (inv_head (ob_inv o4))) as [files area|q|e] eqn:Et; [|done..].
      destruct (repack Z (js_compress J) _) as [data|] eqn:Er; [|done]. exists data, files, area. done. }
    assert (str_mem slash (inv_head (ob_inv o4)) = false) as Hhs.
    { destruct W4 as ([f4 K4] & _). rewrite (proj1 (g_contig _ _ _ _ (kp_good _ _ _ _ _ _ K4))), decide_False by lia. apply version_name_no_slash. }
    destruct (write_read_path Z E l J orc2 _ o4 o5 t HZ HE HJ Hname Hhs eq_refl Hw) as (p & data' & Hp & Hun & Htr5 & He4).
    assert (∃ d, lists (inv_manifest (ob_inv o5)) p d) as [d Hpd].
    { pose proof (agreeing_target E l J (ob_inv o4) HE HJ Hname Hhs p Hp) as Ht. rewrite Htg in Ht. destruct Ht as (f & mp & -> & Hmp & ->).
      apply add_reader_call in Hadd as (f' & mp' & Hf & Hm & _ & _ & d & _ & Hd). injection Hf as <-. rewrite Hmp in Hm. injection Hm as <-. eauto. }
    assert (proper E orc2 (SAddReader data files area) o4) as Hprop.
    { destruct Hside as [Ho Hside]. rewrite Htg in Hside. destruct (Hside data) as [H1 H2]. done. }
    pose proof (ThumbProofs3.sops_ext _ _ _ _ Hr2) as He5.
    set (side := HCall orc2 (SAddReader data files area)).
    assert (sops_run E (a ++ side :: b) o3 = (o6, SOk)) as Hrun.
    { eapply JsonlProofs2.sops_run_app; [exact Hr1|]. unfold side. cbn [sops_run sop_step]. rewrite Hadd. cbn [andThen]. exact Hr2. }
    assert (guarded_sops E (proper E) (a ++ side :: b) o3) as Hgd.
    { eapply guarded_sops_app; [exact Hr1|exact Hg1|]. unfold side. cbn [guarded_sops]. split; [exact Hprop|]. cbn [sop_step]. rewrite Hadd. exact Hg2. }
    pose proof (sops_modified E _ _ M3 : inv_modified (ob_inv (sops_run E (a ++ side :: b) o3).1) = true) as M6. rewrite Hrun in M6. cbn [fst] in M6.
    pose proof (sops_working E s Hhex n _ o3 Hgd W3) as W6. rewrite Hrun in W6. cbn [fst] in W6.
    rewrite clean_ob in Hcl by done. injection Hcl as <-.
    assert (ob_end E orc (HDone (a ++ side :: b)) o2 = (o8, SOk)) as Hend.
    { rewrite ob_end_unfold. destruct W2 as (_ & _ & Hwr). rewrite Hwr, Hmod. cbn [negb]. rewrite Hecho. cbn [andThen]. rewrite Hrun. cbn [andThen]. by rewrite Hstore. }
    pose proof (store_settled E s n o6 o8 Hstore W6 M6) as S8. destruct S8 as (_ & _ & Wr8 & M8 & _).
    assert (ob_inv o8 = ob_inv o6 ∧ ∃ y y', ob_trace o8 = ob_trace o6 ++ write_file (inv_head (ob_inv o6) +:+ "/inventory.json") y ++
              write_file (inv_head (ob_inv o6) +:+ "/" +:+ sidecar_name (inv_alg (ob_inv o6))) y') as (Hi8 & y & y' & Ht8).
    { destruct W6 as (_ & _ & Wr6). unfold store_inventory in Hstore. rewrite Wr6 in Hstore. destruct (e_hash E _ _) as [dg|]; [|done].
      apply (f_equal fst) in Hstore. cbn [fst] in Hstore. subst o8. split; [done|]. eexists _, _. unfold emit at 1. cbn [ob_trace]. rewrite app_nil_l. reflexivity. }
    destruct (close_spec E orc3 o8 o9 Wr8 M8 Hclose) as (dg & _ & Hi9 & Ht9).
    assert (ext_rel (ob_inv o1) (ob_inv o9)) as Hall.
    { rewrite Hi9, Hi8. etrans; [exact He1|]. etrans; [exact He2|]. etrans; [exact He3|]. etrans; [exact He4|exact He5]. }
    assert (inv_head (ob_inv o9) = inv_head (ob_inv o4)) as Hh9 by (rewrite Hh4; apply (er_head _ _ Hall)).
    assert (read_target l J (ob_inv o9) (inv_head (ob_inv o9)) = Some p) as Hp9.
    { rewrite Hh9, <- Hp. apply read_target_cdir. rewrite Hi9, Hi8, (er_cdir _ _ He5). apply (er_cdir _ _ He4). }
    assert (lists (inv_manifest (ob_inv o9)) p d) as Hpd9 by (rewrite Hi9, Hi8; by eapply ext_rel_lists).
    split; [|split; [|split; [by exists p, d|split; [|done]]]].
    - econstructor; [|exact Hclose|done|done]. apply updates_one. econstructor; [exact Hst|exact Hcalls|exact Hmod| |exact Hend].
      cbn [guarded_end]. split; [done|]. rewrite Hecho. cbn [after_ok]. split; [exact Hgd|]. rewrite Hrun. cbn [after_ok]. by rewrite Hstore.
    - rewrite (er_head _ _ Hall). cut ((∀ ver, is_Some (inv_versions (ob_inv o1) !! ver) ↔ ver = inv_head (ob_inv o1) ∨ is_Some (inv_versions i !! ver)) ∧
        inv_versions i !! inv_head (ob_inv o1) = None).
      { intros [HA HB]. split; [|done]. intros ver. by rewrite (ext_rel_is_some _ _ _ Hall). }
      unfold ob_start, on_inv in Hst. cbn [ob_inv set_echo open_object] in Hst.
      match type of Hst with context [new_version now msg un ua ?x] => set (i0 := x) in * end.
      pose proof (contiguous_is _ _ (g_contig _ _ _ _ (kp_good _ _ _ _ _ _ Hk))) as Hhead.
      assert (head_is i0 n) as Hhead0 by exact Hhead.
      destruct (new_version_spec i0 n now msg un ua Hhead0) as (stt & Heq & Hnone & _). rewrite Heq in Hst. injection Hst as <-.
      split; [|exact Hnone]. intros ver. cbn [ob_inv set_inv inv_versions inv_head set_writeable set_versions set_head]. rewrite lookup_insert_is_Some. change (inv_versions i0) with (inv_versions i).
      destruct (decide (ver = version_name (inv_padding i0) (n + 1))) as [-> |Hne]; [split; auto|]. split; [intros [? |[_ H]]; auto|].
      intros [? |H]; [done|]. right. split; [done|exact H].
    - unfold read_jsonl. rewrite Hp9.
      destruct W6 as ([f6 K6] & _). assert (lists (inv_manifest (ob_inv o6)) p d) as Hpd6 by (by eapply ext_rel_lists).
      destruct (g_paths _ _ _ _ (kp_good _ _ _ _ _ _ K6) _ _ Hpd6) as (k & r & _ & _ & Hcp).
      assert (inv_head (ob_inv o6) = version_name (inv_padding (ob_inv o6)) (n + 1)) as Hh6.
      { rewrite (proj1 (g_contig _ _ _ _ (kp_good _ _ _ _ _ _ K6))). by rewrite decide_False by lia. }
      pose proof (sidecar_slash _ (kp_alg _ _ _ _ _ _ K6)) as Hss.
      rewrite Ht9, apply_evs_app, Hi8. rewrite apply_evs_other.
      2:{ apply Forall_app. split.
          - pose proof (cpath_slash (ob_inv o6) k r) as Hsl. rewrite <- Hcp in Hsl. repeat constructor; cbn [ev_path]; intros <-; [done..| |]; rewrite Hss in Hsl; done.
          - eapply Forall_impl; [apply ext_events_below|]. intros e Hb He. apply (cpath_not_below (ob_inv o6) k r "extensions"); [left|]. rewrite <- Hcp, <- He. exact Hb. }
      rewrite Ht8, apply_evs_app. rewrite apply_evs_other.
      2:{ rewrite Hh6. repeat constructor; cbn [ev_path]; rewrite Hcp; apply not_eq_sym; (apply (cpath_vfile (ob_inv o6) k r (ob_inv o6) (n + 1)); done). }
      rewrite (sops_stable E b o5 o6 s p d Hg2 Hr2 Hpd), Htr5, apply_evs_app, apply_write, lookup_insert. exact Hun.
  Qed.

  Lemma fsession_result {R} (L : printer (string * R)) folders s i n fam s' i' lines :
    kept E s i n n fam → supported E i → fsession E Z L l J folders s i s' i' lines →
    complete E s i s' i' ∧
    ((∀ ver, is_Some (inv_versions i' !! ver) ↔ ver = inv_head i' ∨ is_Some (inv_versions i !! ver)) ∧ inv_versions i !! inv_head i' = None) ∧
    (∃ p d, read_target l J i' (inv_head i') = Some p ∧ lists (inv_manifest i') p d) ∧
    read_jsonl Z l J i' s' (inv_head i') = Some (text_of L lines) ∧ Forall (λ e, e.2.1 = inv_head i') lines ∧ Forall (readable L) lines.
  Proof using Hhex HZ HE HJ Hname.
    intros Hk Hsup [now msg un ua echo orc orc2 orc3 o1 o2 x o3 a o4 o5 x5 b o6 o7 o8 o9 Hst Hc Hmod Hecho Hga Hra Hside Hafter Hgb Hrb Hcl Hstore Hclose -> -> Hbuf HV].
    pose proof (fcalls_calls _ _ _ _ _ _ Hc) as Hcalls.
    destruct (λ Hw, side_session s i n fam now msg un ua echo orc orc2 orc3 o1 o2 o3 a o4 o5 b o6 o7 o8 o9 (text_of L lines) Hk Hsup Hst Hcalls Hmod Hecho Hga Hra Hside Hw
      Hgb Hrb Hcl Hstore Hclose) as (H1 & H2 & H3 & H4 & H5).
    - intros Hh4 Hh1. destruct (fcalls_lines _ _ _ _ _ _ Hc Hh1 new_stamped) as ([_ Hrun] & _ & _).
      unfold fs_after, ix_after in Hafter. rewrite decide_False in Hafter by (eapply Hrun; eauto). destruct (ix_open x); cbn [negb] in Hafter; [|done].
      rewrite decide_False in Hafter by (by rewrite Hh4). rewrite Hbuf in Hafter.
      destruct (write_jsonl Z E l J orc2 _ o4) as [o' st']. by injection Hafter as <- <- ->.
    - split; [done|]. split; [done|]. split; [done|]. split; [done|]. split; [|done]. rewrite H5.
      assert (inv_head (ob_inv o1) ≠ "") as Hh1.
      { assert (base E s n (open_object i)) as Hbase.
        { split; [|done]. exists fam. unfold PublishProofs2.now, open_object. cbn [ob_trace ob_inv apply_evs foldl]. eapply kept_same; [apply same_flags|done]. }
        destruct (start_working E s n _ _ _ _ _ _ _ Hst Hbase) as [([f1 K1] & _) _].
        rewrite (proj1 (g_contig _ _ _ _ (kp_good _ _ _ _ _ _ K1))), decide_False by lia. apply version_name_nonempty. }
      destruct (fcalls_lines _ _ _ _ _ _ Hc Hh1 new_stamped) as ([Hstamp _] & _ & _). by eapply Hstamp.
  Qed.
End session.

(** A complete session does not touch the content folders of the versions before. *)
Lemma complete_frame E s i n fam s' i' : hex_hash (e_hash E) → kept E s i n n fam → supported E i → complete E s i s' i' →
  ∀ k r, (1 <= k <= n)%N → s' !! cpath i k r = s !! cpath i k r.
Proof.
  intros Hhex Hk0 Hs [o1 orc o2 Hu Hc -> ->].
  destruct (updates_holds E s Hhex i n fam Hk0 n (open_object i) o1 Hu) as (n' & ((fam' & Hk' & Hf) & Hs' & Hw & Hm & Hn') & Hn & Hi & Hfr).
  { split; [|done]. exists fam. unfold PublishProofs2.now, open_object. cbn [ob_trace ob_inv apply_evs foldl]. eapply kept_same; [apply same_flags|done]. }
  { split; [lia|]. unfold PublishProofs2.now, open_object. cbn [ob_trace ob_inv apply_evs foldl]. split; [|done]. split; try done. intros d ps Hd. exists []. by rewrite app_nil_r. }
  destruct (close_spec E orc o1 o2 Hw Hm Hc) as (dg & Hd & Hi2 & Ht).
  intros k r Hk. rewrite Ht, apply_evs_app. fold (PublishProofs2.now s o1). rewrite <- Hfr by done.
  rewrite apply_evs_app, apply_evs_other.
  - rewrite apply_evs_app, !apply_write. apply lookup_two; apply (slash_ne _ _ (cpath_slash _ _ _)); [done|].
    apply sidecar_slash, (kp_alg _ _ _ _ _ _ Hk').
  - eapply Forall_impl; [apply ext_events_below|]. intros e Hb He. cbv beta in Hb. rewrite He in Hb.
    by apply (cpath_not_below _ _ _ "extensions") in Hb; [|left].
Qed.

(** * The report *)
Section report.
  Context {R : Type} (L : printer (string * R)).
  Notation line := (string * (string * R))%type.
  Implicit Types (r : fsres R) (lines : list line).

  Lemma split_lines lines : Forall (readable L) lines → split_on nl (text_of L lines) = ((λ p, l_print L p.1 p.2) <$> lines) ++ [""].
  Proof using.
    induction 1 as [|e lines [_ [H1 _]] _ IH]; [done|]. cbn [text_of foldr fmap list_fmap app]. rewrite split_on_app by done. f_equal. exact IH.
  Qed.
  Lemma parse_text lines : Forall (readable L) lines → fs_parse L (scan_lines (text_of L lines)) = Some lines.
  Proof using.
    intros H. unfold scan_lines. rewrite split_lines by done. rewrite last_snoc, removelast_last.
    induction H as [|e lines [H1 H2] _ IH]; [done|]. cbn [fmap list_fmap fs_parse]. rewrite drop_cr_line by done. by rewrite H1, IH.
  Qed.
  Lemma entry_put r d e d' u' : entry (fs_put d e r) d' u' = if decide (d' = d ∧ u' = e.2.1) then entry r d' u' ++ [e] else entry r d' u'.
  Proof using.
    unfold entry, fs_put. destruct (decide (d' = d)) as [-> |Hd].
    - rewrite lookup_insert. cbn [mbind option_bind]. destruct (decide (u' = e.2.1)) as [-> |Hu].
      + rewrite lookup_insert, decide_True by done. cbn [default]. f_equal. destruct (r !! d) as [m|]; cbn [default mbind option_bind]; [done|by rewrite lookup_empty].
      + rewrite lookup_insert_ne by done. rewrite decide_False by naive_solver. destruct (r !! d) as [m|]; cbn [default mbind option_bind]; [done|by rewrite lookup_empty].
    - rewrite lookup_insert_ne by done. by rewrite decide_False by naive_solver.
  Qed.
  Lemma entry_visit v lines r ps exts d d' u' : Forall (λ e, e.2.1 = v) lines →
    entry (fs_visit lines r (ps, exts, d)) d' u' = entry r d' u' ++ if decide (d' = d ∧ u' = v) then filter (λ e : line, e.1 ∈ exts) lines else [].
  Proof using.
    intros H. unfold fs_visit. cbn [fst snd]. revert r. induction H as [|e lines He _ IH]; intros r; cbn [foldl].
    { case_decide; by rewrite app_nil_r. }
    rewrite IH, filter_cons. destruct (decide (e.1 ∈ exts)) as [Hin|Hin]; [|done]. rewrite entry_put, He.
    destruct (decide (d' = d ∧ u' = v)) as [[-> ->]|Hne]; [|done]. by rewrite <- app_assoc.
  Qed.
  Lemma entry_visits v lines (f : string → list string) (g : string → list string) (ls : list (string * list string)) r d u :
    Forall (λ e, e.2.1 = v) lines → NoDup ls.*1 → (∀ c exts, (c, exts) ∈ ls → g c = exts) →
    entry (foldl (fs_visit lines) r ((λ de, (f de.1, de.2, de.1)) <$> ls)) d u =
      entry r d u ++ if decide (u = v ∧ d ∈ ls.*1) then filter (λ e : line, e.1 ∈ g d) lines else [].
  Proof using.
    intros H. revert r. induction ls as [|[c exts] ls IH]; intros r Hnd Hg.
    { cbn [fmap list_fmap foldl]. rewrite decide_False; [by rewrite app_nil_r|]. intros [_ Hd]. by apply elem_of_nil in Hd. }
    cbn [fmap list_fmap fst snd] in *. apply stdpp.list.NoDup_cons in Hnd as [Hc Hnd]. cbn [foldl].
    rewrite IH; [|done|intros c' exts' Hin; apply Hg; by right]. rewrite (entry_visit v) by done. rewrite <- app_assoc. f_equal.
    destruct (decide (u = v)) as [-> |Hu].
    - destruct (decide (d = c)) as [-> |Hd].
      + rewrite (decide_True (P := c = c ∧ v = v)) by done. rewrite (decide_False (P := v = v ∧ c ∈ ls.*1)) by naive_solver.
        rewrite (decide_True (P := v = v ∧ c ∈ c :: ls.*1)) by (split; [done|left]). rewrite app_nil_r. rewrite (Hg c exts) by left. done.
      + rewrite (decide_False (P := d = c ∧ v = v)) by naive_solver. cbn [app]. destruct (decide (d ∈ ls.*1)) as [Hin|Hin].
        * rewrite !decide_True; [done|split; [done|by right]|done].
        * rewrite !decide_False; [done|intros [_ [? |?]%elem_of_cons]; done|naive_solver].
    - rewrite !decide_False by naive_solver. done.
  Qed.

  Lemma filter_none (k : list line) : filter (λ e : line, e.1 ∈ ([] : list string)) k = [].
  Proof using. induction k as [|e k IH]; [done|]. rewrite filter_cons, decide_False by apply not_elem_of_nil. exact IH. Qed.
  Section object.
    Context (Z : codec) (l : list subpaths) (J : jstore) (i : inventory) (s : storage) (book : gmap string (list line)).
    (** Every version has its lines, or no side file and no lines. *)
    Definition written (v : string) : Prop :=
      match book !! v with
      | Some lines => read_jsonl Z l J i s v = Some (text_of L lines) ∧ Forall (readable L) lines ∧ Forall (λ e, e.2.1 = v) lines
      | None => read_jsonl Z l J i s v = None
      end.
    Context (orc : oracle) (Horc : oracle_ok orc) (Hres : ∀ ver v d, inv_versions i !! ver = Some v → is_Some (v_state v !! d) → ∃ p ps, inv_manifest i !! d = Some (p :: ps)).

    Lemma resolve_all (man : smap) (ls : list (string * list string)) : (∀ d exts, (d, exts) ∈ ls → ∃ p ps, man !! d = Some (p :: ps)) →
      resolve_states man ls = inl ((λ de, (default [] (man !! de.1), de.2, de.1)) <$> ls).
    Proof using.
      induction ls as [|[d exts] ls IH]; intros H; [done|]. cbn [resolve_states fmap list_fmap fst snd]. destruct (H d exts) as (p & ps & ->); [left|].
      rewrite IH; [done|]. intros d' exts' Hin. apply (H d' exts'). by right.
    Qed.
    Lemma iterate_all ver v : inv_versions i !! ver = Some v → ver ≠ "" → ver ≠ "latest" →
      ∃ ls, ls ≡ₚ map_to_list (v_state v) ∧ iterate_state_files orc i ver = inl ((λ de, (default [] (inv_manifest i !! de.1), de.2, de.1)) <$> ls).
    Proof using Horc Hres.
      intros Hv H1 H2. exists (o_state orc 0 ver (v_state v)). split; [apply Horc|]. unfold iterate_state_files. rewrite decide_False by naive_solver. rewrite Hv.
      apply resolve_all. intros d exts Hin. eapply Hres; [exact Hv|]. destruct Horc as [Ho _]. rewrite (Ho 0 ver (v_state v)) in Hin. apply elem_of_map_to_list in Hin. by eexists.
    Qed.
    Lemma versions_report vs r : NoDup vs → (∀ v, v ∈ vs → is_Some (inv_versions i !! v) ∧ v ≠ "" ∧ v ≠ "latest" ∧ written v) →
      ∃ r', fs_versions Z L orc l J ix_new i s vs r = Some r' ∧
        ∀ d u, entry r' d u = entry r d u ++ if decide (u ∈ vs) then filter (λ e : line, e.1 ∈ paths_at i u d) (default [] (book !! u)) else [].
    Proof using Horc Hres.
      revert r. induction vs as [|v vs IH]; intros r Hnd Hvs; cbn [fs_versions].
      { exists r. split; [done|]. intros d u. rewrite decide_False by (by intros ?%elem_of_nil). by rewrite app_nil_r. }
      apply stdpp.list.NoDup_cons in Hnd as [Hv Hnd]. destruct (Hvs v) as ([ver Hver] & H1 & H2 & Hw); [left|].
      assert (∀ u, u ∈ vs → is_Some (inv_versions i !! u) ∧ u ≠ "" ∧ u ≠ "latest" ∧ written u) as Hvs' by (intros u Hu; apply Hvs; by right).
      unfold version_data, ix_new. cbn [ix_buf]. rewrite lookup_empty. unfold written in Hw. destruct (book !! v) as [lines|] eqn:Hb.
      - destruct Hw as (-> & HV & Hst). rewrite parse_text by done. destruct (iterate_all v ver Hver H1 H2) as (ls & Hls & ->).
        destruct (IH (foldl (fs_visit lines) r ((λ de, (default [] (inv_manifest i !! de.1), de.2, de.1)) <$> ls)) Hnd Hvs') as (r' & Hr' & Hent). exists r'. split; [exact Hr'|].
        intros d u. rewrite Hent.
        rewrite (entry_visits v lines (λ c, default [] (inv_manifest i !! c)) (λ c, default [] (v_state ver !! c)) ls); [|done| |].
        2:{ rewrite Hls. apply NoDup_fst_map_to_list. }
        2:{ intros c exts Hin. rewrite Hls in Hin. apply elem_of_map_to_list in Hin. by rewrite Hin. }
        rewrite <- app_assoc. f_equal. destruct (decide (u = v)) as [-> |Hu].
        + rewrite (decide_False (P := v ∈ vs)) by done. rewrite (decide_True (P := v ∈ v :: vs)) by left. rewrite app_nil_r, Hb. cbn [default].
          unfold paths_at. rewrite Hver. cbn [mbind option_bind]. destruct (v_state ver !! d) as [exts|] eqn:Hd; cbn [default].
          * rewrite decide_True; [done|]. split; [done|]. apply elem_of_list_fmap. exists (d, exts). split; [done|]. rewrite Hls. by apply elem_of_map_to_list.
          * destruct (decide (v = v ∧ d ∈ ls.*1)); [done|]. symmetry. clear. apply filter_none.
        + rewrite (decide_False (P := u = v ∧ _)) by naive_solver. cbn [app]. destruct (decide (u ∈ vs)) as [Hin|Hin].
          * by rewrite (decide_True (P := u ∈ v :: vs)) by (by right).
          * rewrite (decide_False (P := u ∈ v :: vs)); [done|]. by intros [? |?]%elem_of_cons.
      - rewrite Hw. destruct (IH r Hnd Hvs') as (r' & Hr' & Hent). exists r'. split; [exact Hr'|]. intros d u. rewrite Hent. f_equal.
        destruct (decide (u = v)) as [-> |Hu].
        + rewrite (decide_False (P := v ∈ vs)) by done. rewrite (decide_True (P := v ∈ v :: vs)) by left. by rewrite Hb.
        + destruct (decide (u ∈ vs)) as [Hin|Hin].
          * by rewrite (decide_True (P := u ∈ v :: vs)) by (by right).
          * rewrite (decide_False (P := u ∈ v :: vs)); [done|]. by intros [? |?]%elem_of_cons.
    Qed.
  End object.
End report.

(** * Histories *)
Section history.
  Context {R : Type} (E : env) (P : inventory → Prop) (parse : string → option inventory) (Z : codec) (L : printer (string * R)) (l : list subpaths) (J : jstore)
    (folders : string).
  Context (Hhex : hex_hash (e_hash E)) (Hj : json_ok P (e_json E) parse) (HZ : codec_ok Z) (HE : manifest_by E l) (HJ : agreeing l J)
    (Hname : str_mem slash (js_name J) = false).
  Notation written := (written L Z l J).

  (** The side file of a version is in the content folder of that version, or there is none. *)
  Definition placed (s : storage) (i : inventory) (v : string) : Prop := (∃ p d, read_target l J i v = Some p ∧ lists (inv_manifest i) p d) ∨ no_side l J s i v.
  Definition filed (s : storage) (i : inventory) (book : gmap string (list (string * (string * R)))) : Prop :=
    (∀ v, is_Some (inv_versions i !! v) → placed s i v ∧ written i s book v) ∧ ∀ v, is_Some (book !! v) → is_Some (inv_versions i !! v).

  Lemma filed_same s i i' book : same_record i i' → filed s i book → filed s i' book.
  Proof using.
    intros Hr [H1 H2]. split; [|intros v; rewrite (sr_vers _ _ Hr); apply H2]. intros v. rewrite (sr_vers _ _ Hr). intros Hv. destruct (H1 v Hv) as [Hp Hw].
    assert (inv_contentdir i' = inv_contentdir i) as Hc by apply Hr. split.
    - destruct Hp as [(p & d & Q1 & Q2)|(r & Q1 & Q2)]; [left; exists p, d|right; exists r]; rewrite (read_target_cdir l J i i') by done.
      + by rewrite (sr_man _ _ Hr).
      + unfold content_name in *. by rewrite Hc.
    - unfold FsProofs2.written in *. by rewrite (read_jsonl_cdir Z l J i i') by done.
  Qed.
  Lemma no_side_reads s i v : no_side l J s i v → read_jsonl Z l J i s v = None.
  Proof using. intros (r & H1 & H2). unfold read_jsonl. by rewrite H1, H2. Qed.

  (** What was filed stays. *)
  Lemma filed_keeps s i n fam s' i' book v : kept E s i n n fam → supported E i → complete E s i s' i' → filed s i book → is_Some (inv_versions i !! v) →
    placed s' i' v ∧ written i' s' book v.
  Proof using Hhex.
    intros Hk Hs Hc [H1 _] Hv. pose proof (complete_inherits E s Hhex i n fam Hk s' i' Hs Hc) as Hi. pose proof (complete_frame E s i n fam s' i' Hhex Hk Hs Hc) as Hfr.
    destruct (H1 v Hv) as [Hp Hw]. assert (inv_contentdir i' = inv_contentdir i) as Ecd by apply Hi.
    assert (read_target l J i' v = read_target l J i v) as Ert by (by apply read_target_cdir). destruct Hp as [(p & d & Q1 & Q2)|(r & Q1 & Q2)].
    - assert (read_jsonl Z l J i' s' v = read_jsonl Z l J i s v) as Erj.
      { unfold read_jsonl. rewrite Ert, Q1, (ih_content _ _ _ _ Hi d p Q2). done. }
      split; [|unfold FsProofs2.written in *; by rewrite Erj]. left. exists p, d. rewrite Ert. split; [done|].
      destruct Q2 as (ps & Q2 & Q3). destruct (ih_man _ _ _ _ Hi d ps Q2) as [e He]. exists (ps ++ e). split; [done|]. apply elem_of_app. by left.
    - apply (proj2 (g_contig _ _ _ _ (kp_good _ _ _ _ _ _ Hk))) in Hv as (k & Hkn & ->).
      assert (no_side l J s' i' (version_name (inv_padding i) k)) as Hno.
      { exists r. unfold content_name in *. rewrite Ecd, Ert. split; [done|]. rewrite <- Q2. apply (Hfr k r Hkn). }
      split; [by right|]. unfold FsProofs2.written in *. rewrite (no_side_reads _ _ _ Hno).
      assert (read_jsonl Z l J i s (version_name (inv_padding i) k) = None) as Hn by (unfold read_jsonl; by rewrite Q1, Q2).
      rewrite Hn in Hw. destruct (book !! _); [|done]. by destruct Hw.
  Qed.

  Lemma filed_session s i n fam s' i' book lines : kept E s i n n fam → supported E i → fsession E Z L l J folders s i s' i' lines → filed s i book →
    complete E s i s' i' ∧ filed s' i' (<[inv_head i' := lines]> book).
  Proof using Hhex HZ HE HJ Hname.
    intros Hk Hs Hsess Hf. destruct (fsession_result E Z l J Hhex HZ HE HJ Hname L folders s i n fam s' i' lines Hk Hs Hsess) as (Hc & [Hv Hn] & Hp & Hr & Hst & HV).
    split; [done|]. split.
    - intros v [-> |Hold]%Hv.
      + split; [by left|]. unfold FsProofs2.written. by rewrite lookup_insert.
      + destruct (filed_keeps s i n fam s' i' book v Hk Hs Hc Hf Hold) as [Q1 Q2]. split; [done|]. unfold FsProofs2.written in *.
        rewrite lookup_insert_ne; [done|]. intros <-. rewrite Hn in Hold. by destruct Hold.
    - intros v [<- |[_ H]]%lookup_insert_is_Some; [apply Hv; by left|]. apply Hv. right. by apply (proj2 Hf).
  Qed.
  Lemma filed_without s i n fam s' i' book : kept E s i n n fam → supported E i → complete E s i s' i' → filed s i book →
    (∀ v, is_Some (inv_versions i' !! v) → inv_versions i !! v = None → no_side l J s' i' v) → filed s' i' book.
  Proof using Hhex.
    intros Hk Hs Hc Hf Hno. pose proof (complete_inherits E s Hhex i n fam Hk s' i' Hs Hc) as Hi. split.
    - intros v Hv. destruct (inv_versions i !! v) as [x|] eqn:Hx; [by eapply filed_keeps; eauto|].
      pose proof (Hno v Hv Hx) as Hn. split; [by right|]. unfold FsProofs2.written. destruct (book !! v) eqn:Hb.
      { assert (is_Some (inv_versions i !! v)) as [y Hy] by (apply (proj2 Hf); by eexists). congruence. }
      by apply no_side_reads.
    - intros v [x Hx]%(proj2 Hf). exists x. by apply (ih_vers _ _ _ _ Hi).
  Qed.
  Lemma fresh_filed s i : fresh i → filed s i ∅.
  Proof using.
    intros Hf. split; intros v H; exfalso.
    - rewrite (proj1 (proj2 (fr_empty _ Hf))) in H. rewrite lookup_empty in H. by destruct H.
    - rewrite lookup_empty in H. by destruct H.
  Qed.
  Lemma stated_filed s i book : stated E P parse Z L l J folders s i book → published E P parse s i ∧ filed s i book.
  Proof using Hhex Hj HZ HE HJ Hname.
    induction 1 as [s i s' i' lines Hf Hd Hs Hsess HP|s i s' i' Hf Hd Hs Hc HP Hno|s i0 i s' i' book lines Hi (Hpub & Hb) Hl Hs Hsess HP|s i0 i s' i' book Hi (Hpub & Hb) Hl Hs Hc HP Hno].
    - pose proof (fresh_kept E s i Hf Hd) as Hk. destruct (filed_session s i 0 _ s' i' ∅ lines Hk Hs Hsess (fresh_filed s i Hf)) as [Hc Hb].
      split; [by eapply published_first|]. by rewrite insert_empty in Hb.
    - pose proof (fresh_kept E s i Hf Hd) as Hk. split; [by eapply published_first|].
      apply (filed_without s i 0 _ s' i' ∅ Hk Hs Hc (fresh_filed s i Hf)). intros v Hv _. by apply Hno.
    - destruct (loaded_kept E P parse s i0 i Hhex Hj Hpub Hl) as (n & fam & _ & Hk).
      pose proof (filed_same _ _ _ _ (loaded_same _ _ _ _ _ _ Hhex Hj Hpub Hl) Hb) as Hb'.
      destruct (filed_session s i n fam s' i' book lines Hk Hs Hsess Hb') as [Hc Hb2]. split; [by eapply published_next|done].
    - destruct (loaded_kept E P parse s i0 i Hhex Hj Hpub Hl) as (n & fam & _ & Hk).
      pose proof (filed_same _ _ _ _ (loaded_same _ _ _ _ _ _ Hhex Hj Hpub Hl) Hb) as Hb'.
      split; [by eapply published_next|]. by eapply filed_without.
  Qed.

  Lemma stated_report s i book i' w orc : stated E P parse Z L l J folders s i book → load_inventory (e_hash E) parse s "" = LInv i' [] → vorder_ok w → oracle_ok orc →
    ∃ r, fs_metadata Z L w orc l J ix_new i' s = Some r ∧
      ∀ d u, entry r d u = filter (λ e : string * (string * R), e.1 ∈ paths_at i' u d) (default [] (book !! u)).
  Proof using Hhex Hj HZ HE HJ Hname.
    intros Hst Hl Hw Ho. destruct (stated_filed s i book Hst) as [Hpub Hf]. destruct (loaded_kept E P parse s i i' Hhex Hj Hpub Hl) as (n & fam & _ & Hk).
    pose proof (filed_same _ _ _ _ (loaded_same _ _ _ _ _ _ Hhex Hj Hpub Hl) Hf) as [H1 H2].
    set (vs := fst <$> vo w 1 (inv_versions i')).
    assert (∀ v, v ∈ vs ↔ is_Some (inv_versions i' !! v)) as Hvs.
    { intros v. unfold vs. rewrite elem_of_list_fmap. split.
      - intros ([u x] & -> & Hx). rewrite (Hw 1 _ (inv_versions i')) in Hx. apply elem_of_map_to_list in Hx. by eexists.
      - intros [x Hx]. exists (v, x). split; [done|]. rewrite (Hw 1 _ (inv_versions i')). by apply elem_of_map_to_list. }
    destruct (versions_report L Z l J i' s book orc Ho) with (vs := vs) (r := ∅ : fsres R) as (r & Hr & Hent).
    - intros ver v d Hv Hd. pose proof (g_states _ _ _ _ (kp_good _ _ _ _ _ _ Hk) ver v d Hv Hd) as [ps Hps].
      pose proof (g_nonempty _ _ _ _ (kp_good _ _ _ _ _ _ Hk) d ps Hps). destruct ps as [|p ps]; [done|]. by exists p, ps.
    - unfold vs. rewrite (Hw 1 _ (inv_versions i')). apply NoDup_fst_map_to_list.
    - intros v Hv%Hvs. split; [done|]. destruct (H1 v Hv) as [_ Hwr].
      apply (proj2 (g_contig _ _ _ _ (kp_good _ _ _ _ _ _ Hk))) in Hv as (k & _ & ->). split; [apply version_name_nonempty|]. split; [|done].
      unfold version_name. destruct (decide _); discriminate.
    - exists r. split; [exact Hr|]. intros d u. rewrite Hent. unfold entry at 1. rewrite lookup_empty. cbn [mbind option_bind default app]. case_decide as Hu; [done|].
      destruct (book !! u) as [lines|] eqn:Hb; [|done]. exfalso. apply Hu, Hvs, H2. by eexists.
  Qed.
End history.
