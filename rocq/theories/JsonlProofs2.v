(** Sessions with the indexer. *)
From Coq Require Import Ascii.
From stdpp Require Import base list strings gmap.
From Coq Require Import ZArith Lia.
From Verif Require Import GoStr PathModel PathProofs InventoryModel InventorySpec InventoryProofs LookupProofs ClaimsInventory2 AddProofs ObjectModel ObjectSpec ObjectProofs CrashSpec CrashProofs
  LoadModel LoadProofs AreaModel AreaSpec AreaProofs ValidateModel PublishSpec PublishProofs PublishProofs2 PublishProofs3 PublishProofs4 InheritProofs JsonlModel JsonlSpec JsonlProofs.

(** * Text *)
Section text.
  Context {R : Type} (V : string → Prop) (L : printer R) (HL : printer_ok V L).
  Lemma split_text lines : Forall (λ p : string * R, V p.1) lines → split_on nl (text_of L lines) = ((λ p, l_print L p.1 p.2) <$> lines) ++ [""].
  Proof using HL.
    induction 1 as [|[p r] lines Hp _ IH]; [done|]. cbn [text_of foldr fst snd fmap list_fmap app].
    destruct (HL p r Hp) as [_ [H1 _]]. rewrite split_on_app by done. f_equal. exact IH.
  Qed.
  Lemma drop_cr_line t : one_line t → drop_cr t = t.
  Proof using.
    intros [_ H]. unfold drop_cr. destruct (rev (list_ascii_of_string t)) as [|c l] eqn:E; [done|]. destruct (decide (c = cr)) as [-> |]; [|done].
    exfalso. apply (H (string_of_list_ascii (rev l))). rewrite <- (string_of_list_ascii_of_string t).
    rewrite <- (rev_involutive (list_ascii_of_string t)), E. cbn [rev]. generalize (rev l). clear. intros l. induction l as [|a l IH]; [done|].
    cbn [app string_of_list_ascii]. by rewrite IH.
  Qed.
  Lemma scan_text lines : Forall (λ p : string * R, V p.1) lines → scan_lines (text_of L lines) = (λ p, l_print L p.1 p.2) <$> lines.
  Proof using HL.
    intros H. unfold scan_lines. rewrite split_text by done. rewrite last_snoc. rewrite removelast_last.
    rewrite <- list_fmap_compose. apply list_fmap_ext. intros k [p r] Hk. cbn [compose fst snd]. apply drop_cr_line.
    destruct (HL p r) as [_ Hl]; [|done]. rewrite stdpp.list.Forall_forall in H. apply (H (p, r)). by eapply elem_of_list_lookup_2.
  Qed.
  Definition fold_lines (dg : gmap string string) (lines : list (string * R)) (r : gmap string R) : gmap string R :=
    foldl (λ r p, <[default "" (dg !! p.1) := p.2]> r) r lines.
  Lemma add_lines_text dg lines r : Forall (λ p : string * R, V p.1) lines → add_lines L dg (scan_lines (text_of L lines)) r = Some (fold_lines dg lines r).
  Proof using HL.
    intros H. rewrite scan_text by done. revert r. induction H as [|[p a] lines Hp _ IH]; intros r; [done|].
    cbn [fmap list_fmap fst snd add_lines fold_lines foldl]. destruct (HL p a Hp) as [-> _]. apply IH.
  Qed.
End text.

(** * Calls *)
Lemma streamed_add E orc op o data ps m :
  streamed E orc op o = Some (data, ps, m) →
  ps ≠ [] ∧ m ≠ "" ∧ ∃ o1 orc', ob_inv o1 = ob_inv o ∧ sop_step E orc op o = add_reader E orc' data ps m o1.
Proof.
  assert (∀ files area ps m, build_names E (ob_inv o) files area = Some (ps, m) → ps ≠ [] ∧ m ≠ "") as Hb.
  { intros files area qs k. unfold build_names. destruct files as [|f fs]; [done|]. cbn [state_paths].
    destruct (e_state_path E f area); [|done]. destruct (state_paths E fs area); [|done]. destruct (e_manifest_path E f area); [|done].
    intros [= <- <-]. split; [done|apply manifest_name_nonempty]. }
  destruct op as [d p a dd|d fs a| | |]; cbn [streamed sop_step]; try done.
  - unfold ob_add. destruct (inv_writeable _); [|done]. destruct (build_names E (ob_inv o) [p] a) as [[ps' m']|] eqn:Hn; [|done].
    destruct (e_state_path E p a) as [np|]; [|done]. destruct dd.
    + destruct (e_hash E _ d) as [dg|]; [|done]. destruct (already_exists _ _ _ _ _) as [[]|]; [done| |done].
      destruct (get_duplicates _ _); [|done]. intros [= <- <- <-]. destruct (Hb _ _ _ _ Hn) as [H1 H2]. split; [done|]. split; [done|].
      eexists _, _. split; [|reflexivity]. done.
    + intros [= <- <- <-]. destruct (Hb _ _ _ _ Hn) as [H1 H2]. split; [done|]. split; [done|]. eexists _, _. split; [|reflexivity]. done.
  - unfold ob_add_reader. destruct (inv_writeable _); [|done]. destruct (build_names E (ob_inv o) fs a) as [[ps' m']|] eqn:Hn; [|done].
    intros [= <- <- <-]. destruct (Hb _ _ _ _ Hn) as [H1 H2]. split; [done|]. split; [done|]. exists o, orc. split; [done|].
    destruct fs; [done|]. done.
Qed.

Section calls.
  Context {R : Type} (E : env) (index : list string → string → option R).

  Lemma istep_object hook orc op o x o' x' : istep E index hook orc op o x = (o', x', SOk) → sop_step E orc op o = (o', SOk).
  Proof using.
    unfold istep. destruct (sop_step E orc op o) as [o1 st]. destruct (if hook then _ else _) as [[[data ps] m]|]; [|by intros [= -> _ ->]].
    destruct (checksums E _ data); [|by intros [= -> _ ->]]. destruct (ix_stream _ _ _ _ _ _); [by intros [= -> _ ->]|done].
  Qed.

  (** Where a line comes from: the result for content that has the digest under which its path is listed. *)
  Definition line_from (i : inventory) (p : string * R) : Prop :=
    ∃ exts data d, index exts data = Some p.2 ∧ e_hash E (inv_alg i) data = Some d ∧ lists (inv_manifest i) p.1 (to_lower d).
  Definition lines_from (i : inventory) (x : ixst R) : Prop := ∀ v lines, ix_buf x !! v = Some lines → Forall (line_from i) lines.
  Lemma line_grows i i' p : ext_rel i i' → line_from i p → line_from i' p.
  Proof using. intros He (exts & data & d & H1 & H2 & H3). exists exts, data, d. rewrite (er_alg _ _ He). eauto using ext_rel_lists. Qed.
  Lemma lines_grow i i' x : ext_rel i i' → lines_from i x → lines_from i' x.
  Proof using. intros He H v lines Hv. eapply Forall_impl; [by eapply H|]. intros p. by apply line_grows. Qed.
  Definition running (x : ixst R) : Prop := ∀ v, is_Some (ix_buf x !! v) → ix_cur x ≠ "".

  Lemma istep_lines hook orc op o x o' x' :
    istep E index hook orc op o x = (o', x', SOk) → inv_head (ob_inv o) ≠ "" → lines_from (ob_inv o) x → running x →
    lines_from (ob_inv o') x' ∧ running x'.
  Proof using.
    intros H Hh Hl Hr. pose proof (istep_object _ _ _ _ _ _ _ H) as Hs. pose proof (ef_ext _ _ _ _ (sop_effect E orc op o)) as He. rewrite Hs in He. cbn [fst] in He.
    pose proof (lines_grow _ _ _ He Hl) as Hl'. unfold istep in H. rewrite Hs in H. destruct hook; cbn [negb] in H; [|by injection H as <-].
    destruct (streamed E orc op o) as [[[data ps] m]|] eqn:Hst; [|by injection H as <-].
    destruct (checksums E _ data); [|by injection H as <-].
    destruct (streamed_add _ _ _ _ _ _ _ Hst) as (Hps & Hm & o1 & orc' & Ho1 & Hadd). rewrite Hs in Hadd. symmetry in Hadd.
    apply add_reader_ok in Hadd as (_ & _ & d & Hd & Hlist); [|done|done]. rewrite Ho1 in Hd.
    unfold ix_stream in H. set (lines := default [] (ix_buf x !! inv_head (ob_inv o))) in *.
    assert (Forall (line_from (ob_inv o')) lines) as Hlines.
    { subst lines. destruct (ix_buf x !! inv_head (ob_inv o)) as [ls|] eqn:Hb; [|constructor]. by eapply Hl'. }
    set (x1 := if decide (ix_cur x = _) then _ else _) in *.
    assert (lines_from (ob_inv o') x1 ∧ running x1 ∧ ix_cur x1 = inv_head (ob_inv o) ∧ ix_buf x1 = <[inv_head (ob_inv o) := lines]> (ix_buf x)) as (H1 & H2 & H3 & H4).
    { assert (ix_cur x1 = inv_head (ob_inv o) ∧ ix_buf x1 = <[inv_head (ob_inv o) := lines]> (ix_buf x)) as [Ec Eb] by (subst x1; by destruct (decide _)).
      split; [|split; [|done]].
      - intros v ls. rewrite Eb. intros [[<- <-]|[_ Hv]]%lookup_insert_Some; [done|by eapply Hl'].
      - intros v _. by rewrite Ec. }
    destruct (index ps data) as [r|] eqn:Hidx; [|by injection H as <-].
    destruct (ix_open x1); [|done]. injection H as <-. split.
    - intros v ls. cbn [ix_buf]. intros [[<- <-]|[_ Hv]]%lookup_insert_Some; [|by eapply H1]. apply Forall_app. split; [done|]. constructor; [|constructor].
      exists ps, data, d. rewrite (er_alg _ _ He). done.
    - intros v _. done.
  Qed.

  Lemma icalls_run o x o' x' : icalls E index o x o' x' →
    PublishSpec.calls E o o' ∧ (∃ ops, guarded_sops E (proper E) ops o ∧ sops_run E ops o = (o', SOk)) ∧ ext_rel (ob_inv o) (ob_inv o').
  Proof using.
    induction 1 as [o x|hook orc op o x o1 x1 o2 x2 Hp Hs _ (IH1 & (ops & IH2 & IH3) & IH4)].
    { split; [constructor|]. split; [by exists []|reflexivity]. }
    apply istep_object in Hs. split; [|split].
    - eapply (calls_more E orc (OSimple op) o o1 SOk o2); [done|exact Hp|exact Hs|done|done].
    - exists (HCall orc op :: ops). cbn [guarded_sops sops_run]. rewrite Hs. cbn [after_ok andThen]. done.
    - pose proof (ef_ext _ _ _ _ (sop_effect E orc op o)) as He. rewrite Hs in He. cbn [fst] in He. by etrans.
  Qed.
  Lemma icalls_lines o x o' x' : icalls E index o x o' x' → inv_head (ob_inv o) ≠ "" → lines_from (ob_inv o) x → running x →
    lines_from (ob_inv o') x' ∧ running x'.
  Proof using.
    induction 1 as [o x|hook orc op o x o1 x1 o2 x2 Hp Hs _ IH]; [done|]. intros Hh Hl Hr.
    destruct (istep_lines _ _ _ _ _ _ _ Hs Hh Hl Hr) as [Hl1 Hr1]. apply IH; [|done|done].
    apply istep_object in Hs. pose proof (ef_ext _ _ _ _ (sop_effect E orc op o)) as He. rewrite Hs in He. cbn [fst] in He. by rewrite (er_head _ _ He).
  Qed.
  (** Listed content is not touched. *)
  Lemma sop_stable orc op o o' st s p d :
    sop_step E orc op o = (o', st) → fresh_target E op o → lists (inv_manifest (ob_inv o)) p d →
    apply_evs (ob_trace o') s !! p = apply_evs (ob_trace o) s !! p.
  Proof using.
    intros Hs Hf Hl. pose proof (ef_trace _ _ _ _ (sop_effect E orc op o)) as Ht. rewrite Hs in Ht. cbn [fst] in Ht.
    destruct Ht as [[-> _]|(f & area & mp & data & _ & Hop & Hmp & Ht)]; [done|].
    assert (manifest_name (ob_inv o) mp ≠ p) as Hne.
    { intros <-. destruct op as [? ? ? ?|? [|? ?] ?| | |]; cbn [op_target] in Hop; try done; injection Hop as -> ->; cbn [fresh_target] in Hf; by eapply Hf. }
    destruct Ht as [[-> _]|[-> _]]; rewrite apply_evs_app; apply apply_evs_other; repeat constructor; done.
  Qed.
  Lemma icalls_stable o x o' x' s p d : icalls E index o x o' x' → lists (inv_manifest (ob_inv o)) p d →
    apply_evs (ob_trace o') s !! p = apply_evs (ob_trace o) s !! p.
  Proof using.
    induction 1 as [o x|hook orc op o x o1 x1 o2 x2 (_ & _ & Hp) Hs _ IH]; [done|]. intros Hl. apply istep_object in Hs.
    rewrite IH; [by eapply sop_stable|]. pose proof (ef_ext _ _ _ _ (sop_effect E orc op o)) as He. rewrite Hs in He. by eapply ext_rel_lists.
  Qed.
End calls.

(** * One session *)
Section session.
  Context {R : Type} (E : env) (Z : codec) (L : printer R) (l : list subpaths) (J : jstore) (index : list string → string → option R) (V : string → Prop).
  Context (Hhex : hex_hash (e_hash E)) (HZ : codec_ok Z) (HE : manifest_by E l) (HJ : agreeing l J) (Hname : str_mem slash (js_name J) = false).

  Lemma sops_run_app ops1 ops2 o o1 r : sops_run E ops1 o = (o1, SOk) → sops_run E ops2 o1 = r → sops_run E (ops1 ++ ops2) o = r.
  Proof using.
    revert o. induction ops1 as [|[orc op|orc op|msg] ops1 IH]; intros o; cbn [sops_run app]; [by intros [= ->]|..|done].
    - destruct (sop_step E orc op o) as [o' []]; cbn [andThen]; [apply IH|done..].
    - destruct (sop_step E orc op o) as [o' []]; [apply IH..|done].
  Qed.
  Lemma guarded_sops_app G ops1 ops2 o o1 : sops_run E ops1 o = (o1, SOk) → guarded_sops E G ops1 o → guarded_sops E G ops2 o1 → guarded_sops E G (ops1 ++ ops2) o.
  Proof using.
    revert o. induction ops1 as [|[orc op|orc op|msg] ops1 IH]; intros o; cbn [sops_run app guarded_sops]; [by intros [= ->]|..|done].
    - destruct (sop_step E orc op o) as [o' []]; cbn [andThen after_ok]; [|done..]. intros H1 [H2 H3] H4. split; [done|]. by eapply IH.
    - destruct (sop_step E orc op o) as [o' []]; [..|done]; intros H1 [H2 H3] H4; (split; [done|]); by eapply IH.
  Qed.

  Lemma session_result s i n fam s' i' lines :
    kept E s i n n fam → supported E i → isession E Z L l J index V s i s' i' lines →
    complete E s i s' i' ∧
    ((∀ ver, is_Some (inv_versions i' !! ver) ↔ ver = inv_head i' ∨ is_Some (inv_versions i !! ver)) ∧ inv_versions i !! inv_head i' = None) ∧
    (∃ p d, read_target l J i' (inv_head i') = Some p ∧ lists (inv_manifest i') p d) ∧
    read_jsonl Z l J i' s' (inv_head i') = Some (text_of L lines) ∧ Forall (line_from E index i') lines ∧ Forall (λ p, V p.1) lines.
  Proof using Hhex HZ HE HJ Hname.
    intros Hk Hsup [now msg un ua echo orc orc2 orc3 o1 o2 x2 o3 o4 x4 o5 x5 o6 x6 o7 o8 o9 Hst Hc1 Hmod Hecho Hc2 Hside Hafter Hc3 Hcl Hstore Hclose -> -> Hbuf HV].
    (* the object at the start *)
    assert (base E s n (open_object i)) as Hbase.
    { split; [|done]. exists fam. unfold PublishProofs2.now, open_object. cbn [ob_trace ob_inv apply_evs foldl]. eapply kept_same; [apply same_flags|done]. }
    destruct (start_working E s n _ _ _ _ _ _ _ Hst Hbase) as [W1 Ht1].
    destruct (icalls_run _ _ _ _ _ _ Hc1) as (Hcalls & _ & He1). pose proof (calls_working E s Hhex _ _ _ Hcalls W1) as W2.
    assert (working E s n o3 ∧ ext_rel (ob_inv o2) (ob_inv o3) ∧ inv_modified (ob_inv o3) = true) as (W3 & He2 & M3).
    { destruct (ob_echo o2); [|by injection Hecho as <-]. pose proof (echo_working E s n orc o2 W2) as W.
      pose proof (ef_ext _ _ _ _ (echo_effect E (SCopy "" "") orc o2)) as He. pose proof (echo_modified E orc o2 Hmod) as HM. rewrite Hecho in W, He, HM. done. }
    destruct (icalls_run _ _ _ _ _ _ Hc2) as (_ & (ops1 & Hg1 & Hr1) & He3).
    pose proof (sops_working E s Hhex n ops1 o3 Hg1 W3) as W4. rewrite Hr1 in W4. cbn [fst] in W4.
    assert (inv_head (ob_inv o1) ≠ "") as Hh1.
    { destruct W1 as ([f1 K1] & _). rewrite (proj1 (g_contig _ _ _ _ (kp_good _ _ _ _ _ _ K1))), decide_False by lia. apply version_name_nonempty. }
    assert (inv_head (ob_inv o4) = inv_head (ob_inv o1)) as Hh4.
    { rewrite (er_head _ _ He3), (er_head _ _ He2). apply (er_head _ _ He1). }
    (* the lines *)
    destruct (icalls_lines _ _ _ _ _ _ Hc1 Hh1) as [Hl2 Hrun2].
    { intros v ls. unfold ix_new. cbn [ix_buf]. by rewrite lookup_empty. }
    { intros v. unfold ix_new. cbn [ix_buf]. rewrite lookup_empty. by intros []. }
    assert (inv_head (ob_inv o3) ≠ "") as Hh3.
    { by rewrite (er_head _ _ He2), (er_head _ _ He1). }
    destruct (icalls_lines _ _ _ _ _ _ Hc2 Hh3 (lines_grow _ _ _ _ _ He2 Hl2) Hrun2) as [Hl4 Hrun4].
    (* the side file *)
    assert (∃ data, write_jsonl Z E l J orc2 (z_br Z (text_of L lines)) o4 = (o5, SOk) ∧
              ∃ files area, write_target l J (inv_head (ob_inv o4)) = JAdd files area ∧ repack Z (js_compress J) (z_br Z (text_of L lines)) = Some data ∧
              ob_add_reader E orc2 data files area o4 = (o5, SOk)) as (data & Hw & files & area & Htg & Hrp & Hadd).
    { assert (write_jsonl Z E l J orc2 (z_br Z (text_of L lines)) o4 = (o5, SOk)) as Hw.
      { unfold ix_after in Hafter. rewrite decide_False in Hafter by (eapply Hrun4; eauto). destruct (ix_open x4); cbn [negb] in Hafter; [|done].
        rewrite decide_False in Hafter by (by rewrite Hh4). rewrite Hbuf in Hafter.
        destruct (write_jsonl Z E l J orc2 _ o4) as [o' st']. by injection Hafter as <- <- ->. }
      destruct Hside as [_ Hside]. pose proof Hw as Hw'. unfold write_jsonl in Hw'. destruct (write_target l J (inv_head (ob_inv o4))) as [files area|q|e] eqn:Et; [|done..].
      destruct (repack Z (js_compress J) _) as [data|] eqn:Er; [|done]. exists data. split; [done|]. exists files, area. done. }
    assert (str_mem slash (inv_head (ob_inv o4)) = false) as Hhs.
    { destruct W4 as ([f4 K4] & _). rewrite (proj1 (g_contig _ _ _ _ (kp_good _ _ _ _ _ _ K4))), decide_False by lia. apply version_name_no_slash. }
    destruct (write_read_path Z E l J orc2 _ o4 o5 (text_of L lines) HZ HE HJ Hname Hhs eq_refl Hw) as (p & data' & Hp & Hun & Htr5 & He4).
    assert (∃ d, lists (inv_manifest (ob_inv o5)) p d) as [d Hpd].
    { pose proof (agreeing_target E l J (ob_inv o4) HE HJ Hname Hhs p Hp) as Ht. rewrite Htg in Ht. destruct Ht as (f & mp & -> & Hmp & ->).
      apply add_reader_call in Hadd as (f' & mp' & Hf & Hm & _ & _ & d & _ & Hd). injection Hf as <-. rewrite Hmp in Hm. injection Hm as <-. eauto. }
    assert (proper E orc2 (SAddReader data files area) o4) as Hprop.
    { destruct Hside as [Ho Hside]. rewrite Htg in Hside. destruct (Hside data) as [H1 H2]. done. }
    destruct (icalls_run _ _ _ _ _ _ Hc3) as (_ & (ops2 & Hg2 & Hr2) & He5).
    set (side := HCall orc2 (SAddReader data files area)).
    assert (sops_run E (ops1 ++ side :: ops2) o3 = (o6, SOk)) as Hrun.
    { eapply sops_run_app; [exact Hr1|]. cbn [sops_run side sop_step]. unfold side. cbn [sops_run sop_step]. rewrite Hadd. cbn [andThen]. exact Hr2. }
    assert (guarded_sops E (proper E) (ops1 ++ side :: ops2) o3) as Hgd.
    { eapply guarded_sops_app; [exact Hr1|exact Hg1|]. unfold side. cbn [guarded_sops]. split; [exact Hprop|]. cbn [sop_step]. rewrite Hadd. exact Hg2. }
    pose proof (sops_modified E _ _ M3 : inv_modified (ob_inv (sops_run E (ops1 ++ side :: ops2) o3).1) = true) as M6. rewrite Hrun in M6. cbn [fst] in M6.
    pose proof (sops_working E s Hhex n _ o3 Hgd W3) as W6. rewrite Hrun in W6. cbn [fst] in W6.
    rewrite clean_ob in Hcl by done. injection Hcl as <-.
    assert (ob_end E orc (HDone (ops1 ++ side :: ops2)) o2 = (o8, SOk)) as Hend.
    { rewrite ob_end_unfold. destruct W2 as (_ & _ & Hwr). rewrite Hwr, Hmod. cbn [negb]. rewrite Hecho. cbn [andThen]. rewrite Hrun. cbn [andThen]. by rewrite Hstore. }
    pose proof (store_settled E s n o6 o8 Hstore W6 M6) as S8. destruct S8 as (_ & _ & Wr8 & M8 & _).
    assert (ob_inv o8 = ob_inv o6 ∧ ∃ b b', ob_trace o8 = ob_trace o6 ++ write_file (inv_head (ob_inv o6) +:+ "/inventory.json") b ++
              write_file (inv_head (ob_inv o6) +:+ "/" +:+ sidecar_name (inv_alg (ob_inv o6))) b') as (Hi8 & b & b' & Ht8).
    { destruct W6 as (_ & _ & Wr6). unfold store_inventory in Hstore. rewrite Wr6 in Hstore. destruct (e_hash E _ _) as [dg|]; [|done].
      apply (f_equal fst) in Hstore. cbn [fst] in Hstore. subst o8. split; [done|]. eexists _, _. unfold emit at 1. cbn [ob_trace]. rewrite app_nil_l. reflexivity. }
    destruct (close_spec E orc3 o8 o9 Wr8 M8 Hclose) as (dg & _ & Hi9 & Ht9).
    assert (ext_rel (ob_inv o1) (ob_inv o9)) as Hall.
    { rewrite Hi9, Hi8. etrans; [exact He1|]. etrans; [exact He2|]. etrans; [exact He3|]. etrans; [exact He4|exact He5]. }
    assert (inv_head (ob_inv o9) = inv_head (ob_inv o4)) as Hh9 by (rewrite Hh4; apply (er_head _ _ Hall)).
    assert (read_target l J (ob_inv o9) (inv_head (ob_inv o9)) = Some p) as Hp9.
    { rewrite Hh9, <- Hp. apply read_target_cdir. rewrite Hi9, Hi8, (er_cdir _ _ He5). apply (er_cdir _ _ He4). }
    assert (lists (inv_manifest (ob_inv o9)) p d) as Hpd9 by (rewrite Hi9, Hi8; by eapply ext_rel_lists).
    split; [|split; [|split; [by exists p, d|split; [|split; [|done]]]]].
    - econstructor; [|exact Hclose|done|done]. apply updates_one. econstructor; [exact Hst|exact Hcalls|exact Hmod| |exact Hend].
      cbn [guarded_end]. split; [done|]. rewrite Hecho. cbn [after_ok]. split; [exact Hgd|]. rewrite Hrun. cbn [after_ok]. by rewrite Hstore.
    - rewrite (er_head _ _ Hall). cut ((∀ ver, is_Some (inv_versions (ob_inv o1) !! ver) ↔ ver = inv_head (ob_inv o1) ∨ is_Some (inv_versions i !! ver)) ∧
        inv_versions i !! inv_head (ob_inv o1) = None).
      { intros [HA HB]. split; [|done]. intros ver. by rewrite (ext_rel_is_some _ _ _ Hall). }
      unfold ob_start, on_inv in Hst. cbn [ob_inv set_echo open_object] in Hst.
      match type of Hst with context [new_version now msg un ua ?x] => set (i0 := x) in * end.
      pose proof (contiguous_is _ _ (g_contig _ _ _ _ (kp_good _ _ _ _ _ _ Hk))) as Hhead.
      assert (head_is i0 n) as Hhead0 by exact Hhead.
      destruct (new_version_spec i0 n now msg un ua Hhead0) as (stt & Heq & Hnone & _). rewrite Heq in Hst. injection Hst as <-.
      split; [|exact Hnone]. intros ver. cbn [ob_inv set_inv inv_versions inv_head set_writeable set_versions set_head]. rewrite lookup_insert_is_Some. change (inv_versions i0) with (inv_versions i).
      destruct (decide (ver = version_name (inv_padding i0) (n + 1))) as [-> |Hne]; [split; auto|]. split; [intros [? |[_ H]]; auto|].
      intros [? |H]; [done|]. right. split; [done|exact H].
    - unfold read_jsonl. rewrite Hp9.
      destruct W6 as ([f6 K6] & _). assert (lists (inv_manifest (ob_inv o6)) p d) as Hpd6 by (by eapply ext_rel_lists).
      destruct (g_paths _ _ _ _ (kp_good _ _ _ _ _ _ K6) _ _ Hpd6) as (k & r & _ & _ & Hcp).
      assert (inv_head (ob_inv o6) = version_name (inv_padding (ob_inv o6)) (n + 1)) as Hh6.
      { rewrite (proj1 (g_contig _ _ _ _ (kp_good _ _ _ _ _ _ K6))). by rewrite decide_False by lia. }
      pose proof (sidecar_slash _ (kp_alg _ _ _ _ _ _ K6)) as Hss.
      rewrite Ht9, apply_evs_app, Hi8. rewrite apply_evs_other.
      2:{ apply Forall_app. split.
          - pose proof (cpath_slash (ob_inv o6) k r) as Hsl. rewrite <- Hcp in Hsl. repeat constructor; cbn [ev_path]; intros <-; [done..| |]; rewrite Hss in Hsl; done.
          - eapply Forall_impl; [apply ext_events_below|]. intros e Hb He. apply (cpath_not_below (ob_inv o6) k r "extensions"); [left|]. rewrite <- Hcp, <- He. exact Hb. }
      rewrite Ht8, apply_evs_app. rewrite apply_evs_other.
      2:{ rewrite Hh6. repeat constructor; cbn [ev_path]; rewrite Hcp; apply not_eq_sym; (apply (cpath_vfile (ob_inv o6) k r (ob_inv o6) (n + 1)); done). }
      rewrite (icalls_stable _ _ _ _ _ _ s p d Hc3 Hpd), Htr5, apply_evs_app, apply_write, lookup_insert. exact Hun.
    - eapply Forall_impl; [by eapply Hl4|]. intros q. apply line_grows. rewrite Hi9, Hi8. etrans; [exact He4|exact He5].
  Qed.
End session.

(** * Histories *)
Lemma hex_lower hash a x d : hex_hash hash → hash a x = Some d → to_lower d = d.
Proof. intros H Hd. by destruct (H a x d Hd). Qed.
