(** Proofs about thumbnails: one session. *)
From Coq Require Import Ascii.
From stdpp Require Import base list strings gmap.
From Coq Require Import ZArith Lia.
From Verif Require Import GoStr PathModel PathProofs InventoryModel ObjectModel InventorySpec InventoryProofs ClaimsInventory2 LookupProofs AddProofs ObjectSpec ObjectProofs CrashSpec CrashProofs LoadModel LoadProofs
  AreaModel AreaSpec AreaProofs ValidateModel PublishSpec PublishProofs PublishProofs2 PublishProofs3 PublishProofs4 InheritProofs IngestProofs6 JsonlModel JsonlSpec JsonlProofs JsonlProofs2 JsonlProofs3
  MetafileModel MetafileSpec MetafileProofs MigrateModel LayoutModel ThumbModel ThumbSpec ThumbProofs ThumbProofs2.

Lemma sublist_nodup {A} (k m : list A) : sublist k m → NoDup m → NoDup k.
Proof.
  induction 1 as [|x k m Hs IH|x k m Hs IH]; [done|..]; intros [H1 H2]%stdpp.list.NoDup_cons; [|by apply IH]. apply stdpp.list.NoDup_cons. split; [|by apply IH].
  intros Hin. apply H1. clear -Hs Hin. induction Hs as [|y k m Hs IH|y k m Hs IH]; [done| |right; by apply IH].
  apply elem_of_cons in Hin as [-> |Hin]; [left|right; by apply IH].
Qed.
Lemma calls_ext E o o' : calls E o o' → ext_rel (ob_inv o) (ob_inv o').
Proof.
  induction 1 as [|orc op o o1 st o2 Hin Hg Hstep Hst Hrest IH]; [apply ext_rel_refl|]. etrans; [|exact IH]. clear IH.
  destruct op; cbn [in_update guarded_op ostep] in *; try done.
  - pose proof (ef_ext _ _ _ _ (sop_effect E orc op o)) as He. by rewrite Hstep in He.
  - injection Hstep as <- <-. apply ext_rel_refl.
  - unfold ob_end_area in Hstep. destruct (ob_echo o).
    + pose proof (ef_ext _ _ _ _ (echo_effect E (SCopy "" "") orc o)) as H. destruct (ob_echo_delete E orc o) as [o3 []]; cbn [andThen fst] in *; injection Hstep as <- <-; done.
    + cbn [andThen] in Hstep. injection Hstep as <- <-. apply ext_rel_refl.
Qed.
Lemma sops_ext E ops o o' : sops_run E ops o = (o', SOk) → ext_rel (ob_inv o) (ob_inv o').
Proof.
  revert o. induction ops as [|[orc op|orc op|msg] ops IH]; intros o; cbn [sops_run]; [intros [= ->]; apply ext_rel_refl|..|done].
  - pose proof (ef_ext _ _ _ _ (sop_effect E orc op o)) as He. destruct (sop_step E orc op o) as [o1 []]; cbn [andThen fst] in *; [|done..].
    intros H. etrans; [exact He|by apply IH].
  - pose proof (ef_ext _ _ _ _ (sop_effect E orc op o)) as He. destruct (sop_step E orc op o) as [o1 []]; cbn [fst] in *; [..|done]; intros H; (etrans; [exact He|by apply IH]).
Qed.

Section session.
  Context (E : env) (Z : codec) (L : printer tres) (W : string → tres → Prop) (l : list subpaths) (T : tconf) (J : jstore) (dir : string).
  Context (Hhex : hex_hash (e_hash E)) (HZ : codec_ok Z) (HL : lines_ok W L) (HE : manifest_by E l) (HT : suffix_name (tc_ext T)) (HJ : thumbs_in l J dir)
    (Hname : str_mem slash (js_name J) = false).

  (** Every version has its side file; together they have the lines. *)
  Definition line_ok (s : storage) (i : inventory) (p : string * tres) : Prop :=
    (∃ q, lists (inv_manifest i) q p.1) ∧ to_lower (tr_digest p.2) = tr_digest p.2 ∧
    (tr_error p.2 = "" → ∃ q y, lists (inv_manifest i) q (tr_digest p.2) ∧ s !! q = Some y).
  Definition tsided (s : storage) (i : inventory) (lines : list (string * tres)) (f : string → list (string * tres)) : Prop :=
    (∀ v, is_Some (inv_versions i !! v) → (∃ p d, read_target l J i v = Some p ∧ lists (inv_manifest i) p d) ∧
       read_jsonl Z l J i s v = Some (text_of L (f v)) ∧ Forall (λ p, W p.1 p.2) (f v)) ∧
    (∀ e, e ∈ lines ↔ ∃ v, is_Some (inv_versions i !! v) ∧ e ∈ f v) ∧ Forall (line_ok s i) lines.

  Lemma th_files_in w i cs p : vorder_ok w → (cs, p) ∈ th_files w i ↔ ∃ ps, inv_manifest i !! cs = Some (p :: ps).
  Proof using.
    intros Hw. unfold th_files. rewrite elem_of_list_omap. split.
    - intros ([d ps] & Hin & H). cbn [fst snd] in H. rewrite (Hw 2 _ (inv_manifest i)) in Hin. apply elem_of_map_to_list in Hin.
      destruct ps as [|q ps]; [done|]. cbn in H. injection H as -> ->. by exists ps.
    - intros (ps & H). exists (cs, p :: ps). split; [|done]. rewrite (Hw 2 _ (inv_manifest i)). by apply elem_of_map_to_list.
  Qed.
  Lemma th_files_sub (m : list (string * list string)) : sublist (omap (λ p : string * list string, pair p.1 <$> head p.2) m).*1 m.*1.
  Proof using.
    induction m as [|[d [|q ps]] m IH]; cbn; [constructor|by apply sublist_cons|by apply sublist_skip].
  Qed.
  Lemma th_files_nodup w i : vorder_ok w → NoDup (th_files w i).*1.
  Proof using.
    intros Hw. eapply sublist_nodup; [apply th_files_sub|]. rewrite (Hw 2 _ (inv_manifest i)). apply NoDup_fst_map_to_list.
  Qed.
  Lemma manifest_lower s i n d : good (e_hash E) s i n → is_Some (inv_manifest i !! d) → to_lower d = d.
  Proof using Hhex.
    intros HG [ps Hps]. destruct ps as [|q ps]; [by destruct (g_nonempty _ _ _ _ HG d [] Hps)|].
    assert (lists (inv_manifest i) q d) as Hl by (eexists; split; [exact Hps|left]).
    destruct (g_content _ _ _ _ HG _ _ Hl) as (x & _ & Hx). by apply (hex_lower _ _ _ _ Hhex Hx).
  Qed.

  Lemma tsession_result S idx s i n fam old f s' i' o lines :
    kept E s i n n fam → supported E i → tsided s i old f → tsession E Z L W l T J dir S idx s i s' i' o lines →
    complete E s i s' i' ∧
    ((∀ ver, is_Some (inv_versions i' !! ver) ↔ ver = inv_head i' ∨ is_Some (inv_versions i !! ver)) ∧ inv_versions i !! inv_head i' = None) ∧
    (∃ p d, read_target l J i' (inv_head i') = Some p ∧ lists (inv_manifest i') p d) ∧
    read_jsonl Z l J i' s' (inv_head i') = Some (text_of L lines) ∧ Forall (λ p, W p.1 p.2) lines ∧
    NoDup lines.*1 ∧ (∀ c, c ∈ lines.*1 → c ∉ old.*1) ∧ Forall (line_ok s' i') lines ∧
    ∀ cs p ps g, inv_manifest (ob_inv o) !! cs = Some (p :: ps) → function_for S idx cs g → ts_opens S p = true →
      cs ∉ old.*1 → (∀ c r, (c, r) ∈ old → tr_digest r ≠ cs) →
      ∃ x res, s' !! p = Some x ∧ e_hash E (inv_alg i') x = Some cs ∧ (cs, res) ∈ lines ∧
        match tf_run g (file_ext p) x with
        | Some y => thumbnail_kept E dir s' i' g y res
        | None => tr_error res ≠ "" ∧ tr_id res = tf_id g
        end.
  Proof using Hhex HZ HL HE HT HJ Hname.
    intros Hk Hsup Hsd [now msg un ua echo orc orc2 orcs rnd orc3 w o1 o2 o3 a x5 o5 b o6 o7 o8 o9 Hst Hcalls Hmod Hecho Hga Hra Hdir Hside Horcs Hw Hafter Hlines HW Hgb Hrb Hcl Hstore Hclose -> ->].
    assert (base E s n (open_object i)) as Hbase.
    { split; [|done]. exists fam. unfold PublishProofs2.now, open_object. cbn [ob_trace ob_inv apply_evs foldl]. eapply kept_same; [apply same_flags|done]. }
    destruct (start_working E s n _ _ _ _ _ _ _ Hst Hbase) as [W1 Ht1].
    pose proof (calls_working E s Hhex _ _ _ Hcalls W1) as W2.
    assert (working E s n o3 ∧ inv_modified (ob_inv o3) = true) as (W3 & M3).
    { destruct (ob_echo o2); [|by injection Hecho as <-]. pose proof (echo_working E s n orc o2 W2) as HW2.
      pose proof (echo_modified E orc o2 Hmod) as HM. rewrite Hecho in HW2, HM. done. }
    pose proof (sops_working E s Hhex n a o3 Hga W3) as W4. rewrite Hra in W4. cbn [fst] in W4.
    (* listed content is kept until the hook *)
    assert (∀ p d x, lists (inv_manifest i) p d → s !! p = Some x → has s p d x o) as Hhas.
    { intros p d x H1 H2. assert (has s p d x (open_object i)) as Q0 by (split; [exact H2|exact H1]).
      pose proof (start_has E s p d x n _ _ _ _ _ _ _ Hst Hbase Q0) as Q1. pose proof (calls_has E s p d x _ _ Hcalls Q1) as Q2.
      assert (has s p d x o3) as Q3.
      { destruct (ob_echo o2); [|by injection Hecho as <-]. pose proof (echo_has E s p d x orc o2 Q2) as Q. by rewrite Hecho in Q. }
      pose proof (sops_has E s p d x a o3 Hga Q3) as Q4. by rewrite Hra in Q4. }
    assert (ext_rel (ob_inv o1) (ob_inv o)) as He4.
    { etrans; [by eapply calls_ext|]. etrans; [|by eapply sops_ext]. destruct (ob_echo o2); [|injection Hecho as <-; apply ext_rel_refl].
      pose proof (ef_ext _ _ _ _ (echo_effect E (SCopy "" "") orc o2)) as He. by rewrite Hecho in He. }
    pose proof W4 as ([f4 K4] & _ & Wr4). pose proof (kp_good _ _ _ _ _ _ K4) as G4.
    assert (inv_head (ob_inv o) = version_name (inv_padding (ob_inv o)) (n + 1)) as Hh4 by (by rewrite (proj1 (g_contig _ _ _ _ G4)), decide_False by lia).
    assert (str_mem slash (inv_head (ob_inv o)) = false) as Hhs by (rewrite Hh4; apply version_name_no_slash).
    assert (CrashSpec.plain_name (inv_head (ob_inv o))) as Hhp by (rewrite Hh4; apply version_name_plain).
    (* the versions *)
    assert (inv_contentdir (ob_inv o1) = inv_contentdir i ∧ (∀ ver, is_Some (inv_versions (ob_inv o1) !! ver) ↔ ver = inv_head (ob_inv o1) ∨ is_Some (inv_versions i !! ver)) ∧
        inv_versions i !! inv_head (ob_inv o1) = None) as (Hcd1 & Hv1 & Hn1).
    { clear -Hst Hk. unfold ob_start, on_inv in Hst. cbn [ob_inv set_echo open_object] in Hst.
      match type of Hst with context [new_version now msg un ua ?x] => set (i0 := x) in * end.
      pose proof (contiguous_is _ _ (g_contig _ _ _ _ (kp_good _ _ _ _ _ _ Hk))) as Hhead.
      assert (head_is i0 n) as Hhead0 by exact Hhead.
      destruct (new_version_spec i0 n now msg un ua Hhead0) as (stt & Heq & Hnone & _). rewrite Heq in Hst. injection Hst as <-.
      split; [done|]. split; [|exact Hnone]. intros ver. cbn [ob_inv set_inv inv_versions inv_head set_writeable set_versions set_head]. rewrite lookup_insert_is_Some. change (inv_versions i0) with (inv_versions i).
      destruct (decide (ver = version_name (inv_padding i0) (n + 1))) as [-> |Hne]; [split; auto|]. split; [intros [? |[_ H]]; auto|].
      intros [? |H]; [done|]. right. split; [done|exact H]. }
    assert (inv_contentdir (ob_inv o) = inv_contentdir i) as Hcd4 by (by rewrite (er_cdir _ _ He4)).
    assert (∀ ver, is_Some (inv_versions (ob_inv o) !! ver) ↔ ver = inv_head (ob_inv o) ∨ is_Some (inv_versions i !! ver)) as Hv4.
    { intros ver. rewrite (ext_rel_is_some _ _ _ He4), (er_head _ _ He4). apply Hv1. }
    assert (inv_versions i !! inv_head (ob_inv o) = None) as Hn4 by (by rewrite (er_head _ _ He4)).
    (* the side file *)
    assert (∃ files area sf smp, write_target l J (inv_head (ob_inv o)) = JAdd files area ∧ files = [sf] ∧ e_manifest_path E sf area = Some smp ∧ clean_rel smp ∧
      (∀ d, ¬ lists (inv_manifest (ob_inv o)) (manifest_name (ob_inv o) smp) d) ∧ oracle_ok orc2) as (files & area & sf & smp & Htg & -> & Hsmp & Hscl & Hsfr & Ho2).
    { destruct Hside as [Ho2 Hs2]. destruct (write_target l J (inv_head (ob_inv o))) as [files area| |] eqn:Htg; [|done..].
      destruct (side_place E l J dir _ files area HE HJ Hname Hhs Htg) as (sf & pre & seg & name & -> & Hmp & _ & _).
      destruct (Hs2 "") as [Q1 Q2]. cbn [clean_target fresh_target op_target] in Q1, Q2. exists [sf], area, sf, (pre +:+ name). split_and!; try done; [by apply Q1|]. by apply Q2. }
    set (sp := manifest_name (ob_inv o) smp) in *.
    assert (sp = cpath (ob_inv o) (n + 1) smp) as Esp.
    { unfold sp, cpath. rewrite manifest_name_clean; [by rewrite Hh4|done|apply (kp_cdir _ _ _ _ _ _ K4)|done]. }
    assert (read_jsonl Z l J (ob_inv o) (apply_evs (ob_trace o) s) (inv_head (ob_inv o)) = None) as Hnone.
    { unfold read_jsonl. destruct (read_target l J (ob_inv o) (inv_head (ob_inv o))) as [p|] eqn:Hp; [|done].
      pose proof (agreeing_target E l J (ob_inv o) HE (thumbs_agreeing _ _ _ HJ) Hname Hhs p Hp) as Ht. rewrite Htg in Ht.
      destruct Ht as (f' & mp' & Hf & Hmp & ->). injection Hf as <-. rewrite Hsmp in Hmp. injection Hmp as <-. fold sp.
      destruct (apply_evs (ob_trace o) s !! sp) as [x|] eqn:Hx; [|done]. exfalso. rewrite Esp in Hx.
      assert (1 <= n + 1 <= n + 1)%N as Hle by lia. destruct (g_listed _ _ _ _ G4 _ _ _ Hle Hx) as [d Hd]. rewrite <- Esp in Hd. by apply (Hsfr d). }
    (* the metadata found by the hook *)
    unfold th_after in Hafter. set (x1 := ThSt _ _) in Hafter. assert (th_buf x1 = ∅) as Hx1 by (unfold x1, th_new; cbn [th_buf]; apply delete_empty).
    set (n0 := default 0%N (th_count th_new !! inv_head (ob_inv o))) in Hafter.
    destruct (th_metadata Z L w l T J x1 (ob_inv o) (apply_evs (ob_trace o) s)) as [dn|] eqn:Hmd; [|done].
    set (f' := λ v, if decide (v = inv_head (ob_inv o)) then [] else f v).
    destruct Hsd as (S1 & S2 & S3).
    assert (∀ v, v ∈ (fst <$> vo w 1 (inv_versions (ob_inv o))) ↔ is_Some (inv_versions (ob_inv o) !! v)) as Hvs.
    { intros v. rewrite elem_of_list_fmap. split.
      - intros ([u x] & -> & Hx). rewrite (Hw 1 _ (inv_versions (ob_inv o))) in Hx. apply elem_of_map_to_list in Hx. by eexists.
      - intros [x Hx]. exists (v, x). split; [done|]. rewrite (Hw 1 _ (inv_versions (ob_inv o))). by apply elem_of_map_to_list. }
    assert (texts W L l J (ob_inv o) Z (apply_evs (ob_trace o) s) (fst <$> vo w 1 (inv_versions (ob_inv o))) f') as Htexts.
    { intros v Hv%Hvs. unfold f'. destruct (decide (v = inv_head (ob_inv o))) as [-> |Hne]; [split; [constructor|by right]|].
      apply Hv4 in Hv as [? |Hv]; [done|]. destruct (S1 v Hv) as ((p & d & Q1 & Q2) & Q3 & Q4). split; [done|]. left.
      unfold read_jsonl in *. rewrite (read_target_cdir l J i (ob_inv o)) by done. rewrite Q1 in Q3 |- *. destruct (s !! p) as [x|] eqn:Hx; [|done].
      destruct (Hhas p d x Q2 Hx) as [-> _]. done. }
    destruct (th_versions_some W L HL l T J (ob_inv o) Z x1 _ f' _ _ _ Hx1 Htexts Hmd) as (D1 & _ & D3).
    assert (∀ c r, (c, r) ∈ old → is_Some (dn !! c)) as Hdone.
    { intros c r Hin. assert (line_ok s i (c, r)) as ((q & Hq) & _) by (by rewrite stdpp.list.Forall_forall in S3; apply S3). cbn [fst] in Hq.
      assert (to_lower c = c) as Hlow. { eapply manifest_lower; [apply (kp_good _ _ _ _ _ _ Hk)|]. destruct Hq as (ps & Hq & _). by eexists. }
      rewrite <- Hlow. apply S2 in Hin as (v & Hv & Hin). apply (D3 v (c, r)); [apply Hvs, Hv4; by right|]. unfold f'. rewrite decide_False; [done|].
      intros ->. rewrite Hn4 in Hv. by destruct Hv. }
    assert (∀ d m, dn !! d = Some m → ∃ c r, (c, r) ∈ old ∧ (d = c ∨ d = tr_digest r)) as Hfrom.
    { intros d m Hd. destruct (D1 d m Hd) as [Q|(v & [c r] & Hv & Hp & Hab & _)]; [by rewrite lookup_empty in Q|].
      unfold f' in Hp. destruct (decide (v = _)) as [|Hne]; [by apply elem_of_nil in Hp|]. apply Hvs, Hv4 in Hv as [? |Hv]; [done|].
      assert ((c, r) ∈ old) as Hin by (apply S2; by exists v). exists c, r. split; [done|].
      assert (line_ok s i (c, r)) as ((q & Hq) & Hlo & _) by (by rewrite stdpp.list.Forall_forall in S3; apply S3). cbn [fst snd] in Hq, Hlo.
      assert (to_lower c = c) as Hlow. { eapply manifest_lower; [apply (kp_good _ _ _ _ _ _ Hk)|]. destruct Hq as (ps & Hq & _). by eexists. }
      unfold about in Hab. cbn [fst snd] in Hab. by rewrite Hlow, Hlo in Hab. }
    (* the loop *)
    destruct (th_loop E l T J S s idx dn orcs rnd 0 (th_files w (ob_inv o)) n0 [] o) as [[[o4' n1] lines1] st1] eqn:Hloop.
    destruct st1 as [| |]; [|done..]. destruct (write_jsonl Z E l J orc2 (z_br Z (text_of L lines1)) o4') as [o5' st5] eqn:Hwj.
    injection Hafter as -> <- ->. cbn [th_buf] in Hlines. rewrite lookup_insert in Hlines. cbn [default from_option id] in Hlines. subst lines1.
    assert (Forall (λ p, lists (inv_manifest (ob_inv o)) p.2 p.1) (th_files w (ob_inv o))) as Htodo.
    { rewrite stdpp.list.Forall_forall. intros [c p] (ps & Hps)%th_files_in; [|done]. cbn [fst snd]. eexists. split; [exact Hps|left]. }
    assert (used T dir n0 o) as Hused by (intros q e Q1 Q2; by destruct (Hdir q e Q1)).
    destruct (loop_ok E s Hhex l HE T HT J dir HJ S idx dn orcs Horcs rnd (ob_inv o) n _ _ _ _ _ _ _ _ Hloop W4 (ext_rel_refl _) Htodo Hused)
      as (lops & new & Hgl & Hrl & Hnew & Hel & Hml & Hsub & Hfacts & Hmade).
    rewrite app_nil_l in Hnew. subst new.
    pose proof (sops_working E s Hhex n lops o Hgl W4) as Wl. rewrite Hrl in Wl. cbn [fst] in Wl.
    (* the side file is written *)
    assert (inv_head (ob_inv o4') = inv_head (ob_inv o)) as Hhl by apply (er_head _ _ Hel).
    destruct (write_read_path Z E l J orc2 _ o4' o5 (text_of L lines) HZ HE (thumbs_agreeing _ _ _ HJ) Hname ltac:(by rewrite Hhl) eq_refl Hwj) as (p & data & Hp & Hun & Htr5 & He5).
    unfold write_jsonl in Hwj. rewrite Hhl, Htg in Hwj. destruct (repack Z (js_compress J) _) as [data'|] eqn:Hrp; [|done].
    assert (manifest_name (ob_inv o4') smp = sp) as Emn.
    { unfold sp, manifest_name, content_dir. by rewrite Hhl, (er_cdir _ _ Hel). }
    assert (proper E orc2 (SAddReader data' [sf] area) o4') as Hprop.
    { split; [done|]. split; intros mp Q; rewrite Hsmp in Q; injection Q as <-; [done|]. intros d Hd. rewrite Emn in Hd.
      destruct (Hml sp d Hd) as [Q|Q]; [by apply (Hsfr d)|].
      apply (side_outside E l J dir (ob_inv o) [sf] area sf smp HE HJ Hname Hhp (kp_cdir _ _ _ _ _ _ K4) Htg eq_refl Hsmp Hscl). fold sp.
      eapply in_new_same; [symmetry; apply (er_head _ _ Hel)|symmetry; apply (er_cdir _ _ Hel)|done]. }
    set (side := HCall orc2 (SAddReader data' [sf] area)).
    assert (sops_run E (a ++ lops ++ side :: b) o3 = (o6, SOk)) as Hrun.
    { eapply sops_run_app; [exact Hra|]. eapply sops_run_app; [exact Hrl|]. unfold side. cbn [sops_run sop_step]. rewrite Hwj. cbn [andThen]. exact Hrb. }
    assert (guarded_sops E (proper E) (a ++ lops ++ side :: b) o3) as Hgd.
    { eapply guarded_sops_app; [exact Hra|exact Hga|]. eapply guarded_sops_app; [exact Hrl|exact Hgl|]. unfold side. cbn [guarded_sops]. split; [exact Hprop|].
      cbn [sop_step]. rewrite Hwj. exact Hgb. }
    pose proof (sops_modified E _ _ M3 : inv_modified (ob_inv (sops_run E (a ++ lops ++ side :: b) o3).1) = true) as M6. rewrite Hrun in M6. cbn [fst] in M6.
    pose proof (sops_working E s Hhex n _ o3 Hgd W3) as W6. rewrite Hrun in W6. cbn [fst] in W6.
    rewrite clean_ob in Hcl by done. injection Hcl as <-.
    assert (ob_end E orc (HDone (a ++ lops ++ side :: b)) o2 = (o8, SOk)) as Hend.
    { rewrite ob_end_unfold. destruct W2 as (_ & _ & Hwr). rewrite Hwr, Hmod. cbn [negb]. rewrite Hecho. cbn [andThen]. rewrite Hrun. cbn [andThen]. by rewrite Hstore. }
    pose proof (store_settled E s n o6 o8 Hstore W6 M6) as S8. pose proof S8 as (_ & _ & Wr8 & M8 & _).
    assert (ob_inv o8 = ob_inv o6) as Hi8.
    { destruct W6 as (_ & _ & Wr6). unfold store_inventory in Hstore. rewrite Wr6 in Hstore. destruct (e_hash E _ _) as [dg|]; [|done].
      apply (f_equal fst) in Hstore. cbn [fst] in Hstore. by subst o8. }
    destruct (close_spec E orc3 o8 o9 Wr8 M8 Hclose) as (dg & _ & Hi9 & _).
    pose proof (sops_ext E b o5 o6 Hrb) as He6.
    assert (ext_rel (ob_inv o4') (ob_inv o9)) as Hel9 by (rewrite Hi9, Hi8; etrans; [exact He5|exact He6]).
    assert (ext_rel (ob_inv o) (ob_inv o9)) as He9 by (etrans; [exact Hel|exact Hel9]).
    assert (∀ q d y, has s q d y o5 → has s q d y o9) as Hlast5.
    { intros q d y Q. pose proof (sops_has E s q d y b o5 Hgb Q) as Q6. rewrite Hrb in Q6. cbn [fst] in Q6.
      pose proof (store_has E s q d y n o6 o8 Hstore W6 Q6) as Q8. by apply (close_has E s q d y _ orc3 o8 o9 Hclose S8). }
    assert (∀ q d y, has s q d y o4' → has s q d y o9) as Hlast.
    { intros q d y Q. apply Hlast5. pose proof (sop_has E s q d y orc2 (SAddReader data' [sf] area) o4' Hprop Q) as Q5. cbn [sop_step] in Q5. by rewrite Hwj in Q5. }
    assert (∀ q, in_new (ob_inv o4') dir q → in_new (ob_inv o9) dir q) as Hin9.
    { intros q. apply in_new_same; [apply (er_head _ _ Hel9)|apply (er_cdir _ _ Hel9)]. }
    assert (∃ d, lists (inv_manifest (ob_inv o5)) p d) as [d Hpd].
    { pose proof (agreeing_target E l J (ob_inv o4') HE (thumbs_agreeing _ _ _ HJ) Hname ltac:(by rewrite Hhl) p Hp) as Ht. rewrite Hhl, Htg in Ht.
      destruct Ht as (fx & mp & Hfx & Hmp & ->). injection Hfx as <-.
      apply add_reader_call in Hwj as (fy & mp' & Hfy & Hm & _ & _ & d & _ & Hd). injection Hfy as <-. rewrite Hmp in Hm. injection Hm as <-. eauto. }
    assert (has s p d data o9) as [Hpx9 Hpd9].
    { apply Hlast5. split; [|done]. by rewrite Htr5, apply_evs_app, apply_write, lookup_insert. }
    assert (read_target l J (ob_inv o9) (inv_head (ob_inv o9)) = Some p) as Hp9.
    { rewrite (er_head _ _ Hel9), <- Hp. apply read_target_cdir. apply (er_cdir _ _ Hel9). }
    split; [|split; [|split; [by exists p, d|split; [|split; [done|split; [|split; [|split]]]]]]].
    - econstructor; [|exact Hclose|done|done]. apply updates_one. econstructor; [exact Hst|exact Hcalls|exact Hmod| |exact Hend].
      cbn [guarded_end]. split; [done|]. rewrite Hecho. cbn [after_ok]. split; [exact Hgd|]. rewrite Hrun. cbn [after_ok]. by rewrite Hstore.
    - rewrite (er_head _ _ He9). split; [|done]. intros ver. by rewrite (ext_rel_is_some _ _ _ He9).
    - unfold read_jsonl. by rewrite Hp9, Hpx9.
    - eapply sublist_nodup; [exact Hsub|]. by apply th_files_nodup.
    - intros c ([c' r] & -> & Hin)%elem_of_list_fmap ([c2 r2] & Heq & Hold)%elem_of_list_fmap. cbn [fst] in *. subst c2.
      destruct (Hfacts c' r Hin) as [Q _]. destruct (Hdone c' r2 Hold) as [m Q']. by rewrite Q in Q'.
    - rewrite stdpp.list.Forall_forall. intros [c r] Hin. destruct (Hfacts c r Hin) as (_ & Hlo & Herr). split; [|split; [done|]]; cbn [fst snd].
      + assert (c ∈ (th_files w (ob_inv o)).*1) as ([c' q] & -> & Hcq)%elem_of_list_fmap.
        { eapply elem_of_submseteq; [|apply sublist_submseteq, Hsub]. apply elem_of_list_fmap. by exists (c, r). }
        rewrite stdpp.list.Forall_forall in Htodo. exists q. cbn [fst]. eapply ext_rel_lists; [exact He9|]. by apply (Htodo (c', q)).
      + intros Hno. destruct (Herr Hno) as (q & y & Hq & _). destruct (Hlast _ _ _ Hq) as [Q1 Q2]. by exists q, y.
    - intros cs q ps g Hman Hfun Hopen Hold Hdg.
      assert (dn !! cs = None) as Hdn.
      { destruct (dn !! cs) as [m|] eqn:Hm; [|done]. exfalso. destruct (Hfrom cs m Hm) as (c & r & Hin & [-> | ->]); [|by apply (Hdg c r)].
        apply Hold, elem_of_list_fmap. by exists (c, r). }
      assert ((cs, q) ∈ th_files w (ob_inv o)) as Hcq by (apply th_files_in; [done|by exists ps]).
      destruct (Hmade cs q g Hcq Hdn Hfun Hopen) as (x & res & Hx & Hin & Hres). exists x, res. destruct (Hlast _ _ _ Hx) as [Q1 Q2]. split; [done|]. split.
      { pose proof Wl as ([fl Kl] & _). destruct Hx as [Hx1' Hx2]. destruct (g_content _ _ _ _ (kp_good _ _ _ _ _ _ Kl) _ _ Hx2) as (z & Hz1 & Hz2).
        unfold PublishProofs2.now in Hz1. rewrite Hx1' in Hz1. injection Hz1 as <-. by rewrite (er_alg _ _ Hel9). }
      split; [done|]. unfold outcome in Hres. destruct (tf_run g (file_ext q) x) as [y|]; [|done]. destruct Hres as (R1 & R2 & R3 & q' & R4 & R5).
      destruct (Hlast _ _ _ R4) as [Q3 Q4]. split; [done|]. split; [done|]. split; [by rewrite (er_alg _ _ Hel9)|]. exists q'. split; [done|]. split; [by apply Hin9|done].
  Qed.
End session.
