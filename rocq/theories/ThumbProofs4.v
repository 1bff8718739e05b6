(** Proofs about thumbnails: histories and the report about them. *)
From Coq Require Import Ascii.
From stdpp Require Import base list strings gmap.
From Coq Require Import ZArith Lia.
From Verif Require Import GoStr PathModel PathProofs InventoryModel ObjectModel InventorySpec InventoryProofs ClaimsInventory2 LookupProofs AddProofs ObjectSpec ObjectProofs CrashSpec CrashProofs LoadModel LoadProofs
  AreaModel AreaSpec AreaProofs ValidateModel PublishSpec PublishProofs PublishProofs2 PublishProofs3 PublishProofs4 InheritProofs IngestProofs6 JsonlModel JsonlSpec JsonlProofs JsonlProofs2 JsonlProofs3
  MetafileModel MetafileSpec MetafileProofs MigrateModel LayoutModel ThumbModel ThumbSpec ThumbProofs ThumbProofs2 ThumbProofs3.

Section history.
  Context (E : env) (P : inventory → Prop) (parse : string → option inventory) (Z : codec) (L : printer tres) (W : string → tres → Prop) (l : list subpaths) (T : tconf) (J : jstore) (dir : string).
  Context (Hhex : hex_hash (e_hash E)) (Hj : json_ok P (e_json E) parse) (HZ : codec_ok Z) (HL : lines_ok W L) (HE : manifest_by E l) (HT : suffix_name (tc_ext T)) (HJ : thumbs_in l J dir)
    (Hname : str_mem slash (js_name J) = false).
  Local Notation tsided := (tsided Z L W l J).

  Lemma tsided_same s i i' lines f : same_record i i' → tsided s i lines f → tsided s i' lines f.
  Proof using.
    intros Hr (H1 & H2 & H3). split; [|split].
    - intros v. rewrite (sr_vers _ _ Hr), (sr_man _ _ Hr), (read_target_cdir l J i i'), (read_jsonl_cdir Z l J i i') by apply Hr. apply H1.
    - intros e. rewrite (sr_vers _ _ Hr). apply H2.
    - eapply Forall_impl; [exact H3|]. intros q. unfold line_ok. by rewrite (sr_man _ _ Hr).
  Qed.
  Lemma tsided_step s i s' i' old lines f : inherits s i s' i' → tsided s i old f →
    ((∀ ver, is_Some (inv_versions i' !! ver) ↔ ver = inv_head i' ∨ is_Some (inv_versions i !! ver)) ∧ inv_versions i !! inv_head i' = None) →
    (∃ p d, read_target l J i' (inv_head i') = Some p ∧ lists (inv_manifest i') p d) →
    read_jsonl Z l J i' s' (inv_head i') = Some (text_of L lines) → Forall (line_ok s' i') lines → Forall (λ p, W p.1 p.2) lines →
    ∃ f', tsided s' i' (old ++ lines) f'.
  Proof using.
    intros Hi (H1 & H2 & H3) [Hv Hn] Hp Hr Hl HV.
    assert (∀ p d, lists (inv_manifest i) p d → lists (inv_manifest i') p d) as Hgrow.
    { intros p d (ps & Q1 & Q2). destruct (ih_man _ _ _ _ Hi d ps Q1) as [e He]. exists (ps ++ e). split; [done|]. apply elem_of_app. by left. }
    exists (λ v, if decide (v = inv_head i') then lines else f v). split; [|split].
    - intros v [-> |Hold]%Hv; [by rewrite decide_True|]. rewrite decide_False by (intros ->; rewrite Hn in Hold; by destruct Hold).
      destruct (H1 v Hold) as ((p & d & Q1 & Q2) & Q3 & Q4). assert (read_target l J i' v = Some p) as Q5 by (rewrite (read_target_cdir l J i i'); [done|apply Hi]).
      split; [exists p, d; eauto|]. split; [|done]. unfold read_jsonl in *. rewrite Q1 in Q3. rewrite Q5, (ih_content _ _ _ _ Hi d p Q2). done.
    - intros e. rewrite elem_of_app, H2. split.
      + intros [(v & Q1 & Q2)|Q]; [exists v|exists (inv_head i')]; (split; [apply Hv; auto|]); [|by rewrite decide_True].
        rewrite decide_False; [done|]. intros ->. rewrite Hn in Q1. by destruct Q1.
      + intros (v & Q1 & Q2). destruct (decide (v = inv_head i')) as [-> |Hne]; [by right|]. left. exists v. split; [|done]. by apply Hv in Q1 as [? |?].
    - apply Forall_app. split; [|done]. eapply Forall_impl; [exact H3|]. intros q ((p & Q1) & Q2 & Q3). split; [exists p; auto|]. split; [done|].
      intros Q. destruct (Q3 Q) as (p' & y & Q4 & Q5). exists p', y. split; [by apply Hgrow|]. by rewrite (ih_content _ _ _ _ Hi _ _ Q4).
  Qed.
  Lemma tsided_none s i : fresh i → tsided s i [] (λ _, []).
  Proof using.
    intros Hf. split; [|split; [|constructor]].
    - intros v Hx. rewrite (proj1 (proj2 (fr_empty _ Hf))) in Hx. rewrite lookup_empty in Hx. by destruct Hx.
    - intros e. rewrite elem_of_nil. split; [done|]. intros (v & _ & H). by apply elem_of_nil in H.
  Qed.
  Lemma nodup_more (old lines : list (string * tres)) : NoDup old.*1 → NoDup lines.*1 → (∀ c, c ∈ lines.*1 → c ∉ old.*1) → NoDup (old ++ lines).*1.
  Proof using. intros H1 H2 H3. rewrite fmap_app. apply stdpp.list.NoDup_app. split; [done|]. split; [|done]. intros c Q1 Q2. by apply (H3 c). Qed.

  Lemma thumbed_sided s i lines : thumbed E P parse Z L W l T J dir s i lines → published E P parse s i ∧ NoDup lines.*1 ∧ ∃ f, tsided s i lines f.
  Proof using Hhex Hj HZ HL HE HT HJ Hname.
    induction 1 as [S idx s i s' i' o lines Hf Hd Hs Hsess HP|S idx s i0 i s' i' o old lines Hi (Hpub & Hnd & f & Hside) Hl Hs Hsess HP].
    - pose proof (fresh_kept E s i Hf Hd) as Hk. eapply tsession_result in Hsess as (Hc & Hv & Hp & Hr & HW & Hnd & _ & Hln & _); [|done..|by apply tsided_none].
      split; [by eapply published_first|]. split; [done|]. eapply (tsided_step s i s' i' [] lines (λ _, [])); try done; [by eapply complete_inherits|by apply tsided_none].
    - destruct (loaded_kept E P parse s i0 i Hhex Hj Hpub Hl) as (n & fam & _ & Hk).
      pose proof (tsided_same _ _ _ _ _ (loaded_same _ _ _ _ _ _ Hhex Hj Hpub Hl) Hside) as Hside'.
      eapply tsession_result in Hsess as (Hc & Hv & Hp & Hr & HW & Hnd' & Hnew & Hln & _); [|done..].
      split; [by eapply published_next|]. split; [by apply nodup_more|]. eapply tsided_step; try done. by eapply complete_inherits.
  Qed.
  Lemma opened_sided s i old : opened E P parse Z L W l T J dir s i old → supported E i ∧ (∃ n fam, kept E s i n n fam) ∧ ∃ f, tsided s i old f.
  Proof using Hhex Hj HZ HL HE HT HJ Hname.
    intros [Hf Hd Hs|i0 old' Ht Hl Hs]; (split; [done|]).
    - split; [exists 0%N; eexists; by apply fresh_kept|]. eexists. by apply tsided_none.
    - destruct (thumbed_sided _ _ _ Ht) as (Hpub & _ & f & Hside). destruct (loaded_kept E P parse s i0 i Hhex Hj Hpub Hl) as (n & fam & _ & Hk).
      split; [by exists n, fam|]. exists f. eapply tsided_same; [|exact Hside]. by eapply loaded_same.
  Qed.

  Lemma made s i old S idx s' i' o lines cs p ps g :
    opened E P parse Z L W l T J dir s i old → tsession E Z L W l T J dir S idx s i s' i' o lines →
    inv_manifest (ob_inv o) !! cs = Some (p :: ps) → function_for S idx cs g → ts_opens S p = true →
    cs ∉ old.*1 → (∀ c r, (c, r) ∈ old → tr_digest r ≠ cs) →
    ∃ x res, s' !! p = Some x ∧ e_hash E (inv_alg i') x = Some cs ∧ (cs, res) ∈ lines ∧
      match tf_run g (file_ext p) x with
      | Some y => thumbnail_kept E dir s' i' g y res
      | None => tr_error res ≠ "" ∧ tr_id res = tf_id g
      end.
  Proof using Hhex Hj HZ HL HE HT HJ Hname.
    intros Ho Hs. destruct (opened_sided _ _ _ Ho) as (Hsup & (n & fam & Hk) & f & Hsd).
    eapply tsession_result in Hs as (_ & _ & _ & _ & _ & _ & _ & _ & H); [|done..]. exact (H cs p ps g).
  Qed.

  Lemma thumbs_report s i lines i' w : thumbed E P parse Z L W l T J dir s i lines → load_inventory (e_hash E) parse s "" = LInv i' [] → vorder_ok w →
    ∃ r, th_metadata Z L w l T J th_new i' s = Some r ∧
      (∀ c res, (c, res) ∈ lines → ∃ m, r !! c = Some m ∧ ((∀ c' res', (c', res') ∈ lines → tr_digest res' ≠ c) → repeats m c res)) ∧
      (∀ d m, r !! d = Some m → ∃ c res, (c, res) ∈ lines ∧ (d = c ∨ d = tr_digest res) ∧ repeats m c res) ∧
      (∀ d m, r !! d = Some m → tm_error m = "" →
         ∃ q y, lists (inv_manifest i') q (tm_digest m) ∧ s !! q = Some y ∧ e_hash E (inv_alg i') y = Some (tm_digest m)).
  Proof using Hhex Hj HZ HL HE HT HJ Hname.
    intros Hi Hl Hw. destruct (thumbed_sided s i lines Hi) as (Hpub & Hnd & f & Hside).
    pose proof (tsided_same _ _ _ _ _ (loaded_same _ _ _ _ _ _ Hhex Hj Hpub Hl) Hside) as (H1 & H2 & H3).
    destruct (loaded_kept E P parse s i i' Hhex Hj Hpub Hl) as (n & fam & _ & Hk). pose proof (kp_good _ _ _ _ _ _ Hk) as HG.
    rewrite stdpp.list.Forall_forall in H3.
    assert (∀ p, p ∈ lines → is_Some (inv_manifest i' !! p.1) ∧ to_lower p.1 = p.1 ∧ to_lower (tr_digest p.2) = tr_digest p.2) as Hlow.
    { intros p Hp. destruct (H3 p Hp) as ((q & ps & Hq & _) & Hd & _). assert (is_Some (inv_manifest i' !! p.1)) as Hs by (by eexists).
      split; [done|]. split; [|done]. by eapply manifest_lower. }
    set (vs := fst <$> vo w 1 (inv_versions i')).
    assert (∀ v, v ∈ vs ↔ is_Some (inv_versions i' !! v)) as Hvs.
    { intros v. unfold vs. rewrite elem_of_list_fmap. split.
      - intros ([u x] & -> & Hx). rewrite (Hw 1 _ (inv_versions i')) in Hx. apply elem_of_map_to_list in Hx. by eexists.
      - intros [x Hx]. exists (v, x). split; [done|]. rewrite (Hw 1 _ (inv_versions i')). by apply elem_of_map_to_list. }
    assert (texts W L l J i' Z s vs f) as Ht.
    { intros v Hv%Hvs. destruct (H1 v Hv) as (_ & Q1 & Q2). split; [done|by left]. }
    destruct (th_versions_ok W L HL l T J i' dir HJ Z th_new s f vs ∅ eq_refl Ht) as [r Hr].
    { intros v p Hv%Hvs Hp. assert (p ∈ lines) as Hin by (apply H2; by exists v). destruct (Hlow p Hin) as (Q1 & -> & _). done. }
    destruct (th_versions_some W L HL l T J i' Z th_new s f vs ∅ r eq_refl Ht Hr) as (D1 & _ & D3).
    assert (∀ d m, r !! d = Some m → ∃ c res, (c, res) ∈ lines ∧ (d = c ∨ d = tr_digest res) ∧ repeats m c res) as Hfrom.
    { intros d m Hd. destruct (D1 d m Hd) as [Q|(v & [c res] & Hv & Hp & Hab & Hec)]; [by rewrite lookup_empty in Q|].
      assert ((c, res) ∈ lines) as Hin by (apply H2; exists v; split; [by apply Hvs|done]). destruct (Hlow _ Hin) as (_ & Q1 & Q2).
      exists c, res. unfold about in Hab. unfold echoes, repeats in *. cbn [fst snd tr_digest tr_error tr_id tr_ext] in *. rewrite Q1, Q2 in *. done. }
    exists r. split; [exact Hr|]. split; [|split; [done|]].
    - intros c res Hin. destruct (Hlow _ Hin) as (_ & Q1 & _). cbn [fst] in Q1. pose proof Hin as (v & Hv & Hin')%H2. apply Hvs in Hv.
      destruct (D3 v (c, res) Hv Hin') as [m Hm]. cbn [fst] in Hm. rewrite Q1 in Hm. exists m. split; [done|]. intros Hno.
      destruct (Hfrom c m Hm) as (c' & res' & Q2 & [-> | ->] & Q3); [|by destruct (Hno c' res' Q2)].
      assert (res' = res) as ->; [|done]. clear -Hnd Hin Q2. induction lines as [|[a b] lines IH]; [by apply elem_of_nil in Hin|].
      cbn [fmap list_fmap fst] in Hnd. apply stdpp.list.NoDup_cons in Hnd as [Hna Hnd].
      apply elem_of_cons in Hin as [[= -> ->]|Hin]; apply elem_of_cons in Q2 as [[= ->]|Q2]; [done|..|by apply IH].
      + destruct Hna. apply elem_of_list_fmap. by exists (a, res').
      + destruct Hna. apply elem_of_list_fmap. by exists (a, res).
    - intros d m Hd He. destruct (Hfrom d m Hd) as (c & res & Hin & _ & (_ & Q1 & Q2 & _)). destruct (H3 _ Hin) as (_ & _ & Q3). cbn [snd] in Q3. rewrite Q2 in He.
      destruct (Q3 He) as (q & y & Q4 & Q5). exists q, y. rewrite Q1. split; [done|]. split; [done|].
      destruct (g_content _ _ _ _ HG _ _ Q4) as (z & Hz1 & Hz2). rewrite Q5 in Hz1. by injection Hz1 as <-.
  Qed.
End history.
