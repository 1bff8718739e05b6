(** Proofs about thumbnails: the report, one session, histories. *)
From Coq Require Import Ascii.
From stdpp Require Import base list strings gmap.
From Coq Require Import ZArith Lia.
From Verif Require Import GoStr PathModel PathProofs InventoryModel ObjectModel InventorySpec InventoryProofs ClaimsInventory2 LookupProofs AddProofs ObjectSpec ObjectProofs CrashSpec CrashProofs LoadModel LoadProofs
  AreaModel AreaSpec AreaProofs ValidateModel PublishSpec PublishProofs PublishProofs2 PublishProofs3 PublishProofs4 InheritProofs IngestProofs6 JsonlModel JsonlSpec JsonlProofs JsonlProofs2 JsonlProofs3
  MetafileModel MetafileSpec MetafileProofs MigrateModel LayoutModel ThumbModel ThumbSpec ThumbProofs.

(** * Text *)
Section text.
  Context (W : string → tres → Prop) (L : printer tres) (HL : lines_ok W L).
  Let V2 (p : string * tres) : Prop := W p.1 p.2.
  Lemma tsplit_text lines : Forall V2 lines → split_on nl (text_of L lines) = ((λ p, l_print L p.1 p.2) <$> lines) ++ [""].
  Proof using HL.
    induction 1 as [|[p r] lines Hp _ IH]; [done|]. cbn [text_of foldr fst snd fmap list_fmap app].
    destruct (HL p r Hp) as [_ [H1 _]]. rewrite split_on_app by done. f_equal. exact IH.
  Qed.
  Lemma tscan_text lines : Forall V2 lines → scan_lines (text_of L lines) = (λ p, l_print L p.1 p.2) <$> lines.
  Proof using HL.
    intros H. unfold scan_lines. rewrite tsplit_text by done. rewrite last_snoc. rewrite removelast_last.
    rewrite <- list_fmap_compose. apply list_fmap_ext. intros k [p r] Hk. cbn [compose fst snd]. apply drop_cr_line.
    destruct (HL p r) as [_ Hl]; [|done]. rewrite stdpp.list.Forall_forall in H. apply (H (p, r)). by eapply elem_of_list_lookup_2.
  Qed.
End text.

(** * The report *)
Section report.
  Context (W : string → tres → Prop) (L : printer tres) (HL : lines_ok W L) (l : list subpaths) (T : tconf) (J : jstore) (i : inventory).
  Definition echoes (m : tmeta) (p : string * tres) : Prop := repeats m (to_lower p.1) (TRes (tr_ext p.2) (tr_error p.2) (tr_id p.2) (tr_file p.2) (to_lower (tr_digest p.2))).
  Definition about (d : string) (p : string * tres) : Prop := d = to_lower p.1 ∨ d = to_lower (tr_digest p.2).

  Lemma th_line_some p r r' : th_line l T J i p r = Some r' →
    (∀ d m, r' !! d = Some m → r !! d = Some m ∨ about d p ∧ echoes m p) ∧ (∀ d, is_Some (r !! d) → is_Some (r' !! d)) ∧ is_Some (r' !! to_lower p.1).
  Proof using.
    unfold th_line. destruct (inv_manifest i !! to_lower p.1); [|done].
    cbv zeta. set (src := to_lower p.1). set (td := to_lower (tr_digest p.2)).
    destruct (match inv_manifest i !! td with Some _ => _ | None => _ end) as [names r1] eqn:Hr1.
    assert ((∀ d m, r1 !! d = Some m → r !! d = Some m ∨ about d p ∧ echoes m p) ∧ ∀ d, is_Some (r !! d) → is_Some (r1 !! d)) as [Q1 Q2].
    { destruct (inv_manifest i !! td); injection Hr1 as <- <-; [|split; [by left|done]]. split.
      - intros d m [[<- <-]|[_ H]]%lookup_insert_Some; [right|by left]. split; [by right|done].
      - intros d H. apply lookup_insert_is_Some'. by right. }
    match goal with |- match ?x with _ => _ end = _ → _ => destruct x as [f|] end; [|done]. intros [= <-]. split; [|split].
    - intros d m [[<- <-]|[_ H]]%lookup_insert_Some; [right|by apply Q1]. split; [by left|done].
    - intros d H. apply lookup_insert_is_Some'. right. by apply Q2.
    - rewrite lookup_insert. by eexists.
  Qed.
  Lemma th_lines_some lines r r' : Forall (λ p, W p.1 p.2) lines → th_lines L l T J i (scan_lines (text_of L lines)) r = Some r' →
    (∀ d m, r' !! d = Some m → r !! d = Some m ∨ ∃ p, p ∈ lines ∧ about d p ∧ echoes m p) ∧ (∀ d, is_Some (r !! d) → is_Some (r' !! d)) ∧
    ∀ p, p ∈ lines → is_Some (r' !! to_lower p.1).
  Proof using HL.
    intros H. rewrite (tscan_text W L HL) by done. revert r. induction H as [|[c a] lines Hp _ IH]; intros r; cbn [fmap list_fmap th_lines fst snd].
    { intros [= <-]. split; [by left|]. split; [done|]. intros p Hp. by apply elem_of_nil in Hp. }
    destruct (HL c a Hp) as [-> _]. destruct (th_line l T J i (c, a) r) as [r1|] eqn:Hr1; [|done]. intros Hr.
    destruct (th_line_some _ _ _ Hr1) as (P1 & P2 & P3). destruct (IH _ Hr) as (Q1 & Q2 & Q3). split; [|split].
    - intros d m Hd. destruct (Q1 d m Hd) as [Hd'|(p & H1 & H2)]; [|right; exists p; split; [by right|done]].
      destruct (P1 d m Hd') as [? |?]; [by left|]. right. exists (c, a). split; [left|done].
    - intros d Hd. auto.
    - intros p [-> |H]%elem_of_cons; [|by apply Q3]. apply Q2. exact P3.
  Qed.
  (** The versions [vs], the text of version [v] has the lines [f v] or cannot be read. *)
  Definition texts (Z : codec) (s : storage) (vs : list string) (f : string → list (string * tres)) : Prop :=
    ∀ v, v ∈ vs → Forall (λ p, W p.1 p.2) (f v) ∧ (read_jsonl Z l J i s v = Some (text_of L (f v)) ∨ read_jsonl Z l J i s v = None ∧ f v = []).
  Lemma th_versions_some Z x s f vs r r' : th_buf x = ∅ → texts Z s vs f → th_versions Z L l T J x i s vs r = Some r' →
    (∀ d m, r' !! d = Some m → r !! d = Some m ∨ ∃ v p, v ∈ vs ∧ p ∈ f v ∧ about d p ∧ echoes m p) ∧ (∀ d, is_Some (r !! d) → is_Some (r' !! d)) ∧
    ∀ v p, v ∈ vs → p ∈ f v → is_Some (r' !! to_lower p.1).
  Proof using HL.
    intros Hx. revert r. induction vs as [|v vs IH]; intros r Ht; cbn [th_versions].
    { intros [= <-]. split; [by left|]. split; [done|]. intros v p Hv. by apply elem_of_nil in Hv. }
    assert (texts Z s vs f) as Ht' by (intros u Hu; apply Ht; by right). rewrite Hx, lookup_empty.
    destruct (Ht v) as [HW [-> |[-> Hf]]]; [left|..].
    - destruct (th_lines L l T J i (scan_lines (text_of L (f v))) r) as [r1|] eqn:Hr1; [|done]. intros Hr.
      destruct (th_lines_some _ _ _ HW Hr1) as (P1 & P2 & P3). destruct (IH _ Ht' Hr) as (Q1 & Q2 & Q3). split; [|split].
      + intros d m Hd. destruct (Q1 d m Hd) as [Hd'|(u & p & H1 & H2)]; [|right; exists u, p; split; [by right|done]].
        destruct (P1 d m Hd') as [? |(p & H1 & H2)]; [by left|]. right. exists v, p. split; [left|done].
      + intros d Hd. auto.
      + intros u p [-> |H]%elem_of_cons Hp; [|by eapply Q3]. by apply Q2, P3.
    - intros Hr. destruct (IH _ Ht' Hr) as (Q1 & Q2 & Q3). split; [|split; [done|]].
      + intros d m Hd. destruct (Q1 d m Hd) as [? |(u & p & H1 & H2)]; [by left|]. right. exists u, p. split; [by right|done].
      + intros u p [-> |H]%elem_of_cons Hp; [|by eapply Q3]. rewrite Hf in Hp. by apply elem_of_nil in Hp.
  Qed.

  (** It can be made. *)
  Context (dir : string) (HJ : thumbs_in l J dir).
  Lemma th_line_ok p r : is_Some (inv_manifest i !! to_lower p.1) → is_Some (th_line l T J i p r).
  Proof using HJ.
    intros [ps Hp]. unfold th_line. rewrite Hp. destruct (match inv_manifest i !! to_lower (tr_digest p.2) with Some _ => _ | None => _ end) as [names r1].
    set (file := if decide (tr_file p.2 = "") then _ else _). clearbody file.
    assert (is_Some (if decide (to_lower (js_type J) = "area") then (λ p, p +:+ "/" +:+ file) <$> area_path l (js_storage J)
        else if decide (to_lower (js_type J) = "path") then
          (λ p, if decide (p = "") then js_storage J +:+ "/" +:+ file else p +:+ "/" +:+ js_storage J +:+ "/" +:+ file) <$> area_path l "content"
        else if decide (to_lower (js_type J) = "extension") then Some file
        else None)) as [f ->]; [|by eexists].
    destruct HJ as [c name compress storage folder sub H1 H2 H3 H4|name compress storage folder|c name compress storage folder sub H1 H2 H3 H4];
      cbn [js_type js_storage]; change (to_lower "area") with "area"; change (to_lower "path") with "path".
    - rewrite decide_True by done. unfold area_path. cbn [area_path_from]. rewrite H3. case_decide; by eexists.
    - rewrite decide_True by done. unfold area_path. cbn [area_path_from]. by eexists.
    - rewrite decide_False, decide_True by done. unfold area_path. cbn [area_path_from]. rewrite H2. case_decide; by eexists.
  Qed.
  Lemma th_lines_ok lines r : Forall (λ p, W p.1 p.2) lines → (∀ p, p ∈ lines → is_Some (inv_manifest i !! to_lower p.1)) →
    is_Some (th_lines L l T J i (scan_lines (text_of L lines)) r).
  Proof using HL HJ.
    intros H. rewrite (tscan_text W L HL) by done. revert r. induction H as [|[c a] lines Hp _ IH]; intros r Hm; cbn [fmap list_fmap th_lines fst snd]; [by eexists|].
    destruct (HL c a Hp) as [-> _]. destruct (th_line_ok (c, a) r) as [r1 ->]; [apply Hm; left|]. apply IH. intros p Hin. apply Hm. by right.
  Qed.
  Lemma th_versions_ok Z x s f vs r : th_buf x = ∅ → texts Z s vs f → (∀ v p, v ∈ vs → p ∈ f v → is_Some (inv_manifest i !! to_lower p.1)) →
    is_Some (th_versions Z L l T J x i s vs r).
  Proof using HL HJ.
    intros Hx. revert r. induction vs as [|v vs IH]; intros r Ht Hm; cbn [th_versions]; [by eexists|].
    assert (texts Z s vs f) as Ht' by (intros u Hu; apply Ht; by right). rewrite Hx, lookup_empty.
    destruct (Ht v) as [HW [-> |[-> _]]]; [left|..].
    - destruct (th_lines_ok (f v) r HW) as [r1 ->]; [intros p Hp; apply (Hm v p); [left|done]|]. apply IH; [done|]. intros u p Hu. apply Hm. by right.
    - apply IH; [done|]. intros u p Hu. apply Hm. by right.
  Qed.
End report.

(** * The side file *)
Lemma thumbs_agreeing l J dir : thumbs_in l J dir → agreeing l J.
Proof. intros []; [by eapply agreeing_area|apply agreeing_area_plain|by apply agreeing_path]. Qed.
Lemma side_place E l J dir head files area :
  manifest_by E l → thumbs_in l J dir → str_mem slash (js_name J) = false → str_mem slash head = false → write_target l J head = JAdd files area →
  ∃ f pre seg name, files = [f] ∧ e_manifest_path E f area = Some (pre +:+ name) ∧ dir = pre +:+ seg ∧ str_mem slash name = false.
Proof.
  intros HE HJ Hn Hh. unfold write_target. destruct (compress_ext (js_compress J)) as [ext|] eqn:Hx; [|done]. apply compress_ext_slash in Hx as Hes.
  pose proof (jsonl_name_plain (js_name J) head ext Hn Hh Hes) as Hp.
  assert (str_mem slash (jsonl_name (js_name J) head ext) = false) as Hns by apply Hp. destruct HJ as [c name compress storage folder sub H1 H2 H3 H4|name compress storage folder|c name compress storage folder sub H1 H2 H3 H4];
    cbn [js_name js_type js_storage js_folder js_compress] in *; change (to_lower "area") with "area"; change (to_lower "path") with "path".
  - rewrite decide_True by done. intros [= <- <-]. eexists _, (sub +:+ "/"), "thumbnails", _. split; [done|]. split; [|split; [by rewrite <- str_app_assoc|exact Hns]].
    rewrite HE. cbn [mgr_state_path]. unfold sub_state_path. rewrite (decide_False (P := storage = "")), (decide_False (P := storage = "full")), H3 by done.
    rewrite area_join by done. rewrite decide_False by (by destruct sub). by rewrite <- str_app_assoc.
  - rewrite decide_True by done. intros [= <- <-]. eexists _, "", "thumbnails", _. split; [done|]. split; [|split; [done|exact Hns]]. by rewrite HE.
  - rewrite (decide_False (P := "path" = "area")), decide_True by done. unfold area_path. cbn [area_path_from]. rewrite H2. rewrite decide_False by (by apply clean_rel_ne).
    intros [= <- <-]. eexists _, (sub +:+ "/" +:+ storage +:+ "/"), storage, _. split; [done|]. split; [|split; [by rewrite <- !str_app_assoc|exact Hns]].
    rewrite HE. cbn [mgr_state_path]. unfold sub_state_path. rewrite (decide_True (P := "" = "")), H1, decide_True by done. rewrite decide_False by (by destruct sub).
    by rewrite <- !str_app_assoc.
Qed.
Lemma side_outside E l J dir i files area f mp :
  manifest_by E l → thumbs_in l J dir → str_mem slash (js_name J) = false → CrashSpec.plain_name (inv_head i) → CrashSpec.plain_name (content_name i) →
  write_target l J (inv_head i) = JAdd files area → head files = Some f → e_manifest_path E f area = Some mp → clean_rel mp → ¬ in_new i dir (manifest_name i mp).
Proof.
  intros HE HJ Hn Hh Hc Hw Hf Hmp Hcl [rest H]. destruct (side_place E l J dir (inv_head i) files area HE HJ Hn) as (f' & pre & seg & name & -> & Hmp' & -> & Hs); [apply Hh|done|].
  injection Hf as ->. rewrite Hmp in Hmp'. injection Hmp' as ->. rewrite manifest_name_clean in H by done. rewrite <- !str_app_assoc in H.
  do 3 (apply str_app_inv_l in H). do 2 (apply str_app_inv_l in H). subst name. by rewrite str_mem_app, str_mem_app, orb_true_r in Hs.
Qed.
