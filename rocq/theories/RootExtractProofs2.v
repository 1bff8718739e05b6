(** The metadata of a storage root. *)
From Coq Require Import Ascii.
From stdpp Require Import base list strings gmap.
From Coq Require Import ZArith Lia.
From Verif Require Import GoStr PathModel InventoryModel ObjectModel InventorySpec ObjectSpec CrashSpec PathProofs AreaModel AreaProofs AreaSpec AreaSpec LoadModel PublishSpec PublishProofs PublishProofs2 PublishProofs3 PublishProofs4 IngestModel IngestSpec IngestProofs5 IngestProofs6
  ValidateModel ValidateSpec CheckModel AcceptSpec
  LayoutModel LayoutSpec RootModel RootSpec RootProofs RootAddModel RootAddSpec RootAddProofs RootAddProofs2 RootCheckModel RootCheckSpec RootCheckProofs RootCheckProofs2 RootFillSpec RootFillProofs
  RootFillProofs2 RootFillProofs3 MetaModel MetaSpec MetaProofs RootExtractModel RootExtractSpec RootExtractProofs Properties6 Properties16 Properties19.

Section folders.
  Context (hash : string → string → option string) (parse : string → option inventory) (create : list (string * RootModel.node) → option ext).
  Context (tree : list (string * RootModel.node)) {A : Type} (ws : nat → worders) (Hws : ∀ n, worders_ok (ws n)) (exts : string → list (string * (gmap string A + string))).
  Lemma folders_reported folders n acc : NoDup folders → (∀ f e x, f ∈ folders → (e, inr x) ∉ exts f) → (∀ f, f ∈ folders → ∃ i s, open_folder hash parse create tree f = OpenedAt i s) →
    (∀ f g i j s t, f ∈ folders → g ∈ folders → open_folder hash parse create tree f = OpenedAt i s → open_folder hash parse create tree g = OpenedAt j t → inv_id i = inv_id j → f = g) →
    ∃ res, folders_meta hash parse create tree ws exts n folders acc = inl res ∧
      (∀ f i s, f ∈ folders → open_folder hash parse create tree f = OpenedAt i s → ∃ m, res !! inv_id i = Some m ∧ reports i (exts f) m) ∧
      ∀ id, (∀ f i s, f ∈ folders → open_folder hash parse create tree f = OpenedAt i s → inv_id i ≠ id) → res !! id = acc !! id.
  Proof using Hws.
    revert n acc. induction folders as [|f folders IH]; intros n acc Hnd Hok Hop Hid.
    - exists acc. split; [done|]. split; [|done]. intros f i s Hf. by apply elem_of_nil in Hf.
    - apply stdpp.list.NoDup_cons in Hnd as [Hnf Hnd]. cbn [folders_meta]. destruct (Hop f ltac:(apply elem_of_list_here)) as (i & s & Ho). rewrite Ho.
      destruct (get_metadata (ws n) (exts f) i) as [m|e] eqn:Em.
      2:{ exfalso. apply C60_report_error in Em as (l1 & nm & l2 & E & _). apply (Hok f nm e); [apply elem_of_list_here|]. rewrite E. apply elem_of_app. right. apply elem_of_list_here. }
      apply C60_report_exact in Em; [|done].
      destruct (IH (S n) (<[inv_id i := m]> acc) Hnd) as (res & Hr & Hin & Hout).
      + intros g e x Hg. apply Hok. by apply elem_of_list_further.
      + intros g Hg. apply Hop. by apply elem_of_list_further.
      + intros g h j k t u Hg Hh. apply Hid; by apply elem_of_list_further.
      + exists res. split; [exact Hr|]. split.
        * intros g j t [-> |Hg]%elem_of_cons Hog; [|by apply (Hin g j t)]. rewrite Ho in Hog. injection Hog as <- <-. exists m. split; [|done].
          rewrite Hout, lookup_insert; [done|]. intros g j t Hg Hog Eq. apply Hnf. rewrite (Hid f g i j s t); [done|apply elem_of_list_here|by apply elem_of_list_further|done|done|done].
        * intros id Hno. rewrite Hout; [|intros g j t Hg; apply Hno; by apply elem_of_list_further]. rewrite lookup_insert_ne; [done|]. apply (Hno f i s); [apply elem_of_list_here|done].
  Qed.
  Lemma folders_failed folders n acc f e x : (∀ f, f ∈ folders → ∃ i s, open_folder hash parse create tree f = OpenedAt i s) → f ∈ folders → (e, inr x) ∈ exts f →
    ∃ msg, folders_meta hash parse create tree ws exts n folders acc = inr (SErr msg).
  Proof using.
    intros Hop. revert n acc. induction folders as [|g folders IH]; intros n acc Hf Hx; [by apply elem_of_nil in Hf|]. cbn [folders_meta].
    destruct (Hop g ltac:(apply elem_of_list_here)) as (i & s & Ho). rewrite Ho. destruct (get_metadata (ws n) (exts g) i) as [m|msg] eqn:Em; [|by exists msg].
    apply elem_of_cons in Hf as [<- |Hf].
    - exfalso. clear -Em Hx. assert (∃ l1 nm er l2, exts f = l1 ++ (nm, inr er) :: l2 ∧ ∀ n' e', (n', inr e') ∉ l1) as (l1 & nm & er & l2 & E & Hn).
      { clear Em. induction (exts f) as [|[nm [y|er]] l IH]; [by apply elem_of_nil in Hx| |].
        - apply elem_of_cons in Hx as [?|Hx]; [done|]. destruct (IH Hx) as (l1 & nm2 & er & l2 & -> & Hn). exists ((nm, inl y) :: l1), nm2, er, l2. split; [done|]. intros n' e' [?|?]%elem_of_cons; [done|by eapply Hn].
        - exists [], nm, er, l. split; [done|]. intros n' e' Hn. by apply elem_of_nil in Hn. }
      assert (get_metadata (ws n) (exts f) i = inr er) as E2 by (apply C60_report_error; by exists l1, nm, l2). congruence.
    - apply IH; [|done|done]. intros h Hh. apply Hop. by apply elem_of_list_further.
  Qed.
End folders.

Section history.
  Context (E : env) (X : AreaModel.xenv) (area : string) (P : inventory → Prop) (parse : string → option inventory).
  Context (rt : root) (fixalgs allowed : list string) (ids : string → Prop) (s0 : storage).
  Context (Hhex : hex_hash (e_hash E)) (Hj : json_ok P (e_json E) parse) (Hx : ∀ f b, (f, b) ∈ e_ext_files E → clean_rel f).
  Context (Hr : proper_root rt fixalgs allowed ids s0).
  Context (H : gmap string (list storage)) (s : storage) (Hh : root_history E X area P parse rt fixalgs allowed ids s0 H s).
  Context (tr : list (string * RootModel.node)) (Hfree : extensions_free rt ids) (Hst : started (rt_version rt) s0) (Hls : lists tr s).
  Context (create : list (string * RootModel.node) → option ext) (Hman : ∀ p l e, object_dir tr p l → extensions_of l e → managed create e).

  Definition at_ id ts f HH Hf := history_extract E X area P parse rt fixalgs allowed ids s0 Hhex Hj Hx Hr H s Hh tr Hfree Hst Hls create Hman id ts f HH Hf.
  Definition folders_are := history_objects E X area P parse rt fixalgs allowed ids s0 Hhex Hj Hx Hr H s Hh tr Hfree Hst Hls.

  Lemma history_files id ts f i2 ver t : H !! id = Some ts → root_path (rt_layouts rt) id = Some (f, false) → load_inventory (e_hash E) parse (sub_files f s) "" = LInv i2 [] →
    (∀ e, x_path X e area = XPath e) → (∃ v, inv_versions i2 !! ver = Some v) → content_at ver ts t →
    (∀ p d, recorded i2 ver p d → ∃ data, t !! p = Some data ∧ x_hash X (inv_alg i2) data = Some d ∧ ∃ q qs, inv_manifest i2 !! d = Some (q :: qs)) ∧
    ∀ p data, t !! p = Some data → ∃ d, recorded i2 ver p d ∧ x_hash X (inv_alg i2) data = Some d.
  Proof using Hhex Hj Hx Hr Hh Hfree Hst Hls Hman.
    intros HH Hf Hl Hxp [v Hv] Hct. destruct (at_ id ts f HH Hf) as (i & _ & _ & Hl' & Hvs & _ & Hex & _). rewrite Hl in Hl'. injection Hl' as <-.
    destruct (history_ok E X area P parse rt fixalgs allowed ids s0 Hhex Hj Hx Hr H s Hh) as [H1 _]. specialize (H1 id f (history_dom _ _ _ _ _ _ _ _ _ _ _ _ _ _ Hh HH) Hf). rewrite HH in H1.
    destruct H1 as (i & i3 & Harch & _ & _ & _ & _ & _ & Hl3 & Hsame). rewrite Hl in Hl3. injection Hl3 as <-.
    destruct (archived_result E X area P parse ts _ i Hhex Hj Harch) as (_ & Hu & _).
    specialize (Hex ver t default_oracle ltac:(by split) Hct).
    assert (requested_version i2 ver = ver) as Hreq.
    { unfold requested_version. rewrite decide_False; [done|]. destruct (proj1 (Hvs ver) (ex_intro _ v Hv)) as (k & _ & ->). intros [Eq|Eq]; discriminate Eq. }
    assert (inv_versions i2 !! requested_version i2 ver = Some v) as Hv' by (by rewrite Hreq).
    assert (unique_paths (v_state v)) as Hup by (apply (Hu ver v); by rewrite <- (sr_vers _ _ Hsame)).
    split.
    - intros p d (v2 & Hv2 & Hli). assert (v2 = v) as -> by congruence.
      destruct (C39_whole_object X default_oracle i2 _ ver area ∅ t v p d ltac:(by split) Hv' Hxp Hup Hex Hli) as (data & Ht & Hd & q & qs & Hm & _). exists data. split; [done|]. split; [done|]. by exists q, qs.
    - intros p data Ht. destruct (C39_only_stored_content X default_oracle i2 _ ver area ∅ t v ltac:(by split) Hv' Hex p) as [Hn|(data' & (d & e & q & qs & Hli & Hxe & Hm & Hs & Hd) & Ht')].
      + rewrite Ht, lookup_empty in Hn. done.
      + rewrite Hxp in Hxe. injection Hxe as ->. rewrite Ht in Ht'. injection Ht' as <-. exists d. split; [|done]. by exists v.
  Qed.
  Lemma history_meta {A} ws (exts : string → list (string * (gmap string A + string))) : (∀ n, worders_ok (ws n)) →
    (∀ id ts f e x, H !! id = Some ts → root_path (rt_layouts rt) id = Some (f, false) → (e, inr x) ∉ exts f) →
    ∃ res, root_meta (e_hash E) parse create tr ws exts = inl res ∧ (∀ id, is_Some (res !! id) ↔ is_Some (H !! id)) ∧
      ∀ id ts f m, H !! id = Some ts → root_path (rt_layouts rt) id = Some (f, false) → res !! id = Some m →
        ∃ i, load_inventory (e_hash E) parse (sub_files f s) "" = LInv i [] ∧ reports i (exts f) m.
  Proof using Hhex Hj Hx Hr Hh Hfree Hst Hls Hman.
    intros Hws Hok. pose proof (history_tidy E X area P parse rt fixalgs allowed ids s0 Hhex Hj Hx Hr H s Hh tr Hst Hls) as Ht.
    destruct (folders_reported (e_hash E) parse create tr ws Hws exts (get_object_folders tr) 0 ∅) as (res & Hres & Hin & Hout).
    - apply (root_found tr Ht).
    - intros f e x (id & ts & HH & Hf)%folders_are. by eapply Hok.
    - intros f (id & ts & HH & Hf)%folders_are. destruct (at_ id ts f HH Hf) as (i2 & Ho & _). by eexists _, _.
    - intros f g i j a b (id & ts & HH & Hf)%folders_are (id2 & ts2 & HH2 & Hf2)%folders_are Ho1 Ho2 Eq.
      destruct (at_ id ts f HH Hf) as (i2 & Ho & Hi & _). destruct (at_ id2 ts2 g HH2 Hf2) as (j2 & Ho' & Hi' & _). rewrite Ho in Ho1. injection Ho1 as <- _. rewrite Ho' in Ho2. injection Ho2 as <- _.
      assert (id = id2) as <- by congruence. congruence.
    - exists res. split; [exact Hres|]. split.
      + intros id. split.
        * intros Hs. destruct (H !! id) as [ts|] eqn:HH; [by eexists|]. exfalso. rewrite Hout in Hs; [rewrite lookup_empty in Hs; by destruct Hs|].
          intros f i a (id2 & ts2 & HH2 & Hf2)%folders_are Ho Eq. destruct (at_ id2 ts2 f HH2 Hf2) as (i2 & Ho2 & Hi & _). rewrite Ho in Ho2. injection Ho2 as -> _. congruence.
        * intros [ts HH]. destruct (ka_folder _ _ (pr_apart _ _ _ _ _ Hr) id (history_dom _ _ _ _ _ _ _ _ _ _ _ _ _ _ Hh HH)) as (f & Hf & _).
          destruct (at_ id ts f HH Hf) as (i2 & Ho & Hi & _). destruct (Hin f i2 _ ltac:(apply folders_are; by exists id, ts) Ho) as (m & Hm & _). rewrite Hi in Hm. by exists m.
      + intros id ts f m HH Hf Hm. destruct (at_ id ts f HH Hf) as (i2 & Ho & Hi & Hl & _). exists i2. split; [exact Hl|].
        destruct (Hin f i2 _ ltac:(apply folders_are; by exists id, ts) Ho) as (m' & Hm' & Hrep). rewrite Hi in Hm'. by assert (m' = m) as -> by congruence.
  Qed.
  Lemma history_meta_fails {A} ws (exts : string → list (string * (gmap string A + string))) id ts f e x :
    H !! id = Some ts → root_path (rt_layouts rt) id = Some (f, false) → (e, inr x) ∈ exts f → ∃ msg, root_meta (e_hash E) parse create tr ws exts = inr (SErr msg).
  Proof using Hhex Hj Hx Hr Hh Hfree Hst Hls Hman.
    intros HH Hf He. eapply folders_failed; [|apply folders_are; by exists id, ts|exact He].
    intros g (id2 & ts2 & HH2 & Hf2)%folders_are. destruct (at_ id2 ts2 g HH2 Hf2) as (i2 & Ho & _). by eexists _, _.
  Qed.
End history.
