From Coq Require Import Ascii.
From stdpp Require Import base list strings gmap.
From Coq Require Import ZArith Lia.
From Verif Require Import GoStr PathModel InventoryModel ObjectModel LoadModel ValidateModel CheckModel AreaModel LayoutModel RootModel RootAddModel RootCheckModel
  MetaModel MetaSpec MetaProofs RootExtractModel ServerModel ServerSpec ServerProofs.

Section server.
  Context {A : Type} (hash : string → string → option string) (parse : string → option inventory) (create : list (string * RootModel.node) → option ext).
  Context (ls : list (string → pres)) (exts : string → list (string * (gmap string A + string))).
  Context (tree : list (string * RootModel.node)).
  Local Notation step := (step hash parse create ls exts tree).
  Local Notation serve := (serve hash parse create ls exts tree).
  Local Notation runs := (runs hash parse create ls exts tree).
  Local Notation stored := (stored hash parse create tree).
  Local Notation tied := (tied exts).
  Local Notation loaded := (loaded hash parse create tree).
  Local Notation sane := (sane hash parse create exts tree).
  Local Notation load_id := (load_id hash parse create ls tree).

  (** * What is remembered does not show *)
  Lemma metadata_same_outcome w w' (es : list (string * (gmap string A + string))) i m : get_metadata w es i = inl m → ∃ m', get_metadata w' es i = inl m'.
  Proof.
    intros H. destruct (get_metadata w' es i) as [m'|e] eqn:E; [by exists m'|]. apply (get_metadata_error w' es i e) in E. apply (get_metadata_error w es i e) in E.
    rewrite H in E. discriminate E.
  Qed.
  Lemma metadata_same_error w w' (es : list (string * (gmap string A + string))) i e : get_metadata w es i = inr e → get_metadata w' es i = inr e.
  Proof. intros H. apply (get_metadata_error w' es i e). by apply (get_metadata_error w es i e). Qed.
  Definition of_file (r : request) : Prop := match r with RqFile _ _ | RqExtension _ _ _ => True | _ => False end.
  Lemma given_same r h m m' : of_file r → tied h m → tied h m' → given tree r (Server (Some h) (Some m)) = given tree r (Server (Some h) (Some m')).
  Proof.
    intros Hr Hm Hm'. destruct r as [g id|f|id dg|id nm pt]; try done. cbn [given sv_meta sv_object].
    destruct (om_files m !! dg) as [f|] eqn:Ef.
    - destruct (tied_files exts h m dg f Hm Ef) as (p & ps & -> & Hp). destruct (tied_found exts h m' dg p ps Hm' Hp) as (f' & -> & ->). done.
    - destruct (om_files m' !! dg) as [f'|] eqn:Ef'; [|done]. destruct (tied_files exts h m' dg f' Hm' Ef') as (p & ps & _ & Hp).
      destruct (tied_found exts h m dg p ps Hm Hp) as (f & Hf & _). rewrite Ef in Hf. discriminate Hf.
  Qed.
  Lemma open_clean f g : path_clean f = path_clean g → open_folder hash parse create tree f = open_folder hash parse create tree g.
  Proof. intros H. unfold open_folder, find_folder. by rewrite H. Qed.
  Lemma given_folder r h h' m : of_file r → path_clean (h_folder h') = path_clean (h_folder h) →
    given tree r (Server (Some h) m : server A) = given tree r (Server (Some h') m).
  Proof. intros Hr Hf. destruct r; try done; cbn [given sv_meta sv_object]; unfold file_at, find_folder; by rewrite Hf. Qed.
  Lemma fetch_same w w' r s : worders_ok w → worders_ok w' → of_file r →
    match fetch hash parse create ls exts tree w r s with (s', None) => given tree r s' | (_, Some x) => x end =
    match fetch hash parse create ls exts tree w' r idle with (s', None) => given tree r s' | (_, Some x) => x end.
  Proof.
    intros Hw Hw' Hr. unfold fetch. destruct (load_for _ _ _ _ _ _) as [h|[]]; [|done..].
    destruct (get_metadata w _ _) as [m|e] eqn:Em.
    - destruct (metadata_same_outcome w w' _ _ _ Em) as [m' Em']. rewrite Em'. apply given_same; [done|by exists w|by exists w'].
    - by rewrite (metadata_same_error w w' _ _ _ Em).
  Qed.
  Lemma serve_remembered w w' r s : in_place hash parse create ls tree → worders_ok w → worders_ok w' → of_file r → sane s →
    (serve w r s).2 = (serve w' r idle).2.
  Proof.
    intros [P1 P2] Hw Hw' Hr Hs. rewrite !serve_spec.
    assert ((match found hash parse create ls exts tree w' r idle with (s', None) => (s', given tree r s') | (s', Some x) => (s', x) end).2 =
      match fetch hash parse create ls exts tree w' r idle with (s', None) => given tree r s' | (_, Some x) => x end) as ->.
    { unfold found. cbn [sv_object idle]. destruct (asked r); by destruct (fetch _ _ _ _ _ _ _ _ _) as [s' [x|]]. }
    rewrite <- (fetch_same w w' r s) by done. unfold found. destruct (asked r) as [id|] eqn:Ea; [|by destruct (fetch _ _ _ _ _ _ _ _ _) as [s' [x|]]].
    destruct s as [[h|] m]; cbn [sv_object sv_meta]; [|by destruct (fetch _ _ _ _ _ _ _ _ _) as [s' [x|]]].
    destruct (decide (inv_id (h_inv h) = id)) as [E|]; [|by destruct (fetch _ _ _ _ _ _ _ _ _) as [s' [x|]]].
    destruct (Hs h eq_refl) as [[st Hst] Ht]. cbn [sv_meta] in Ht. destruct (P1 _ _ _ Hst) as (f & Had & Hf). rewrite E in Had.
    set (h' := Handle f (h_inv h)).
    assert (load_for hash parse create ls tree r = inl h') as Hl.
    { assert (load_id id = inl h') as Hl.
      { unfold ServerModel.load_id. unfold addressed in Had. rewrite Had. apply (stored_load _ _ _ _ _ _ st). unfold ServerSpec.stored. by rewrite (open_clean f (h_folder h)). }
      destruct r; cbn in Ea |- *; try done; by injection Ea as ->. }
    unfold fetch. rewrite Hl. assert (∀ m, tied h m → tied h' m) as Hth by (intros m0 (w0 & ? & ?); exists w0; cbn [h_folder h_inv h']; by rewrite Hf).
    cbn [h_folder h_inv h']. rewrite Hf. fold h'. destruct m as [m|].
    - pose proof (Ht m eq_refl) as Hm. pose proof Hm as (w0 & Hw0 & Em0). destruct (metadata_same_outcome w0 w _ _ _ Em0) as [m1 Em1]. rewrite Em1. cbn [snd].
      rewrite (given_folder r h h' (Some m)) by done. apply given_same; [done|by apply Hth|apply Hth; by exists w].
    - destruct (get_metadata w _ _) as [m|]; cbn [snd]; [|done]. by apply given_folder.
  Qed.

  (** * Requests at the same time *)
  Lemma runs_loaded s ts : runs s ts → (∀ h, sv_object s = Some h → loaded h) ∧
    ∀ r b, (r, AtEnd (RpData b)) ∈ ts → ∃ folder i st p, stored folder i st ∧ st !! p = Some b.
  Proof.
    induction 1 as [|s ts r _ [IH1 IH2]|s l1 r p l2 w _ [IH1 IH2] Hw].
    - split; [done|]. intros r b H. by apply elem_of_nil in H.
    - split; [done|]. intros r' b. rewrite elem_of_app, elem_of_list_singleton. intros [H|[= _]]. by apply (IH2 r').
    - assert ((∀ h, sv_object (step w r s p).1 = Some h → loaded h) ∧
        ∀ b, (step w r s p).2 = AtEnd (RpData b) → p = AtEnd (RpData b) ∨ ∃ folder i st q, stored folder i st ∧ st !! q = Some b) as [K1 K2].
      { destruct p as [| | | |[m|e]| |q|x]; cbn [ServerModel.step].
        - destruct (asked r), (sv_object s) as [h|] eqn:E; try destruct (decide _); cbn [fst snd]; rewrite ?E; (split; [done|by intros ? [=]]).
        - destruct (sv_meta s); by split; [|intros ? [=]].
        - destruct (load_for _ _ _ _ _ _) as [h|[]] eqn:El; cbn [fst snd sv_object]; (split; [|by intros ? [=]]); [|done..]. intros h' [= <-]. exact (proj1 (load_for_meant _ _ _ _ _ r _ El)).
        - destruct (sv_object s) as [h|] eqn:E; cbn [fst snd]; rewrite ?E; (split; [done|by intros ? [=]]).
        - cbn [fst snd sv_object]. by split; [|intros ? [=]].
        - cbn [fst snd sv_object]. by split; [|intros ? [=]].
        - destruct r as [g id|f|id dg|id nm pt]; cbn [ServerModel.step].
          + destruct (sv_meta s); [destruct (sv_object s) eqn:E|]; cbn [fst snd]; rewrite ?E; (split; [done|]); [by intros ? [=]..|by destruct g; intros ? [=]].
          + destruct (sv_object s) eqn:E; cbn [fst snd]; rewrite ?E; (split; [done|by intros ? [=]]).
          + destruct (sv_meta s) as [m|]; [|by split; [|intros ? [=]]]. destruct (om_files m !! dg) as [f|]; [|by split; [|intros ? [=]]].
            destruct (fm_internal f); by split; [|intros ? [=]].
          + by split; [|intros ? [=]].
        - destruct (sv_object s) as [h|] eqn:E; [|cbn [fst snd]; rewrite ?E; by split; [|intros ? [=]]]. pose proof (IH1 h eq_refl) as [st Hst].
          rewrite (stored_files _ _ _ _ _ _ _ q Hst). destruct (st !! q) as [b0|] eqn:Eb; cbn [fst snd]; rewrite E; (split; [done|]); [|by intros ? [=]].
          intros b [= <-]. right. by exists (h_folder h), (h_inv h), st, q.
        - split; [done|]. cbn [snd]. by left. }
      split; [done|]. intros r' b. rewrite elem_of_app, elem_of_cons. intros [H|[[= -> Hx]|H]].
      + apply (IH2 r'). rewrite elem_of_app. by left.
      + destruct (K2 b (eq_sym Hx)) as [-> |K]; [|done]. apply (IH2 r). rewrite elem_of_app, elem_of_cons. by right; left.
      + apply (IH2 r'). rewrite elem_of_app, elem_of_cons. by right; right.
  Qed.

  (** All of them about one object. *)
  Definition proper (id : string) (r : request) (p : place A) : Prop :=
    match p with
    | AtStore (inl m) => ∃ h, load_id id = inl h ∧ tied h m
    | AtOpen q => match r with RqFile _ dg => ∃ h ps, load_id id = inl h ∧ inv_manifest (h_inv h) !! dg = Some (q :: ps) | _ => True end
    | AtEnd (RpData b) => match r with RqFile _ dg => content_of hash parse create ls tree id dg b | _ => True end
    | _ => True
    end.
  Definition agreed (id : string) (s : server A) : Prop :=
    (∀ h, sv_object s = Some h → load_id id = inl h) ∧ ∀ m, sv_meta s = Some m → ∃ h, load_id id = inl h ∧ tied h m.
  Lemma step_agreed id w r s p : worders_ok w → asked r = Some id → agreed id s → proper id r p → agreed id (step w r s p).1 ∧ proper id r (step w r s p).2.
  Proof.
    intros Hw Ha [H1 H2] Hp. destruct p as [| | | |[m|e]| |q|x]; cbn [ServerModel.step].
    - rewrite Ha. destruct (sv_object s) as [h|] eqn:E; [destruct (decide _)|]; cbn [fst snd]; (split; [split; rewrite ?E; done|done]).
    - destruct (sv_meta s) eqn:E; cbn [fst snd]; (split; [split; rewrite ?E; done|done]).
    - assert (load_for hash parse create ls tree r = load_id id) as -> by (destruct r; cbn in Ha |- *; try discriminate Ha; by injection Ha as ->).
      destruct (load_id id) as [h|[]] eqn:El; cbn [fst snd]; (split; [|done]); unfold agreed; rewrite El; cbn [sv_object sv_meta]; (split; [|done]); [by intros h' [= <-]|done..].
    - destruct (sv_object s) as [h|] eqn:E; cbn [fst snd]; (split; [split; rewrite ?E; done|]); [|done]. cbn [proper].
      destruct (get_metadata _ _ _) as [m|] eqn:Em; [|done]. exists h. split; [by apply H1|by exists w].
    - cbn [fst snd]. split; [|done]. split; cbn [sv_object sv_meta]; [done|]. by intros m' [= <-].
    - cbn [fst snd]. split; [|done]. split; cbn [sv_object sv_meta]; done.
    - destruct r as [g i0|f|i0 dg|i0 nm pt]; try done.
      + destruct (sv_meta s) eqn:Em; [destruct (sv_object s) eqn:E|]; cbn [fst snd]; (split; [split; rewrite ?E, ?Em; done|]); try done. by destruct g.
      + destruct (sv_meta s) as [m|] eqn:Em; [|cbn [fst snd]; split; [split; rewrite ?Em; done|done]]. destruct (H2 m eq_refl) as (h & Hl & Ht).
        destruct (om_files m !! dg) as [f|] eqn:Ef; [|cbn [fst snd]; split; [split; rewrite ?Em; done|done]].
        destruct (tied_files exts h m dg f Ht Ef) as (q & ps & -> & Hq). cbn [fst snd]. split; [split; rewrite ?Em; done|]. by exists h, ps.
    - destruct (sv_object s) as [h|] eqn:E; [|cbn [fst snd]; split; [split; rewrite ?E; done|done]].
      destruct (file_at tree (h_folder h) q) as [b|] eqn:Eb; cbn [fst snd]; (split; [split; rewrite ?E; done|]); [|done]. cbn [proper] in Hp |- *.
      destruct r as [g i0|f|i0 dg|i0 nm pt]; try done. destruct Hp as (h' & ps & Hl & Hq). pose proof (H1 h eq_refl) as Hl'. rewrite Hl in Hl'. injection Hl' as ->.
      destruct (load_id_stored _ _ _ _ _ _ _ Hl) as [Had [st Hst]]. rewrite (stored_files _ _ _ _ _ _ _ q Hst) in Eb.
      exists (h_folder h), (h_inv h), st, q, ps. split; [done|]. split; [by left|done].
    - cbn [fst snd]. done.
  Qed.
  Lemma runs_agreed id s ts : runs s ts → (∀ x, x ∈ ts → asked x.1 = Some id) → agreed id s ∧ ∀ x, x ∈ ts → proper id x.1 x.2.
  Proof.
    induction 1 as [|s ts r _ IH|s l1 r p l2 w _ IH Hw]; intros Ha.
    - split; [done|]. intros x H. by apply elem_of_nil in H.
    - destruct IH as [K1 K2]; [intros x Hx; apply Ha; rewrite elem_of_app; by left|]. split; [done|]. intros x. rewrite elem_of_app, elem_of_list_singleton.
      intros [H| ->]; [by apply K2|done].
    - assert (∀ x, x ∈ l1 ++ (r, p) :: l2 → asked x.1 = Some id) as Ha'.
      { intros x. rewrite elem_of_app, elem_of_cons. intros [H|[-> |H]].
        - apply Ha. rewrite elem_of_app. by left.
        - apply (Ha (r, (step w r s p).2)). rewrite elem_of_app, elem_of_cons. by right; left.
        - apply Ha. rewrite elem_of_app, elem_of_cons. by right; right. }
      destruct (IH Ha') as [K1 K2].
      destruct (step_agreed id w r s p Hw) as [L1 L2].
      + apply (Ha' (r, p)). rewrite elem_of_app, elem_of_cons. by right; left.
      + done.
      + apply (K2 (r, p)). rewrite elem_of_app, elem_of_cons. by right; left.
      + split; [done|]. intros x. rewrite elem_of_app, elem_of_cons. intros [H|[-> |H]].
        * apply K2. rewrite elem_of_app. by left.
        * done.
        * apply K2. rewrite elem_of_app, elem_of_cons. by right; right.
  Qed.
End server.
