From Coq Require Import Ascii.
From stdpp Require Import base list strings gmap.
From Coq Require Import ZArith Lia.
From Verif Require Import GoStr PathModel InventoryModel ObjectModel LoadModel ValidateModel CheckModel AreaModel LayoutModel RootModel RootAddModel RootCheckModel
  MetaModel MetaSpec MetaProofs RootExtractModel ServerModel ServerSpec.

Section server.
  Context {A : Type} (hash : string → string → option string) (parse : string → option inventory) (create : list (string * RootModel.node) → option ext).
  Context (ls : list (string → pres)) (exts : string → list (string * (gmap string A + string))).
  Context (tree : list (string * RootModel.node)).
  Local Notation step := (step hash parse create ls exts tree).
  Local Notation serve := (serve hash parse create ls exts tree).
  Local Notation runs := (runs hash parse create ls exts tree).
  Local Notation stored := (stored hash parse create tree).

  Lemma load_at_stored folder h : load_at hash parse create tree folder = inl h → h_folder h = folder ∧ ∃ s, stored folder (h_inv h) s.
  Proof.
    unfold load_at, ServerSpec.stored. destruct (open_folder _ _ _ _ _) as [i s|[| |]]; try done. intros [= <-]. split; [done|]. by exists s.
  Qed.
  Lemma stored_load folder i s : stored folder i s → load_at hash parse create tree folder = inl (Handle folder i).
  Proof. unfold load_at, ServerSpec.stored. by intros ->. Qed.
  Lemma load_id_stored id h : load_id hash parse create ls tree id = inl h → addressed ls id (h_folder h) ∧ ∃ s, stored (h_folder h) (h_inv h) s.
  Proof.
    unfold load_id, addressed. destruct (root_path ls id) as [[folder []]|]; [done| |done]. intros H. apply load_at_stored in H as [-> Hs]. done.
  Qed.
  Lemma stored_files folder i s p : stored folder i s → file_at tree folder p = s !! p.
  Proof.
    unfold ServerSpec.stored, open_folder, file_at. destruct (find_folder folder tree) as [l|]; [|done].
    destruct (get_version _ _); [|done..]. destruct (create_extensions _ _ _); [|done..]. destruct (load_inventory _ _ _ _); try done. by intros [= _ <-].
  Qed.

  (** What the server remembers belongs together. *)
  Definition tied (h : handle) (m : object_meta A) : Prop := ∃ w, worders_ok w ∧ get_metadata w (exts (path_clean (h_folder h))) (h_inv h) = inl m.
  Definition loaded (h : handle) : Prop := ∃ s, stored (h_folder h) (h_inv h) s.
  Definition sane (s : server A) : Prop :=
    ∀ h, sv_object s = Some h → loaded h ∧ ∀ m, sv_meta s = Some m → tied h m.
  Lemma tied_files h m digest f : tied h m → om_files m !! digest = Some f → ∃ p ps, fm_internal f = p :: ps ∧ inv_manifest (h_inv h) !! digest = Some (p :: ps).
  Proof.
    intros (w & Hw & Hm) Hf. pose proof (get_metadata_reports w Hw _ _ _ Hm) as Hr. destruct (rp_files _ _ _ Hr digest f Hf) as (p & ps & Hp & Hfr).
    exists p, ps. split; [apply (fr_internal _ _ _ _ _ _ Hfr)|done].
  Qed.
  Lemma tied_found h m digest p ps : tied h m → inv_manifest (h_inv h) !! digest = Some (p :: ps) → ∃ f, om_files m !! digest = Some f ∧ fm_internal f = p :: ps.
  Proof.
    intros Ht Hp. pose proof Ht as (w & Hw & Hm). pose proof (get_metadata_reports w Hw _ _ _ Hm) as Hr.
    destruct (rp_files_all _ _ _ Hr digest p ps Hp) as [f Hf]. exists f. split; [done|].
    destruct (tied_files h m digest f Ht Hf) as (q & qs & Hq & Hq'). rewrite Hp in Hq'. injection Hq' as -> ->. done.
  Qed.

  Definition fetch (w : worders) (r : request) (s : server A) : server A * option (response A) :=
    match load_for hash parse create ls tree r with
             | inl h => match get_metadata w (exts (path_clean (h_folder h))) (h_inv h) with inl m => (Server (Some h) (Some m), None) | inr _ => (Server (Some h) None, Some RpError) end
             | inr false => (Server None (sv_meta s), Some RpError)
             | inr true => (s, Some RpPanic)
             end.
  (** The object a request is about, after the first half of the handler, or the response. *)
  Definition found (w : worders) (r : request) (s : server A) : server A * option (response A) :=
    match asked r, sv_object s with
    | Some id, Some h =>
        if decide (inv_id (h_inv h) = id) then
          match sv_meta s with
          | Some _ => (s, None)
          | None => match get_metadata w (exts (path_clean (h_folder h))) (h_inv h) with inl m => (Server (Some h) (Some m), None) | inr _ => (Server (Some h) None, Some RpError) end
          end
        else fetch w r s
    | _, _ => fetch w r s
    end.
  Definition given (r : request) (s : server A) : response A :=
    match r with
    | RqPage g _ =>
        match sv_meta s, sv_object s with
        | None, _ => if g then RpError else RpPanic
        | Some m, Some h => RpPage (inv_id (h_inv h)) m
        | Some _, None => RpPanic
        end
    | RqFolder _ => match sv_object s with None => RpPanic | Some h => RpRedirect (inv_id (h_inv h)) end
    | RqFile _ digest =>
        match sv_meta s with
        | None => RpPanic
        | Some m =>
            match om_files m !! digest with
            | None => RpError
            | Some f =>
                match fm_internal f, sv_object s with
                | [], _ => RpPanic
                | _, None => RpPanic
                | p :: _, Some h => match file_at tree (h_folder h) p with None => RpError | Some b => RpData b end
                end
            end
        end
    | RqExtension _ name path =>
        match sv_object s with
        | None => RpPanic
        | Some h => match file_at tree (h_folder h) (path_join ["extensions"; name; path]) with None => RpError | Some b => RpData b end
        end
    end.
  Lemma steps_end n w r s x : steps hash parse create ls exts n tree w r s (AtEnd x) = (s, AtEnd x).
  Proof. induction n as [|n IH]; [done|]. cbn. exact IH. Qed.
  Lemma steps_S n w r s p : steps hash parse create ls exts (S n) tree w r s p =
    steps hash parse create ls exts n tree w r (step w r s p).1 (step w r s p).2.
  Proof. cbn [steps]. by destruct (step w r s p). Qed.
  Lemma use_spec n w r s : 2 ≤ n → steps hash parse create ls exts n tree w r s AtUse = (s, AtEnd (given r s)).
  Proof.
    intros Hn. destruct n as [|[|n]]; [lia|lia|]. rewrite steps_S. unfold given. destruct r as [g id|f|id dg|id nm pt]; cbn [step].
    - destruct (sv_meta s) as [m|]; [destruct (sv_object s)|]; cbn [fst snd]; by rewrite steps_end.
    - destruct (sv_object s); cbn [fst snd]; by rewrite steps_end.
    - destruct (sv_meta s) as [m|]; [|cbn [fst snd]; by rewrite steps_end]. destruct (om_files m !! dg) as [fm|]; [|cbn [fst snd]; by rewrite steps_end].
      destruct (fm_internal fm) as [|p ps]; cbn [fst snd]; [by rewrite steps_end|]. rewrite steps_S. cbn [step].
      destruct (sv_object s) as [h|]; [destruct (file_at _ _ _)|]; cbn [fst snd]; by rewrite steps_end.
    - cbn [fst snd]. rewrite steps_S. cbn [step]. destruct (sv_object s) as [h|]; [destruct (file_at _ _ _)|]; cbn [fst snd]; by rewrite steps_end.
  Qed.
  Lemma meta_spec w r h m n : 4 ≤ n → steps hash parse create ls exts n tree w r (Server (Some h) m) AtMeta =
    match get_metadata w (exts (path_clean (h_folder h))) (h_inv h) with
    | inl m => (Server (Some h) (Some m), AtEnd (given r (Server (Some h) (Some m))))
    | inr _ => (Server (Some h) None, AtEnd RpError)
    end.
  Proof.
    intros Hn. destruct n as [|[|n]]; [lia|lia|]. rewrite steps_S. cbn [step sv_object fst snd]. rewrite steps_S. cbn [step].
    destruct (get_metadata _ _ _); cbn [fst snd sv_object]; [|by rewrite steps_end]. rewrite use_spec by lia. done.
  Qed.
  Lemma serve_spec w r s : serve w r s = match found w r s with (s', None) => (s', given r s') | (s', Some x) => (s', x) end.
  Proof.
    unfold ServerModel.serve, found. rewrite steps_S. cbn [step].
    assert (match steps hash parse create ls exts 5 tree w r s AtLoad with (s', AtEnd x) => (s', x) | (s', _) => (s', RpPanic) end =
      match (fetch w r s) with (s', None) => (s', given r s') | (s', Some x) => (s', x) end) as HL.
    { rewrite steps_S. cbn [step]. unfold fetch. destruct (load_for _ _ _ _ _ _) as [h|[]]; cbn [fst snd]; [|by rewrite steps_end..].
      rewrite meta_spec by lia. by destruct (get_metadata _ _ _). }
    destruct (asked r) as [id|]; [|exact HL]. destruct s as [[h|] m]; cbn [sv_object sv_meta] in *; [|exact HL].
    destruct (decide (inv_id (h_inv h) = id)); [|exact HL]. cbn [fst snd]. rewrite steps_S. cbn [step sv_meta]. destruct m as [m|]; cbn [fst snd].
    - rewrite use_spec by lia. done.
    - rewrite meta_spec by lia. by destruct (get_metadata _ _ _).
  Qed.

  (** A finding: the object has the identifier, or is where the layout puts it, or in the folder of the request. *)
  Definition meant (r : request) (h : handle) : Prop :=
    match r with
    | RqFolder folder => h_folder h = folder
    | RqPage _ id | RqFile id _ | RqExtension id _ _ => addressed ls id (h_folder h) ∨ inv_id (h_inv h) = id
    end.
  Lemma load_for_meant r h : load_for hash parse create ls tree r = inl h → loaded h ∧ meant r h.
  Proof.
    destruct r as [g id|f|id dg|id nm pt]; cbn [load_for]; intros H;
      [apply load_id_stored in H as [H1 H2]|apply load_at_stored in H as [<- H2]|apply load_id_stored in H as [H1 H2]|apply load_id_stored in H as [H1 H2]];
      (split; [done|]); cbn [meant]; auto.
  Qed.
  Lemma found_ok w r s s' : worders_ok w → sane s → found w r s = (s', None) →
    ∃ h m, s' = Server (Some h) (Some m) ∧ loaded h ∧ tied h m ∧ meant r h.
  Proof.
    intros Hw Hs. unfold found.
    assert ((fetch w r s) = (s', None) → ∃ h m, s' = Server (Some h) (Some m) ∧ loaded h ∧ tied h m ∧ meant r h) as HL.
    { unfold fetch. destruct (load_for _ _ _ _ _ _) as [h|[]] eqn:El; [|done..]. destruct (get_metadata _ _ _) as [m|] eqn:Em; [|done]. intros [= <-].
      exists h, m. split; [done|]. destruct (load_for_meant r h El) as [K1 K2]. split; [done|]. split; [by exists w|done]. }
    destruct (asked r) as [id|] eqn:Ea; [|exact HL]. destruct s as [[h|] m]; cbn [sv_object sv_meta] in *; [|exact HL].
    destruct (decide (inv_id (h_inv h) = id)) as [E|]; [|exact HL]. destruct (Hs h eq_refl) as [K1 K2]. cbn [sv_meta] in K2.
    assert (meant r h) as K3 by (destruct r; cbn in Ea |- *; try done; injection Ea as ->; auto).
    destruct m as [m|].
    - intros [= <-]. exists h, m. split; [done|]. split; [done|]. split; [by apply K2|done].
    - destruct (get_metadata _ _ _) as [m|] eqn:Em; [|done]. intros [= <-]. exists h, m. split; [done|]. split; [done|]. split; [by exists w|done].
  Qed.
  Lemma found_sane w r s : worders_ok w → sane s → sane (found w r s).1.
  Proof.
    intros Hw Hs. destruct (found w r s) as [s' [x|]] eqn:E; cbn [fst].
    2:{ destruct (found_ok w r s s' Hw Hs E) as (h & m & -> & H1 & H2 & _). intros h' [= <-]. split; [done|]. by intros m' [= <-]. }
    unfold found in E.
    assert ((fetch w r s) = (s', Some x) → sane s') as HL.
    { unfold fetch. destruct (load_for _ _ _ _ _ _) as [h|[]] eqn:El.
      - destruct (get_metadata _ _ _) as [m|] eqn:Em; [done|]. intros [= <- <-]. intros h' [= <-]. split; [by apply (load_for_meant r)|done].
      - by intros [= <- <-].
      - intros [= <- <-]. by intros h'. }
    destruct (asked r) as [id|] eqn:Ea; [|exact (HL E)]. destruct s as [[h|] m]; cbn [sv_object sv_meta] in *; [|exact (HL E)].
    destruct (decide (inv_id (h_inv h) = id)) as [Eid|]; [|exact (HL E)]. destruct (Hs h eq_refl) as [K1 K2]. destruct m as [m|]; [done|].
    destruct (get_metadata _ _ _) as [m|] eqn:Em; [done|]. injection E as <- <-. intros h' [= <-]. by split.
  Qed.
  Lemma serve_sane w r s : worders_ok w → sane s → sane (serve w r s).1.
  Proof.
    intros Hw Hs. rewrite serve_spec. pose proof (found_sane w r s Hw Hs) as H. by destruct (found w r s) as [s' [x|]].
  Qed.
  Lemma serve_all_sane rs s : Forall (λ x, worders_ok x.1) rs → sane s → sane (serve_all hash parse create ls exts tree rs s).
  Proof.
    revert s. induction rs as [|[w r] rs IH]; intros s Hw Hs; [done|]. inversion_clear Hw as [|? ? H1 H2]. cbn [serve_all]. apply IH; [done|]. by apply serve_sane.
  Qed.
  Lemma idle_sane : sane idle.
  Proof. by intros h. Qed.
  (** A request served alone. *)
  Lemma serve_file w id digest s b : worders_ok w → sane s → (serve w (RqFile id digest) s).2 = RpData b → content_of hash parse create ls tree id digest b.
  Proof.
    intros Hw Hs. rewrite serve_spec. destruct (found w _ s) as [s' [x|]] eqn:E.
    - intros H. cbn [snd] in H. subst x. exfalso. unfold found, fetch in E. cbn [asked] in E.
      repeat (match type of E with context [match ?x with _ => _ end] => destruct x end; try discriminate E).
    - destruct (found_ok _ _ _ _ Hw Hs E) as (h & m & -> & (st & Hst) & Ht & Hm). cbn [snd given sv_meta sv_object].
      destruct (om_files m !! digest) as [f|] eqn:Ef; [|done]. destruct (tied_files h m digest f Ht Ef) as (p & ps & -> & Hp).
      rewrite (stored_files _ _ _ p Hst). destruct (st !! p) as [b'|] eqn:Eb; [|done]. intros [= <-].
      exists (h_folder h), (h_inv h), st, p, ps. done.
  Qed.
  Lemma serve_no_panic w r s : worders_ok w → sane s → load_for hash parse create ls tree r ≠ inr true → (serve w r s).2 ≠ RpPanic.
  Proof.
    intros Hw Hs Hl. rewrite serve_spec. destruct (found w r s) as [s' [x|]] eqn:E; cbn [snd].
    - intros ->. unfold found, fetch in E.
      repeat (match type of E with context [match ?x with _ => _ end] => destruct x end; try discriminate E; try (by apply Hl)).
    - destruct (found_ok _ _ _ _ Hw Hs E) as (h & m & -> & (st & Hst) & Ht & Hm). destruct r as [g id|f|id dg|id nm pt]; cbn [given sv_meta sv_object]; try done.
      + destruct (om_files m !! dg) as [f|] eqn:Ef; [|done]. destruct (tied_files h m dg f Ht Ef) as (p & ps & -> & Hp). by destruct (file_at _ _ _).
      + by destruct (file_at _ _ _).
  Qed.
End server.
