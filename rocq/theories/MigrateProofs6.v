(** What is known about earlier migrations, and what is planned. *)
From Coq Require Import Ascii.
From stdpp Require Import base list strings gmap.
From Coq Require Import ZArith Lia.
From Verif Require Import GoStr PathModel InventoryModel InventorySpec ObjectModel CrashSpec LoadModel AreaModel ValidateModel ValidateSpec JsonlModel JsonlSpec JsonlProofs JsonlProofs2 JsonlProofs3
  MigrateModel MigrateSpec MigrateProofs2.

Lemma scan_lines_text {R} (L : printer R) lines : (∀ p a, (p, a) ∈ lines → one_line (l_print L p a)) →
  scan_lines (text_of L lines) = (λ q : string * R, l_print L q.1 q.2) <$> lines.
Proof.
  intros H. assert (split_on nl (text_of L lines) = ((λ q : string * R, l_print L q.1 q.2) <$> lines) ++ [""]) as Hs.
  { induction lines as [|[p r] lines IH]; [done|]. cbn [text_of foldr fst snd fmap list_fmap app].
    destruct (H p r ltac:(by left)) as [H1 _]. rewrite split_on_app by done. f_equal. apply IH. intros q a Hq. apply H. by right. }
  unfold scan_lines. rewrite Hs, last_snoc, removelast_last. rewrite <- list_fmap_compose. apply list_fmap_ext. intros k [p r] Hk.
  cbn [compose fst snd]. apply drop_cr_line, H. by eapply elem_of_list_lookup_2.
Qed.

(** The digest under which a line is kept. *)
Definition key_of (dg : gmap string string) (p : string) (a : mres) : option string :=
  match dg !! p with
  | Some c => Some c
  | None => if decide (mr_error a = "") then None else dg !! mr_source a
  end.
Section lines.
  Context (L : printer mres) (dg1 dg2 : gmap string string).
  Definition good (p : string) (a : mres) : Prop :=
    l_parse L (l_print L p a) = Some (p, a) ∧ (∃ d, dg1 !! mr_source a = Some d ∧ d ≠ "") ∧ is_Some (key_of dg2 p a).
  Definition result (p : string) (a : mres) (c : string) (e : mres) : Prop :=
    key_of dg2 p a = Some c ∧ ∃ d, dg1 !! mr_source a = Some d ∧ e = MRes d (mr_error a) (mr_id a).
  Lemma mi_lines_ok lines : ∀ r, (∀ p a, (p, a) ∈ lines → good p a) →
    ∃ r', mi_lines L dg1 dg2 ((λ q : string * mres, l_print L q.1 q.2) <$> lines) r = Some r' ∧
      (∀ c e, r' !! c = Some e → r !! c = Some e ∨ ∃ p a, (p, a) ∈ lines ∧ result p a c e) ∧
      (∀ c, is_Some (r !! c) → is_Some (r' !! c)) ∧ (∀ p a c, (p, a) ∈ lines → key_of dg2 p a = Some c → is_Some (r' !! c)).
  Proof.
    induction lines as [|[p a] lines IH]; intros r H.
    { exists r. split; [done|]. split; [by left|]. split; [done|]. intros p a c Hin. by apply elem_of_nil in Hin. }
    destruct (H p a ltac:(by left)) as (Hp & (d & Hd & Hne) & [c Hc]). cbn [fmap list_fmap fst snd mi_lines]. rewrite Hp, Hd, decide_False by done.
    assert (key_of dg2 p a = Some c) as Hk by done. unfold key_of in Hc. rewrite Hc.
    destruct (IH (<[c := MRes d (mr_error a) (mr_id a)]> r)) as (r' & Heq & H1 & H2 & H3). { intros q b Hq. apply H. by right. }
    exists r'. split; [done|]. split; [|split].
    - intros c' e He. destruct (H1 _ _ He) as [Hr|(q & b & Hq & Hb)]; [|right; exists q, b; split; [by right|done]].
      apply lookup_insert_Some in Hr as [[<- <-]|[_ Hr]]; [|by left]. right. exists p, a. split; [by left|]. split; [done|]. by exists d.
    - intros c' Hc'. apply H2. destruct (decide (c' = c)) as [-> |]; [rewrite lookup_insert; eauto|by rewrite lookup_insert_ne].
    - intros q b c' [[= -> ->]|Hq]%elem_of_cons Hk'; [|by eapply H3]. rewrite Hk in Hk'. injection Hk' as <-. apply H2. rewrite lookup_insert. eauto.
  Qed.
  Lemma versions_ok (data : string → string) (rec : string → list (string * mres)) vs : ∀ r,
    (∀ v, v ∈ vs → scan_lines (data v) = (λ q : string * mres, l_print L q.1 q.2) <$> rec v ∧ ∀ p a, (p, a) ∈ rec v → good p a) →
    ∃ r', foldl (λ r v, match r with None => None | Some r => mi_lines L dg1 dg2 (scan_lines (data v)) r end) (Some r) vs = Some r' ∧
      (∀ c e, r' !! c = Some e → r !! c = Some e ∨ ∃ v p a, v ∈ vs ∧ (p, a) ∈ rec v ∧ result p a c e) ∧
      (∀ c, is_Some (r !! c) → is_Some (r' !! c)) ∧ (∀ v p a c, v ∈ vs → (p, a) ∈ rec v → key_of dg2 p a = Some c → is_Some (r' !! c)).
  Proof.
    induction vs as [|v vs IH]; intros r H.
    { exists r. split; [done|]. split; [by left|]. split; [done|]. intros v p a c Hin. by apply elem_of_nil in Hin. }
    destruct (H v ltac:(by left)) as [Hs Hg]. destruct (mi_lines_ok (rec v) r Hg) as (r1 & Heq1 & A1 & A2 & A3).
    destruct (IH r1) as (r' & Heq & B1 & B2 & B3). { intros u Hu. apply H. by right. }
    cbn [foldl]. rewrite Hs, Heq1. exists r'. split; [done|]. split; [|split].
    - intros c e He. destruct (B1 _ _ He) as [Hr|(u & p & a & Hu & Hx)]; [|right; exists u, p, a; split; [by right|done]].
      destruct (A1 _ _ Hr) as [Hr'|(p & a & Hin & Hx)]; [by left|]. right. exists v, p, a. split; [by left|done].
    - intros c Hc. by apply B2, A2.
    - intros u p a c [-> |Hu]%elem_of_cons Hin Hk; [eapply B2, A3; done|by eapply B3].
  Qed.
End lines.

Section metadata.
  Context (Z : codec) (L : printer mres) (l : list subpaths) (J : jstore) (x : mist) (i : inventory) (s : storage).
  Notation entry := (entry Z L l J x i s).
  Context (Hlog : log_ok Z L l J x i s).
  Lemma path_digests_iff w p d : vorder_ok w → path_digests w i !! p = Some d ↔ lists (inv_manifest i) p d.
  Proof using Hlog.
    intros Hw. split; [by apply path_digests_sound|]. intros H. destruct (path_digests_all w i p d Hw H) as [d' Hd'].
    rewrite Hd'. f_equal. eapply (lo_paths _ _ _ _ _ _ _ Hlog p); [|done]. by eapply path_digests_sound.
  Qed.
  Lemma key_about w p a c : vorder_ok w → key_of (path_digests w i) p a = Some c ↔ about i p a c.
  Proof using Hlog.
    intros Hw. unfold key_of, about. destruct (path_digests w i !! p) as [d|] eqn:Hd.
    - apply path_digests_iff in Hd; [|done]. split.
      + intros [= <-]. by left.
      + intros [H|(_ & H & _)]; [|by apply H in Hd]. f_equal. by eapply (lo_paths _ _ _ _ _ _ _ Hlog p).
    - assert (∀ e, ¬ lists (inv_manifest i) p e) as Hno. { intros e He. apply (path_digests_iff w) in He; [|done]. congruence. }
      destruct (decide (mr_error a = "")) as [He|He].
      + split; [done|]. intros [H|(H & _)]; [by apply Hno in H|done].
      + rewrite path_digests_iff by done. split; [by right|]. intros [H|(_ & _ & H)]; [by apply Hno in H|done].
  Qed.
  Lemma metadata_logged w1 w2 : vorder_ok w1 → vorder_ok w2 →
    ∃ r, mi_metadata Z L w1 w2 l J x i s = Some r ∧
      (∀ c e, r !! c = Some e → ∃ p a, entry p a ∧ about i p a c ∧ lists (inv_manifest i) (mr_source a) (mr_source e) ∧ mr_error e = mr_error a ∧ mr_id e = mr_id a) ∧
      (∀ p a c, entry p a → about i p a c → is_Some (r !! c)).
  Proof using Hlog.
    intros Hw1 Hw2.
    assert (∀ ver, ∃ lines, is_Some (inv_versions i !! ver) → logged Z L l J x i s ver lines ∧ mi_data Z L l J x i s ver = text_of L lines) as Hch.
    { intros ver. destruct (inv_versions i !! ver) as [v|] eqn:Hv; [|exists []; by intros []].
      destruct (lo_kept _ _ _ _ _ _ _ Hlog ver) as [lines Hl]; [eauto|]. exists lines. intros _. split; [done|].
      destruct Hl as (_ & _ & [Hb|[Hb [Hr|[Hr ->]]]]); unfold mi_data; rewrite Hb; [done|by rewrite Hr..]. }
    set (names := fst <$> vo w1 1 (inv_versions i)).
    assert (∀ ver, ver ∈ names ↔ is_Some (inv_versions i !! ver)) as Hnames.
    { intros ver. unfold names. rewrite elem_of_list_fmap. split.
      - intros ([u v] & -> & H). rewrite (Hw1 1) in H. apply elem_of_map_to_list in H. eauto.
      - intros [v H]. exists (ver, v). split; [done|]. rewrite (Hw1 1). by apply elem_of_map_to_list. }
    assert (∃ rec : string → list (string * mres), ∀ ver, ver ∈ names → logged Z L l J x i s ver (rec ver) ∧ mi_data Z L l J x i s ver = text_of L (rec ver)) as [rec Hrec].
    { assert (∀ vs : list string, ∃ rec : string → list (string * mres), ∀ ver, ver ∈ vs → is_Some (inv_versions i !! ver) →
        logged Z L l J x i s ver (rec ver) ∧ mi_data Z L l J x i s ver = text_of L (rec ver)) as Hall.
      { intros vs. induction vs as [|v vs [rec IH]]; [exists (λ _, []); intros ver Hin; by apply elem_of_nil in Hin|].
        destruct (Hch v) as [lines Hl]. exists (λ u, if decide (u = v) then lines else rec u). intros ver Hin Hs.
        destruct (decide (ver = v)) as [->|Hne]; [by apply Hl|]. apply IH; [|done]. by apply elem_of_cons in Hin as [?|?]. }
      destruct (Hall names) as [rec Hr]. exists rec. intros ver Hin. apply Hr; [done|]. by apply Hnames. }
    assert (∀ v p a, v ∈ names → (p, a) ∈ rec v → entry p a) as Hentry.
    { intros v p a Hv Hin. exists v, (rec v). split; [by apply Hrec|done]. }
    destruct (versions_ok L (path_digests w1 i) (path_digests w2 i) (mi_data Z L l J x i s) rec names ∅) as (r & Heq & H1 & _ & H3).
    { intros v Hv. destruct (Hrec v Hv) as [_ ->]. split.
      - apply scan_lines_text. intros p a Hin. apply (Hrec v Hv), Hin.
      - intros p a Hin. split; [apply (Hrec v Hv), Hin|]. apply (Hentry v) in Hin; [|done]. split.
        + destruct (lo_source _ _ _ _ _ _ _ Hlog p a Hin) as [d Hd]. exists d. split; [by apply path_digests_iff|by eapply (lo_digests _ _ _ _ _ _ _ Hlog)].
        + destruct (lo_target _ _ _ _ _ _ _ Hlog p a Hin) as [c Hc]. exists c. by apply key_about. }
    exists r. split; [exact Heq|]. split.
    - intros c e He. destruct (H1 _ _ He) as [Hx|(v & p & a & Hv & Hin & Hk & d & Hd & ->)]; [by rewrite lookup_empty in Hx|].
      exists p, a. split; [by apply (Hentry v)|]. split; [by apply (key_about w2)|]. split; [by apply (path_digests_iff w1)|done].
    - intros p a c (v & lines & Hl & Hin) Hc. assert (v ∈ names) as Hv by (apply Hnames, Hl).
      (* the side file of a version has only one list of lines *)
      assert (lines = rec v) as ->.
      { destruct (Hrec v Hv) as [(_ & Hrp & Hr) _]. destruct Hl as (_ & Hlp & Hl).
        destruct Hl as [Hb|[Hb Hl]], Hr as [Hb'|[Hb' Hr]]; [congruence|congruence|congruence|].
        assert (text_of L lines = text_of L (rec v)) as Heqt.
        { destruct Hl as [Hl|[Hl ->]], Hr as [Hr|[Hr Hr']]; [congruence|congruence|congruence|by rewrite Hr']. }
        assert (∀ ls, (∀ q b, (q, b) ∈ ls → l_parse L (l_print L q b) = Some (q, b) ∧ one_line (l_print L q b)) →
          scan_lines (text_of L ls) = (λ q : string * mres, l_print L q.1 q.2) <$> ls ∧ omap (l_parse L) ((λ q : string * mres, l_print L q.1 q.2) <$> ls) = ls) as Hinv.
        { intros ls Hq. split; [apply scan_lines_text; intros q b Hqb; by apply Hq|]. clear -Hq. induction ls as [|[q b] ls IH]; [done|].
          cbn [fmap list_fmap omap list_omap fst snd]. destruct (Hq q b ltac:(by left)) as [-> _]. f_equal. apply IH. intros q' b' H. apply Hq. by right. }
        destruct (Hinv lines Hlp) as [A1 A2]. destruct (Hinv (rec v) Hrp) as [B1 B2]. rewrite <- A2, <- B2, <- A1, <- B1, Heqt. done. }
      eapply (H3 v p a c Hv Hin). by apply key_about.
  Qed.
End metadata.

(** * UpdateObjectAfter *)
Section after.
  Context (lookup : string → option mfun) (head : string).
  Notation file := (string * (option mres * option string))%type.
  Lemma marks_spec (files : list file) m d :
    already_migrated (foldl (λ m (p : file), match p.2.1 with Some r => mark head (mr_source r) (mr_id r) m | None => m end) m files) d = true ↔
    already_migrated m d = true ∨ ∃ c a pr, (c, (Some a, pr)) ∈ files ∧ mr_source a = d.
  Proof.
    revert m. induction files as [|[c [[a|] pr]] files IH]; intros m; cbn [foldl fst snd].
    - split; [by left|]. intros [H|(c & a & pr & H & _)]; [done|by apply elem_of_nil in H].
    - rewrite IH. destruct (decide (mr_source a = d)) as [<-|Hne].
      + rewrite mark_self. split; [|by left]. intros _. right. exists c, a, pr. split; [by left|done].
      + rewrite mark_other by done. split; [intros [H|(c' & a' & pr' & H & He)]; [by left|right; exists c', a', pr'; split; [by right|done]]|].
        intros [H|(c' & a' & pr' & [[= -> -> ->]|H]%elem_of_cons & He)]; [by left|done|]. right. by exists c', a', pr'.
    - rewrite IH. split; [intros [H|(c' & a' & pr' & H & He)]; [by left|right; exists c', a', pr'; split; [by right|done]]|].
      intros [H|(c' & a' & pr' & [[=]|H]%elem_of_cons & He)]; [by left|]. right. by exists c', a', pr'.
  Qed.
  Definition hit (m1 : gmap string (gmap string string)) (files : list file) (c : string) (f : mfun) : Prop :=
    ∃ q pr, (c, (q, Some pr)) ∈ files ∧ lookup pr = Some f ∧ already_migrated m1 c = false.
  Lemma plan_spec (m1 : gmap string (gmap string string)) (files : list file) (r : gmap string mfun) c f : NoDup files.*1 →
    foldl (λ r (p : file),
             match p.2.2 with
             | None => r
             | Some pronom => match lookup pronom with
                              | None => r
                              | Some f => if already_migrated m1 p.1 then r else <[p.1 := f]> r
                              end
             end) r files !! c = Some f ↔
    hit m1 files c f ∨ r !! c = Some f ∧ ¬ ∃ g, hit m1 files c g.
  Proof.
    revert r. induction files as [|[c0 [q0 pr0]] files IH]; intros r Hnd; cbn [foldl fst snd].
    { split; [intros H; right; split; [done|]; intros (g & q & pr & H' & _); by apply elem_of_nil in H'|].
      intros [(q & pr & H & _)|[H _]]; [by apply elem_of_nil in H|done]. }
    cbn [fmap list_fmap fst] in Hnd. apply stdpp.list.NoDup_cons in Hnd as [Hnin Hnd].
    assert (∀ q pr, (c0, (q, pr)) ∉ files) as Hn0. { intros q pr Hq. apply Hnin, elem_of_list_fmap. by exists (c0, (q, pr)). }
    assert ((∀ pr g, c = c0 → pr0 = Some pr → lookup pr = Some g → already_migrated m1 c = false → False) →
      ∀ g, hit m1 ((c0, (q0, pr0)) :: files) c g ↔ hit m1 files c g) as Hskip.
    { intros Hno g. split.
      - intros (q & pr & [[= -> -> <-]|Hin]%elem_of_cons & Hl & Ha); [by destruct (Hno pr g)|]. by exists q, pr.
      - intros (q & pr & Hin & H). exists q, pr. split; [by right|done]. }
    assert ((∀ pr g, c = c0 → pr0 = Some pr → lookup pr = Some g → already_migrated m1 c = false → False) →
      (hit m1 files c f ∨ r !! c = Some f ∧ (¬ ∃ g, hit m1 files c g)) ↔
      (hit m1 ((c0, (q0, pr0)) :: files) c f ∨ r !! c = Some f ∧ ¬ ∃ g, hit m1 ((c0, (q0, pr0)) :: files) c g)) as Hskip'.
    { intros Hno. setoid_rewrite (Hskip Hno). done. }
    destruct pr0 as [pr0|]; [|rewrite IH by done; apply Hskip'; done].
    destruct (lookup pr0) as [g0|] eqn:Hl; [|rewrite IH by done; apply Hskip'; by intros pr g _ [= <-] ?; congruence].
    destruct (already_migrated m1 c0) eqn:Hm; [rewrite IH by done; apply Hskip'; intros pr g -> _ _ ?; congruence|].
    rewrite IH by done. destruct (decide (c = c0)) as [->|Hne].
    - rewrite lookup_insert. split.
      + intros [(q & pr & H & _)|[[= <-] _]]; [by apply Hn0 in H|]. left. exists q0, pr0. split; [by left|done].
      + intros [(q & pr & [[= -> ->]|H]%elem_of_cons & Hg & _)|[_ H]]; [|by apply Hn0 in H|].
        * right. split; [congruence|]. intros (g & q' & pr' & H & _). by apply Hn0 in H.
        * exfalso. apply H. exists g0, q0, pr0. split; [by left|done].
    - rewrite lookup_insert_ne by done. apply Hskip'. by intros pr g ->.
  Qed.
End after.

(** Both parts: what a new handle on the object plans to convert. *)
Lemma planned_files Z L l J i s w1 w2 lookup head pron files x :
  mi_files x = ∅ → mi_migrated x = ∅ → log_ok Z L l J x i s → vorder_ok w1 → vorder_ok w2 →
  ∃ r, mi_metadata Z L w1 w2 l J x i s = Some r ∧ (reported i r pron files →
    (∀ c f, (∃ p, lists (inv_manifest i) p c) → (∃ pr, pron c = Some pr ∧ lookup pr = Some f) →
       (∀ p a, entry Z L l J x i s p a → ¬ lists (inv_manifest i) (mr_source a) c) → mi_files (mi_after lookup head files x) !! c = Some f) ∧
    (∀ c f, mi_files (mi_after lookup head files x) !! c = Some f → (∃ p, lists (inv_manifest i) p c) ∧ ∃ pr, pron c = Some pr ∧ lookup pr = Some f) ∧
    (∀ p a d, entry Z L l J x i s p a → lists (inv_manifest i) (mr_source a) d →
       (∀ c p' a', about i p a c → entry Z L l J x i s p' a' → about i p' a' c → lists (inv_manifest i) (mr_source a') d) →
       mi_files (mi_after lookup head files x) !! d = None)).
Proof.
  intros Hf Hm Hlog Hw1 Hw2. destruct (metadata_logged Z L l J x i s Hlog w1 w2 Hw1 Hw2) as (r & Hr & R1 & R2).
  exists r. split; [done|]. intros [Hnd Hrep]. unfold mi_after. cbn [mi_files]. rewrite Hf, Hm.
  set (m1 := foldl _ (∅ : gmap string (gmap string string)) files).
  assert (∀ d, already_migrated m1 d = true ↔ ∃ c a, r !! c = Some a ∧ (∃ p, lists (inv_manifest i) p c) ∧ mr_source a = d) as Hm1.
  { intros d. unfold m1. rewrite marks_spec. split.
    - intros [H|(c & a & pr & Hin & Ha)].
      + apply already_migrated_spec in H as (h & q & H & _). by rewrite lookup_empty in H.
      + apply Hrep in Hin as (Hp & Hq & _). exists c, a. by split.
    - intros (c & a & Hc & Hp & Ha). right. exists c, a, (pron c). split; [|done]. by apply Hrep. }
  split; [|split].
  - intros c f Hc (pr & Hpr & Hlk) Hno. apply plan_spec; [done|]. left. exists (r !! c), pr. split; [by apply Hrep|]. split; [done|].
    destruct (already_migrated m1 c) eqn:Ha; [|done]. apply Hm1 in Ha as (c' & a & Ha & _ & <-). destruct (R1 _ _ Ha) as (p & b & He & _ & Hs & _).
    by apply Hno in He.
  - intros c f H. apply plan_spec in H as [(q & pr & Hin & Hlk & _)|[H _]]; [|by rewrite lookup_empty in H|done].
    apply Hrep in Hin as (Hp & _ & Hpr). split; [done|]. by exists pr.
  - intros p a d He Hd Hun. apply eq_None_not_Some. intros [f H].
    apply plan_spec in H as [(q & pr & Hin & Hlk & Ha)|[H _]]; [|by rewrite lookup_empty in H|done].
    destruct (lo_target _ _ _ _ _ _ _ Hlog p a He) as [c Hc]. destruct (R2 p a c He Hc) as [e Hre].
    destruct (R1 _ _ Hre) as (p' & a' & He' & Hc' & Hs & _). pose proof (Hun c p' a' Hc He' Hc') as Hd'.
    assert (mr_source e = d) as Hsd by (by eapply (lo_paths _ _ _ _ _ _ _ Hlog (mr_source a'))).
    assert (already_migrated m1 d = true) as Ht; [|congruence]. apply Hm1. exists c, e. split; [done|]. split; [|done].
    destruct Hc as [Hc|(_ & _ & Hc)]; eauto.
Qed.
