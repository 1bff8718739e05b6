(** Histories of sessions with the indexer, and its metadata. *)
From Coq Require Import Ascii.
From stdpp Require Import base list strings gmap.
From Coq Require Import ZArith Lia.
From Verif Require Import GoStr PathModel PathProofs InventoryModel InventorySpec InventoryProofs LookupProofs ClaimsInventory2 AddProofs ObjectModel ObjectSpec ObjectProofs CrashSpec CrashProofs
  LoadModel LoadProofs AreaModel AreaSpec AreaProofs ValidateModel PublishSpec PublishProofs PublishProofs2 PublishProofs3 PublishProofs4 InheritProofs IngestProofs6
  JsonlModel JsonlSpec JsonlProofs JsonlProofs2.

(** * path2digest *)
Lemma names_fold (d : string) ps (r : gmap string string) p x :
  foldl (λ r n, <[n := d]> r) r ps !! p = Some x ↔ (p ∈ ps ∧ x = d) ∨ (p ∉ ps ∧ r !! p = Some x).
Proof.
  revert r. induction ps as [|q ps IH]; intros r; cbn [foldl]. { set_solver. }
  rewrite IH, lookup_insert_Some, !elem_of_cons. destruct (decide (p ∈ ps)); naive_solver.
Qed.
Lemma path_digests_fold (l : list (string * list string)) (r : gmap string string) p (x : string) :
  foldl (λ (r : gmap string string) (q : string * list string), foldl (λ r n, <[n := q.1]> r) r q.2) r l !! p = Some x →
  (∃ ps, (x, ps) ∈ l ∧ p ∈ ps) ∨ r !! p = Some x.
Proof.
  revert r. induction l as [|[d ps] l IH]; intros r; cbn [foldl fst snd]; [by right|]. intros H.
  destruct (IH _ H) as [(qs & H1 & H2)|H1]; [left; exists qs; split; [by right|done]|].
  apply names_fold in H1 as [[H1 ->]|[_ H1]]; [left; exists ps; split; [left|done]|by right].
Qed.
Lemma path_digests_some (l : list (string * list string)) (r : gmap string string) p :
  (is_Some (r !! p) ∨ ∃ d ps, (d, ps) ∈ l ∧ p ∈ ps) →
  is_Some (foldl (λ (r : gmap string string) (q : string * list string), foldl (λ r n, <[n := q.1]> r) r q.2) r l !! p).
Proof.
  revert r. induction l as [|[d ps] l IH]; intros r H; cbn [foldl fst snd].
  { destruct H as [H|(d & ps & H & _)]; [done|]. by apply elem_of_nil in H. }
  apply IH. destruct (decide (p ∈ ps)) as [Hp|Hp].
  - left. exists d. apply names_fold. by left.
  - destruct H as [[x H]|(e & qs & [[= -> ->]|H]%elem_of_cons & Hq)]; [|done|right; eauto]. left. exists x. apply names_fold. by right.
Qed.
Lemma path_digests_sound w i p d : vorder_ok w → path_digests w i !! p = Some d → lists (inv_manifest i) p d.
Proof.
  intros Hw H. apply path_digests_fold in H as [(ps & H1 & H2)|H]; [|by rewrite lookup_empty in H].
  rewrite (Hw 0 _ (inv_manifest i)) in H1. apply elem_of_map_to_list in H1. by exists ps.
Qed.
Lemma path_digests_all w i p d : vorder_ok w → lists (inv_manifest i) p d → is_Some (path_digests w i !! p).
Proof.
  intros Hw (ps & H1 & H2). apply path_digests_some. right. exists d, ps. split; [|done].
  rewrite (Hw 0 _ (inv_manifest i)). by apply elem_of_map_to_list.
Qed.

(** * The result *)
Section result.
  Context {R : Type} (V : string → Prop) (L : printer R) (HL : printer_ok V L).
  Lemma fold_lines_some dg lines (r : gmap string R) d a :
    fold_lines dg lines r !! d = Some a → (∃ p, (p, a) ∈ lines ∧ d = default "" (dg !! p)) ∨ r !! d = Some a.
  Proof using.
    unfold fold_lines. revert r. induction lines as [|[p b] lines IH]; intros r; cbn [foldl fst snd]; [by right|]. intros H.
    destruct (IH _ H) as [(q & H1 & H2)|H1]; [left; exists q; split; [by right|done]|].
    apply lookup_insert_Some in H1 as [[<- <-]|[_ H1]]; [left; exists p; split; [left|done]|by right].
  Qed.
  Lemma fold_lines_all dg lines (r : gmap string R) d :
    is_Some (r !! d) ∨ (∃ p a, (p, a) ∈ lines ∧ d = default "" (dg !! p)) → is_Some (fold_lines dg lines r !! d).
  Proof using.
    unfold fold_lines. revert r. induction lines as [|[p b] lines IH]; intros r H; cbn [foldl fst snd].
    { destruct H as [H|(q & a & H & _)]; [done|]. by apply elem_of_nil in H. }
    apply IH. destruct H as [H|(q & a & [[= -> ->]|H]%elem_of_cons & Hd)].
    - left. by apply lookup_insert_is_Some'; right.
    - left. rewrite Hd, lookup_insert. by eexists.
    - right. eauto.
  Qed.
  Lemma add_versions_text dg data (f : string → list (string * R)) vs r :
    (∀ v, v ∈ vs → data v = Some (text_of L (f v)) ∧ Forall (λ p, V p.1) (f v)) →
    add_versions L dg data vs r = Some (foldl (λ r v, fold_lines dg (f v) r) r vs).
  Proof using HL.
    revert r. induction vs as [|v vs IH]; intros r H; [done|]. cbn [add_versions foldl]. destruct (H v) as [-> Hv]; [left|].
    rewrite (add_lines_text V L HL) by done. apply IH. intros u Hu. apply H. by right.
  Qed.
  Lemma fold_versions_some dg (f : string → list (string * R)) vs r d a :
    foldl (λ r v, fold_lines dg (f v) r) r vs !! d = Some a → (∃ v p, v ∈ vs ∧ (p, a) ∈ f v ∧ d = default "" (dg !! p)) ∨ r !! d = Some a.
  Proof using.
    revert r. induction vs as [|v vs IH]; intros r; cbn [foldl]; [by right|]. intros H.
    destruct (IH _ H) as [(u & p & H1 & H2)|H1]; [left; exists u, p; split; [by right|done]|].
    apply fold_lines_some in H1 as [(p & H1 & H2)|H1]; [left; exists v, p; split; [left|done]|by right].
  Qed.
  Lemma fold_versions_all dg (f : string → list (string * R)) vs r d :
    is_Some (r !! d) ∨ (∃ v p a, v ∈ vs ∧ (p, a) ∈ f v ∧ d = default "" (dg !! p)) → is_Some (foldl (λ r v, fold_lines dg (f v) r) r vs !! d).
  Proof using.
    revert r. induction vs as [|v vs IH]; intros r H; cbn [foldl].
    { destruct H as [H|(v & p & a & H & _)]; [done|]. by apply elem_of_nil in H. }
    apply IH. destruct H as [H|(u & p & a & [-> |H]%elem_of_cons & Hp & Hd)]; [left; apply fold_lines_all; by left|left; apply fold_lines_all; right; eauto|right; eauto 6].
  Qed.
End result.

Section history.
  Context {R : Type} (E : env) (P : inventory → Prop) (parse : string → option inventory) (Z : codec) (L : printer R) (l : list subpaths) (J : jstore)
    (index : list string → string → option R) (V : string → Prop).
  Context (Hhex : hex_hash (e_hash E)) (Hj : json_ok P (e_json E) parse) (HZ : codec_ok Z) (HL : printer_ok V L) (HE : manifest_by E l) (HJ : agreeing l J)
    (Hname : str_mem slash (js_name J) = false).

  (** Every version has its side file; together they have the lines. *)
  Definition sided (s : storage) (i : inventory) (lines : list (string * R)) (f : string → list (string * R)) : Prop :=
    (∀ v, is_Some (inv_versions i !! v) → (∃ p d, read_target l J i v = Some p ∧ lists (inv_manifest i) p d) ∧
       read_jsonl Z l J i s v = Some (text_of L (f v)) ∧ Forall (λ p, V p.1) (f v)) ∧
    (∀ e, e ∈ lines ↔ ∃ v, is_Some (inv_versions i !! v) ∧ e ∈ f v) ∧ Forall (line_from E index i) lines.

  Lemma read_jsonl_cdir i i' s v : inv_contentdir i' = inv_contentdir i → read_jsonl Z l J i' s v = read_jsonl Z l J i s v.
  Proof using. intros H. unfold read_jsonl. by rewrite (read_target_cdir _ _ _ _ _ H). Qed.
  Lemma sided_same s i i' lines f : same_record i i' → sided s i lines f → sided s i' lines f.
  Proof using.
    intros Hr (H1 & H2 & H3). split; [|split].
    - intros v. rewrite (sr_vers _ _ Hr), (sr_man _ _ Hr), (read_target_cdir l J i i'), (read_jsonl_cdir i i') by apply Hr. apply H1.
    - intros e. rewrite (sr_vers _ _ Hr). apply H2.
    - eapply Forall_impl; [exact H3|]. intros q (exts & data & d & Q). exists exts, data, d. by rewrite (sr_alg _ _ Hr), (sr_man _ _ Hr).
  Qed.
  Lemma sided_step s i s' i' old lines f : inherits s i s' i' → sided s i old f →
    ((∀ ver, is_Some (inv_versions i' !! ver) ↔ ver = inv_head i' ∨ is_Some (inv_versions i !! ver)) ∧ inv_versions i !! inv_head i' = None) →
    (∃ p d, read_target l J i' (inv_head i') = Some p ∧ lists (inv_manifest i') p d) →
    read_jsonl Z l J i' s' (inv_head i') = Some (text_of L lines) → Forall (line_from E index i') lines → Forall (λ p, V p.1) lines →
    ∃ f', sided s' i' (old ++ lines) f'.
  Proof using.
    intros Hi (H1 & H2 & H3) [Hv Hn] Hp Hr Hl HV.
    assert (∀ p d, lists (inv_manifest i) p d → lists (inv_manifest i') p d) as Hgrow.
    { intros p d (ps & Q1 & Q2). destruct (ih_man _ _ _ _ Hi d ps Q1) as [e He]. exists (ps ++ e). split; [done|]. apply elem_of_app. by left. }
    exists (λ v, if decide (v = inv_head i') then lines else f v). split; [|split].
    - intros v [-> |Hold]%Hv; [by rewrite decide_True|]. rewrite decide_False by (intros ->; rewrite Hn in Hold; by destruct Hold).
      destruct (H1 v Hold) as ((p & d & Q1 & Q2) & Q3 & Q4). assert (read_target l J i' v = Some p) as Q5 by (rewrite (read_target_cdir l J i i'); [done|apply Hi]).
      split; [exists p, d; eauto|]. split; [|done]. unfold read_jsonl in *. rewrite Q1 in Q3. rewrite Q5, (ih_content _ _ _ _ Hi d p Q2). done.
    - intros e. rewrite elem_of_app, H2. split.
      + intros [(v & Q1 & Q2)|Q]; [exists v|exists (inv_head i')]; (split; [apply Hv; auto|]); [|by rewrite decide_True].
        rewrite decide_False; [done|]. intros ->. rewrite Hn in Q1. by destruct Q1.
      + intros (v & Q1 & Q2). destruct (decide (v = inv_head i')) as [-> |Hne]; [by right|]. left. exists v. split; [|done]. by apply Hv in Q1 as [? |?].
    - apply Forall_app. split; [|done]. eapply Forall_impl; [exact H3|]. intros q (exts & data & d & Q1 & Q2 & Q3). exists exts, data, d.
      rewrite (ih_alg _ _ _ _ Hi). auto.
  Qed.
  Lemma indexed_sided s i lines : indexed E P parse Z L l J index V s i lines → published E P parse s i ∧ ∃ f, sided s i lines f.
  Proof using Hhex Hj HZ HE HJ Hname.
    induction 1 as [s i s' i' lines Hf Hd Hs Hsess HP|s i0 i s' i' old lines Hi (Hpub & f & Hside) Hl Hs Hsess HP].
    - pose proof (fresh_kept E s i Hf Hd) as Hk. eapply session_result in Hsess as (Hc & Hv & Hp & Hr & Hln & HV); [|done..].
      split; [by eapply published_first|]. eapply (sided_step s i s' i' [] lines (λ _, [])); try done.
      + by eapply complete_inherits.
      + split; [|split; [|constructor]].
        * intros v Hx. rewrite (proj1 (proj2 (fr_empty _ Hf))) in Hx. rewrite lookup_empty in Hx. by destruct Hx.
        * intros e. rewrite elem_of_nil. split; [done|]. intros (v & _ & H). by apply elem_of_nil in H.
    - destruct (loaded_kept E P parse s i0 i Hhex Hj Hpub Hl) as (n & fam & _ & Hk).
      pose proof (sided_same _ _ _ _ _ (loaded_same _ _ _ _ _ _ Hhex Hj Hpub Hl) Hside) as Hside'.
      eapply session_result in Hsess as (Hc & Hv & Hp & Hr & Hln & HV); [|done..].
      split; [by eapply published_next|]. eapply sided_step; try done. by eapply complete_inherits.
  Qed.

  Lemma indexed_metadata s i lines i' w : indexed E P parse Z L l J index V s i lines → load_inventory (e_hash E) parse s "" = LInv i' [] → vorder_ok w →
    ∃ r, ix_metadata Z L w l J ix_new i' s = Some r ∧
      (∀ d a, r !! d = Some a → ∃ p exts data, (p, a) ∈ lines ∧ lists (inv_manifest i') p d ∧ index exts data = Some a ∧ e_hash E (inv_alg i') data = Some d) ∧
      (∀ p a, (p, a) ∈ lines → ∃ d a', lists (inv_manifest i') p d ∧ r !! d = Some a').
  Proof using Hhex Hj HZ HL HE HJ Hname.
    intros Hi Hl Hw. destruct (indexed_sided s i lines Hi) as (Hpub & f & Hside).
    pose proof (sided_same _ _ _ _ _ (loaded_same _ _ _ _ _ _ Hhex Hj Hpub Hl) Hside) as (H1 & H2 & H3).
    destruct (loaded_kept E P parse s i i' Hhex Hj Hpub Hl) as (n & fam & _ & Hk).
    assert (∀ p d e, lists (inv_manifest i') p d → lists (inv_manifest i') p e → d = e) as Huniq.
    { intros p d e Q1 Q2. pose proof (g_content _ _ _ _ (kp_good _ _ _ _ _ _ Hk)) as Hd. destruct (Hd _ _ Q1) as (x & X1 & X2). destruct (Hd _ _ Q2) as (y & Y1 & Y2). congruence. }
    set (vs := fst <$> vo w 1 (inv_versions i')).
    assert (∀ v, v ∈ vs ↔ is_Some (inv_versions i' !! v)) as Hvs.
    { intros v. unfold vs. rewrite elem_of_list_fmap. split.
      - intros ([u x] & -> & Hx). rewrite (Hw 1 _ (inv_versions i')) in Hx. apply elem_of_map_to_list in Hx. by eexists.
      - intros [x Hx]. exists (v, x). split; [done|]. rewrite (Hw 1 _ (inv_versions i')). by apply elem_of_map_to_list. }
    eexists. split; [|split].
    - unfold ix_metadata. apply (add_versions_text V L HL _ _ f). intros v Hv%Hvs. destruct (H1 v Hv) as (_ & Q2 & Q3). unfold version_data, ix_new. cbn [ix_buf]. rewrite lookup_empty. done.
    - intros d a Hr. apply fold_versions_some in Hr as [(v & p & Hv & Hp & ->)|Hr]; [|by rewrite lookup_empty in Hr].
      assert ((p, a) ∈ lines) as Hin by (apply H2; exists v; split; [by apply Hvs|done]).
      rewrite stdpp.list.Forall_forall in H3. destruct (H3 _ Hin) as (exts & data & d & Q1 & Q2 & Q3). cbn [fst snd] in *.
      rewrite (hex_lower _ _ _ _ Hhex Q2) in Q3. destruct (path_digests_all w i' p d Hw Q3) as [d' Hd'].
      pose proof (path_digests_sound w i' p d' Hw Hd') as Q4. rewrite (Huniq p d' d Q4 Q3) in Hd'. rewrite Hd'. cbn [default]. exists p, exts, data. done.
    - intros p a Hin. rewrite stdpp.list.Forall_forall in H3. destruct (H3 _ Hin) as (exts & data & d & Q1 & Q2 & Q3). cbn [fst snd] in *.
      rewrite (hex_lower _ _ _ _ Hhex Q2) in Q3. destruct (path_digests_all w i' p d Hw Q3) as [d' Hd'].
      pose proof (path_digests_sound w i' p d' Hw Hd') as Q4. rewrite (Huniq p d' d Q4 Q3) in Hd'. exists d.
      apply H2 in Hin as (v & Hv & Hin). apply Hvs in Hv.
      match goal with |- ∃ a', _ ∧ ?m !! d = Some a' => assert (is_Some (m !! d)) as [a' Ha'] end; [|by exists a'].
      apply fold_versions_all. right. exists v, p, a. rewrite Hd'. done.
  Qed.
End history.

(** * What is recorded *)
Section recorded.
  Context {R : Type} (E : env) (index : list string → string → option R).
  Lemma istep_recorded orc op o x o' x' data exts m r :
    istep E index true orc op o x = (o', x', SOk) → streamed E orc op o = Some (data, exts, m) → index exts data = Some r →
    ∃ lines, ix_buf x' !! inv_head (ob_inv o) = Some (lines ++ [(m, r)]).
  Proof using.
    intros H Hst Hr. pose proof (istep_object _ _ _ _ _ _ _ _ _ H) as Hs. unfold istep in H. rewrite Hs, Hst in H.
    destruct (streamed_add _ _ _ _ _ _ _ Hst) as (Hps & Hm & o1 & orc' & Ho1 & Hadd). rewrite Hs in Hadd.
    unfold add_reader in Hadd. rewrite Ho1 in Hadd. destruct (checksums E _ data); [|done].
    unfold ix_stream in H. rewrite Hr in H. destruct (ix_open _); [|done]. apply (f_equal (λ p, p.1.2)) in H. cbn [fst snd] in H. subst x'.
    eexists. cbn [ix_buf]. by rewrite lookup_insert.
  Qed.
  Lemma istep_keeps hook orc op o x o' x' st v lines :
    istep E index hook orc op o x = (o', x', st) → ix_buf x !! v = Some lines → ∃ more, ix_buf x' !! v = Some (lines ++ more).
  Proof using.
    unfold istep. destruct (sop_step E orc op o) as [o1 st1]. intros H Hv.
    assert (∃ more, ix_buf x !! v = Some (lines ++ more)) as Hx by (exists []; by rewrite app_nil_r).
    destruct (if hook then _ else _) as [[[data ps] m]|]; [|by injection H as _ <- _]. destruct (checksums E _ data); [|by injection H as _ <- _].
    unfold ix_stream in H. set (h := inv_head (ob_inv o)) in *.
    assert (∀ k, ∃ more, <[h := default [] (ix_buf x !! h) ++ k]> (ix_buf x) !! v = Some (lines ++ more)) as Hk.
    { intros k. destruct (decide (h = v)) as [-> |Hne]; [exists k; by rewrite lookup_insert, Hv|exists []; by rewrite lookup_insert_ne, app_nil_r]. }
    assert (∀ k, ix_buf (if decide (ix_cur x = h) then IxSt h (ix_open x) (<[h := k]> (ix_buf x)) else IxSt h true (<[h := k]> (ix_buf x))) = <[h := k]> (ix_buf x)) as Hb
      by (intros k; by destruct (decide _)).
    destruct (index ps data) as [r|].
    - destruct (ix_open _); injection H as _ <- _; cbn [ix_buf]; rewrite ?Hb, ?insert_insert.
      + apply Hk.
      + destruct (Hk []) as [more Q]. rewrite app_nil_r in Q. by exists more.
    - injection H as _ <- _. rewrite Hb. destruct (Hk []) as [more Q]. rewrite app_nil_r in Q. by exists more.
  Qed.
  Lemma icalls_keeps o x o' x' v lines :
    icalls E index o x o' x' → ix_buf x !! v = Some lines → ∃ more, ix_buf x' !! v = Some (lines ++ more).
  Proof using.
    intros H. revert lines. induction H as [o x|hook orc op o x o1 x1 o2 x2 Hp Hs _ IH]; intros lines Hv; [exists []; by rewrite app_nil_r|].
    destruct (istep_keeps _ _ _ _ _ _ _ _ _ _ Hs Hv) as [m1 H1]. destruct (IH _ H1) as [m2 H2]. exists (m1 ++ m2). by rewrite app_assoc.
  Qed.
End recorded.

(** * Later sessions *)
Lemma orun_cdir E i n ops : head_number i n → plain_name (content_name i) → clean_names E ops → inv_contentdir (ob_inv (orun E ops (open_object i))) = inv_contentdir i.
Proof.
  intros Hn Hc Hcl. apply head_number_is in Hn.
  by destruct (sess_run E i n (λ _, True) Hc (λ _ _, I) ops (open_object i) (λ _ _, I) Hcl (sess_open i n _ Hn)) as (_ & _ & H & _).
Qed.
