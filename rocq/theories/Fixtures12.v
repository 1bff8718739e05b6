(** Objects with files to migrate, for the examples of C63 and C64. *)
From Coq Require Import Ascii.
From stdpp Require Import base list strings gmap.
From Coq Require Import ZArith Lia.
From Verif Require Import GoStr PathModel InventoryModel ObjectModel InventorySpec ObjectSpec CrashSpec LoadModel AreaModel ValidateModel ValidateSpec PublishSpec
  Fixtures Fixtures2 Fixtures3 Fixtures5 Fixtures8 JsonlModel JsonlSpec Fixtures10 MigrateModel MigrateSpec MigrateProofs MigrateProofs6.

(** Executable versions of the vocabulary. *)
Definition recordedb (i : inventory) (ver : string) : list (string * string) :=
  match inv_versions i !! ver with Some v => listed (v_state v) | None => [] end.
Lemma recordedb_spec i ver p d : recorded i ver p d ↔ (p, d) ∈ recordedb i ver.
Proof.
  unfold recorded, recordedb. destruct (inv_versions i !! ver) as [v|].
  - rewrite <- listed_spec. split; [by intros (v' & [= <-] & H)|]. intros H. by exists v.
  - split; [by intros (v' & ? & _)|]. intros H. by apply elem_of_nil in H.
Qed.
Definition names_upto (i : inventory) (n : nat) : list string := (λ k, version_name (inv_padding i) (N.of_nat k)) <$> seq 1 n.
Lemma names_upto_spec i n ver : ver ∈ names_upto i n ↔ ∃ k, (1 <= k <= N.of_nat n)%N ∧ ver = version_name (inv_padding i) k.
Proof.
  unfold names_upto. rewrite elem_of_list_fmap. split.
  - intros (k & -> & Hk). apply elem_of_seq in Hk. exists (N.of_nat k). split; [lia|done].
  - intros (k & Hk & ->). exists (N.to_nat k). rewrite N2Nat.id. split; [done|]. apply elem_of_seq. lia.
Qed.
Definition same_list (l1 l2 : list (string * string)) : bool :=
  forallb (λ x, bool_decide (x ∈ l2)) l1 && forallb (λ x, bool_decide (x ∈ l1)) l2.
Lemma same_list_true l1 l2 : same_list l1 l2 = true → ∀ x, x ∈ l1 ↔ x ∈ l2.
Proof.
  intros [H1 H2]%andb_prop x. rewrite forallb_forall in H1, H2.
  split; intros H%elem_of_list_In; [apply H1 in H|apply H2 in H]; by apply bool_decide_eq_true in H.
Qed.
Definition upb (st : smap) : bool :=
  forallb (λ x : string * string, forallb (λ y : string * string, bool_decide (x.1 ≠ y.1) || bool_decide (x.2 = y.2)) (listed st)) (listed st) &&
  forallb (λ x : string * list string, bool_decide (NoDup x.2)) (map_to_list st).
Lemma upb_true st : upb st = true → unique_paths st.
Proof.
  intros [H1 H2]%andb_prop. rewrite forallb_forall in H1, H2. split.
  - intros p d1 d2 Ha%listed_spec%elem_of_list_In Hb%listed_spec%elem_of_list_In. apply H1 in Ha. rewrite forallb_forall in Ha. apply Ha in Hb.
    cbn [fst snd] in Hb. apply orb_true_iff in Hb as [H|H]; apply bool_decide_eq_true in H; done.
  - intros d ps Hd%elem_of_map_to_list%elem_of_list_In. apply H2 in Hd. by apply bool_decide_eq_true in Hd.
Qed.
Definition automatedb (i : inventory) (n : nat) : bool :=
  bool_decide (inv_head i = version_name (inv_padding i) (N.of_nat n)) && (2 <=? n) && (inv_padding i <=? 0)%Z && inv_writeable i &&
  forallb (λ x : string * version, bool_decide (x.1 ∈ names_upto i n) && upb (v_state x.2)) (map_to_list (inv_versions i)) &&
  forallb (λ ver, bool_decide (is_Some (inv_versions i !! ver))) (names_upto i n) &&
  same_list (now_listed i) (recordedb i (earlier i (N.of_nat n))).
Lemma automatedb_true i n : automatedb i n = true → automated i (N.of_nat n).
Proof.
  unfold automatedb. rewrite !andb_true_iff. intros [[[[[[H1 H2] H3] H4] H5] H6] H7].
  apply bool_decide_eq_true in H1. apply Nat.leb_le in H2. apply Z.leb_le in H3. rewrite forallb_forall in H5, H6.
  assert (∀ ver v, inv_versions i !! ver = Some v → ver ∈ names_upto i n ∧ upb (v_state v) = true) as Hv.
  { intros ver v Hv. specialize (H5 (ver, v)). cbn [fst snd] in H5. apply andb_prop in H5 as [Ha Hb]; [by apply bool_decide_eq_true in Ha|].
    apply elem_of_list_In, elem_of_map_to_list. done. }
  split; try done; [| lia | |].
  - split; [by rewrite decide_False by lia|]. intros ver. rewrite <- names_upto_spec. split.
    + intros [v Hver]. by apply Hv in Hver as [? _].
    + intros Hver%elem_of_list_In. apply H6 in Hver. by apply bool_decide_eq_true in Hver.
  - intros ver v Hver. apply Hv in Hver as [_ Hu]. by apply upb_true.
  - intros p d. rewrite now_spec, recordedb_spec. by apply same_list_true.
Qed.

Section checks.
  Context (E : env) (S : surroundings) (i : inventory) (n : N) (metas : list string) (todo : list (string * mfun)).
  Notation T := (λ cs f, (cs, f) ∈ todo).
  Definition planb : list (string * mfun * string) :=
    flat_map (λ t : string * mfun, flat_map (λ e : string * string, if decide (e.2 = t.1) then [(t.1, t.2, e.1)] else []) (recordedb i (earlier i n))) todo.
  Lemma planb_spec cs f p : planned i n T cs f p ↔ (cs, f, p) ∈ planb.
  Proof.
    unfold planned, planb. rewrite recordedb_spec. split.
    - intros [H1 H2]. apply elem_of_list_In, in_flat_map. exists (cs, f). split; [by apply elem_of_list_In|]. apply in_flat_map. exists (p, cs). split; [by apply elem_of_list_In|].
      cbn [fst snd]. rewrite decide_True by done. by left.
    - intros H%elem_of_list_In. apply in_flat_map in H as ([c g] & H1 & ([q d] & H2 & H3)%in_flat_map). cbn [fst snd] in *. destruct (decide (d = c)) as [->|]; [|by destruct H3].
      destruct H3 as [[= -> -> ->]|[]]. split; by apply elem_of_list_In.
  Qed.
  Definition placeb (cs : string) (f : mfun) : option string :=
    match first_name i n cs with
    | Some p => match ms_extract S (converted_name f i p) with
                | XPath e => manifest_name i <$> e_manifest_path E e "content"
                | _ => None
                end
    | None => None
    end.
  Lemma placeb_spec cs f e m : new_place E S i n cs f e m → placeb cs f = Some m.
  Proof. intros (p & mm & H1 & H2 & H3 & ->). unfold placeb. by rewrite H1, H2, H3. Qed.
  Definition all2 {A : Type} (P : A → A → bool) (l : list A) : bool := forallb (λ x, forallb (P x) l) l.
  Lemma all2_true {A : Type} (P : A → A → bool) l : all2 P l = true → ∀ x y, x ∈ l → y ∈ l → P x y = true.
  Proof. unfold all2. rewrite forallb_forall. intros H x y Hx%elem_of_list_In Hy%elem_of_list_In. apply H in Hx. rewrite forallb_forall in Hx. by apply Hx. Qed.
  Definition goal (t : string * mfun * string) : string := converted_name t.1.2 i t.2.
  Definition sourceb (t : string * mfun) : bool :=
    bool_decide (t.1 ≠ "") && existsb (λ e : string * string, bool_decide (e.2 = t.1)) (recordedb i (earlier i n)) &&
    match inv_manifest i !! t.1 with Some (p0 :: _) => bool_decide (is_Some (ms_read S p0)) | _ => false end.
  Definition goalb (t : string * mfun * string) : bool :=
    bool_decide (goal t ≠ "") &&
    match ms_extract S (goal t) with
    | XPath e => bool_decide (e_state_path E e "content" = Some (goal t)) && bool_decide (is_Some (e_manifest_path E e "content"))
    | _ => false
    end &&
    (existsb (λ e : string * string, bool_decide (e.1 = goal t)) (now_listed i) || bool_decide (goal t ∉ ever i)).
  Definition folderb (f : mfun) : bool := match mf_strategy f with Folder => true | _ => false end.
  Definition keepb (t : string * mfun * string) : bool :=
    negb (folderb t.1.2) ||
    forallb (λ e : string * string, bool_decide (e.1 ≠ kept_name t.2)) (now_listed i) &&
    forallb (λ t', bool_decide (kept_name t.2 ≠ goal t') && (bool_decide (kept_name t.2 ≠ kept_name t'.2) || bool_decide (t.2 = t'.2))) planb.
  Definition migratableb : bool :=
    forallb sourceb todo && forallb goalb planb &&
    all2 (λ t t', bool_decide (goal t ≠ goal t') || bool_decide (t.1.1 = t'.1.1)) planb &&
    all2 (λ t t', bool_decide (goal t ≠ t'.2) || bool_decide (t.1.1 = t'.1.1)) planb &&
    all2 (λ t t' : string * mfun, bool_decide (placeb t.1 t.2 ≠ placeb t'.1 t'.2) || bool_decide (t.1 = t'.1)) todo &&
    forallb (λ t : string * mfun, negb (folderb t.2) || bool_decide (t.1 ∉ metas)) todo &&
    forallb keepb planb.
  Lemma migratableb_true : migratableb = true → migratable E S i n (λ cs, cs ∈ metas) T.
  Proof.
    unfold migratableb. rewrite !andb_true_iff. intros [[[[[[H1 H2] H3] H4] H5] H6] H7].
    rewrite forallb_forall in H1, H2, H6, H7.
    pose proof (all2_true _ _ H3) as K3. pose proof (all2_true _ _ H4) as K4. pose proof (all2_true _ _ H5) as K5.
    split.
    - intros cs f HT%elem_of_list_In. apply H1 in HT. unfold sourceb in HT. cbn [fst snd] in HT. apply andb_prop in HT as [[Ha Hb]%andb_prop Hc].
      apply bool_decide_eq_true in Ha. apply existsb_exists in Hb as ([p d] & Hb & Hd). cbn [snd] in Hd. apply bool_decide_eq_true in Hd as ->.
      split; [done|]. split; [exists p; by apply recordedb_spec, elem_of_list_In|].
      destruct (inv_manifest i !! cs) as [[|p0 ps]|]; [done| |done]. apply bool_decide_eq_true in Hc as [x Hx]. by exists p0, ps, x.
    - intros cs f p Hp%planb_spec%elem_of_list_In. apply H2 in Hp. unfold goalb in Hp. apply andb_prop in Hp as [[Ha Hb]%andb_prop _].
      apply bool_decide_eq_true in Ha. split; [done|]. unfold goal in *. cbn [fst snd] in *.
      destruct (ms_extract S (converted_name f i p)) as [e| |]; [|done..]. apply andb_prop in Hb as [Hb Hc].
      apply bool_decide_eq_true in Hb, Hc. destruct Hc as [m Hm]. by exists e, m.
    - intros cs f p Hp%planb_spec%elem_of_list_In. apply H2 in Hp. unfold goalb in Hp. apply andb_prop in Hp as [_ Hb]. unfold goal in *. cbn [fst snd] in *.
      apply orb_true_iff in Hb as [Hb|Hb].
      + left. apply existsb_exists in Hb as ([q d] & Hin & Hq). cbn [fst] in Hq. apply bool_decide_eq_true in Hq as ->. exists d. by apply now_spec, elem_of_list_In.
      + right. apply bool_decide_eq_true in Hb. intros ver d Hr. apply Hb. by eapply ever_spec.
    - intros cs f p cs' f' p' Hp%planb_spec Hp'%planb_spec Hg. specialize (K3 _ _ Hp Hp'). unfold goal in K3. cbn [fst snd] in K3.
      apply orb_true_iff in K3 as [K|K]; apply bool_decide_eq_true in K; done.
    - intros cs f p cs' f' p' Hp%planb_spec Hp'%planb_spec Hg. specialize (K4 _ _ Hp Hp'). unfold goal in K4. cbn [fst snd] in K4.
      apply orb_true_iff in K4 as [K|K]; apply bool_decide_eq_true in K; done.
    - intros cs f e m cs' f' e' m' HT HT' Hm%placeb_spec Hm'%placeb_spec ->. specialize (K5 _ _ HT HT'). cbn [fst snd] in K5. rewrite Hm, Hm' in K5.
      apply orb_true_iff in K5 as [K|K]; apply bool_decide_eq_true in K; done.
    - intros cs f HT%elem_of_list_In Hs Hmeta. apply H6 in HT. unfold folderb in HT. cbn [fst snd] in HT. rewrite Hs in HT. cbn [negb orb] in HT.
      by apply bool_decide_eq_true in HT.
    - intros cs f p Hp%planb_spec%elem_of_list_In Hs. apply H7 in Hp. unfold keepb, folderb in Hp. cbn [fst snd] in Hp. rewrite Hs in Hp. cbn [negb orb] in Hp.
      apply andb_prop in Hp as [Ha Hb]. rewrite forallb_forall in Ha, Hb. split; [|split].
      + intros d Hc%now_spec%elem_of_list_In. apply Ha in Hc. by apply bool_decide_eq_true in Hc.
      + intros cs' f' p' Hp'%planb_spec%elem_of_list_In. apply Hb in Hp'. apply andb_prop in Hp' as [Hk _]. by apply bool_decide_eq_true in Hk.
      + intros cs' f' p' Hp'%planb_spec%elem_of_list_In Hk. apply Hb in Hp'. apply andb_prop in Hp' as [_ Hk']. cbn [fst snd] in Hk'.
        apply orb_true_iff in Hk' as [K|K]; apply bool_decide_eq_true in K; done.
  Qed.
End checks.

(** A line: the parts with bars between them. *)
Fixpoint split_bar (s : string) : list string :=
  match s with
  | EmptyString => [""]
  | String c t => if decide (c = "|"%char) then "" :: split_bar t
                  else match split_bar t with a :: r => String c a :: r | [] => [String c ""] end
  end.
Definition lm : printer mres := Printer (λ p r, p +:+ "|" +:+ mr_source r +:+ "|" +:+ mr_error r +:+ "|" +:+ mr_id r)
  (λ t, match split_bar t with [p; a; e; d] => Some (p, MRes a e d) | _ => None end).

(** Tools: names with .doc get .pdf; contents that begin with an X cannot be converted.  [narrow] always gives the same result. *)
Definition to_pdf (p : string) : string := match String.index 0 ".doc" p with Some k => String.substring 0 k p +:+ ".pdf" | None => p end.
Definition last_name (p : string) : string := to_pdf (path_base p).
Definition pdf (st : strategy) : mfun := MFun "doc2pdf" st to_pdf (λ _ _ x, match x with String "X"%char _ => None | _ => Some ("pdf:" +:+ x) end).
Definition in_folder : mfun := MFun "doc2pdf" Folder last_name (λ _ _ x, Some ("pdf:" +:+ x)).
Definition narrow (st : strategy) : mfun := MFun "narrow" st to_pdf (λ _ _ _, Some "same").

(** One version with the given files, and a second one just started by the same handle. *)
Definition add (area : string) (e : string * string) : oracle * oop := (dflt, OSimple (SAdd e.2 e.1 area false)).
Definition begin : oracle * oop := (dflt, OStart "2024-02-02" "next" "me" "mailto:me" false).
Definition ended : list (oracle * oop) := [(dflt, OEnd (HDone []))].
Definition automatic (ops : list (oracle * oop)) : object := orun aenv (begin :: ops ++ ended ++ [begin]) (open_object fresh0).
Definition around (o : object) : surroundings := Surroundings (λ p, apply_evs (ob_trace o) store0 !! p) None (λ p, mgr_extract_path [areas2] p "").
Definition dig (x : string) : string := default "" (hexh "sha512" x).
Definition to_do (l : list (string * mfun)) : mist := MiSt (list_to_map ((λ e : string * mfun, (dig e.1, e.2)) <$> l)) ∅ false ∅.
Definition jmig : jstore := JStore "migration" "brotli" "area" "metadata" "extensions/NNNN-migration".
Definition migrate (meta : gmap string mres) (o : object) (x : mist) : object * mist * status :=
  do_new_version zc lm aenv [areas2] jmig (around o) wd dflt (λ _ _, dflt) (Some meta) o x.
Definition files_now (o : object) : list (string * string) := now_listed (ob_inv o).

(** * The log *)
Global Instance mres_eq : EqDecision mres.
Proof. solve_decision. Defined.
Section logs.
  Context (Z : codec) (L : printer mres) (l : list subpaths) (J : jstore) (x : mist) (i : inventory) (s : storage).
  Definition recs (ver : string) : list (string * mres) :=
    match read_jsonl Z l J i s ver with Some t => omap (l_parse L) (scan_lines t) | None => [] end.
  Definition readableb (q : string * mres) : bool :=
    bool_decide (l_parse L (l_print L q.1 q.2) = Some q) && one_lineb (l_print L q.1 q.2).
  Definition placesb : list (string * string) := listed (inv_manifest i).
  Definition aboutb (q : string * mres) (c : string) : bool :=
    bool_decide ((q.1, c) ∈ placesb) ||
    (bool_decide (mr_error q.2 ≠ "") && forallb (λ e : string * string, bool_decide (e.1 ≠ q.1)) placesb && bool_decide ((mr_source q.2, c) ∈ placesb)).
  Lemma aboutb_true p a c : aboutb (p, a) c = true ↔ about i p a c.
  Proof.
    unfold aboutb, about, placesb. cbn [fst snd]. rewrite orb_true_iff, !andb_true_iff, !bool_decide_eq_true, <- !listed_spec, forallb_forall. split.
    - intros [H|[[H1 H2] H3]]; [by left|]. right. split; [done|]. split; [|done]. intros d Hd%listed_spec%elem_of_list_In. apply H2 in Hd. by apply bool_decide_eq_true in Hd.
    - intros [H|(H1 & H2 & H3)]; [by left|]. right. split; [|done]. split; [done|]. intros [q d] Hq%elem_of_list_In. apply bool_decide_eq_true. cbn [fst].
      intros ->. by apply (H2 d), listed_spec.
  Qed.
  Definition linesb : list (string * mres) := flat_map (λ e : string * version, recs e.1) (map_to_list (inv_versions i)).
  Definition log_okb : bool :=
    forallb (λ e : string * version, match read_jsonl Z l J i s e.1 with Some t => bool_decide (text_of L (recs e.1) = t) && forallb readableb (recs e.1) | None => true end)
      (map_to_list (inv_versions i)) &&
    forallb (λ a : string * string, bool_decide (a.2 ≠ "") && forallb (λ b : string * string, bool_decide (a.1 ≠ b.1) || bool_decide (a.2 = b.2)) placesb) placesb &&
    forallb (λ q : string * mres, existsb (λ e : string * string, bool_decide (e.1 = mr_source q.2)) placesb &&
                                  existsb (λ e : string * string, aboutb q e.2) placesb) linesb.
  Context (Hx : mi_buf x = ∅).
  Lemma logged_recs ver lines : logged Z L l J x i s ver lines → lines = recs ver.
  Proof using Hx.
    intros (_ & Hp & [H|[_ H]]); [by rewrite Hx, lookup_empty in H|]. unfold recs. destruct H as [->|[-> ->]]; [|done].
    rewrite MigrateProofs6.scan_lines_text by (intros p a H; by apply Hp). clear -Hp. induction lines as [|[p a] lines IH]; [done|].
    cbn [fmap list_fmap omap list_omap fst snd]. destruct (Hp p a ltac:(by left)) as [-> _]. f_equal. apply IH. intros q b H. apply Hp. by right.
  Qed.
  Lemma entry_lines p a : entry Z L l J x i s p a → (p, a) ∈ linesb.
  Proof using Hx.
    intros (ver & lines & Hl & Hin). pose proof (logged_recs _ _ Hl) as ->. destruct Hl as [[v Hv] _]. unfold linesb. apply elem_of_list_In, in_flat_map.
    exists (ver, v). split; [by apply elem_of_list_In, elem_of_map_to_list|]. by apply elem_of_list_In.
  Qed.
  Lemma recs_logged ver : log_okb = true → is_Some (inv_versions i !! ver) → logged Z L l J x i s ver (recs ver).
  Proof using Hx.
    unfold log_okb. rewrite !andb_true_iff. intros [[H1 _] _] [v Hv]. rewrite forallb_forall in H1.
    specialize (H1 (ver, v) ltac:(by apply elem_of_list_In, elem_of_map_to_list)). cbn [fst] in H1. split; [eauto|].
    unfold recs in *. destruct (read_jsonl Z l J i s ver) as [t|] eqn:Hr.
    - apply andb_prop in H1 as [Ht%bool_decide_eq_true Hrd]. rewrite forallb_forall in Hrd. split.
      + intros p a Hin%elem_of_list_In. apply Hrd in Hin. apply andb_prop in Hin as [Ha%bool_decide_eq_true Hb]. split; [done|by apply one_lineb_true].
      + right. rewrite Hx, lookup_empty. split; [done|]. left. by rewrite Ht.
    - split; [intros p a H; by apply elem_of_nil in H|]. right. rewrite Hx, lookup_empty. split; [done|]. by right.
  Qed.
  Lemma log_okb_true : log_okb = true → log_ok Z L l J x i s.
  Proof using Hx.
    intros Hb. pose proof (λ ver, recs_logged ver Hb) as Hrec. unfold log_okb in Hb. rewrite !andb_true_iff in Hb. destruct Hb as [[H1 H2] H3].
    rewrite forallb_forall in H2, H3.
    assert (∀ p d, lists (inv_manifest i) p d → d ≠ "" ∧ ∀ d', lists (inv_manifest i) p d' → d = d') as Hm.
    { intros p d Hd%listed_spec%elem_of_list_In. apply H2 in Hd. cbn [fst snd] in Hd. apply andb_prop in Hd as [Ha%bool_decide_eq_true Hd].
      split; [done|]. intros d' Hd'%listed_spec%elem_of_list_In. rewrite forallb_forall in Hd. apply Hd in Hd'. cbn [fst snd] in Hd'.
      apply orb_true_iff in Hd' as [H|H]; apply bool_decide_eq_true in H; done. }
    split.
    - intros ver Hver. exists (recs ver). by apply Hrec.
    - intros p d d' Hd Hd'. by apply (Hm p d).
    - intros p d Hd. by apply (Hm p d).
    - intros p a He%entry_lines%elem_of_list_In. apply H3 in He. apply andb_prop in He as [He _]. apply existsb_exists in He as ([q d] & Hin & Hq).
      cbn [fst snd] in Hq. apply bool_decide_eq_true in Hq as ->. exists d. by apply listed_spec, elem_of_list_In.
    - intros p a He%entry_lines%elem_of_list_In. apply H3 in He. apply andb_prop in He as [_ He]. apply existsb_exists in He as ([q d] & Hin & Hq).
      exists d. by apply aboutb_true.
  Qed.
End logs.
(** The report of the files, in the order of the manifest. *)
Definition report (i : inventory) (r : gmap string mres) (pron : string → option string) : list (string * (option mres * option string)) :=
  (λ e : string * list string, (e.1, (r !! e.1, pron e.1))) <$> map_to_list (inv_manifest i).
Lemma report_ok i r pron : forallb (λ e : string * list string, bool_decide (e.2 ≠ [])) (map_to_list (inv_manifest i)) = true → reported i r pron (report i r pron).
Proof.
  intros H. rewrite forallb_forall in H. split.
  - unfold report. rewrite <- list_fmap_compose. exact (NoDup_fst_map_to_list (inv_manifest i)).
  - intros c q pr. unfold report. rewrite elem_of_list_fmap. split.
    + intros ([d ps] & [= -> -> ->] & Hin). split; [|done]. pose proof Hin as Hin'. apply elem_of_list_In, H in Hin'. apply bool_decide_eq_true in Hin'. cbn [snd] in Hin'.
      apply elem_of_map_to_list in Hin. destruct ps as [|p ps]; [done|]. exists p, (p :: ps). split; [done|by left].
    + intros ((p & ps & Hps & _) & -> & ->). exists (c, ps). split; [done|]. by apply elem_of_map_to_list.
Qed.
(** A new handle. *)
Definition mi_new : mist := MiSt ∅ ∅ false ∅.
(** The format of the given contents is known. *)
Definition known (l : list string) (c : string) : option string := if decide (c ∈ dig <$> l) then Some "fmt/40" else None.
Definition with_fun (f : mfun) (pr : string) : option mfun := if decide (pr = "fmt/40") then Some f else None.
(** The state of a new handle after the end of the update, before the automated version. *)
Definition replan (f : mfun) (l : list string) (o : object) : option mist :=
  r ← mi_metadata zc lm wd wd [areas2] jmig mi_new (ob_inv o) (apply_evs (ob_trace o) store0);
  Some (mi_after (with_fun f) (inv_head (ob_inv o)) (report (ob_inv o) r (known l)) mi_new).
