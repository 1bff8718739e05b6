(** Proofs about the validation of whole objects. *)
From Coq Require Import Ascii ZArith Lia.
From stdpp Require Import base list strings gmap sorting.
From Verif Require Import GoStr InventoryModel ObjectModel LoadModel ValidateModel ValidateSpec ValidateProofs ValidateProofs2
  CheckModel CheckSpec EqualProofs.

(** ** The digests of the stored files *)
Definition in_fm (fm : file_manifest) (alg cs f : string) : Prop :=
  ∃ m l, fm !! alg = Some m ∧ m !! cs = Some l ∧ f ∈ l.
Definition keys_used (fm : file_manifest) : Prop :=
  (∀ alg m, fm !! alg = Some m → ∃ cs f, in_fm fm alg cs f) ∧
  ∀ alg m cs l, fm !! alg = Some m → m !! cs = Some l → l ≠ [].
Lemma add_sum_in fm alg cs f alg' cs' f' :
  in_fm (add_sum fm (alg, cs, f)) alg' cs' f' ↔ in_fm fm alg' cs' f' ∨ (alg', cs', f') = (alg, cs, f).
Proof.
  unfold in_fm, add_sum. destruct (decide (alg' = alg)) as [->|Ha].
  - rewrite lookup_insert. destruct (decide (cs' = cs)) as [->|Hc].
    + split.
      * intros (m & l & [= <-] & Hl & Hf). rewrite lookup_insert in Hl. injection Hl as <-.
        apply elem_of_app in Hf as [Hf|Hf%elem_of_list_singleton]; [|right; by subst].
        left. destruct (fm !! alg) as [m0|]; simpl in *; [|by apply elem_of_nil in Hf].
        destruct (m0 !! cs) as [l0|] eqn:E; simpl in *; [|by apply elem_of_nil in Hf]. by exists m0, l0.
      * intros [(m & l & -> & Hl & Hf)|[= ->]]; simpl.
        -- exists (<[cs:=l ++ [f]]> m), (l ++ [f]). rewrite Hl. simpl. rewrite lookup_insert. split_and!; try done.
           apply elem_of_app. by left.
        -- eexists _, _. split; [done|]. rewrite lookup_insert. split; [done|]. apply elem_of_app. right. by left.
    + split.
      * intros (m & l & [= <-] & Hl & Hf). rewrite lookup_insert_ne in Hl by done. left.
        destruct (fm !! alg) as [m0|]; simpl in *; [|by rewrite lookup_empty in Hl]. by exists m0, l.
      * intros [(m & l & -> & Hl & Hf)|[= -> _]]; [|done]. simpl. eexists _, l. split; [done|]. by rewrite lookup_insert_ne.
  - rewrite lookup_insert_ne by done. split; [by left|]. intros [?|[= -> _ _]]; done.
Qed.
Lemma add_sum_used fm x : keys_used fm → keys_used (add_sum fm x).
Proof.
  destruct x as [[alg cs] f]. intros [H1 H2]. split.
  - intros alg' m. unfold add_sum. destruct (decide (alg' = alg)) as [->|Ha].
    + intros _. exists cs, f. apply (add_sum_in fm alg cs f). by right.
    + rewrite lookup_insert_ne by done. intros Hm. destruct (H1 _ _ Hm) as (cs' & f' & Hin). exists cs', f'.
      apply (add_sum_in fm alg cs f). by left.
  - intros alg' m cs' l. unfold add_sum. destruct (decide (alg' = alg)) as [->|Ha].
    + rewrite lookup_insert. intros [= <-]. destruct (decide (cs' = cs)) as [->|Hc].
      * rewrite lookup_insert. intros [= <-]. by destruct (default [] _).
      * rewrite lookup_insert_ne by done. destruct (fm !! alg) as [m0|] eqn:E; simpl; [by apply (H2 alg)|by rewrite lookup_empty].
    + rewrite lookup_insert_ne by done. apply H2.
Qed.
Lemma sums_in xs fm alg cs f : in_fm (foldl add_sum fm xs) alg cs f ↔ in_fm fm alg cs f ∨ (alg, cs, f) ∈ xs.
Proof.
  revert fm. induction xs as [|[[a c] g] xs IH]; intros fm; cbn [foldl]; [rewrite elem_of_nil; naive_solver|].
  rewrite IH, add_sum_in, elem_of_cons. naive_solver.
Qed.
Lemma sums_used xs fm : keys_used fm → keys_used (foldl add_sum fm xs).
Proof. revert fm. induction xs as [|x xs IH]; intros fm H; [done|]. cbn [foldl]. by apply IH, add_sum_used. Qed.
Lemma empty_used : keys_used ∅.
Proof. split; intros alg m *; rewrite lookup_empty; done. Qed.
Lemma in_fm_empty alg cs f : ¬ in_fm ∅ alg cs f.
Proof. intros (m & l & H & _). by rewrite lookup_empty in H. Qed.

Lemma all_some_eq {A} (l : list (option A)) r : all_some l = Some r ↔ l = Some <$> r.
Proof.
  revert r. induction l as [|[a|] l IH]; intros r; simpl.
  - split; [intros [= <-]; done|]. by destruct r.
  - destruct (all_some l) as [r'|].
    + split; [intros [= <-]; simpl; f_equal; by apply IH|]. destruct r as [|b r]; [done|]. intros [= -> H]. apply IH in H. congruence.
    + split; [done|]. destruct r as [|b r]; [done|]. intros [= -> H]. by apply IH in H.
  - split; [done|]. by destruct r.
Qed.
Lemma has_prefix_slash ver p : has_prefix (ver +:+ "/") p = true ↔ ∃ r, p = ver +:+ "/" +:+ r.
Proof. rewrite has_prefix_spec. split; intros [r ->]; exists r; by rewrite str_app_assoc. Qed.
Lemma walk_in s ver l f : walk s ver = Some l → f ∈ l ↔ (∃ c, s !! f = Some c) ∧ ∃ r, f = ver +:+ "/" +:+ r.
Proof.
  unfold walk. intros H.
  assert (l = (λ p : string * string, p.1) <$> filter (λ p : string * string, has_prefix (ver +:+ "/") p.1 = true) (map_to_list s)) as ->.
  { destruct (_ <$> _); [done|]. by injection H as <-. }
  rewrite elem_of_list_fmap. setoid_rewrite elem_of_list_filter. rewrite <-has_prefix_slash. split.
  - intros ([g c] & -> & Hp & Hin). simpl in *. apply elem_of_map_to_list in Hin. eauto.
  - intros [[c Hc] Hp]. exists (f, c). split; [done|]. split; [done|]. by apply elem_of_map_to_list.
Qed.
Lemma walk_nonempty s ver l : walk s ver = Some l → l ≠ [].
Proof. unfold walk. destruct (_ <$> _); [done|]. by intros [= <-]. Qed.
Lemma walks_in s versions walks f : all_some (walk s <$> versions) = Some walks →
  f ∈ concat walks ↔ (∃ c, s !! f = Some c) ∧ below versions f.
Proof.
  intros H%all_some_eq. rewrite elem_of_list_In, in_concat. setoid_rewrite <-elem_of_list_In. unfold below.
  assert (∀ l, l ∈ walks ↔ ∃ ver, ver ∈ versions ∧ walk s ver = Some l) as Hw.
  { intros l. transitivity (Some l ∈ walk s <$> versions).
    - rewrite H, elem_of_list_fmap. split; [intros; by exists l|]. by intros (? & [= <-] & ?).
    - rewrite elem_of_list_fmap. naive_solver. }
  split.
  - intros (l & (ver & Hv & Hl)%Hw & Hf). apply (walk_in _ _ _ _ Hl) in Hf as [Hc [r ->]]. split; [done|]. by exists ver, r.
  - intros [Hc (ver & r & Hv & ->)]. assert (walk s ver ∈ Some <$> walks) as Hin by (rewrite <-H; by apply elem_of_list_fmap_1).
    apply elem_of_list_fmap in Hin as (l & Hl & Hin). exists l. split; [done|]. apply (walk_in _ _ _ _ Hl). eauto.
Qed.
Lemma content_manifest_in hash algs s versions fm alg cs f : content_manifest hash algs s versions = Sums fm →
  in_fm fm alg cs f ↔ alg ∈ algs ∧ below versions f ∧ stored_as hash alg s cs f.
Proof.
  unfold content_manifest. destruct (all_some (walk s <$> versions)) as [walks|] eqn:Hw; [|done].
  destruct (all_some (file_sums hash algs s <$> concat walks)) as [sums|] eqn:Hs; [|done]. intros [= <-].
  rewrite sums_in. apply all_some_eq in Hs.
  assert ((alg, cs, f) ∈ concat sums ↔ alg ∈ algs ∧ below versions f ∧ stored_as hash alg s cs f) as Hin.
  { rewrite elem_of_list_In, in_concat. setoid_rewrite <-elem_of_list_In. unfold stored_as. split.
    - intros (xs & Hxs & Hx). assert (Some xs ∈ file_sums hash algs s <$> concat walks) as Hg by (rewrite Hs; by apply elem_of_list_fmap_1).
      apply elem_of_list_fmap in Hg as (g & Hg & Hin). apply (walks_in _ _ _ _ Hw) in Hin as [[c Hc] Hb].
      unfold file_sums in Hg. rewrite Hc in Hg. symmetry in Hg. apply all_some_eq in Hg.
      assert (Some (alg, cs, f) ∈ (λ alg0, (λ h, (alg0, h, g)) <$> hash alg0 c) <$> algs) as Hk by (rewrite Hg; by apply elem_of_list_fmap_1).
      apply elem_of_list_fmap in Hk as (a & Ha & Hina). destruct (hash a c) as [h|] eqn:Eh; [|done].
      injection Ha as -> -> ->. split_and!; try done. by exists c.
    - intros (Ha & Hb & c & Hc & Hh). assert (f ∈ concat walks) as Hf by (apply (walks_in _ _ _ _ Hw); eauto).
      apply (elem_of_list_fmap_1 (file_sums hash algs s)) in Hf. rewrite Hs in Hf.
      apply elem_of_list_fmap in Hf as (xs & Hg & Hxs). exists xs. split; [done|]. unfold file_sums in Hg. rewrite Hc in Hg.
      apply all_some_eq in Hg. assert (Some (alg, cs, f) ∈ Some <$> xs) as Hk.
      { rewrite <-Hg. apply elem_of_list_fmap. exists alg. by rewrite Hh. }
      by apply elem_of_list_fmap in Hk as (? & [= <-] & ?). }
  rewrite Hin. split; [intros [H|]; [by apply in_fm_empty in H|done]|by right].
Qed.
Lemma content_manifest_used hash algs s versions fm : content_manifest hash algs s versions = Sums fm → keys_used fm.
Proof.
  unfold content_manifest. destruct (all_some (walk s <$> versions)) as [walks|] eqn:Hw; [|done].
  destruct (all_some (file_sums _ _ _ <$> _)) as [sums|] eqn:Hs; [|done]. intros [= <-]. apply sums_used, empty_used.
Qed.
Lemma content_manifest_alg hash algs s versions fm alg : content_manifest hash algs s versions = Sums fm →
  versions ≠ [] → alg ∈ algs → is_Some (fm !! alg).
Proof.
  intros H Hv Ha. destruct versions as [|v0 versions]; [done|]. pose proof H as H0. unfold content_manifest in H0.
  destruct (all_some (walk s <$> v0 :: versions)) as [walks|] eqn:Hw; [|done].
  destruct (all_some (file_sums hash algs s <$> concat walks)) as [sums|] eqn:Hs; [|done]. clear H0.
  apply all_some_eq in Hs. pose proof Hw as Hw'. apply all_some_eq in Hw'. destruct walks as [|l0 walks]; [done|].
  rewrite fmap_cons in Hw'. injection Hw' as Hl0 _. destruct l0 as [|f l0]; [by apply walk_nonempty in Hl0|].
  assert (f ∈ concat ((f :: l0) :: walks)) as Hf by (simpl; left).
  pose proof (proj1 (walks_in _ _ _ _ Hw) Hf) as [[c Hc] Hb].
  apply (elem_of_list_fmap_1 (file_sums hash algs s)) in Hf. rewrite Hs in Hf.
  apply elem_of_list_fmap in Hf as (xs & Hg & Hxs). unfold file_sums in Hg. rewrite Hc in Hg. apply all_some_eq in Hg.
  assert (∃ h, hash alg c = Some h) as [h Hh].
  { apply (elem_of_list_fmap_1 (λ alg0, (λ h, (alg0, h, f)) <$> hash alg0 c)) in Ha. rewrite Hg in Ha.
    apply elem_of_list_fmap in Ha as (? & Ha & _). destruct (hash alg c); [eauto|done]. }
  assert (in_fm fm alg h f) as (m & l & Hm & _); [|eauto].
  apply (content_manifest_in _ _ _ _ _ _ _ _ H). split_and!; try done.
  by exists c.
Qed.

(** ** The steps of a completed check *)
Record steps (hash : string → string → option string) (w : vorder) (s : storage) (d : doc) (vinv : gmap string doc)
    (fs : list finding) : Type := {
  st_versions : list string;
  st_walks : list (list string);
  st_fm : file_manifest;
  st_cd : string;
  st_root : list finding;
  st_inv : list finding;
  st_last : list finding;
  st_against : list finding;
  st_phys : list finding;
  st_physroot : list finding;
  st_listed : list finding;
  st_versions_eq : st_versions = version_strings w 18 d;
  st_walks_eq : all_some (walk s <$> st_versions) = Some st_walks;
  st_fm_eq : content_manifest hash (all_digests d vinv) s st_versions = Sums st_fm;
  st_root_eq : check_files w st_fm d = VDone st_root;
  st_cd_eq : match st_versions with [] => Some "" | v0 :: _ => dc_contentdir <$> vinv !! v0 end = Some st_cd;
  st_inv_eq : vall ((λ ver, match vinv !! ver with
                            | None => VDone []
                            | Some vd => check_version_inventory w s st_fm st_cd ver vd
                            end) <$> st_versions) = VDone st_inv;
  st_last_eq : match vinv !! default "" (last st_versions) with
               | None => VDone []
               | Some ld =>
                   match is_equal ld d with
                   | None => VPanic
                   | Some b => VDone (when (negb b) (Finding "E064" []))
                   end
               end = VDone st_last;
  st_against_eq : vall ((λ p : string * doc, check_against_root w d p.1 p.2) <$> vo w 19 vinv) = VDone st_against;
  st_phys_eq : vall ((λ p : string * doc, check_physical w (concat st_walks) p.2 p.1) <$> vo w 19 vinv) = VDone st_phys;
  st_physroot_eq : check_physical w (concat st_walks) d "root" = VDone st_physroot;
  st_listed_eq : vall ((λ ver,
      vseq (vall ((λ p : string * doc,
                check_listed w (filter (λ f, has_prefix (ver +:+ "/" +:+ cdir d) f = true) (default [] (walk s ver))) ver p.2 p.1)
                <$> vo w 19 vinv))
           (check_listed w (filter (λ f, has_prefix (ver +:+ "/" +:+ cdir d) f = true) (default [] (walk s ver))) ver d
             (os_val (dc_head d)))) <$> st_versions) = VDone st_listed;
  st_all : fs = check_root s (version_strings w 17 d) ++
                flat_map (λ ver, walk_findings d ver (default [] (walk s ver))) st_versions ++
                st_root ++ st_inv ++ check_specs vinv st_versions ++ st_last ++ st_against ++ st_phys ++ st_physroot ++ st_listed
}.
Lemma vseq_inv a b fs : vseq a b = VDone fs → { p : list finding * list finding | a = VDone p.1 ∧ b = VDone p.2 ∧ fs = p.1 ++ p.2 }.
Proof. destruct a as [fa| |], b as [fb| |]; try done. simpl. intros [= <-]. by exists (fa, fb). Qed.
Lemma check_steps hash w s d vinv fs : check_object hash w s d vinv = VDone fs → steps hash w s d vinv fs.
Proof.
  unfold check_object, check_files_and_versions. intros H.
  apply vseq_inv in H as ([fa fb] & Ha & H & ->). cbn [fst snd] in *. injection Ha as <-.
  destruct (all_some (walk s <$> version_strings w 18 d)) as [walks|] eqn:Hw; [|done].
  apply vseq_inv in H as ([f1 f2] & H1 & H & ->). cbn [fst snd] in *. injection H1 as <-.
  destruct (content_manifest _ _ _ _) as [| |fm] eqn:Hfm; [done..|].
  apply vseq_inv in H as ([f3 f4] & H3 & H & ->). cbn [fst snd] in *.
  destruct (match version_strings w 18 d with [] => _ | _ => _ end) as [cd0|] eqn:Hcd; [|done].
  apply vseq_inv in H as ([f5 f6] & H5 & H & ->). cbn [fst snd] in *.
  apply vseq_inv in H as ([f7 f8] & H7 & H & ->). cbn [fst snd] in *. injection H7 as <-.
  apply vseq_inv in H as ([f9 f10] & H9 & H & ->). cbn [fst snd] in *.
  apply vseq_inv in H as ([f11 f12] & H11 & H & ->). cbn [fst snd] in *.
  apply vseq_inv in H as ([f13 f14] & H13 & H & ->). cbn [fst snd] in *.
  apply vseq_inv in H as ([f15 f16] & H15 & H & ->). cbn [fst snd] in *.
  exact (Build_steps hash w s d vinv _ (version_strings w 18 d) walks fm cd0 f3 f5 f9 f11 f13 f15 f16
    eq_refl Hw Hfm H3 Hcd H5 H9 H11 H13 H15 H eq_refl).
Qed.

(** ** Corrupted content *)
Lemma all_digests_root d vinv : dc_alg d ∈ all_digests d vinv.
Proof. unfold all_digests. apply compact_elem. rewrite str_sort_perm. left. Qed.
Lemma all_digests_version d vinv ver vd : vinv !! ver = Some vd → dc_alg vd ∈ all_digests d vinv.
Proof.
  intros H. unfold all_digests. apply compact_elem. rewrite str_sort_perm. right. apply flat_map_in.
  exists (ver, vd). split; [by apply elem_of_map_to_list|left].
Qed.
Lemma all_digests_fixity d vinv ver vd alg : vinv !! ver = Some vd → is_Some (dc_fixity vd !! alg) → alg ∈ all_digests d vinv.
Proof.
  intros H [m Hm]. unfold all_digests. apply compact_elem. rewrite str_sort_perm. right. apply flat_map_in.
  exists (ver, vd). split; [by apply elem_of_map_to_list|]. right. apply elem_of_list_fmap. exists (alg, m).
  split; [done|]. by apply elem_of_map_to_list.
Qed.

(** What CheckFiles reports for one inventory. *)
Lemma check_files_e092 w fm d fs : vorder_ok w → check_files w fm d = VDone fs →
  reported fs "E092" ↔ fm ≠ ∅ ∧ ∃ dg ps, man d !! dg = Some ps ∧
    ((∃ p, p ∈ ps ∧ ¬ in_fm fm (dc_alg d) (to_lower dg) p) ∨
     (¬ ∃ m l, fm !! dc_alg d = Some m ∧ m !! to_lower dg = Some l)).
Proof.
  intros Hw. unfold check_files. destruct (fm !! dc_alg d) as [cs|] eqn:Hcs.
  2:{ case_decide; [|done]. intros [= <-]. split; [by intros ?%reported_nil|]. by intros [? _]. }
  intros (fa & fb & Ha & Hb & ->)%vseq_done. injection Ha as <-. rewrite reported_app.
  assert (¬ reported fb "E092") as Hnb.
  { intros (args & Hin). apply (vall_map_done _ _ _ Hb) in Hin as ([alg m] & fa & _ & Hfa & Hin). cbn [fst snd] in *.
    destruct (fm !! alg) as [cs'|]; [|done]. injection Hfa as <-. apply flat_map_in in Hin as ([k l] & _ & Hin). cbn [fst snd] in *.
    destruct (match cs' !! k with Some x => Some x | None => cs' !! to_lower k end).
    - apply flat_map_in in Hin as (g & _ & Hin). by apply when_in in Hin as [_ [=]].
    - by apply elem_of_list_singleton in Hin as [=]. }
  assert (fm ≠ ∅) as Hne by (intros ->; by rewrite lookup_empty in Hcs).
  split.
  - intros [(args & Hin)|?]; [|done]. split; [done|]. apply flat_map_in in Hin as ([dg ps] & Hdg & Hin). cbn [fst snd] in *.
    apply vo_in in Hdg; [|done]. exists dg, ps. split; [done|]. destruct (cs !! to_lower dg) as [names|] eqn:En.
    + apply flat_map_in in Hin as (p & Hp & Hin). apply when_in in Hin as [Hn _]. left. exists p. split; [done|].
      apply negb_true_iff, bool_decide_eq_false in Hn. intros (m & l & Hm & Hl & Hpl). rewrite Hcs in Hm. injection Hm as <-.
      rewrite En in Hl. injection Hl as <-. done.
    + right. intros (m & l & Hm & Hl). injection Hm as <-. by rewrite En in Hl.
  - intros (_ & dg & ps & Hdg & H). left. destruct (cs !! to_lower dg) as [names|] eqn:En.
    + destruct H as [(p & Hp & Hn)|Hn].
      * exists [p]. apply flat_map_in. exists (dg, ps). split; [by apply vo_in|]. cbn [fst snd]. rewrite En.
        apply flat_map_in. exists p. split; [done|]. apply when_in. split; [|done]. apply negb_true_iff, bool_decide_eq_false.
        intros Hin. apply Hn. by exists cs, names.
      * exfalso. apply Hn. by exists cs, names.
    + exists (dg :: ps). apply flat_map_in. exists (dg, ps). split; [by apply vo_in|]. cbn [fst snd]. rewrite En. by left.
Qed.
Lemma check_files_e093 w fm d fs : vorder_ok w → check_files w fm d = VDone fs → is_Some (fm !! dc_alg d) →
  reported fs "E093" ↔ ∃ alg m dg ps, dc_fixity d !! alg = Some m ∧ m !! dg = Some ps ∧
    match fm !! alg with
    | None => False
    | Some cs =>
        match (match cs !! dg with Some x => Some x | None => cs !! to_lower dg end) with
        | None => True
        | Some names => ∃ p, p ∈ ps ∧ p ∉ names
        end
    end.
Proof.
  intros Hw. unfold check_files. destruct (fm !! dc_alg d) as [cs|] eqn:Hcs; [|by intros _ [? [=]]].
  intros (fa & fb & Ha & Hb & ->)%vseq_done _. injection Ha as <-. rewrite reported_app. split.
  - intros [(args & Hin)|(args & Hin)].
    + exfalso. apply flat_map_in in Hin as ([dg ps] & _ & Hin). cbn [fst snd] in *. destruct (cs !! to_lower dg).
      * apply flat_map_in in Hin as (g & _ & Hin). by apply when_in in Hin as [_ [=]].
      * by apply elem_of_list_singleton in Hin as [=].
    + apply (vall_map_done _ _ _ Hb) in Hin as ([alg m] & fa & Ham & Hfa & Hin). cbn [fst snd] in *.
      apply vo_in in Ham; [|done]. destruct (fm !! alg) as [cs'|] eqn:Hcs'; [|done]. injection Hfa as <-.
      apply flat_map_in in Hin as ([dg ps] & Hdg & Hin). cbn [fst snd] in *. apply vo_in in Hdg; [|done].
      exists alg, m, dg, ps. split; [done|]. split; [done|]. rewrite Hcs'.
      destruct (match cs' !! dg with Some x => Some x | None => cs' !! to_lower dg end); [|done].
      apply flat_map_in in Hin as (p & Hp & Hin). apply when_in in Hin as [Hn _]. exists p. split; [done|].
      by apply negb_true_iff, bool_decide_eq_false in Hn.
  - intros (alg & m & dg & ps & Ham & Hdg & H). right. destruct (fm !! alg) as [cs'|] eqn:Hcs'; [|done].
    assert (∃ args, Finding "E093" args ∈ flat_map (λ q : string * list string,
               match (match cs' !! q.1 with Some x => Some x | None => cs' !! to_lower q.1 end) with
               | None => [Finding "E093" (q.1 :: q.2)]
               | Some names => flat_map (λ f, when (negb (bool_decide (f ∈ names))) (Finding "E093" [f])) q.2
               end) (vo w 14 m)) as [args Hin].
    { destruct (match cs' !! dg with Some x => Some x | None => cs' !! to_lower dg end) as [names|] eqn:En.
      - destruct H as (p & Hp & Hn). exists [p]. apply flat_map_in. exists (dg, ps). split; [by apply vo_in|]. cbn [fst snd].
        rewrite En. apply flat_map_in. exists p. split; [done|]. apply when_in. split; [|done].
        by apply negb_true_iff, bool_decide_eq_false.
      - exists (dg :: ps). apply flat_map_in. exists (dg, ps). split; [by apply vo_in|]. cbn [fst snd]. rewrite En. by left. }
    exists args. apply (vall_map_done _ _ _ Hb). exists (alg, m). eexists. split; [by apply vo_in|]. cbn [fst snd]. rewrite Hcs'. by split.
Qed.

Lemma only_folder s ver : only ["E015"] (check_version_folder s ver).
Proof. unfold check_version_folder. codes. Qed.
Lemma only_check_root s versions : only ["E001"; "E015"; "E046"; "E010"] (check_root s versions).
Proof.
  unfold check_root. apply only_app. split; [|codes]. apply only_flat_map. intros e _. apply only_app. split.
  - case_decide; [codes|]. destruct (version_value e).
    + intros f [->|[Hf|Hf%elem_of_list_singleton]%elem_of_app]%elem_of_cons; [set_solver| |subst; set_solver].
      apply only_folder in Hf. set_solver.
    + intros f Hf. apply elem_of_list_singleton in Hf as ->. set_solver.
  - case_decide; [|codes]. eapply only_weaken, only_folder. set_solver.
Qed.
Lemma only_walk d ver l : only ["W002"] (walk_findings d ver l).
Proof. unfold walk_findings. codes. Qed.
Lemma only_specs vinv l : only ["W010"; "W000"; "E103"] (check_specs vinv l).
Proof.
  induction l as [|a [|b l] IH]; [codes..|]. cbn [check_specs]. apply only_app. split; [|exact IH].
  destruct (vinv !! a), (vinv !! b); codes; intros f Hf; apply elem_of_list_singleton in Hf as ->; set_solver.
Qed.
Lemma only_against w d ver vd fs : check_against_root w d ver vd = VDone fs → only ["E037"; "E040"; "W000"; "E066"; "W011"] fs.
Proof.
  unfold check_against_root. intros (fa & fb & Ha & Hb & ->)%vseq_done. injection Ha as <-. apply only_app. split; [codes|].
  eapply only_vall; [|exact Hb]. intros [k v] f _. cbn [fst snd]. destruct (vers d !! k) as [tv|]; [|done].
  destruct (equal_state_doc tv v), (equal_meta tv v); try done. intros [= <-]. codes.
Qed.
Lemma only_flat w n d l fs : files_flat w n d = (l, VDone fs) → only ["E000"; "E023"] fs.
Proof. unfold files_flat. destruct (forallb _ _); [|done]. intros [= <- <-]. codes. Qed.
Lemma only_listed w content cver vd iver fs : check_listed w content cver vd iver = VDone fs → only ["E000"; "E023"] fs.
Proof.
  unfold check_listed. destruct (version_le _ _ _); [|intros [= <-]; codes].
  destruct (files_flat w 21 vd) as [[fl|] r] eqn:E.
  - intros (fa & fb & Ha & Hb & ->)%vseq_done. injection Hb as <-. subst r. apply only_app.
    split; [by eapply only_flat|codes].
  - intros ->. by eapply only_flat.
Qed.
Lemma flat_eq w n d fl r : files_flat w n d = (Some fl, r) → fl = flat_map snd (vo w n (man d)) ∧ ∃ fs, r = VDone fs.
Proof. unfold files_flat. destruct (forallb _ _); [|done]. intros [= <- <-]. eauto. Qed.
Lemma physical_e092 w all d name fs : vorder_ok w → check_physical w all d name = VDone fs →
  reported fs "E092" ↔ ∃ dg ps p, man d !! dg = Some ps ∧ p ∈ ps ∧ p ∉ all.
Proof.
  intros Hw. unfold check_physical. destruct (files_flat w 21 d) as [[fl|] r] eqn:E.
  2:{ unfold files_flat in E. destruct (forallb _ _); [done|]. by injection E as <-. }
  destruct (flat_eq _ _ _ _ _ E) as (-> & f0 & ->). intros (fa & fb & [= <-] & Hb & ->)%vseq_done. injection Hb as <-.
  rewrite reported_app.
  assert (¬ reported f0 "E092") as Hn by (eapply only_not; [by eapply only_flat|set_solver]).
  split.
  - intros [?|(args & Hin)]; [done|]. apply flat_map_in in Hin as (p & Hp & Hin). apply when_in in Hin as [Hna _].
    apply flat_map_in in Hp as ([dg ps] & Hdg & Hp). apply vo_in in Hdg; [|done]. exists dg, ps, p. split_and!; try done.
    by apply negb_true_iff, bool_decide_eq_false in Hna.
  - intros (dg & ps & p & Hdg & Hp & Hna). right. exists [p; name]. apply flat_map_in. exists p. split.
    + apply flat_map_in. exists (dg, ps). split; [by apply vo_in|done].
    + apply when_in. split; [|done]. by apply negb_true_iff, bool_decide_eq_false.
Qed.
Lemma only_physical w all d name fs : check_physical w all d name = VDone fs → only ["E000"; "E023"; "E092"] fs.
Proof.
  unfold check_physical. destruct (files_flat w 21 d) as [[fl|] r] eqn:E.
  - intros (fa & fb & Ha & Hb & ->)%vseq_done. injection Hb as <-. subst r. apply only_app.
    split; [eapply only_weaken; [|by eapply only_flat]; set_solver|codes].
  - intros ->. eapply only_weaken; [|by eapply only_flat]. set_solver.
Qed.

Section corrupted.
Context (hash : string → string → option string) (w : vorder) (s : storage) (d : doc) (vinv : gmap string doc) (fs : list finding).
Context (Hw : vorder_ok w) (H : check_object hash w s d vinv = VDone fs).
Notation versions := (version_strings w 18 d).

(** [e] is the root inventory or the inventory of a version of the root inventory. *)
Definition inventory_of (e : doc) : Prop := e = d ∨ ∃ ver, ver ∈ versions ∧ vinv !! ver = Some e.
Lemma inventory_alg e : inventory_of e → dc_alg e ∈ all_digests d vinv.
Proof. intros [->|(ver & _ & Hv)]; [apply all_digests_root|by eapply all_digests_version]. Qed.
Lemma inventory_files e (S : steps hash w s d vinv fs) : inventory_of e → ∃ f0, check_files w (st_fm _ _ _ _ _ _ S) e = VDone f0 ∧ f0 ⊆ fs.
Proof.
  destruct S as [vs walks fm cd f1 f2 f3 f4 f5 f6 f7 -> Hwk Hfm Hr Hcd Hi Hl Ha Hp Hpr Hli Hfs]. cbn [st_fm].
  intros [->|(ver & Hin & Hv)].
  - exists f1. split; [done|]. rewrite Hfs. set_solver.
  - destruct (proj1 (vall_map_ok (λ ver, match vinv !! ver with None => VDone [] | Some vd => check_version_inventory w s fm cd ver vd end) versions)
                (ex_intro _ _ Hi) ver Hin) as [fv Hfv].
    rewrite Hv in Hfv. pose proof Hfv as Hfv'. unfold check_version_inventory in Hfv'.
    apply vseq_done in Hfv' as (fa & fb & Hfa & Hfb & ->). apply vseq_done in Hfb as (f0 & fc & Hf0 & Hfc & ->).
    exists f0. split; [done|]. intros x Hx. rewrite Hfs. rewrite !elem_of_app. right. right. right. left.
    apply (vall_map_done _ _ _ Hi). exists ver. rewrite Hv. eexists. split; [done|]. split; [exact Hfv|]. set_solver.
Qed.
Lemma reported_mono fs1 fs2 c : fs1 ⊆ fs2 → reported fs1 c → reported fs2 c.
Proof. intros Hs (args & Ha). exists args. by apply Hs. Qed.

Theorem corrupted_reported e dg p : inventory_of e → man_lists e dg p → ¬ (intact hash (dc_alg e) s dg p ∧ below versions p) →
  reported fs "E092".
Proof.
  intros He (ps & Hdg & Hp)%man_lists_man Hn.
  pose proof (check_steps _ _ _ _ _ _ H) as S. destruct (inventory_files e S He) as (f0 & Hf0 & Hsub).
  destruct S as [vs walks fm cd f1 f2 f3 f4 f5 f6 f7 -> Hwk Hfm Hr Hcd Hi Hl Ha Hph Hpr Hli Hfs]. cbn [st_fm] in *.
  destruct (version_strings w 18 d) as [|v0 vl] eqn:Ev.
  - destruct He as [->|(ver & Hin & _)]; [|rewrite Ev in Hin; by apply elem_of_nil in Hin].
    apply (reported_mono f6); [rewrite Hfs; set_solver|]. apply (physical_e092 _ _ _ _ _ Hw Hpr). exists dg, ps, p.
    split_and!; try done. cbn [fmap list_fmap all_some] in Hwk. injection Hwk as <-. simpl. by intros ?%elem_of_nil.
  - apply (reported_mono f0); [done|]. apply (check_files_e092 _ _ _ _ Hw Hf0).
    destruct (content_manifest_alg _ _ _ _ _ (dc_alg e) Hfm) as [m Hm]; [done|by apply inventory_alg|].
    split; [intros ->; by rewrite lookup_empty in Hm|]. exists dg, ps. split; [done|]. left. exists p. split; [done|].
    intros Hinf. apply (content_manifest_in _ _ _ _ _ _ _ _ Hfm) in Hinf as (_ & Hb & Hst). apply Hn. by split.
Qed.
Theorem only_corrupted_reported : reported fs "E092" →
  ∃ e dg ps, (e = d ∨ ∃ ver, vinv !! ver = Some e) ∧ man e !! dg = Some ps ∧
    ((∃ p, p ∈ ps ∧ ¬ (intact hash (dc_alg e) s dg p ∧ below versions p)) ∨ ps = []).
Proof.
  pose proof (check_steps _ _ _ _ _ _ H) as S.
  destruct S as [vs walks fm cd f1 f2 f3 f4 f5 f6 f7 -> Hwk Hfm Hr Hcd Hi Hl Ha Hph Hpr Hli Hfs].
  assert (∀ e f0, dc_alg e ∈ all_digests d vinv → check_files w fm e = VDone f0 → reported f0 "E092" →
    ∃ dg ps, man e !! dg = Some ps ∧ ((∃ p, p ∈ ps ∧ ¬ (intact hash (dc_alg e) s dg p ∧ below versions p)) ∨ ps = [])) as Hcf.
  { intros e f0 Halg Hf0 Hrep. apply (check_files_e092 _ _ _ _ Hw Hf0) in Hrep as (_ & dg & ps & Hdg & Hx). exists dg, ps.
    split; [done|]. destruct Hx as [(p & Hp & Hx)|Hx].
    - left. exists p. split; [done|]. intros [Hst Hb]. apply Hx, (content_manifest_in _ _ _ _ _ _ _ _ Hfm). by split_and!.
    - destruct ps as [|p ps]; [by right|]. left. exists p. split; [by left|]. intros [Hst Hb].
      destruct (proj2 (content_manifest_in _ _ _ _ _ (dc_alg e) (to_lower dg) p Hfm)) as (m & l & Hm & Hl' & _); [by split_and!|].
      apply Hx. by exists m, l. }
  assert (∀ e name f0, check_physical w (concat walks) e name = VDone f0 → reported f0 "E092" →
    ∃ dg ps, man e !! dg = Some ps ∧ ((∃ p, p ∈ ps ∧ ¬ (intact hash (dc_alg e) s dg p ∧ below versions p)) ∨ ps = [])) as Hcp.
  { intros e name f0 Hf0 Hrep. apply (physical_e092 _ _ _ _ _ Hw Hf0) in Hrep as (dg & ps & p & Hdg & Hp & Hx). exists dg, ps.
    split; [done|]. left. exists p. split; [done|]. intros [(c & Hc & _) Hb]. apply Hx, (walks_in _ _ _ _ Hwk). eauto. }
  rewrite Hfs, !reported_app. intros Hrep.
  destruct Hrep as [Hrep|[Hrep|[Hrep|[Hrep|[Hrep|[Hrep|[Hrep|[Hrep|[Hrep|Hrep]]]]]]]]].
  - exfalso; revert Hrep. eapply only_not; [apply only_check_root|set_solver].
  - exfalso; revert Hrep. eapply only_not; [apply only_flat_map; intros ver _; apply only_walk|set_solver].
  - destruct (Hcf d f1) as (dg & ps & ? & ?); [apply all_digests_root|exact Hr|exact Hrep|]. exists d, dg, ps. eauto.
  - destruct Hrep as (args & Hin). apply (vall_map_done _ _ _ Hi) in Hin as (ver & fv & Hver & Hfv & Hin).
    destruct (vinv !! ver) as [vd|] eqn:Hvd; [|injection Hfv as <-; by apply elem_of_nil in Hin].
    unfold check_version_inventory in Hfv. apply vseq_done in Hfv as (fa & fb & Hfa & Hfb & ->). injection Hfa as <-.
    apply vseq_done in Hfb as (f0 & fc & Hf0 & Hfc & ->). injection Hfc as <-.
    rewrite !elem_of_app in Hin. destruct Hin as [Hin|[Hin|[Hin|Hin]]].
    + by apply when_in in Hin as [_ [=]].
    + destruct (Hcf vd f0) as (dg & ps & ? & ?); [by eapply all_digests_version|done|by exists args|].
      exists vd, dg, ps. split; [right; by exists ver|done].
    + apply flat_map_in in Hin as (x & _ & Hin). by apply when_in in Hin as [_ [=]].
    + apply flat_map_in in Hin as (x & _ & Hin). by apply when_in in Hin as [_ [=]].
  - exfalso; revert Hrep. eapply only_not; [apply only_specs|set_solver].
  - exfalso; revert Hrep. destruct (vinv !! default "" (last versions)) as [ld|]; [|injection Hl as <-; by intros ?%reported_nil].
    destruct (is_equal ld d) as [b|]; [|done]. injection Hl as <-. by intros (args & [_ [=]]%when_in).
  - exfalso; revert Hrep. intros (args & Hin). apply (vall_map_done _ _ _ Ha) in Hin as ([ver vd] & fv & Hver & Hfv & Hin). cbn [fst snd] in *.
    apply only_against in Hfv. apply Hfv in Hin. set_solver.
  - destruct Hrep as (args & Hin). apply (vall_map_done _ _ _ Hph) in Hin as ([ver vd] & fv & Hver & Hfv & Hin). cbn [fst snd] in *.
    apply vo_in in Hver; [|done]. destruct (Hcp vd ver fv Hfv) as (dg & ps & ? & ?); [by exists args|].
    exists vd, dg, ps. split; [right; by exists ver|done].
  - destruct (Hcp d "root" f6 Hpr Hrep) as (dg & ps & ? & ?). exists d, dg, ps. eauto.
  - exfalso; revert Hrep. intros (args & Hin). apply (vall_map_done _ _ _ Hli) in Hin as (ver & fv & Hver & Hfv & Hin).
    apply vseq_done in Hfv as (fa & fb & Hfa & Hfb & ->). apply elem_of_app in Hin as [Hin|Hin].
    + apply (vall_map_done _ _ _ Hfa) in Hin as ([ver' vd] & fv & Hver' & Hfv & Hin). apply only_listed in Hfv.
      apply Hfv in Hin. set_solver.
    + apply only_listed in Hfb. apply Hfb in Hin. set_solver.
Qed.

(** *** Fixity *)
Definition fixity_ok (alg dg p : string) : Prop := stored_as hash alg s dg p ∨ stored_as hash alg s (to_lower dg) p.
Theorem fixity_reported e alg dg p : inventory_of e → fix_lists e alg dg p → versions ≠ [] →
  ¬ (fixity_ok alg dg p ∧ below versions p) → reported fs "E093".
Proof.
  intros He (m & ps & Hm & Hdg & Hp) Hne Hn.
  pose proof (check_steps _ _ _ _ _ _ H) as S. destruct (inventory_files e S He) as (f0 & Hf0 & Hsub).
  destruct S as [vs walks fm cd f1 f2 f3 f4 f5 f6 f7 -> Hwk Hfm Hr Hcd Hi Hl Ha Hph Hpr Hli Hfs]. cbn [st_fm] in *.
  apply (reported_mono f0); [done|].
  assert (is_Some (fm !! dc_alg e)) as Halg by (eapply content_manifest_alg; [exact Hfm|done|by apply inventory_alg]).
  apply (check_files_e093 _ _ _ _ Hw Hf0 Halg). exists alg, m, dg, ps. split; [done|]. split; [done|].
  assert (is_Some (fm !! alg)) as [cs Hcs].
  { destruct (fm !! alg) eqn:E; [eauto|]. exfalso. unfold check_files in Hf0. destruct Halg as [x Hx]. rewrite Hx in Hf0.
    apply vseq_done in Hf0 as (fa & fb & _ & Hfb & _).
    destruct (proj1 (vall_map_ok _ _) (ex_intro _ _ Hfb) (alg, m)) as [f Hf]; [by apply vo_in|]. cbn [fst snd] in Hf.
    by rewrite E in Hf. }
  rewrite Hcs.
  assert (∀ k names, cs !! k = Some names → p ∈ names → stored_as hash alg s k p ∧ below versions p) as Hk.
  { intros k names Hk Hin. assert (in_fm fm alg k p) as Hf by (by exists cs, names).
    apply (content_manifest_in _ _ _ _ _ _ _ _ Hfm) in Hf as (_ & ? & ?). done. }
  destruct (cs !! dg) as [names|] eqn:E1.
  - exists p. split; [done|]. intros Hin. apply Hn. destruct (Hk _ _ E1 Hin). split; [by left|done].
  - destruct (cs !! to_lower dg) as [names|] eqn:E2; [|done]. exists p. split; [done|]. intros Hin. apply Hn.
    destruct (Hk _ _ E2 Hin). split; [by right|done].
Qed.
Theorem only_fixity_reported : (∀ alg c h, hash alg c = Some h → to_lower h = h) → reported fs "E093" →
  ∃ e alg m dg ps, (e = d ∨ ∃ ver, vinv !! ver = Some e) ∧ dc_fixity e !! alg = Some m ∧ m !! dg = Some ps ∧
    ((∃ p, p ∈ ps ∧ ¬ (fixity_ok alg dg p ∧ below versions p)) ∨ ps = []).
Proof.
  intros Hlow. pose proof (check_steps _ _ _ _ _ _ H) as S.
  destruct S as [vs walks fm cd f1 f2 f3 f4 f5 f6 f7 -> Hwk Hfm Hr Hcd Hi Hl Ha Hph Hpr Hli Hfs].
  assert (∀ e f0, check_files w fm e = VDone f0 → reported f0 "E093" →
    ∃ alg m dg ps, dc_fixity e !! alg = Some m ∧ m !! dg = Some ps ∧
      ((∃ p, p ∈ ps ∧ ¬ (fixity_ok alg dg p ∧ below versions p)) ∨ ps = [])) as Hcf.
  { intros e f0 Hf0 Hrep. destruct (fm !! dc_alg e) as [x|] eqn:Ex.
    2:{ unfold check_files in Hf0. rewrite Ex in Hf0. case_decide; [|done]. injection Hf0 as <-. by apply reported_nil in Hrep. }
    apply (check_files_e093 _ _ _ _ Hw Hf0) in Hrep as (alg & m & dg & ps & Hm & Hdg & Hx); [|by exists x].
    exists alg, m, dg, ps. split; [done|]. split; [done|]. destruct (fm !! alg) as [cs|] eqn:Hcs; [|done].
    assert (∀ k p, below versions p → stored_as hash alg s k p → alg ∈ all_digests d vinv → ∃ names, cs !! k = Some names ∧ p ∈ names) as Hk.
    { intros k p Hb Hst Halg. destruct (proj2 (content_manifest_in _ _ _ _ _ alg k p Hfm)) as (m' & l & Hm' & Hl' & Hin); [by split_and!|].
      rewrite Hcs in Hm'. injection Hm' as <-. by exists l. }
    assert (alg ∈ all_digests d vinv) as Halg.
    { destruct (content_manifest_used _ _ _ _ _ Hfm) as [Hu _]. destruct (Hu _ _ Hcs) as (c1 & f0' & Hin).
      by apply (content_manifest_in _ _ _ _ _ _ _ _ Hfm) in Hin as (? & _). }
    assert (∀ names p, cs !! dg = Some names → p ∉ names → ¬ (fixity_ok alg dg p ∧ below versions p)) as Hc1.
    { intros names p Hn Hnp [[Hst|Hst] Hb].
      - destruct (Hk _ _ Hb Hst Halg) as (n2 & E2 & ?). rewrite Hn in E2. by injection E2 as <-.
      - destruct (content_manifest_used _ _ _ _ _ Hfm) as [_ Hu]. pose proof (Hu _ _ _ _ Hcs Hn) as Hne.
        destruct names as [|g names]; [done|]. assert (in_fm fm alg dg g) as Hg by (exists cs, (g :: names); split_and!; [done..|left]).
        apply (content_manifest_in _ _ _ _ _ _ _ _ Hfm) in Hg as (_ & _ & c & _ & Hh). apply Hlow in Hh. rewrite Hh in Hst.
        destruct (Hk _ _ Hb Hst Halg) as (n2 & E2 & ?). rewrite Hn in E2. by injection E2 as <-. }
    assert (∀ p, cs !! dg = None → (∀ names, cs !! to_lower dg = Some names → p ∉ names) → ¬ (fixity_ok alg dg p ∧ below versions p)) as Hc2.
    { intros p Hn Hnp [[Hst|Hst] Hb].
      - destruct (Hk _ _ Hb Hst Halg) as (n2 & E2 & ?). by rewrite Hn in E2.
      - destruct (Hk _ _ Hb Hst Halg) as (n2 & E2 & ?). by apply (Hnp n2). }
    destruct (cs !! dg) as [names|] eqn:E1.
    - destruct Hx as (p & Hp & Hx). left. exists p. split; [done|]. by eapply Hc1.
    - destruct (cs !! to_lower dg) as [names|] eqn:E2.
      + destruct Hx as (p & Hp & Hx). left. exists p. split; [done|]. apply Hc2; [done|]. by intros ? [= <-].
      + destruct ps as [|p ps]; [by right|]. left. exists p. split; [by left|]. by apply Hc2. }
  rewrite Hfs, !reported_app. intros Hrep.
  destruct Hrep as [Hrep|[Hrep|[Hrep|[Hrep|[Hrep|[Hrep|[Hrep|[Hrep|[Hrep|Hrep]]]]]]]]].
  - exfalso; revert Hrep. eapply only_not; [apply only_check_root|set_solver].
  - exfalso; revert Hrep. eapply only_not; [apply only_flat_map; intros ver _; apply only_walk|set_solver].
  - destruct (Hcf d f1) as (alg & m & dg & ps & ? & ? & ?); [exact Hr|exact Hrep|]. exists d, alg, m, dg, ps. eauto.
  - destruct Hrep as (args & Hin). apply (vall_map_done _ _ _ Hi) in Hin as (ver & fv & Hver & Hfv & Hin).
    destruct (vinv !! ver) as [vd|] eqn:Hvd; [|injection Hfv as <-; by apply elem_of_nil in Hin].
    unfold check_version_inventory in Hfv. apply vseq_done in Hfv as (fa & fb & Hfa & Hfb & ->). injection Hfa as <-.
    apply vseq_done in Hfb as (f0 & fc & Hf0 & Hfc & ->). injection Hfc as <-.
    rewrite !elem_of_app in Hin. destruct Hin as [Hin|[Hin|[Hin|Hin]]].
    + by apply when_in in Hin as [_ [=]].
    + destruct (Hcf vd f0) as (alg & m & dg & ps & ? & ? & ?); [done|by exists args|].
      exists vd, alg, m, dg, ps. split; [right; by exists ver|done].
    + apply flat_map_in in Hin as (x & _ & Hin). by apply when_in in Hin as [_ [=]].
    + apply flat_map_in in Hin as (x & _ & Hin). by apply when_in in Hin as [_ [=]].
  - exfalso; revert Hrep. eapply only_not; [apply only_specs|set_solver].
  - exfalso; revert Hrep. destruct (vinv !! default "" (last versions)) as [ld|]; [|injection Hl as <-; by intros ?%reported_nil].
    destruct (is_equal ld d) as [b|]; [|done]. injection Hl as <-. by intros (args & [_ [=]]%when_in).
  - exfalso; revert Hrep. intros (args & Hin). apply (vall_map_done _ _ _ Ha) in Hin as ([ver vd] & fv & Hver & Hfv & Hin). cbn [fst snd] in *.
    apply only_against in Hfv. apply Hfv in Hin. set_solver.
  - exfalso. destruct Hrep as (args & Hin). apply (vall_map_done _ _ _ Hph) in Hin as ([ver vd] & fv & Hver & Hfv & Hin). cbn [fst snd] in *.
    apply only_physical in Hfv. apply Hfv in Hin. set_solver.
  - exfalso. destruct Hrep as (args & Hin). apply only_physical in Hpr. apply Hpr in Hin. set_solver.
  - exfalso; revert Hrep. intros (args & Hin). apply (vall_map_done _ _ _ Hli) in Hin as (ver & fv & Hver & Hfv & Hin).
    apply vseq_done in Hfv as (fa & fb & Hfa & Hfb & ->). apply elem_of_app in Hin as [Hin|Hin].
    + apply (vall_map_done _ _ _ Hfa) in Hin as ([ver' vd] & fv & Hver' & Hfv & Hin). apply only_listed in Hfv.
      apply Hfv in Hin. set_solver.
    + apply only_listed in Hfb. apply Hfb in Hin. set_solver.
Qed.

(** *** Comparison with the version inventories *)
Theorem state_difference ver vd k v tv st st2 : vinv !! ver = Some vd → has_version d k tv → has_version vd k v →
  state_of tv = Some st → state_of v = Some st2 → equal_state st st2 = false → reported fs "E066".
Proof.
  intros Hvd Htv%has_version_vers Hv%has_version_vers Hst Hst2 Hne.
  destruct (check_steps _ _ _ _ _ _ H) as [vs walks fm cd f1 f2 f3 f4 f5 f6 f7 -> Hwk Hfm Hr Hcd Hi Hl Ha Hph Hpr Hli Hfs].
  apply (reported_mono f4); [rewrite Hfs; set_solver|]. exists [ver; k]. apply (vall_map_done _ _ _ Ha). exists (ver, vd).
  destruct (proj1 (vall_map_ok _ _) (ex_intro _ _ Ha) (ver, vd)) as [fv Hfv]; [by apply vo_in|]. cbn [fst snd] in *.
  exists fv. split; [by apply vo_in|]. split; [done|]. unfold check_against_root in Hfv.
  apply vseq_done in Hfv as (fa & fb & _ & Hfb & ->). apply elem_of_app. right. apply (vall_map_done _ _ _ Hfb). exists (k, v).
  destruct (proj1 (vall_map_ok _ _) (ex_intro _ _ Hfb) (k, v)) as [f0 Hf0]; [by apply vo_in|]. cbn [fst snd] in *.
  exists f0. split; [by apply vo_in|]. split; [done|]. rewrite Htv in Hf0. unfold equal_state_doc in Hf0. rewrite Hst, Hst2 in Hf0.
  destruct (equal_meta tv v) as [em|]; [|done]. injection Hf0 as <-. rewrite Hne. by left.
Qed.
Theorem newest_difference ver vd : last versions = Some ver → vinv !! ver = Some vd → is_equal vd d ≠ Some true → reported fs "E064".
Proof.
  intros Hlast Hvd Hne.
  destruct (check_steps _ _ _ _ _ _ H) as [vs walks fm cd f1 f2 f3 f4 f5 f6 f7 -> Hwk Hfm Hr Hcd Hi Hl Ha Hph Hpr Hli Hfs].
  apply (reported_mono f3); [rewrite Hfs; set_solver|]. rewrite Hlast in Hl. simpl in Hl. rewrite Hvd in Hl.
  destruct (is_equal vd d) as [[]|]; [done| |done]. injection Hl as <-. exists []. by left.
Qed.
End corrupted.

(** ** Loading *)
Definition twice (w : vorder) (lx : lexicon) (d : doc) : doc := (finalize w lx false (finalize w lx false d).1).1.
Lemma finalize_fields w lx d : let d1 := (finalize w lx false d).1 in
  dc_id d1 = dc_id d ∧ dc_type d1 = dc_type d ∧ dc_alg d1 = dc_alg d ∧ dc_head d1 = dc_head d ∧ dc_contentdir d1 = dc_contentdir d ∧
  man d1 = man d ∧ dc_fixity d1 = dc_fixity d ∧
  vers d1 = map_imap (λ ver v, Some (fin_version ver v).2) (vers d).
Proof. unfold finalize. cbv zeta. destruct (check_doc _ _ _) as [pad r]. cbn [fst]. done. Qed.
Lemma fin_version_state ver v : vd_state (fin_version ver v).2 = vd_state v ∨
  (vd_state v = None ∧ vd_state (fin_version ver v).2 = Some (∅, false)).
Proof. unfold fin_version. destruct (version_value ver); cbn [snd]; [|by left]. destruct (vd_state v) eqn:E; cbn; auto. Qed.
Lemma twice_fields w lx d :
  dc_id (twice w lx d) = dc_id d ∧ dc_type (twice w lx d) = dc_type d ∧ dc_alg (twice w lx d) = dc_alg d ∧
  dc_head (twice w lx d) = dc_head d ∧ dc_contentdir (twice w lx d) = dc_contentdir d ∧
  man (twice w lx d) = man d ∧ dc_fixity (twice w lx d) = dc_fixity d.
Proof.
  unfold twice. destruct (finalize_fields w lx d) as (a1 & a2 & a3 & a4 & a5 & a6 & a7 & _).
  destruct (finalize_fields w lx (finalize w lx false d).1) as (b1 & b2 & b3 & b4 & b5 & b6 & b7 & _).
  split_and!; etrans; eassumption.
Qed.
Lemma twice_man_lists w lx d dg p : man_lists (twice w lx d) dg p ↔ man_lists d dg p.
Proof. rewrite !man_lists_man. destruct (twice_fields w lx d) as (_ & _ & _ & _ & _ & -> & _). done. Qed.
Lemma twice_fix_lists w lx d alg dg p : fix_lists (twice w lx d) alg dg p ↔ fix_lists d alg dg p.
Proof. unfold fix_lists. destruct (twice_fields w lx d) as (_ & _ & _ & _ & _ & _ & ->). done. Qed.
Lemma twice_vers w lx d ver : vers (twice w lx d) !! ver = (λ v, (fin_version ver (fin_version ver v).2).2) <$> vers d !! ver.
Proof.
  unfold twice. destruct (finalize_fields w lx (finalize w lx false d).1) as (_ & _ & _ & _ & _ & _ & _ & ->).
  destruct (finalize_fields w lx d) as (_ & _ & _ & _ & _ & _ & _ & ->).
  rewrite !map_lookup_imap. by destruct (vers d !! ver).
Qed.
Lemma twice_names w lx d ver : is_Some (vers (twice w lx d) !! ver) ↔ is_Some (vers d !! ver).
Proof. rewrite twice_vers. by rewrite fmap_is_Some. Qed.

Lemma load_doc_done hash decode w lx s pre od fs : load_doc hash decode w lx s pre = (od, VDone fs) →
  od = match s !! (pre +:+ "inventory.json") with
       | None => None
       | Some b => twice w lx <$> decode b
       end ∧ (∀ b, s !! (pre +:+ "inventory.json") = Some b → is_Some (decode b)).
Proof.
  unfold load_doc. destruct (s !! (pre +:+ "inventory.json")) as [b|]; [|intros [= <- _]; by split].
  destruct (decode b) as [d0|] eqn:Hd; [|done]. unfold twice.
  destruct (finalize w lx false d0) as [d1 r1] eqn:E1. destruct (finalize w lx false d1) as [d2 r2] eqn:E2.
  intros Heq. apply (f_equal fst) in Heq. cbn [fst] in Heq. subst od. cbn [fmap option_fmap option_map]. rewrite E1. cbn [fst]. rewrite E2. split; [done|].

  intros b' [= <-]. rewrite Hd. by exists d0.
Qed.
Lemma load_versions_done hash decode w lx s l m fs : load_versions hash decode w lx s l = (m, VDone fs) →
  ∀ ver, m !! ver = if decide (ver ∈ l) then
      match s !! (ver +:+ "/inventory.json") with None => None | Some b => twice w lx <$> decode b end else None.
Proof.
  revert m fs. induction l as [|v l IH]; intros m fs; cbn [load_versions].
  - intros [= <- _] ver. by rewrite lookup_empty.
  - destruct (load_doc hash decode w lx s (v +:+ "/")) as [od r] eqn:E.
    destruct (load_versions hash decode w lx s l) as [m' r'] eqn:E'. intros H.
    assert (∃ f1 f2, r = VDone f1 ∧ r' = VDone f2) as (f1 & f2 & -> & ->).
    { destruct od.
      - injection H as _ H. apply vseq_done in H as (? & ? & ? & ? & _). eauto.
      - injection H as _ H. apply vseq_done in H as (? & ? & ? & H & _). destruct r' as [f2| |]; [eauto|done|done]. }
    specialize (IH _ _ eq_refl). apply load_doc_done in E as [Hod Hdec].
    assert ((v +:+ "/") +:+ "inventory.json" = v +:+ "/inventory.json") as Hv by (by rewrite <-str_app_assoc). rewrite Hv in Hod, Hdec.
    intros ver. destruct (decide (ver = v)) as [->|Hne].
    + rewrite decide_True by left. destruct od as [d|].
      * injection H as <- _. rewrite lookup_insert. done.
      * injection H as <- _. rewrite IH. by case_decide.
    + assert (m !! ver = m' !! ver) as ->.
      { destruct od; injection H as <- _; [by rewrite lookup_insert_ne|done]. }
      rewrite IH. assert (ver ∈ v :: l ↔ ver ∈ l) as Hiff by (rewrite elem_of_cons; naive_solver).
      by rewrite (decide_ext _ _ _ _ Hiff).
Qed.

Lemma validate_steps hash decode w lx s fs : validate_object hash decode w lx s = VDone fs →
  ∃ b d0 vinv fc, s !! "inventory.json" = Some b ∧ decode b = Some d0 ∧
    check_object hash w s (twice w lx d0) vinv = VDone fc ∧ fc ⊆ fs ∧
    ∀ ver, vinv !! ver = if decide (ver ∈ version_strings w 16 (twice w lx d0)) then
      match s !! (ver +:+ "/inventory.json") with None => None | Some b => twice w lx <$> decode b end else None.
Proof.
  unfold validate_object. destruct (load_doc hash decode w lx s "") as [[d|] r] eqn:E; [|by destruct r].
  destruct (load_versions _ _ _ _ _ _) as [vinv rv] eqn:E'. intros (f1 & f2 & -> & H & ->)%vseq_done.
  apply vseq_done in H as (f3 & f4 & -> & H & ->). apply load_doc_done in E as [Hod Hdec]. change ("" +:+ "inventory.json") with "inventory.json" in Hod, Hdec.
  destruct (s !! "inventory.json") as [b|] eqn:Eb; [|done]. destruct (Hdec b eq_refl) as [d0 Hd0].
  rewrite Hd0 in Hod. simpl in Hod. injection Hod as ->. exists b, d0, vinv, f4. split; [done|]. split; [done|]. split; [done|]. split; [set_solver|].
  exact (load_versions_done _ _ _ _ _ _ _ _ E').
Qed.
