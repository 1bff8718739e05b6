(** Proofs about METS and PREMIS documents. *)
From Coq Require Import Ascii.
From stdpp Require Import base list strings gmap.
From Coq Require Import ZArith Lia.
From Verif Require Import GoStr PathModel InventoryModel InventorySpec ObjectModel AreaModel ValidateModel ValidateProofs MetaModel MetaSpec MetaProofs JsonlModel MigrateModel
  MetsModel MetsSpec.

Lemma parted_split p : parted p (split_slash p).
Proof.
  split; [apply split_on_nonempty|]. split; [apply split_on_elem_no_sep|]. symmetry. apply (join_split slash).
Qed.
Lemma parted_fun p l : parted p l → l = split_slash p.
Proof. intros (H1 & H2 & ->). by rewrite split_slash_join. Qed.

Section areas.
  Context (w : worders) (W : worders_ok w) (areas : gmap string string) (Ha : separate areas).

  Lemma area_of_spec at_ x y a b : area_of w areas at_ x y = (a, b) →
    (areas !! a = Some x ∧ b = bool_decide (y = "schemas")) ∨ ((∀ c, areas !! c ≠ Some x) ∧ a = x ∧ b = false).
  Proof using W.
    unfold area_of. destruct (list_find _ (vo (w at_) 8 areas)) as [[k [a' x']]|] eqn:Hf.
    - intros [= <- <-]. apply list_find_Some in Hf as (Hl & Hx & _). cbn in Hx. subst x'. left. split; [|done].
      apply (vo_in (w at_) 8 areas a' x (W at_)). by eapply elem_of_list_lookup_2.
    - intros [= <- <-]. right. split; [|done]. intros c Hc. apply list_find_None in Hf. rewrite Forall_forall in Hf.
      apply (Hf (c, x)); [|done]. apply (vo_in (w at_) 8 areas c x (W at_)), Hc.
  Qed.
  Lemma area_group at_ p x y l a b : split_slash p = x :: y :: l → area_of w areas at_ x y = (a, b) →
    in_group areas p (if b then "schemas" else a) ∧ (a = "metadata" ∧ b = false ↔ metadata_file areas p).
  Proof using W Ha.
    intros Hs H. apply area_of_spec in H. pose proof (parted_split p) as Hp. rewrite Hs in Hp. split.
    - destruct H as [[H1 ->]|(H1 & -> & ->)].
      + case_bool_decide as Hy.
        * subst y. by eapply in_schemas.
        * eapply in_area; [exact Hp|by left|done].
      + eapply in_area; [exact Hp|by right|done].
    - split.
      + intros [-> ->]. exists x, y, l. split; [done|]. destruct H as [[H1 H2]|(H1 & H2 & _)].
        * symmetry in H2. apply bool_decide_eq_false in H2. split; [by left|done].
        * split; [by right|done].
      + intros (x' & y' & l' & Hp' & Hx & Hy). apply parted_fun in Hp'. rewrite Hs in Hp'. injection Hp' as -> -> ->.
        destruct H as [[H1 ->]|(H1 & -> & ->)].
        * assert (y ≠ "schemas") as Hne by (intros He; by apply (Hy He a)). split; [|by apply bool_decide_eq_false].
          destruct Hx as [Hx|[Hx _]]; [by eapply Ha|by destruct (Hx a)].
        * split; [|done]. destruct Hx as [Hx|[_ Hx]]; [by destruct (H1 "metadata")|done].
  Qed.
  Lemma external_group at_ p a b : external_area w areas at_ p = (a, b) →
    in_group areas p (if b then "schemas" else a) ∧ (a = "metadata" ∧ b = false ↔ metadata_file areas p).
  Proof using W Ha.
    unfold external_area. destruct (split_slash p) as [|x [|y l]] eqn:Hs.
    - by apply split_on_nonempty in Hs.
    - intros [= <- <-]. pose proof (parted_split p) as Hp. rewrite Hs in Hp. pose proof Hp as (_ & _ & Hj). cbn in Hj. subst x. split; [by apply in_top|].
      split; [by intros [? _]|]. intros (x' & y' & l' & Hp' & _). apply parted_fun in Hp'. by rewrite Hs in Hp'.
    - intros H. by eapply area_group.
  Qed.
  Lemma content_split v c : str_mem slash v = false → split_slash (v +:+ "/content/" +:+ c) = v :: "content" :: split_slash c.
  Proof using.
    intros Hv. unfold split_slash. change (v +:+ "/content/" +:+ c) with (v +:+ String slash ("content" +:+ String slash c)).
    rewrite split_on_app by done. by rewrite split_on_app by done.
  Qed.
  Lemma internal_group at_ v c : str_mem slash v = false →
    ∃ a b, internal_area w areas at_ (v +:+ "/content/" +:+ c) = Some (a, b) ∧ (a = "metadata" ∧ b = false ↔ metadata_file areas c).
  Proof using W Ha.
    intros Hv. unfold internal_area. rewrite content_split by done.
    destruct (external_area w areas at_ c) as [a b] eqn:He. exists a, b. split; [|by eapply external_group].
    unfold external_area in He. pose proof (split_on_nonempty slash c) as Hn. unfold split_slash in *.
    destruct (split_on slash c) as [|x [|y l]]; [done|..]; rewrite decide_True by done; by rewrite He.
  Qed.
  Lemma mfile_dec p : {metadata_file areas p} + {¬ metadata_file areas p}.
  Proof using W Ha.
    destruct (external_area w areas [] p) as [a b] eqn:He. destruct (external_group _ _ _ _ He) as [_ H].
    destruct (decide (a = "metadata" ∧ b = false)) as [Hd|Hd]; [left; by apply H|right; by intros ?%H].
  Qed.
End areas.

(** * One file *)
Definition placed (q : string) : Prop := ∃ v c, str_mem slash v = false ∧ q = v +:+ "/content/" +:+ c.
Definition mdref_of (alg id sum : string) (v : fview) (kind : string) (l : mloc) : mdref :=
  new_md ("dmdSec-" +:+ kind +:+ "-" +:+ id) "area-metadata" l "" (f_created v) (f_size v) "" "" sum alg.
Section one.
  Context {A : Type} (view : gmap string A → fview) (w : worders) (W : worders_ok w) (areas : gmap string string) (Ha : separate areas) (alg mext pext : string).
  Context (m : object_meta A) (head : string) (ids : gmap string (string * string)).

  Lemma internals_spec at_ k id sum v ps : Forall placed ps →
    ∃ md st ls, internals w areas alg at_ k id sum v ps = Some (md, st, ls) ∧ urls (MFile "" "" "" "" "" 0 "" ls) = [] ∧
      (∀ l, l ∈ ls ↔ ∃ vv c, l = Internal (vv +:+ "/content/" +:+ c) ∧ str_mem slash vv = false ∧ vv +:+ "/content/" +:+ c ∈ ps ∧ ¬ metadata_file areas c) ∧
      (∀ r, r ∈ md ↔ ∃ vv c, r = mdref_of alg id sum v "int" (Internal (vv +:+ "/content/" +:+ c)) ∧ str_mem slash vv = false ∧
        vv +:+ "/content/" +:+ c ∈ ps ∧ metadata_file areas c).
  Proof using W Ha.
    intros Hp. revert k. induction Hp as [|q ps (vv & c & Hv & ->) Hps IH]; intros k; cbn [internals].
    - eexists [], [], []. split; [done|]. split; [done|]. split; intros x; (split; [by intros ?%elem_of_nil|]); by intros (? & ? & _ & _ & ?%elem_of_nil & _).
    - destruct (internal_group w W areas Ha (k :: at_) vv c Hv) as (a & b & -> & Hd).
      destruct (IH (S k)) as (md & st & ls & -> & Hu & Hl & Hm). destruct (decide (a = "metadata" ∧ b = false)) as [Hx|Hx].
      + eexists _, _, _. split; [done|]. split; [done|]. apply Hd in Hx. split.
        * intros l. rewrite Hl. split.
          -- intros (v' & c' & -> & Hv' & Hi & Hn). exists v', c'. split_and!; [done|done|by right|done].
          -- intros (v' & c' & -> & Hv' & Hi & Hn). exists v', c'. split_and!; [done|done| |done].
             apply elem_of_cons in Hi as [Hi|Hi]; [|done]. exfalso. apply Hn.
             assert (split_slash (v' +:+ "/content/" +:+ c') = split_slash (vv +:+ "/content/" +:+ c)) as Hq by (by rewrite Hi).
             rewrite !content_split in Hq by done. injection Hq as _ Hq. apply split_slash_inj in Hq. by subst c'.
        * intros r. rewrite elem_of_cons, Hm. split.
          -- intros [->|(v' & c' & -> & Hv' & Hi & Hn)].
             ++ exists vv, c. split_and!; [done|done|by left|done].
             ++ exists v', c'. split_and!; [done|done|by right|done].
          -- intros (v' & c' & -> & Hv' & Hi & Hn). apply elem_of_cons in Hi as [Hi|Hi]; [left|right].
             ++ by rewrite Hi.
             ++ by exists v', c'.
      + eexists _, _, _. split; [done|]. split; [done|]. assert (¬ metadata_file areas c) as Hn by (by intros ?%Hd). split.
        * intros l. rewrite elem_of_cons, Hl. split.
          -- intros [->|(v' & c' & -> & Hv' & Hi & Hnn)].
             ++ exists vv, c. split_and!; [done|done|by left|done].
             ++ exists v', c'. split_and!; [done|done|by right|done].
          -- intros (v' & c' & -> & Hv' & Hi & Hnn). apply elem_of_cons in Hi as [Hi|Hi]; [left|right].
             ++ by rewrite Hi.
             ++ by exists v', c'.
        * intros r. rewrite Hm. split.
          -- intros (v' & c' & -> & Hv' & Hi & Hnn). exists v', c'. split_and!; [done|done|by right|done].
          -- intros (v' & c' & -> & Hv' & Hi & Hnn). exists v', c'. split_and!; [done|done| |done].
             apply elem_of_cons in Hi as [Hi|Hi]; [|done]. exfalso. apply Hn.
             assert (split_slash (v' +:+ "/content/" +:+ c') = split_slash (vv +:+ "/content/" +:+ c)) as Hq by (by rewrite Hi).
             rewrite !content_split in Hq by done. injection Hq as _ Hq. apply split_slash_inj in Hq. by subst c'.
  Qed.

  Lemma packings_spec id vs : (∀ ver ns, (ver, ns) ∈ vs → is_Some (om_versions m !! ver)) →
    ∃ es, packings m id vs = inl es ∧ ∀ e, e ∈ es ↔ ∃ ver ns x, (ver, ns) ∈ vs ∧ om_versions m !! ver = Some x ∧ e = Packing id (vm_created x) (vm_address x).
  Proof using.
    induction vs as [|[ver ns] vs IH]; intros Hv; cbn [packings].
    - exists []. split; [done|]. intros e. split; [by intros ?%elem_of_nil|]. by intros (? & ? & ? & ?%elem_of_nil & _).
    - destruct (Hv ver ns) as [x Hx]; [by left|]. rewrite Hx. destruct IH as (es & -> & He); [intros v' n' H; apply (Hv v' n'); by right|].
      eexists. split; [done|]. intros e. rewrite elem_of_cons, He. split.
      + intros [->|(v' & n' & x' & Hi & H1 & ->)]; [exists ver, ns, x|exists v', n', x']; (split; [|done]); [by left|by right].
      + intros (v' & n' & x' & Hi & H1 & ->). apply elem_of_cons in Hi as [[= -> ->]|Hi]; [left|right; by exists v', n', x'].
        rewrite Hx in H1. by injection H1 as <-.
  Qed.
  Lemma migrations_spec at_ id v : is_Some (om_versions m !! head) → ∃ es, migrations w m head ids at_ id v = inl es ∧ ∀ o d a, Packing o d a ∉ es.
  Proof using.
    intros [x Hx]. unfold migrations. destruct (f_migration v) as [r|].
    - rewrite Hx. eexists. split; [done|]. intros o d a. by intros ?%elem_of_list_singleton.
    - exists []. split; [done|]. intros o d a ?%elem_of_nil. done.
  Qed.

  Lemma migrations_found at_ id v r x : om_versions m !! head = Some x → f_migration v = Some r →
    ∃ src, migrations w m head ids at_ id v = inl [Migration (vm_created x) (mr_id r) src (if decide (mr_error r = "") then inl id else inr (mr_error r))] ∧
      (∀ j, src = Some j → ∃ p c, ids !! p = Some (j, c) ∧ (c = mr_source r ∨ p = "")) ∧
      (src = None → ∀ p j, ids !! p = Some (j, mr_source r) → ∃ p' c, ids !! p' = Some ("", c)).
  Proof using W.
    intros Hx Hr. unfold migrations. rewrite Hr, Hx. destruct (list_find _ (vo (w at_) 9 ids)) as [[k [p [j c]]]|] eqn:Hl.
    - apply list_find_Some in Hl as (Hl & Hc & _). cbn [snd] in Hc. apply elem_of_list_lookup_2 in Hl. apply (vo_in _ _ _ _ _ (W _)) in Hl.
      eexists. split; [done|]. destruct (decide (j = "")) as [->|Hj].
      + split; [done|]. intros _ _ _ _. by exists p, c.
      + split; [|done]. intros j' [= <-]. exists p, c. auto.
    - apply list_find_None in Hl. rewrite stdpp.list.Forall_forall in Hl. eexists. split; [done|]. split.
      + intros j Hj. destruct (ids !! "") as [[j' c]|] eqn:He; [|done]. destruct (decide (j' = "")); [done|]. injection Hj as <-. exists "", c. auto.
      + intros _ p j Hp. exfalso. apply (Hl (p, (j, mr_source r))); [|done]. by apply (vo_in _ _ _ _ _ (W _)).
  Qed.

  (** What one file contributes. *)
  Record adds (cs : string) (f : file_meta A) (p : string) (a : macc) : Prop := Adds {
    ad_files : metadata_file areas p → c_files a = [] ∧ c_objects a = [];
    ad_other : ¬ metadata_file areas p → ∃ x o, c_files a = [x] ∧ c_objects a = [o] ∧ urls x = [p] ∧ m_id x = default "" (fst <$> ids !! p) ∧ m_sum x = cs ∧
      p_id o = m_id x ∧ p_mime o = m_mime x ∧ (f_index (view (fm_ext f)) ≠ None → (om_alg m, cs) ∈ p_sums o) ∧
      m_mime x = f_mime (view (fm_ext f)) ∧ m_size x = f_size (view (fm_ext f)) ∧
      in_group areas p (m_group x) ∧ ∀ l, l ∈ m_locs x ↔ l = External p ∨
        ∃ vv c, l = Internal (vv +:+ "/content/" +:+ c) ∧ str_mem slash vv = false ∧ vv +:+ "/content/" +:+ c ∈ fm_internal f ∧ ¬ metadata_file areas c;
    ad_dmd : ∀ r, r ∈ c_dmd a ↔ (r = mdref_of alg (default "" (fst <$> ids !! p)) cs (view (fm_ext f)) "ext" (External p) ∧ metadata_file areas p ∧ p ≠ mext ∧ p ≠ pext) ∨
        ∃ vv c, r = mdref_of alg (default "" (fst <$> ids !! p)) cs (view (fm_ext f)) "int" (Internal (vv +:+ "/content/" +:+ c)) ∧ str_mem slash vv = false ∧
          vv +:+ "/content/" +:+ c ∈ fm_internal f ∧ metadata_file areas c;
    ad_events : ∀ o d x, Packing o d x ∈ c_events a ↔
      o = default "" (fst <$> ids !! p) ∧ ∃ ver ns y, fm_versions f !! ver = Some ns ∧ om_versions m !! ver = Some y ∧ d = vm_created y ∧ x = vm_address y;
    ad_mig : ¬ metadata_file areas p → ∀ r x, om_versions m !! head = Some x → f_migration (view (fm_ext f)) = Some r →
      ∃ src, Migration (vm_created x) (mr_id r) src (if decide (mr_error r = "") then inl (default "" (fst <$> ids !! p)) else inr (mr_error r)) ∈ c_events a ∧
        (∀ j, src = Some j → ∃ p c, ids !! p = Some (j, c) ∧ (c = mr_source r ∨ p = "")) ∧
        (src = None → ∀ p j, ids !! p = Some (j, mr_source r) → ∃ p' c, ids !! p' = Some ("", c))
  }.
  Lemma one_file_adds at_ cs f p : Forall placed (fm_internal f) → is_Some (om_versions m !! head) →
    (∀ ver ns, fm_versions f !! ver = Some ns → is_Some (om_versions m !! ver)) →
    ∃ a, one_file view w areas alg mext pext m head ids at_ (cs, f, p) = inl a ∧ adds cs f p a.
  Proof using W Ha.
    intros Hpl Hh Hv. unfold one_file. cbv zeta. set (id := default "" (fst <$> ids !! p)).
    destruct (packings_spec id (vo (w (0 :: at_)) 10 (fm_versions f))) as (es & -> & He).
    { intros ver ns Hi. apply (vo_in _ _ _ _ _ (W _)) in Hi. by eapply Hv. }
    destruct (internals_spec (1 :: at_) 0 id cs (view (fm_ext f)) _ Hpl) as (md & st & ls & -> & Hu & Hl & Hm).
    destruct (external_area w areas (2 :: at_) p) as [a b] eqn:Hx. destruct (external_group w W areas Ha _ _ _ _ Hx) as [Hg Hd].
    assert (∀ o d x, Packing o d x ∈ es ↔
      o = id ∧ ∃ ver ns y, fm_versions f !! ver = Some ns ∧ om_versions m !! ver = Some y ∧ d = vm_created y ∧ x = vm_address y) as HE.
    { intros o d x. rewrite He. split.
      - intros (ver & ns & y & Hi & Hy & [= -> -> ->]). split; [done|]. exists ver, ns, y. split; [|done]. by apply (vo_in _ _ _ _ _ (W _)) in Hi.
      - intros (-> & ver & ns & y & Hi & Hy & -> & ->). exists ver, ns, y. split; [|done]. by apply (vo_in _ _ _ _ _ (W _)). }
    destruct (decide (a = "metadata" ∧ b = false)) as [Hc|Hc].
    - apply Hd in Hc. eexists. split; [done|]. constructor; cbn [c_files c_dmd c_objects c_events].
      + done.
      + done.
      + intros r. rewrite elem_of_app, Hm. destruct (decide (p = mext ∨ p = pext)) as [Hn|Hn].
        * split; [|intros [(_ & _ & H1 & H2)|?]; [by destruct Hn|by left]]. intros [Hr|Hr]; [by right|by apply elem_of_nil in Hr].
        * rewrite elem_of_list_singleton. split.
          -- intros [Hr|Hr]; [by right|left]. subst r. split; [done|]. split; [done|]. split; intros ->; apply Hn; auto.
          -- intros [(-> & _)|?]; [by right|by left].
      + done.
      + done.
    - assert (¬ metadata_file areas p) as Hn by (by intros ?%Hd).
      destruct (migrations_spec (3 :: at_) id (view (fm_ext f)) Hh) as (es' & Hes' & He'). rewrite Hes'.
      eexists. split; [done|]. constructor; cbn [c_files c_dmd c_objects c_events].
      + done.
      + intros _. eexists _, _. split; [done|]. split; [done|]. split.
        { unfold urls in *. cbn [m_locs] in *. rewrite omap_app, Hu. done. }
        split_and!; try done; cbn [m_id m_sum p_id m_mime p_mime p_sums m_locs m_group].
        * intros Hi. destruct (f_index _); [by left|done].
        * intros l. rewrite elem_of_app, elem_of_list_singleton, Hl. tauto.
      + intros r. rewrite Hm. split; [by right|]. by intros [(_ & ? & _)|?].
      + intros o d x. rewrite elem_of_app, HE. split; [|by left]. intros [Hr|Hr]; [done|]. by apply He' in Hr.
      + intros _ r x Hver Hr. destruct (migrations_found (3 :: at_) id _ r x Hver Hr) as (src & Hmi & H1 & H2). rewrite Hes' in Hmi. injection Hmi as ->.
        exists src. split; [|done]. apply elem_of_app. right. by left.
  Qed.
  Lemma all_files_adds k l :
    (∀ cs f p, (cs, f, p) ∈ l → Forall placed (fm_internal f) ∧ ∀ ver ns, fm_versions f !! ver = Some ns → is_Some (om_versions m !! ver)) →
    is_Some (om_versions m !! head) →
    ∃ xs, all_files view w areas alg mext pext m head ids k l = inl (foldr mapp mnone xs) ∧
      Forall2 (λ e a, adds e.1.1 e.1.2 e.2 a) l xs.
  Proof using W Ha.
    revert k. induction l as [|[[cs f] p] l IH]; intros k Hl Hh; cbn [all_files].
    - exists []. by split.
    - destruct (Hl cs f p) as [H1 H2]; [by left|]. destruct (one_file_adds [k] cs f p H1 Hh H2) as (a & -> & Hx).
      destruct (IH (S k)) as (xs & -> & Hxs); [intros cs' f' p' H; apply (Hl cs' f' p'); by right|done|].
      exists (a :: xs). split; [done|]. by constructor.
  Qed.
End one.

(** * The documents *)
Lemma nodup_bind {K B} (g : K → list B) (l : list K) : NoDup l → (∀ x, x ∈ l → NoDup (g x)) → (∀ x y b, x ∈ l → y ∈ l → b ∈ g x → b ∈ g y → x = y) → NoDup (l ≫= g).
Proof.
  induction 1 as [|x l Hx Hl IH]; intros H1 H2; cbn [mbind list_bind]; [constructor|]. apply NoDup_app. split_and!.
  - apply H1. by left.
  - intros b Hb (y & Hy & Hyl)%elem_of_list_bind. apply Hx. rewrite (H2 x y b); [done|by left|by right|done|done].
  - apply IH; [intros y Hy; apply H1; by right|]. intros y z b Hy Hz. apply H2; by right.
Qed.
Lemma fmap_bind {K B D} (h : B → D) (g : K → list B) (l : list K) : h <$> (l ≫= g) = l ≫= λ x, h <$> g x.
Proof. induction l as [|x l IH]; [done|]. cbn [mbind list_bind]. by rewrite fmap_app, IH. Qed.
Lemma bind_bind {K B D} (h : B → list D) (g : K → list B) (l : list K) : (l ≫= g) ≫= h = l ≫= λ x, g x ≫= h.
Proof. induction l as [|x l IH]; [done|]. cbn [mbind list_bind]. by rewrite bind_app, IH. Qed.
Lemma forall2_bind {K X B} (R : K → X → Prop) (g : X → list B) es xs b : Forall2 R es xs → b ∈ xs ≫= g → ∃ e x, e ∈ es ∧ R e x ∧ b ∈ g x ∧ x ∈ xs.
Proof.
  intros H (x & Hb & Hx)%elem_of_list_bind. induction H as [|e y es xs He Hes IH]; [by apply elem_of_nil in Hx|].
  apply elem_of_cons in Hx as [->|Hx].
  - exists e, y. split_and!; [by left|done|done|by left].
  - destruct (IH Hx) as (e' & x' & H1 & H2 & H3 & H4). exists e', x'. split_and!; [by right|done|done|by right].
Qed.
Lemma forall2_elem {K X} (R : K → X → Prop) es xs e : Forall2 R es xs → e ∈ es → ∃ x, x ∈ xs ∧ R e x.
Proof.
  induction 1 as [|e' y es xs He Hes IH]; [by intros ?%elem_of_nil|]. intros [->|Hi]%elem_of_cons; [exists y; by split; [left|]|].
  destruct (IH Hi) as (x & H1 & H2). exists x. split; [by right|done].
Qed.
Lemma fold_files xs : c_files (foldr mapp mnone xs) = xs ≫= c_files.
Proof. induction xs as [|x xs IH]; [done|]. cbn. by rewrite IH. Qed.
Lemma fold_dmd xs : c_dmd (foldr mapp mnone xs) = xs ≫= c_dmd.
Proof. induction xs as [|x xs IH]; [done|]. cbn. by rewrite IH. Qed.
Lemma fold_objects xs : c_objects (foldr mapp mnone xs) = xs ≫= c_objects.
Proof. induction xs as [|x xs IH]; [done|]. cbn. by rewrite IH. Qed.
Lemma fold_events xs : c_events (foldr mapp mnone xs) = xs ≫= c_events.
Proof. induction xs as [|x xs IH]; [done|]. cbn. by rewrite IH. Qed.

Section files.
  Context {A : Type} (w : worders) (W : worders_ok w) (exts : list (string * (gmap string A + string))) (i : inventory) (m : object_meta A).
  Context (HR : resolvable i) (Hm : get_metadata w exts i = inl m).

  Lemma files_of_in n cs f p : (cs, f, p) ∈ files_of w m (inv_head i) n ↔ om_files m !! cs = Some f ∧ current i p cs.
  Proof using W HR Hm.
    pose proof (get_metadata_reports w W exts i m Hm) as Q. unfold files_of. rewrite elem_of_list_bind. split.
    - intros ([d g] & Hp & Hg). apply (vo_in _ _ _ _ _ (W _)) in Hg. apply elem_of_list_fmap in Hp as (p' & [= <- <- <-] & Hp). cbn [fst snd] in Hp. split; [done|].
      destruct (fm_versions f !! inv_head i) as [ns|] eqn:Hn; [|by apply elem_of_nil in Hp].
      apply (every_file_reported w exts i m W HR Hm). destruct (rp_files _ _ _ Q cs f Hg) as (q & qs & Hq & F).
      exists f, ns. split_and!; [done|done|done| |]; by rewrite (fr_internal _ _ _ _ _ _ F).
    - intros [Hf Hc]. apply (every_file_reported w exts i m W HR Hm) in Hc as (f' & ns & Hf' & Hn & Hp & _). rewrite Hf in Hf'. injection Hf' as <-.
      exists (cs, f). split; [|by apply (vo_in _ _ _ _ _ (W _))]. cbn. rewrite Hn. apply elem_of_list_fmap. by exists p.
  Qed.
  Lemma files_of_names n : (∀ v, inv_versions i !! inv_head i = Some v → unique_paths (v_state v)) → NoDup ((files_of w m (inv_head i) n).*2).
  Proof using W HR Hm.
    intros Hu. unfold files_of. rewrite fmap_bind.
    assert (∀ x p, x ∈ vo (w []) n (om_files m) → p ∈ default [] (fm_versions x.2 !! inv_head i) → current i p x.1) as Hc.
    { intros [d f] p Hx Hp. apply (files_of_in n d f p). unfold files_of. apply elem_of_list_bind. exists (d, f). split; [|done].
      apply elem_of_list_fmap. by exists p. }
    assert (∀ x : string * file_meta A, snd <$> ((λ p : string, (x.1, x.2, p)) <$> default [] (fm_versions x.2 !! inv_head i)) = default [] (fm_versions x.2 !! inv_head i)) as Hsnd.
    { intros x. rewrite <- list_fmap_compose. change (_ ∘ _) with (@id string). apply list_fmap_id. }
    apply nodup_bind.
    - apply NoDup_fmap_1 with fst. rewrite (W [] n _ (om_files m)). apply NoDup_fst_map_to_list.
    - intros [d f] Hx. rewrite (Hsnd (d, f)). cbn [fst snd]. destruct (fm_versions f !! inv_head i) as [ns|] eqn:Hn; [|constructor].
      apply (vo_in _ _ _ _ _ (W _)) in Hx. pose proof (get_metadata_reports w W exts i m Hm) as Q. destruct (rp_files _ _ _ Q d f Hx) as (q & qs & Hq & F).
      apply (fr_versions _ _ _ _ _ _ F) in Hn as (v & Hv & Hs). by apply (Hu v Hv) in Hs.
    - intros [d f] [d' f'] p Hx Hy Hp Hp'. rewrite (Hsnd (d, f)) in Hp. rewrite (Hsnd (d', f')) in Hp'.
      pose proof (Hc _ _ Hx Hp) as (v & Hv & H1). pose proof (Hc _ _ Hy Hp') as (v' & Hv' & H2). rewrite Hv in Hv'. injection Hv' as <-.
      assert (d = d') as <- by (by eapply (Hu v Hv)). apply (vo_in _ _ _ _ _ (W _)) in Hx, Hy. rewrite Hx in Hy. by injection Hy as <-.
  Qed.
  Lemma files_of_ready n cs f p : conventional i → (cs, f, p) ∈ files_of w m (inv_head i) n →
    Forall placed (fm_internal f) ∧ (∀ q, q ∈ fm_internal f ↔ lists (inv_manifest i) q cs) ∧
    ∀ ver ns, fm_versions f !! ver = Some ns → is_Some (om_versions m !! ver).
  Proof using W HR Hm.
    intros Hconv [Hf Hc]%files_of_in. pose proof (get_metadata_reports w W exts i m Hm) as Q. destruct (rp_files _ _ _ Q cs f Hf) as (q & qs & Hq & F).
    rewrite (fr_internal _ _ _ _ _ _ F). split_and!.
    - apply stdpp.list.Forall_forall. intros x Hx. apply (Hconv x cs). by exists (q :: qs).
    - intros x. split; [intros Hx; by exists (q :: qs)|]. intros (ps & Hps & Hx). rewrite Hq in Hps. by injection Hps as <-.
    - intros ver ns Hn. apply (fr_versions _ _ _ _ _ _ F) in Hn as (v & Hv & _). eexists. apply (rp_versions _ _ _ Q). by exists v.
  Qed.

  Lemma identifiers_in u p : is_Some (identifiers w m (inv_head i) u !! p) ↔ ∃ d, current i p d.
  Proof using W HR Hm.
    assert (∀ (l : list (string * file_meta A * string)) M k,
      is_Some ((foldl (λ (r : gmap string (string * string) * nat) (e : string * file_meta A * string), (<[e.2 := (u r.2, e.1.1)]> r.1, S r.2)) (M, k) l).1 !! p) ↔
      is_Some (M !! p) ∨ p ∈ l.*2) as H.
    { induction l as [|[[cs f] q] l IH]; intros M k; cbn [foldl fmap list_fmap].
      - split; [by left|]. intros [?|?%elem_of_nil]; done.
      - rewrite IH, elem_of_cons. cbn [fst snd]. rewrite lookup_insert_is_Some. destruct (decide (q = p)) as [->|]; naive_solver. }
    unfold identifiers. rewrite H, lookup_empty. split.
    - intros [[? ?]|Hp]; [done|]. apply elem_of_list_fmap in Hp as ([[cs f] q] & -> & Hq). exists cs. by apply files_of_in in Hq as [_ ?].
    - intros [d Hd]. right. pose proof Hd as Hd'. apply (every_file_reported w exts i m W HR Hm) in Hd' as (f & ns & Hf & _).
      apply elem_of_list_fmap. exists (d, f, p). split; [done|]. by apply files_of_in.
  Qed.
  Lemma identifiers_sum u p x : identifiers w m (inv_head i) u !! p = Some x → current i p x.2 ∧ ∃ k, x.1 = u k.
  Proof using W HR Hm.
    unfold identifiers.
    assert (∀ (l : list (string * file_meta A * string)) (M : gmap string (string * string)) k,
      (foldl (λ (r : gmap string (string * string) * nat) (e : string * file_meta A * string), (<[e.2 := (u r.2, e.1.1)]> r.1, S r.2)) (M, k) l).1 !! p = Some x →
      M !! p = Some x ∨ (∃ f, (x.2, f, p) ∈ l) ∧ ∃ k, x.1 = u k) as H.
    { induction l as [|[[cs f] q] l IH]; intros M k; cbn [foldl fst snd]; [by left|]. intros [Hi|[[f' Hf] Hk]]%IH.
      - apply lookup_insert_Some in Hi as [[<- <-]|[_ Hi]]; [right|by left]. split; [exists f; by left|by exists k].
      - right. split; [exists f'; by right|done]. }
    intros [Hi|[[f Hf] Hk]]%H; [by rewrite lookup_empty in Hi|]. split; [|done]. by apply files_of_in in Hf as [_ ?].
  Qed.
  Lemma identifiers_inj u p q x y : Inj (=) (=) u → identifiers w m (inv_head i) u !! p = Some x → identifiers w m (inv_head i) u !! q = Some y →
    x.1 = y.1 → p = q.
  Proof using.
    intros Hu. unfold identifiers.
    assert (∀ (l : list (string * file_meta A * string)) (M : gmap string (string * string)) k,
      (∀ p x, M !! p = Some x → ∃ j, j < k ∧ x.1 = u j) → (∀ p q x y, M !! p = Some x → M !! q = Some y → x.1 = y.1 → p = q) →
      ∀ p q x y, (foldl (λ (r : gmap string (string * string) * nat) (e : string * file_meta A * string), (<[e.2 := (u r.2, e.1.1)]> r.1, S r.2)) (M, k) l).1 !! p = Some x →
        (foldl (λ (r : gmap string (string * string) * nat) (e : string * file_meta A * string), (<[e.2 := (u r.2, e.1.1)]> r.1, S r.2)) (M, k) l).1 !! q = Some y → x.1 = y.1 → p = q) as H.
    { clear p q x y. induction l as [|[[cs f] r] l IH]; intros M k H1 H2; cbn [foldl fst snd]; [done|]. apply IH.
      - intros p x Hp. apply lookup_insert_Some in Hp as [[_ <-]|[_ Hp]]; [exists k; cbn; split; [lia|done]|]. destruct (H1 p x Hp) as (j & Hj & ->). exists j. split; [lia|done].
      - intros p q x y Hp Hq Hxy. apply lookup_insert_Some in Hp as [[<- <-]|[Hp' Hp]]; apply lookup_insert_Some in Hq as [[<- <-]|[Hq' Hq]]; [done|..|by eapply H2].
        + destruct (H1 q y Hq) as (j & Hj & Hy). rewrite Hy in Hxy. apply Hu in Hxy. lia.
        + destruct (H1 p x Hp) as (j & Hj & Hy). rewrite Hy in Hxy. apply Hu in Hxy. lia. }
    apply H; intros *; by rewrite lookup_empty.
  Qed.
End files.

Section documents.
  Context {A : Type} (view : gmap string A → fview) (w : worders) (W : worders_ok w) (O : mout) (E : env) (l : list subpaths) (areas : gmap string string) (C : mconf).
  Context (exts : list (string * (gmap string A + string))) (i : inventory) (HR : resolvable i) (Hconv : conventional i) (Ha : separate areas).

  Lemma documents_parts D P : documents view w O E l areas C exts i = inl (D, P) →
    ∃ m v N xs a, get_metadata w exts i = inl m ∧ inv_versions i !! inv_head i = Some v ∧ names_of E l (mo_sprintf O) C = inl N ∧
      Forall2 (λ e a, adds view areas (inv_alg i) (n_mets N) (n_premis N) m (inv_head i) (identifiers w m (inv_head i) (mo_uuid O)) e.1.1 e.1.2 e.2 a) (files_of w m (inv_head i) 7) xs ∧
      with_primary view w (mo_slug O) areas (inv_alg i) m (inv_head i) (mc_primary C) (foldr mapp mnone xs) = inl a ∧
      d_id D = inv_id i ∧ d_head D = inv_head i ∧ d_message D = v_message v ∧ d_files D = xs ≫= c_files ∧ d_dmd D = c_dmd a ∧
      pd_objects P = xs ≫= c_objects ∧ pd_events P = xs ≫= c_events ∧ Forall (λ r, r_sum r = mo_sha O (mo_premis O P)) (d_amd D) ∧
      r_loc <$> d_amd D = [Internal (n_premis_int N); External (n_premis N)].
  Proof using W HR Hconv Ha.
    unfold documents. destruct (get_metadata w exts i) as [m|] eqn:Hm; [|done]. pose proof (get_metadata_reports w W exts i m Hm) as Q. cbv zeta.
    destruct (inv_versions i !! inv_head i) as [v|] eqn:Hv; [|done]. destruct (names_of E l (mo_sprintf O) C) as [N|] eqn:HN; [|done].
    destruct (all_files_adds view w W areas Ha (inv_alg i) (n_mets N) (n_premis N) m (inv_head i) (identifiers w m (inv_head i) (mo_uuid O)) 0
      (files_of w m (inv_head i) 7)) as (xs & -> & Hxs).
    { intros cs f p Hin. destruct (files_of_ready w W exts i m HR Hm 7 cs f p Hconv Hin) as (H1 & _ & H3). done. }
    { eexists. apply (rp_versions _ _ _ Q). by exists v. }
    destruct (with_primary view w (mo_slug O) areas (inv_alg i) m (inv_head i) (mc_primary C) (foldr mapp mnone xs)) as [a|] eqn:Hp; [|done].
    intros [= <- <-]. exists m, v, N, xs, a. cbn [d_id d_head d_message d_files d_dmd d_amd pd_objects pd_events].
    assert (c_files a = xs ≫= c_files ∧ c_objects a = xs ≫= c_objects ∧ c_events a = xs ≫= c_events) as (-> & -> & ->).
    { rewrite <- fold_files, <- fold_objects, <- fold_events. unfold with_primary in Hp. destruct (decide _); [by injection Hp as <-|].
      destruct (primary_name _ _) as [[ty name]|]; [|done]. destruct (list_find _ _) as [[k [cs f]]|]; [|done]. cbv zeta in Hp.
      destruct (if decide (to_upper ty ∈ md_types) then _ else _) as [ty' other]. by injection Hp as <-. }
    split_and!; try done; [apply (rp_id _ _ _ Q)|]. by repeat constructor.
  Qed.
  (** Without a name for the primary metadata the documents are made. *)
  Lemma documents_made m N : get_metadata w exts i = inl m → is_Some (inv_versions i !! inv_head i) → names_of E l (mo_sprintf O) C = inl N → mc_primary C = "" →
    ∃ D P, documents view w O E l areas C exts i = inl (D, P).
  Proof using W HR Hconv Ha.
    intros Hm [v Hv] HN Hpr. unfold documents. rewrite Hm. pose proof (get_metadata_reports w W exts i m Hm) as Q. cbv zeta. rewrite Hv, HN.
    destruct (all_files_adds view w W areas Ha (inv_alg i) (n_mets N) (n_premis N) m (inv_head i) (identifiers w m (inv_head i) (mo_uuid O)) 0
      (files_of w m (inv_head i) 7)) as (xs & -> & Hxs).
    { intros cs f p Hin. destruct (files_of_ready w W exts i m HR Hm 7 cs f p Hconv Hin) as (H1 & _ & H3). done. }
    { eexists. apply (rp_versions _ _ _ Q). by exists v. }
    unfold with_primary. rewrite decide_True by done. by eexists _, _.
  Qed.

  Context (D : mdoc) (P : pdoc) (HD : documents view w O E l areas C exts i = inl (D, P)).
  Context (Hu : ∀ v, inv_versions i !! inv_head i = Some v → unique_paths (v_state v)).

  Lemma named_files : NoDup (named D) ∧ ∀ p, p ∈ named D ↔ (∃ d, current i p d) ∧ ¬ metadata_file areas p.
  Proof using W HR Hconv Ha HD Hu.
    destruct (documents_parts D P HD) as (m & v & N & xs & a & Hm & Hv & HN & Hxs & _ & _ & _ & _ & Hf & _).
    unfold named. rewrite Hf, bind_bind.
    assert (∀ p, p ∈ (files_of w m (inv_head i) 7).*2 ↔ ∃ d, current i p d) as Hin.
    { intros p. rewrite elem_of_list_fmap. split.
      - intros ([[cs f] q] & -> & Hq). exists cs. by apply (files_of_in w W exts i m HR Hm) in Hq as [_ ?].
      - intros [d Hd]. pose proof Hd as Hd'. apply (every_file_reported w exts i m W HR Hm) in Hd' as (f & ns & Hff & _).
        exists (d, f, p). split; [done|]. by apply (files_of_in w W exts i m HR Hm). }
    pose proof (files_of_names w W exts i m HR Hm 7 Hu) as Hnd.
    assert (NoDup (xs ≫= λ x, c_files x ≫= urls) ∧ ∀ p, p ∈ xs ≫= (λ x, c_files x ≫= urls) ↔ p ∈ (files_of w m (inv_head i) 7).*2 ∧ ¬ metadata_file areas p) as [H1 H2];
      [|split; [done|]; intros p; by rewrite H2, Hin]. clear Hf HD Hin.
    induction Hxs as [|[[cs f] p] x es xs Hx Hxs IH]; cbn [mbind list_bind fmap list_fmap] in *.
    - split; [constructor|]. intros p. split; [by intros ?%elem_of_nil|]. by intros [?%elem_of_nil _].
    - apply NoDup_cons in Hnd as [Hn1 Hn2]. destruct (IH Hn2) as [H1 H2]. cbn [fst snd] in Hx, Hn1.
      destruct (mfile_dec w W areas Ha p) as [Hd|Hd].
      + destruct (ad_files _ _ _ _ _ _ _ _ _ _ _ _ Hx Hd) as [He _]. rewrite He. cbn [mbind list_bind app]. split; [done|].
        intros q. rewrite H2, elem_of_cons. split; [intros [? ?]; split; [by right|done]|]. intros [[->|?] ?]; done.
      + destruct (ad_other _ _ _ _ _ _ _ _ _ _ _ _ Hx Hd) as (y & o & He & _ & Hy & _). rewrite He. cbn [mbind list_bind]. rewrite Hy. cbn [app]. split.
        * apply NoDup_cons. split; [|done]. by intros [? _]%H2.
        * intros q. rewrite elem_of_cons, H2, elem_of_cons. cbn [snd]. split; [intros [->|[? ?]]; auto|]. intros [[->|?] ?]; auto.
  Qed.

  Lemma files_stand f : f ∈ d_files D → ∃ p d, current i p d ∧ urls f = [p] ∧ stands_for areas i f p d.
  Proof using W HR Hconv Ha HD.
    destruct (documents_parts D P HD) as (m & v & N & xs & a & Hm & Hv & HN & Hxs & _ & _ & _ & _ & Hf & _). rewrite Hf. intros Hin.
    destruct (forall2_bind _ _ _ _ _ Hxs Hin) as ([[cs g] p] & x & He & Hx & Hb & _). cbn [fst snd] in Hx. exists p, cs.
    pose proof (files_of_ready w W exts i m HR Hm 7 cs g p Hconv He) as (_ & Hman & _).
    apply (files_of_in w W exts i m HR Hm) in He as [_ Hc]. split; [done|]. destruct (mfile_dec w W areas Ha p) as [Hd|Hd].
    - destruct (ad_files _ _ _ _ _ _ _ _ _ _ _ _ Hx Hd) as [He _]. rewrite He in Hb. by apply elem_of_nil in Hb.
    - destruct (ad_other _ _ _ _ _ _ _ _ _ _ _ _ Hx Hd) as (y & o & He & _ & Hy & _ & Hs & _ & _ & _ & _ & _ & Hg & Hl). rewrite He in Hb.
      apply elem_of_list_singleton in Hb as ->. split; [done|]. constructor; [done|done|]. intros loc. rewrite Hl. split.
      + intros [?|(vv & c & ? & ? & Hq & ?)]; [by left|right]. exists vv, c. split_and!; try done. by apply Hman.
      + intros [?|(vv & c & ? & ? & Hq & ?)]; [by left|right]. exists vv, c. split_and!; try done. by apply Hman.
  Qed.
  (** The objects of the PREMIS document are the files of the METS document. *)
  Lemma objects_files : p_id <$> pd_objects P = m_id <$> d_files D.
  Proof using W HR Hconv Ha HD.
    destruct (documents_parts D P HD) as (m & v & N & xs & a & Hm & Hv & HN & Hxs & _ & _ & _ & _ & Hf & _ & Ho & _). rewrite Hf, Ho, !fmap_bind. clear Hf Ho.
    induction Hxs as [|[[cs f] p] x es xs Hx Hxs IH]; [done|]. cbn [mbind list_bind fst snd] in *. rewrite IH. f_equal.
    destruct (mfile_dec w W areas Ha p) as [Hd|Hd].
    - destruct (ad_files _ _ _ _ _ _ _ _ _ _ _ _ Hx Hd) as [-> ->]. done.
    - destruct (ad_other _ _ _ _ _ _ _ _ _ _ _ _ Hx Hd) as (y & o & -> & -> & _ & _ & _ & Hid & _). cbn. by rewrite Hid.
  Qed.
  Lemma ids_unique : Inj (=) (=) (mo_uuid O) → NoDup (m_id <$> d_files D).
  Proof using W HR Hconv Ha HD Hu.
    intros Hinj. pose proof (proj1 named_files) as Hnd. unfold named in Hnd.
    destruct (documents_parts D P HD) as (m & v & N & xs & a & Hm & Hv & HN & Hxs & _ & _ & _ & _ & Hf & _).
    assert (∀ f, f ∈ d_files D → ∃ p x, urls f = [p] ∧ identifiers w m (inv_head i) (mo_uuid O) !! p = Some x ∧ m_id f = x.1) as Hid.
    { intros f Hin. rewrite Hf in Hin. destruct (forall2_bind _ _ _ _ _ Hxs Hin) as ([[cs g] p] & x & He & Hx & Hb & _). cbn [fst snd] in Hx.
      apply (files_of_in w W exts i m HR Hm) in He as [_ Hc]. destruct (mfile_dec w W areas Ha p) as [Hd|Hd].
      - destruct (ad_files _ _ _ _ _ _ _ _ _ _ _ _ Hx Hd) as [He _]. rewrite He in Hb. by apply elem_of_nil in Hb.
      - destruct (ad_other _ _ _ _ _ _ _ _ _ _ _ _ Hx Hd) as (y & o & He & _ & Hy & Hi & _). rewrite He in Hb.
        apply elem_of_list_singleton in Hb as ->. destruct (proj2 (identifiers_in w W exts i m HR Hm (mo_uuid O) p)) as [z Hz]; [by exists cs|].
        exists p, z. split; [done|]. split; [done|]. by rewrite Hi, Hz. }
    clear Hf Hxs. revert Hnd Hid. generalize (d_files D). induction l0 as [|f fs IH]; cbn [fmap list_fmap mbind list_bind]; intros Hnd Hid; [constructor|].
    destruct (Hid f) as (p & x & Hp & Hx & Hfx); [by left|]. rewrite Hp in Hnd. cbn [app] in Hnd. apply NoDup_cons in Hnd as [Hn1 Hn2]. apply NoDup_cons. split.
    - intros (g & Hg & Hgin)%elem_of_list_fmap. destruct (Hid g) as (q & y & Hq & Hy & Hgy); [by right|]. apply Hn1. apply elem_of_list_bind. exists g. split; [|done].
      rewrite Hq. apply elem_of_list_singleton. eapply (identifiers_inj w i m (mo_uuid O)); [done|exact Hx|exact Hy|]. by rewrite <- Hfx, <- Hgy.
    - apply IH; [done|]. intros g Hg. apply Hid. by right.
  Qed.

  (** Packing events. *)
  Lemma packed f p d ver v : f ∈ d_files D → urls f = [p] → current i p d → inv_versions i !! ver = Some v → is_Some (v_state v !! d) →
    Packing (m_id f) (v_created v) (v_uaddr v) ∈ pd_events P.
  Proof using W HR Hconv Ha HD Hu.
    intros Hin Hp Hc Hver [ns Hs].
    destruct (documents_parts D P HD) as (m & v' & N & xs & a & Hm & Hv & HN & Hxs & _ & _ & _ & _ & Hf & _ & _ & Hev & _).
    pose proof (get_metadata_reports w W exts i m Hm) as Q. rewrite Hf in Hin. rewrite Hev.
    destruct (forall2_bind _ _ _ _ _ Hxs Hin) as ([[cs g] q] & x & He & Hx & Hb & Hxin). cbn [fst snd] in Hx.
    apply (files_of_in w W exts i m HR Hm) in He as [Hg Hcq]. destruct (mfile_dec w W areas Ha q) as [Hd|Hd].
    { destruct (ad_files _ _ _ _ _ _ _ _ _ _ _ _ Hx Hd) as [He _]. rewrite He in Hb. by apply elem_of_nil in Hb. }
    destruct (ad_other _ _ _ _ _ _ _ _ _ _ _ _ Hx Hd) as (y & o & He & _ & Hy & Hi & _). rewrite He in Hb. apply elem_of_list_singleton in Hb as ->.
    rewrite Hp in Hy. injection Hy as <-. assert (d = cs) as <-.
    { destruct Hc as (v1 & Hv1 & H1), Hcq as (v2 & Hv2 & H2). rewrite Hv1 in Hv2. injection Hv2 as <-. by eapply (Hu v1 Hv1). }
    apply elem_of_list_bind. exists x. split; [|done]. apply (ad_events _ _ _ _ _ _ _ _ _ _ _ _ Hx). split; [done|].
    destruct (rp_files _ _ _ Q d g Hg) as (r & rs & Hman & F). exists ver, ns, (VersionMeta (v_created v) (v_message v) (v_uname v) (v_uaddr v)).
    split; [apply (fr_versions _ _ _ _ _ _ F); by exists v|]. split; [apply (rp_versions _ _ _ Q); by exists v|done].
  Qed.
  Lemma packed_only o date addr : Packing o date addr ∈ pd_events P →
    ∃ p d ver v, current i p d ∧ inv_versions i !! ver = Some v ∧ is_Some (v_state v !! d) ∧ date = v_created v ∧ addr = v_uaddr v ∧
      (metadata_file areas p ∨ ∃ f, f ∈ d_files D ∧ urls f = [p] ∧ m_id f = o).
  Proof using W HR Hconv Ha HD.
    intros Hin. destruct (documents_parts D P HD) as (m & v' & N & xs & a & Hm & Hv & HN & Hxs & _ & _ & _ & _ & Hf & _ & _ & Hev & _).
    pose proof (get_metadata_reports w W exts i m Hm) as Q. rewrite Hev in Hin.
    destruct (forall2_bind _ _ _ _ _ Hxs Hin) as ([[cs g] q] & x & He & Hx & Hb & Hxin). cbn [fst snd] in Hx.
    apply (files_of_in w W exts i m HR Hm) in He as [Hg Hcq].
    apply (ad_events _ _ _ _ _ _ _ _ _ _ _ _ Hx) in Hb as (Ho & ver & ns & y & Hn & Hy & -> & ->).
    destruct (rp_files _ _ _ Q cs g Hg) as (r & rs & Hman & F). apply (fr_versions _ _ _ _ _ _ F) in Hn as (v & Hver & Hs).
    apply (rp_versions _ _ _ Q) in Hy as (v2 & Hv2 & ->). rewrite Hver in Hv2. injection Hv2 as <-.
    exists q, cs, ver, v. split_and!; [done|done|by exists ns|done|done|]. destruct (mfile_dec w W areas Ha q) as [Hd|Hd]; [by left|right].
    destruct (ad_other _ _ _ _ _ _ _ _ _ _ _ _ Hx Hd) as (z & o' & He & _ & Hz & Hi & _). exists z. split; [|by rewrite Hi, <- Ho].
    rewrite Hf. apply elem_of_list_bind. exists x. rewrite He. by split; [left|].
  Qed.

  (** Metadata files. *)
  Lemma metadata_found p d : current i p d → metadata_file areas p → (∀ N, names_of E l (mo_sprintf O) C = inl N → p ≠ n_mets N ∧ p ≠ n_premis N) →
    (mc_primary C = "" ∨ ∃ ty name, primary_name areas (mc_primary C) = Some (ty, name) ∧ ¬ current i name d) →
    ∃ r, r ∈ d_dmd D ∧ r_loc r = External p ∧ refers areas i r p d ∧ r_sumtype r = sum_type (inv_alg i) ∧ r_type r = "OTHER" ∧ r_other r = "UNKNOWN".
  Proof using W HR Hconv Ha HD.
    intros Hc Hd Hnames Hpr. destruct (documents_parts D P HD) as (m & v' & N & xs & a & Hm & Hv & HN & Hxs & Ha' & _ & _ & _ & Hf & Hdmd & _).
    destruct (Hnames N HN) as [Hn1 Hn2]. pose proof Hc as Hc'. apply (every_file_reported w exts i m W HR Hm) in Hc' as (f & ns & Hff & _).
    assert ((d, f, p) ∈ files_of w m (inv_head i) 7) as Hin by (by apply (files_of_in w W exts i m HR Hm)).
    destruct (forall2_elem _ _ _ _ Hxs Hin) as (x & Hxin & Hx). cbn [fst snd] in Hx.
    set (r := mdref_of (inv_alg i) (default "" (fst <$> identifiers w m (inv_head i) (mo_uuid O) !! p)) d (view (fm_ext f)) "ext" (External p)).
    assert (r ∈ c_dmd (foldr mapp mnone xs)) as Hr.
    { rewrite fold_dmd. apply elem_of_list_bind. exists x. split; [|done]. apply (ad_dmd _ _ _ _ _ _ _ _ _ _ _ _ Hx). by left. }
    exists r. split; [|split; [done|split; [|by repeat split]]]; [|split; [done|split; [done|by left]]]. rewrite Hdmd. unfold with_primary in Ha'.
    destruct (decide (mc_primary C = "")) as [He|He]; [by injection Ha' as <-|]. destruct Hpr as [?|(ty & name & Hpn & Hnc)]; [done|]. rewrite Hpn in Ha'.
    destruct (list_find _ _) as [[k [cs g]]|] eqn:Hl; [|done]. cbv zeta in Ha'.
    destruct (if decide (to_upper ty ∈ md_types) then _ else _) as [ty' other]. injection Ha' as <-. cbn [c_dmd]. apply elem_of_app. left.
    apply elem_of_list_In, filter_In. split; [by apply elem_of_list_In|]. apply negb_true_iff, bool_decide_eq_false. intros Hcs. cbn in Hcs. subst cs. apply Hnc.
    apply list_find_Some in Hl as (Hl1 & Hl2 & _). cbn [snd] in Hl2. apply elem_of_list_lookup_2 in Hl1. apply (vo_in _ _ _ _ _ (W _)) in Hl1.
    apply (files_of_in w W exts i m HR Hm 7 d g name). unfold files_of. apply elem_of_list_bind. exists (d, g). split; [|by apply (vo_in _ _ _ _ _ (W _))].
    apply elem_of_list_fmap. by exists name.
  Qed.
  Lemma metadata_only r : r ∈ d_dmd D → r_group r = "area-metadata" → ∃ p d, current i p d ∧ refers areas i r p d.
  Proof using W HR Hconv Ha HD.
    intros Hr Hg. destruct (documents_parts D P HD) as (m & v' & N & xs & a & Hm & Hv & HN & Hxs & Ha' & _ & _ & _ & Hf & Hdmd & _).
    assert (r ∈ c_dmd (foldr mapp mnone xs)) as Hin.
    { rewrite Hdmd in Hr. unfold with_primary in Ha'. destruct (decide (mc_primary C = "")) as [He|He]; [by injection Ha' as <-|].
      destruct (primary_name _ _) as [[ty name]|]; [|done]. destruct (list_find _ _) as [[k [cs g]]|] eqn:Hl; [|done]. cbv zeta in Ha'.
      destruct (if decide (to_upper ty ∈ md_types) then _ else _) as [ty' other]. injection Ha' as <-. cbn [c_dmd] in Hr. apply elem_of_app in Hr as [Hr|Hr].
      - apply elem_of_list_In, filter_In in Hr as [Hr _]. by apply elem_of_list_In.
      - exfalso. apply elem_of_app in Hr as [Hr|Hr].
        + destruct (fm_internal g); [by apply elem_of_nil in Hr|]. apply elem_of_list_singleton in Hr as ->. done.
        + destruct (default [] _); [by apply elem_of_nil in Hr|]. apply elem_of_list_singleton in Hr as ->. done. }
    rewrite fold_dmd in Hin. destruct (forall2_bind _ _ _ _ _ Hxs Hin) as ([[cs g] q] & x & He & Hx & Hb & Hxin). cbn [fst snd] in Hx.
    pose proof (files_of_ready w W exts i m HR Hm 7 cs g q Hconv He) as (_ & Hman & _). apply (files_of_in w W exts i m HR Hm) in He as [Hgf Hcq]. exists q, cs. split; [done|].
    apply (ad_dmd _ _ _ _ _ _ _ _ _ _ _ _ Hx) in Hb as [(-> & Hd & _)|(vv & c & -> & Hvv & Hq & Hd)].
    - split; [done|]. split; [done|]. by left.
    - split; [done|]. split; [done|]. right. exists vv, c. split; [done|]. split; [done|]. split; [by apply Hman|done].
  Qed.
  (** The primary metadata. *)
  Lemma primary_found : mc_primary C ≠ "" → ∃ ty name d q r1 r2, primary_name areas (mc_primary C) = Some (ty, name) ∧ current i name d ∧ current i q d ∧
    r1 ∈ d_dmd D ∧ r2 ∈ d_dmd D ∧ r_group r1 = "primary-metadata" ∧ r_group r2 = "primary-metadata" ∧ r_sum r1 = d ∧ r_sum r2 = d ∧
    r_loc r1 = External q ∧ (∃ c, r_loc r2 = Internal c ∧ lists (inv_manifest i) c d) ∧
    (∀ r, r ∈ d_dmd D → r_sum r = d → r = r1 ∨ r = r2).
  Proof using W HR Hconv Ha HD.
    intros Hne. destruct (documents_parts D P HD) as (m & v' & N & xs & a & Hm & Hv & HN & Hxs & Ha' & _ & _ & _ & Hf & Hdmd & _).
    unfold with_primary in Ha'. rewrite decide_False in Ha' by done.
    destruct (primary_name _ _) as [[ty name]|]; [|done]. destruct (list_find _ _) as [[k [cs g]]|] eqn:Hl; [|done]. cbv zeta in Ha'.
    destruct (if decide (to_upper ty ∈ md_types) then _ else _) as [ty' other]. injection Ha' as <-. cbn [c_dmd] in Hdmd.
    apply list_find_Some in Hl as (Hl1 & Hl2 & _). cbn [snd] in Hl2. apply elem_of_list_lookup_2 in Hl1.
    assert (∀ p, p ∈ default [] (fm_versions g !! inv_head i) → current i p cs) as Hcur.
    { intros p Hp. apply (files_of_in w W exts i m HR Hm 7 cs g p). unfold files_of. apply elem_of_list_bind. exists (cs, g). split; [|done].
      apply elem_of_list_fmap. by exists p. }
    apply (vo_in _ _ _ _ _ (W _)) in Hl1. pose proof (get_metadata_reports w W exts i m Hm) as Q. destruct (rp_files _ _ _ Q cs g Hl1) as (c & qs & Hman & F).
    rewrite (fr_internal _ _ _ _ _ _ F) in Hdmd. destruct (default [] (fm_versions g !! inv_head i)) as [|q ns] eqn:Hns; [by apply elem_of_nil in Hl2|].
    cbn [app] in Hdmd. exists ty, name, cs, q. do 2 eexists. split; [done|]. split; [by apply Hcur|]. split; [apply Hcur; by left|]. rewrite Hdmd.
    split; [apply elem_of_app; right; right; by left|]. split; [apply elem_of_app; right; by left|]. split_and!; try done.
    - exists c. split; [done|]. exists (c :: qs). split; [done|by left].
    - intros r Hr Hs. apply elem_of_app in Hr as [Hr|Hr].
      + exfalso. apply elem_of_list_In, filter_In in Hr as [_ Hr]. apply negb_true_iff, bool_decide_eq_false in Hr. done.
      + apply elem_of_cons in Hr as [->|Hr]; [by right|]. apply elem_of_list_singleton in Hr as ->. by left.
  Qed.

  (** Migrations. *)
  Lemma migrated m f p d fm r : get_metadata w exts i = inl m → f ∈ d_files D → urls f = [p] → current i p d → om_files m !! d = Some fm → f_migration (view (fm_ext fm)) = Some r →
    (∀ k, mo_uuid O k ≠ "") → ¬ (∃ e, current i "" e) →
    ∃ v src, inv_versions i !! inv_head i = Some v ∧
      Migration (v_created v) (mr_id r) src (if decide (mr_error r = "") then inl (m_id f) else inr (mr_error r)) ∈ pd_events P ∧
      (∀ j, src = Some j → ∃ q, current i q (mr_source r) ∧ ∀ g, g ∈ d_files D → urls g = [q] → m_id g = j) ∧
      (src = None → ∀ q, ¬ current i q (mr_source r)).
  Proof using W HR Hconv Ha HD Hu.
    intros Hm' Hin Hp Hc Hfm Hr Hne Hemp.
    destruct (documents_parts D P HD) as (m0 & v & N & xs & a & Hm & Hv & HN & Hxs & _ & _ & _ & _ & Hf & _ & _ & Hev & _). rewrite Hm in Hm'. injection Hm' as ->.
    pose proof (get_metadata_reports w W exts i m Hm) as Q. set (ids := identifiers w m (inv_head i) (mo_uuid O)) in *.
    assert (∀ g, g ∈ d_files D → ∃ cs h q x, (cs, h, q) ∈ files_of w m (inv_head i) 7 ∧ x ∈ xs ∧ urls g = [q] ∧ m_id g = default "" (fst <$> ids !! q) ∧ ¬ metadata_file areas q ∧
      adds view areas (inv_alg i) (n_mets N) (n_premis N) m (inv_head i) ids cs h q x) as Hall.
    { intros g Hg. rewrite Hf in Hg. destruct (forall2_bind _ _ _ _ _ Hxs Hg) as ([[cs h] q] & x & He & Hx & Hb & Hxin). cbn [fst snd] in Hx.
      destruct (mfile_dec w W areas Ha q) as [Hd|Hd].
      { destruct (ad_files _ _ _ _ _ _ _ _ _ _ _ _ Hx Hd) as [He' _]. rewrite He' in Hb. by apply elem_of_nil in Hb. }
      destruct (ad_other _ _ _ _ _ _ _ _ _ _ _ _ Hx Hd) as (y & o & He' & _ & Hy & Hi & _). rewrite He' in Hb. apply elem_of_list_singleton in Hb as ->.
      by exists cs, h, q, x. }
    assert (∀ q e e', current i q e → current i q e' → e = e') as Huq.
    { intros q e e' (v1 & Hv1 & H1) (v2 & Hv2 & H2). rewrite Hv1 in Hv2. injection Hv2 as <-. by eapply (Hu v1 Hv1). }
    destruct (Hall f Hin) as (cs & h & q & x & He & Hxin & Hq & Hid & Hd & Hx). rewrite Hp in Hq. injection Hq as <-.
    apply (files_of_in w W exts i m HR Hm) in He as [Hg Hcq]. assert (d = cs) as <- by (by eapply Huq). rewrite Hfm in Hg. injection Hg as ->.
    assert (om_versions m !! inv_head i = Some (VersionMeta (v_created v) (v_message v) (v_uname v) (v_uaddr v))) as Hver by (apply (rp_versions _ _ _ Q); by exists v).
    destruct (ad_mig _ _ _ _ _ _ _ _ _ _ _ _ Hx Hd r _ Hver Hr) as (src & Hev' & Hs1 & Hs2). exists v, src. split; [done|]. split; [|split].
    - rewrite Hev, Hid. apply elem_of_list_bind. by exists x.
    - intros j Hj. destruct (Hs1 j Hj) as (q & c & Hq & Hor). pose proof (identifiers_sum w W exts i m HR Hm _ _ _ Hq) as [Hcur _]. cbn [snd] in Hcur.
      destruct Hor as [->| ->]; [|by destruct Hemp; exists c]. exists q. split; [done|]. intros g Hgin Hgq.
      destruct (Hall g Hgin) as (cs' & h' & q' & x' & _ & _ & Hq' & Hid' & _). rewrite Hgq in Hq'. injection Hq' as <-. by rewrite Hid', Hq.
    - intros Hsrc q Hcq'. destruct (proj2 (identifiers_in w W exts i m HR Hm (mo_uuid O) q)) as [[j c] Hz]; [by exists (mr_source r)|].
      pose proof (identifiers_sum w W exts i m HR Hm _ _ _ Hz) as [Hcur _]. cbn [snd] in Hcur. assert (c = mr_source r) as -> by (by eapply Huq).
      destruct (Hs2 Hsrc q j Hz) as (p' & c' & Hp'). apply (identifiers_sum w W exts i m HR Hm) in Hp' as [_ [k Hk]]. cbn [fst] in Hk. by destruct (Hne k).
  Qed.
End documents.
