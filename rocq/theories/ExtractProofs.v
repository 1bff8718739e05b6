From Coq Require Import Ascii ZArith Lia.
From stdpp Require Import base list strings gmap.
From Verif Require Import GoStr InventoryModel InventorySpec ObjectModel AreaModel AreaSpec.

(** The names written for one digest: those before the first path of another area. *)
Fixpoint picked (X : xenv) (area : string) (exts : list string) : list string :=
  match exts with
  | [] => []
  | e :: r => match x_path X e area with XPath q => q :: picked X area r | _ => [] end
  end.
Definition stored (X : xenv) (src : storage) (alg : string) (ints : list string) (d data : string) : Prop :=
  ∃ p ps, ints = p :: ps ∧ src !! p = Some data ∧ x_hash X alg data = Some d.
Definition lines (d : string) (qs : list string) : string := foldr (λ q t, (d +:+ " " +:+ q +:+ newline) +:+ t) "" qs.

Lemma extract_file_status X src alg ints d q s s0 :
  snd (extract_file X src alg ints d q s) = snd (extract_file X src alg ints d q s0).
Proof.
  unfold extract_file. destruct ints as [|p ps]; [done|]. destruct (src !! p); [|done]. destruct (x_can X q); [|done].
  by destruct (x_hash X alg _).
Qed.
Lemma extract_file_ok X src alg ints d q s s' : extract_file X src alg ints d q s = (s', SOk) →
  ∃ data, stored X src alg ints d data ∧ xs_files s' = <[q := data]> (xs_files s) ∧ xs_manifest s' = xs_manifest s.
Proof.
  unfold extract_file. destruct ints as [|p ps]; [done|]. destruct (src !! p) as [data|] eqn:Ep; [|done]. destruct (x_can X q); [|done].
  destruct (x_hash X alg data) as [d'|] eqn:Eh; [|done]. destruct (decide (d' = d)) as [->|]; [|done].
  intros [= <-]. exists data. split; [by exists p, ps|done].
Qed.
Lemma extract_file_frame X src alg ints d q s : ∀ q', q' ≠ q →
  xs_files (fst (extract_file X src alg ints d q s)) !! q' = xs_files s !! q'.
Proof.
  intros q' H. unfold extract_file. destruct ints as [|p ps]; [done|]. destruct (src !! p); [|done]. destruct (x_can X q); [|done].
  destruct (x_hash X alg _); cbn; by rewrite lookup_insert_ne.
Qed.

Lemma extract_files_status X src alg area ints d exts s s0 :
  snd (extract_files X src alg area ints d exts s) = snd (extract_files X src alg area ints d exts s0).
Proof.
  revert s s0. induction exts as [|e exts IH]; intros s s0; [done|]. cbn [extract_files]. destruct (x_path X e area) as [q| |]; [|done..].
  pose proof (extract_file_status X src alg ints d q s s0) as H.
  destruct (extract_file X src alg ints d q s) as [s1 st1], (extract_file X src alg ints d q s0) as [s2 st2]. cbn in H. subst st2.
  destruct st1; [apply IH|done..].
Qed.
Lemma extract_files_ok X src alg area ints d exts s s' : extract_files X src alg area ints d exts s = (s', SOk) →
  (∀ q, (q ∉ picked X area exts ∧ xs_files s' !! q = xs_files s !! q) ∨
        (q ∈ picked X area exts ∧ ∃ data, stored X src alg ints d data ∧ xs_files s' !! q = Some data)) ∧
  xs_manifest s' = xs_manifest s +:+ lines d (picked X area exts).
Proof.
  revert s. induction exts as [|e exts IH]; intros s; cbn [extract_files picked].
  { intros [= <-]. split; [|by rewrite str_app_nil_r]. intros q. left. split; [apply not_elem_of_nil|done]. }
  destruct (x_path X e area) as [q0| |]; [|intros [= <-]; split; [|by rewrite str_app_nil_r]; intros q; left; split; [apply not_elem_of_nil|done]|done].
  destruct (extract_file X src alg ints d q0 s) as [s1 st1] eqn:E1. destruct st1; [|done..].
  apply extract_file_ok in E1 as (data & Hd & Hf & Hm). intros H. apply IH in H as [H1 H2]. cbn [xs_files xs_manifest] in H1, H2. split.
  - intros q. destruct (H1 q) as [[Hq Hl]|[Hq Hl]].
    + destruct (decide (q = q0)) as [->|Hn].
      * right. split; [apply elem_of_list_here|]. exists data. split; [done|]. rewrite Hl, Hf. apply lookup_insert.
      * left. split; [by apply not_elem_of_cons|]. rewrite Hl, Hf. by apply lookup_insert_ne.
    + right. split; [by apply elem_of_list_further|done].
  - rewrite H2, Hm. cbn [lines foldr]. by rewrite !str_app_assoc.
Qed.
Lemma extract_files_frame X src alg area ints d exts s q : q ∉ picked X area exts →
  xs_files (fst (extract_files X src alg area ints d exts s)) !! q = xs_files s !! q.
Proof.
  revert s. induction exts as [|e exts IH]; intros s Hq; [done|]. cbn [extract_files picked] in *.
  destruct (x_path X e area) as [q0| |]; [|done..]. apply not_elem_of_cons in Hq as [Hq Hr].
  pose proof (extract_file_frame X src alg ints d q0 s q Hq) as H.
  destruct (extract_file X src alg ints d q0 s) as [s1 st1]. cbn in H. destruct st1; [|done..].
  rewrite IH by done. done.
Qed.

(** ** all digests *)
Section iterate.
  Context (X : xenv) (src : storage) (alg area : string) (man : smap).
  Local Notation fn := (λ ints exts d s, extract_files X src alg area ints d exts s).
  Definition passes (de : string * list string) : Prop :=
    ∃ p ps, man !! de.1 = Some (p :: ps) ∧ snd (extract_files X src alg area (p :: ps) de.1 de.2 (XState ∅ "")) = SOk.
  Lemma iterate_status l s : snd (iterate fn man l s) = SOk ↔ Forall passes l.
  Proof.
    revert s. induction l as [|[d exts] l IH]; intros s; [split; [intros _; by apply Forall_nil|done]|]. cbn [iterate].
    rewrite Forall_cons. destruct (man !! d) as [[|p ps]|] eqn:Em.
    - split; [done|]. intros [(p & ps & H & _) _]. cbn in H. congruence.
    - pose proof (extract_files_status X src alg area (p :: ps) d exts s (XState ∅ "")) as Hst.
      destruct (extract_files X src alg area (p :: ps) d exts s) as [s' st]. cbn in Hst. destruct st.
      + rewrite IH. split; [|by intros [_ ?]]. intros H. split; [|done]. exists p, ps. cbn. by rewrite <- Hst.
      + split; [done|]. intros [(p' & ps' & H & Hk) _]. cbn in H, Hk. rewrite Em in H. injection H as <- <-. congruence.
      + split; [done|]. intros [(p' & ps' & H & Hk) _]. cbn in H, Hk. rewrite Em in H. injection H as <- <-. congruence.
    - split; [done|]. intros [(p & ps & H & _) _]. cbn in H. congruence.
  Qed.
  Lemma iterate_ok l s s' : iterate fn man l s = (s', SOk) →
    (∀ q, (Forall (λ de : string * list string, q ∉ picked X area de.2) l ∧ xs_files s' !! q = xs_files s !! q) ∨
      ∃ d exts ints data, (d, exts) ∈ l ∧ q ∈ picked X area exts ∧ man !! d = Some ints ∧ stored X src alg ints d data ∧
        xs_files s' !! q = Some data) ∧
    xs_manifest s' = xs_manifest s +:+ foldr (λ (de : string * list string) t, lines de.1 (picked X area de.2) +:+ t) "" l.
  Proof.
    revert s. induction l as [|[d exts] l IH]; intros s; cbn [iterate].
    { intros [= <-]. split; [|by rewrite str_app_nil_r]. intros q. left. split; [by apply Forall_nil|done]. }
    destruct (man !! d) as [ints|] eqn:Em; [|done].
    destruct ints as [|p ps]; [done|].
    destruct (extract_files X src alg area (p :: ps) d exts s) as [s1 st1] eqn:E1. destruct st1; [|done..].
    intros H. apply IH in H as [H1 H2]. apply extract_files_ok in E1 as [F1 F2]. split.
    - intros q. destruct (H1 q) as [[Hq Hl]|(d' & exts' & ints & data & Hin & Hr)].
      + destruct (F1 q) as [[Hq' Hl']|[Hq' (data & Hd & Hl')]].
        * left. split; [by apply Forall_cons|]. congruence.
        * right. exists d, exts, (p :: ps), data. split; [apply elem_of_list_here|]. split; [done|]. split; [done|]. split; [done|]. congruence.
      + right. exists d', exts', ints, data. split; [by apply elem_of_list_further|done].
    - rewrite H2, F2. cbn [foldr fst snd]. by rewrite !str_app_assoc.
  Qed.
  Lemma iterate_frame l s q : Forall (λ de : string * list string, q ∉ picked X area de.2) l →
    xs_files (fst (iterate fn man l s)) !! q = xs_files s !! q.
  Proof.
    revert s. induction l as [|[d exts] l IH]; intros s Hq; [done|]. apply Forall_cons in Hq as [Hq Hl]. cbn [iterate].
    destruct (man !! d) as [ints|]; [|done]. destruct ints as [|p ps]; [done|].
    pose proof (extract_files_frame X src alg area (p :: ps) d exts s q Hq) as H.
    destruct (extract_files X src alg area (p :: ps) d exts s) as [s1 st1]. cbn in H. destruct st1; [|done..].
    rewrite IH by done. done.
  Qed.
End iterate.

(** ** Extract *)
Lemma picked_target X area exts q : q ∈ picked X area exts → ∃ e, e ∈ exts ∧ x_path X e area = XPath q.
Proof.
  induction exts as [|e exts IH]; cbn [picked]; [intros H; by apply elem_of_nil in H|].
  destruct (x_path X e area) as [q0| |] eqn:E; [|intros H; by apply elem_of_nil in H..].
  intros [-> | H]%elem_of_cons; [exists e; split; [apply elem_of_list_here|done]|].
  destruct (IH H) as (e' & He' & Hp). exists e'. split; [by apply elem_of_list_further|done].
Qed.
Lemma target_picked X src alg area ints d exts s s' e q :
  extract_files X src alg area ints d exts s = (s', SOk) →
  (∀ l1 e l2, exts = l1 ++ e :: l2 → x_path X e area = XWrongArea → Forall (λ e', x_path X e' area = XWrongArea) l2) →
  e ∈ exts → x_path X e area = XPath q → q ∈ picked X area exts.
Proof.
  revert s. induction exts as [|e0 exts IH]; intros s; [intros _ _ H; by apply elem_of_nil in H|]. cbn [extract_files picked].
  intros Hok Ha He Hq. destruct (x_path X e0 area) as [q0| |] eqn:E0.
  - destruct (extract_file X src alg ints d q0 s) as [s1 st1]. destruct st1; [|done..].
    apply elem_of_cons in He as [-> | He]; [rewrite E0 in Hq; injection Hq as ->; apply elem_of_list_here|].
    apply elem_of_list_further. eapply IH; [exact Hok| |done|done].
    intros l1 e1 l2 ->. apply (Ha (e0 :: l1)). done.
  - exfalso. apply elem_of_cons in He as [-> | He]; [congruence|]. specialize (Ha [] e0 exts eq_refl E0).
    rewrite Forall_forall in Ha. specialize (Ha e He). congruence.
  - done.
Qed.

Definition body (X : xenv) (orc : oracle) (i : inventory) (src : storage) (ver : string) (area : string) (v : version)
    (target : storage) : xstate * status :=
  iterate (λ ints exts d s, extract_files X src (inv_alg i) area ints d exts s) (inv_manifest i)
    (o_state orc 0 ver (v_state v)) (XState target "").
Lemma extract_body X orc i src ver man area target v :
  inv_versions i !! requested_version i ver = Some v →
  extract X orc i src ver man area target =
    match body X orc i src (requested_version i ver) area v target with
    | (s, SOk) =>
        if man then
          if x_can X ("manifest." +:+ inv_alg i) then (<["manifest." +:+ inv_alg i := xs_manifest s]> (xs_files s), SOk)
          else (xs_files s, SErr "cannot create manifest")
        else (xs_files s, SOk)
    | (s, st) => (xs_files s, st)
    end.
Proof. intros H. unfold extract. fold (requested_version i ver). by rewrite H. Qed.
Lemma state_elem orc ver st d exts : oracle_ok orc → (d, exts) ∈ o_state orc 0 ver st ↔ st !! d = Some exts.
Proof. intros [Ho _]. rewrite (Ho 0 ver st). apply elem_of_map_to_list. Qed.

Lemma body_order X orc orc' i src ver area v t t' : oracle_ok orc → oracle_ok orc' →
  snd (body X orc i src ver area v t) = SOk → snd (body X orc' i src ver area v t') = SOk.
Proof.
  intros [Ho _] [Ho' _]. unfold body. rewrite !iterate_status. intros H. rewrite (Ho' 0 ver (v_state v)).
  by rewrite (Ho 0 ver (v_state v)) in H.
Qed.
Lemma verdict_order X orc orc' i src ver man area t : oracle_ok orc → oracle_ok orc' →
  snd (extract X orc i src ver man area t) = SOk → snd (extract X orc' i src ver man area t) = SOk.
Proof.
  intros Ho Ho'. destruct (inv_versions i !! requested_version i ver) as [v|] eqn:Ev.
  - rewrite !(extract_body _ _ _ _ _ _ _ _ v) by done. intros H.
    pose proof (body_order X orc orc' i src (requested_version i ver) area v t t Ho Ho') as Hb.
    destruct (body X orc i src _ area v t) as [s st], (body X orc' i src _ area v t) as [s' st'].
    destruct st; [|done..]. cbn in Hb. rewrite Hb by done. destruct man; [|done]. by destruct (x_can X _).
  - unfold extract. fold (requested_version i ver). by rewrite Ev.
Qed.

Lemma only_stored X orc i src ver area v t s : oracle_ok orc →
  body X orc i src ver area v t = (s, SOk) →
  ∀ q, xs_files s !! q = t !! q ∨ ∃ data, wanted X i src area (v_state v) q data ∧ xs_files s !! q = Some data.
Proof.
  intros Ho Hb q. apply iterate_ok in Hb as [Hb _]. destruct (Hb q) as [[_ H]|(d & exts & ints & data & Hin & Hq & Hm & Hs & Hl)]; [by left|].
  right. exists data. split; [|done]. apply state_elem in Hin; [|done]. apply picked_target in Hq as (e & He & Hq).
  destruct Hs as (p & ps & -> & Hp & Hh). exists d, e, p, ps. split; [by exists exts|done].
Qed.
Lemma body_frame X orc i src ver area v t q : oracle_ok orc → ¬ target_name X area (v_state v) q →
  xs_files (fst (body X orc i src ver area v t)) !! q = t !! q.
Proof.
  intros Ho Hn. unfold body. rewrite iterate_frame; [done|]. apply Forall_forall. intros [d exts] Hin Hq. cbn in Hq.
  apply state_elem in Hin; [|done]. apply picked_target in Hq as (e & He & Hq). apply Hn. exists d, e. split; [by exists exts|done].
Qed.
Lemma iterate_each X src alg area man l s s' d exts :
  iterate (λ ints exts d s, extract_files X src alg area ints d exts s) man l s = (s', SOk) → (d, exts) ∈ l →
  ∃ p ps s1 s2, man !! d = Some (p :: ps) ∧ extract_files X src alg area (p :: ps) d exts s1 = (s2, SOk).
Proof.
  intros H Hin. assert (Forall (passes X src alg area man) l) as HF.
  { apply (iterate_status X src alg area man l s). by rewrite H. }
  rewrite Forall_forall in HF. destruct (HF _ Hin) as (p & ps & Hm & Hk). cbn in Hm, Hk.
  destruct (extract_files X src alg area (p :: ps) d exts (XState ∅ "")) as [s2 st] eqn:E. cbn in Hk. subst st. by exists p, ps, (XState ∅ ""), s2.
Qed.
Lemma exact X orc i src ver area v t s : oracle_ok orc →
  body X orc i src ver area v t = (s, SOk) → areas_apart X area (v_state v) → no_clash X area (v_state v) →
  ∀ q, target_name X area (v_state v) q → ∃ data, wanted X i src area (v_state v) q data ∧ xs_files s !! q = Some data.
Proof.
  intros Ho Hb Ha Hc q (d & e & (exts & Hst & He) & Hq).
  assert ((d, exts) ∈ o_state orc 0 ver (v_state v)) as Hin by (by apply state_elem).
  destruct (iterate_each _ _ _ _ _ _ _ _ _ _ Hb Hin) as (p & ps & s1 & s2 & Hm & Hk).
  assert (q ∈ picked X area exts) as Hp.
  { eapply target_picked; [exact Hk| |done|done]. intros l1 e1 l2 ->. by apply (Ha d l1). }
  apply iterate_ok in Hb as [Hb _]. destruct (Hb q) as [[Hn _]|(d' & exts' & ints & data & Hin' & Hq' & Hm' & Hs & Hl)].
  { rewrite Forall_forall in Hn. by specialize (Hn _ Hin). }
  exists data. split; [|done]. apply state_elem in Hin'; [|done]. apply picked_target in Hq' as (e' & He' & Hq').
  destruct Hs as (p' & ps' & -> & Hp' & Hh'). exists d', e', p', ps'. split; [by exists exts'|done].
Qed.
Lemma wanted_unique X i src area st q data data' : no_clash X area st →
  wanted X i src area st q data → wanted X i src area st q data' → data = data'.
Proof.
  intros Hc (d & e & p & ps & Hl & Hx & Hm & Hs & _) (d' & e' & p' & ps' & Hl' & Hx' & Hm' & Hs' & _).
  pose proof (Hc e d e' d' q Hl Hl' Hx Hx') as ->. congruence.
Qed.
(** The text of the manifest file. *)
Definition text (l : list (string * string)) : string := foldr (λ dq t, (dq.1 +:+ " " +:+ dq.2 +:+ newline) +:+ t) "" l.
Lemma text_cons x l : text (x :: l) = (x.1 +:+ " " +:+ x.2 +:+ newline) +:+ text l.
Proof. done. Qed.
Lemma text_app l1 l2 : text (l1 ++ l2) = text l1 +:+ text l2.
Proof. induction l1 as [|q l1 IH]; [done|]. cbn [app]. by rewrite !text_cons, IH, !str_app_assoc. Qed.
Lemma text_lines d qs : lines d qs = text ((λ q, (d, q)) <$> qs).
Proof. induction qs as [|q qs IH]; [done|]. rewrite fmap_cons, text_cons, <- IH. done. Qed.
Lemma manifest_text X orc i src ver area v t s : oracle_ok orc →
  body X orc i src ver area v t = (s, SOk) → areas_apart X area (v_state v) →
  ∃ l, xs_manifest s = text l ∧ ∀ d q, (d, q) ∈ l ↔ ∃ e, lists (v_state v) e d ∧ x_path X e area = XPath q.
Proof.
  intros Ho Hb Ha. pose proof Hb as Hb'. apply iterate_ok in Hb as [_ Hm]. cbn [xs_manifest] in Hm.
  set (L := o_state orc 0 ver (v_state v)) in *.
  exists (L ≫= λ de, (λ q, (de.1, q)) <$> picked X area de.2). split.
  - rewrite Hm. clear. induction L as [|[d exts] L IH]; [done|]. rewrite bind_cons, text_app. cbn [foldr fst snd].
    by rewrite <- text_lines, <- IH.
  - intros d q. rewrite elem_of_list_bind. split.
    + intros ([d' exts] & Hin & HL). cbn in Hin. apply elem_of_list_fmap in Hin as (q' & [= -> ->] & Hq).
      apply state_elem in HL; [|done]. apply picked_target in Hq as (e & He & Hq). exists e. split; [by exists exts|done].
    + intros (e & (exts & Hst & He) & Hq). assert ((d, exts) ∈ L) as HL by (by apply state_elem).
      destruct (iterate_each _ _ _ _ _ _ _ _ _ _ Hb' HL) as (p & ps & s1 & s2 & _ & Hk).
      exists (d, exts). split; [|done]. cbn. apply elem_of_list_fmap. exists q. split; [done|].
      eapply target_picked; [exact Hk| |done|done]. intros l1 e1 l2 ->. by apply (Ha d l1).
Qed.

(** ** IterateStateFiles *)
Lemma resolve_iterate man l acc :
  iterate (λ ints exts d s, (s ++ [(ints, exts, d)], SOk)) man l acc =
  match resolve_states man l with
  | inl r => (acc ++ r, SOk)
  | inr _ => iterate (λ ints exts d s, (s ++ [(ints, exts, d)], SOk)) man l acc
  end ∧ (resolve_states man l = inr "digest not in manifest" ∨ resolve_states man l = inr "no files for digest" →
         snd (iterate (λ ints exts d s, (s ++ [(ints, exts, d)], SOk)) man l acc) ≠ SOk).
Proof.
  revert acc. induction l as [|[d exts] l IH]; intros acc; cbn [iterate resolve_states].
  { split; [by rewrite app_nil_r|]. by intros [?|?]. }
  destruct (man !! d) as [[|p ps]|]; [by split|  |by split].
  destruct (IH (acc ++ [(p :: ps, exts, d)])) as [H1 H2]. destruct (resolve_states man l) as [r|e].
  - split; [rewrite H1; by rewrite <- app_assoc|]. by intros [?|?].
  - split; [done|]. exact H2.
Qed.
Lemma resolve_ok man l r : resolve_states man l = inl r ↔
  Forall (λ de : string * list string, ∃ p ps, man !! de.1 = Some (p :: ps)) l ∧
  r = (λ de : string * list string, (default [] (man !! de.1), de.2, de.1)) <$> l.
Proof.
  revert r. induction l as [|[d exts] l IH]; intros r; cbn [resolve_states].
  { split; [intros [= <-]; split; [by apply Forall_nil|done]|]. by intros [_ ->]. }
  rewrite Forall_cons, fmap_cons. cbn [fst snd]. destruct (man !! d) as [[|p ps]|] eqn:Em.
  - split; [done|]. intros [[(p & ps & H) _] _]. cbn in H. congruence.
  - destruct (resolve_states man l) as [r0|e].
    + split.
      * intros [= <-]. destruct (proj1 (IH r0) eq_refl) as [HF ->]. split; [|done]. split; [by exists p, ps|done].
      * intros [[_ HF] ->]. pose proof (proj2 (IH _) (conj HF eq_refl)) as HE. injection HE as ->. done.
    + split; [done|]. intros [[_ HF] _]. by specialize (proj2 (IH _) (conj HF eq_refl)).
  - split; [done|]. intros [[(p & ps & H) _] _]. cbn in H. congruence.
Qed.
