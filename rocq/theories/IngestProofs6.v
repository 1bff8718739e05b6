(** Requests in a row, and versions that stay as they are. *)
From Coq Require Import Ascii.
From stdpp Require Import base list strings gmap.
From Coq Require Import ZArith Lia.
From Verif Require Import GoStr PathModel InventoryModel ObjectModel InventorySpec InventoryProofs ObjectSpec ObjectProofs LookupProofs AddProofs
  ClaimsInventory ClaimsInventory2 CrashSpec LoadModel PathProofs CrashProofs LoadProofs SessionProofs PublishSpec PublishProofs PublishProofs2
  PublishProofs3 PublishProofs4 AreaModel AreaSpec ExtractProofs InheritProofs IngestModel IngestSpec IngestProofs IngestProofs2 IngestProofs3 IngestProofs4 IngestProofs5.

Lemma loaded_same E P parse s i i' :
  hex_hash (e_hash E) → json_ok P (e_json E) parse → published E P parse s i → load_inventory (e_hash E) parse s "" = LInv i' [] → same_record i i'.
Proof.
  intros Hhex Hj Hp Hl. destruct (published_closed _ _ _ _ _ Hhex Hj Hp) as (HP0 & n & fam & IH).
  unfold load_inventory in Hl. cbv zeta in Hl. change ("" +:+ "inventory.json") with "inventory.json" in Hl. rewrite (cl_root _ _ _ _ _ IH) in Hl.
  destruct (jo_decode _ _ _ Hj i HP0) as (i1 & Hp1 & Hr). rewrite Hp1 in Hl. cbv zeta in Hl.
  assert (i' = i1) as ->; [|done]. repeat (case_match; try done; try congruence).
Qed.
Lemma loaded_kept E P parse s i i' :
  hex_hash (e_hash E) → json_ok P (e_json E) parse → published E P parse s i → load_inventory (e_hash E) parse s "" = LInv i' [] →
  ∃ n fam, closed E s i n fam ∧ kept E s i' n n fam.
Proof.
  intros Hhex Hj Hp Hl. destruct (published_closed _ _ _ _ _ Hhex Hj Hp) as (HP0 & n & fam & IH). exists n, fam. split; [done|].
  eapply kept_same; [|apply IH]. by eapply loaded_same.
Qed.

(** ** Versions stay *)
Lemma iterate_eq X src src' alg area man man' l s :
  (∀ d exts, (d, exts) ∈ l → ∃ p ps ps', man !! d = Some (p :: ps) ∧ man' !! d = Some (p :: ps') ∧ src' !! p = src !! p) →
  iterate (λ ints exts d s, extract_files X src' alg area ints d exts s) man' l s = iterate (λ ints exts d s, extract_files X src alg area ints d exts s) man l s.
Proof.
  revert s. induction l as [|[d exts] l IH]; intros s H; [done|]. cbn [iterate].
  destruct (H d exts) as (p & ps & ps' & -> & -> & Hp); [left|].
  assert (∀ s, extract_files X src' alg area (p :: ps') d exts s = extract_files X src alg area (p :: ps) d exts s) as Hf.
  { clear - Hp. induction exts as [|e exts IH]; intros s; [done|]. cbn [extract_files]. destruct (x_path X e area) as [q| |]; [|done..].
    assert (extract_file X src' alg (p :: ps') d q s = extract_file X src alg (p :: ps) d q s) as -> by (unfold extract_file; by rewrite Hp).
    destruct (extract_file _ _ _ _ _ _ _) as [s' []]; [apply IH|done..]. }
  rewrite Hf. destruct (extract_files X src alg area (p :: ps) d exts s) as [s' []]; [|done..]. apply IH. intros d' exts' Hin. apply (H d' exts'). by right.
Qed.
Lemma extract_inherited E X orc s i s' i' n ver man area t :
  good (e_hash E) s i n → inherits s i s' i' → oracle_ok orc → is_Some (inv_versions i !! ver) →
  extract X orc i' s' ver man area t = extract X orc i s ver man area t.
Proof.
  intros HG Hin Ho [v Hv].
  assert (∀ j, requested_version j ver = ver) as Hr.
  { intros j. unfold requested_version. rewrite decide_False; [done|]. assert (is_Some (inv_versions i !! ver)) as H by by eexists.
    apply (proj2 (g_contig _ _ _ _ HG)) in H as (k & Hk & ->). intros [H|H]; [by apply version_name_nonempty in H|].
    unfold version_name in H. destruct (decide _); discriminate H. }
  rewrite (extract_body _ _ _ _ _ _ _ _ v) by (rewrite Hr; by apply (ih_vers _ _ _ _ Hin)).
  rewrite (extract_body _ _ _ _ _ _ _ _ v) by (by rewrite Hr). rewrite !Hr, (ih_alg _ _ _ _ Hin). unfold body. rewrite (ih_alg _ _ _ _ Hin).
  rewrite (iterate_eq X s s' (inv_alg i) area (inv_manifest i) (inv_manifest i')); [done|].
  intros d exts Hd. apply state_elem in Hd; [|done]. destruct (g_states _ _ _ _ HG _ _ d Hv) as [ps Hps]; [by eexists|].
  destruct ps as [|c cs]; [by apply (g_nonempty _ _ _ _ HG) in Hps|]. destruct (ih_man _ _ _ _ Hin d _ Hps) as [ext Hext].
  exists c, cs, (cs ++ ext). split; [done|]. split; [done|]. apply (ih_content _ _ _ _ Hin d c). exists (c :: cs). split; [done|left].
Qed.

Lemma head_some E s i n fam : closed E s i n fam → inv_head i = version_name (inv_padding i) n ∧ is_Some (inv_versions i !! inv_head i).
Proof.
  intros Hc. pose proof (g_contig _ _ _ _ (kp_good _ _ _ _ _ _ (cl_kept _ _ _ _ _ Hc))) as Hg. pose proof (cl_some _ _ _ _ _ Hc) as Hn.
  assert (inv_head i = version_name (inv_padding i) n) as Hh by (rewrite (proj1 Hg), decide_False by lia; done). split; [done|].
  rewrite Hh. apply Hg. exists n. split; [lia|done].
Qed.
Lemma latest_is i : requested_version i "latest" = inv_head i.
Proof. unfold requested_version. rewrite decide_True; [done|by right]. Qed.
Lemma extract_latest E X orc s i n fam man area t : closed E s i n fam →
  extract X orc i s "latest" man area t = extract X orc i s (inv_head i) man area t.
Proof.
  intros Hc. destruct (head_some _ _ _ _ _ Hc) as [Hh [v Hv]].
  assert (requested_version i (inv_head i) = inv_head i) as Hr by (unfold requested_version; by destruct (decide _)).
  rewrite (extract_body _ _ _ _ _ _ _ _ v) by (by rewrite latest_is). rewrite (extract_body _ _ _ _ _ _ _ _ v) by (by rewrite Hr). by rewrite latest_is, Hr.
Qed.

(** ** One request *)
Definition held (X : xenv) (s : storage) (i : inventory) (area : string) (t : storage) : Prop :=
  ∀ q x, t !! q = Some x ↔ ∃ v, inv_versions i !! inv_head i = Some v ∧ wanted X i s area (v_state v) q x.
Lemma request_result E P parse X s i n fam orcs orc1 orc2 r folders :
  hex_hash (e_hash E) → json_ok P (e_json E) parse → kept E s i n n fam → supported E i → unique_states i →
  (∀ j k, oracle_ok (orcs j k)) → oracle_ok orc1 → proper_request E i r folders → no_clashes E (inv_alg i) s folders →
  ∃ o, ingest E orcs orc1 orc2 r (given folders) (HDone []) (open_object i) = (o, SOk) ∧
    let s' := apply_evs (ob_trace o) s in
    complete E s i s' (ob_inv o) ∧ inv_padding (ob_inv o) = inv_padding i ∧ inherits s i s' (ob_inv o) ∧ unique_states (ob_inv o) ∧
    (∃ fam', closed E s' (ob_inv o) (n + 1) fam') ∧
    (P (ob_inv o) → ∃ i2, load_inventory (e_hash E) parse s' "" = LInv i2 [] ∧ same_record (ob_inv o) i2) ∧
    ∀ area src t0 orc del, served E X area i folders → folder_of folders area src → deletes E X area i (rq_echo r) del → oracle_ok orc →
      held X s i area t0 → extract X orc (ob_inv o) s' "latest" false area ∅ = (area_after del src t0, SOk) ∧
      held X s' (ob_inv o) area (area_after del src t0).
Proof.
  intros Hhex Hj Hk Hsup Hu Horcs Horc1 [Hnd Hgf Hpl Had Hch Hbase] Hno.
  destruct (ingest_outcome E s i n fam orcs orc1 orc2 r folders) as (o & Hi & Hout & Hhead); auto. exists o. split; [done|]. cbv zeta.
  pose proof (oc_complete _ _ _ _ _ _ _ Hout) as Hcomp. destruct (complete_closed E s i _ _ n fam Hhex Hk Hsup Hcomp) as (n' & fam' & Hc).
  assert (n' = n + 1)%N as ->.
  { destruct (head_some _ _ _ _ _ Hc) as [Hh _]. rewrite Hhead, (oc_pad _ _ _ _ _ _ _ Hout) in Hh. by apply version_name_inj in Hh. }
  split; [done|]. split; [apply Hout|]. split; [by eapply complete_inherits|]. split; [exact (oc_unique _ _ _ _ _ _ _ Hout)|]. split; [by exists fam'|].
  split; [intros HP; by apply (oc_loads _ _ _ _ _ _ _ Hout P)|].
  intros area src t0 orc del Hsv Hsrc Hecho Horc Ht0. destruct (head_some _ _ _ _ _ Hc) as [_ [v Hv]].
  pose proof (kp_good _ _ _ _ _ _ (cl_kept _ _ _ _ _ Hc)) as HG.
  assert (inv_versions (ob_inv o) !! requested_version (ob_inv o) "latest" = Some v) as Hv' by (by rewrite latest_is).
  destruct (extract_works E X _ (ob_inv o) (n + 1) orc "latest" v area HG (sv_hash _ _ _ _ _ Hsv) Horc Hv') as (t & Ht & Hw); [by eapply new_extractable|].
  rewrite Ht. assert (held X (apply_evs (ob_trace o) s) (ob_inv o) area t) as Hheld.
  { intros q x. rewrite Hw. split; [intros H; by exists v|]. intros (v2 & Hv2 & H). congruence. }
  assert (t = area_after del src t0) as <-; [|done]. apply map_eq. intros q. apply option_eq. intros x.
  rewrite Hw, (wanted_new E X s i n fam Hk Hsup folders (rq_echo r) _ _ Hout (n + 1) HG Hpl Hno area Hsv v q x del Hv Hecho).
  unfold area_after. rewrite <- (Hsrc q x). destruct del.
  - split; [by intros [?|(_ & ? & _)]|by left].
  - rewrite lookup_union_Some_raw. apply or_iff_compat_l. rewrite (Ht0 q x).
    assert ((∀ y, ¬ offered folders area q y) ↔ src !! q = None) as ->.
    { split.
      - intros H. destruct (src !! q) as [y|] eqn:Hq; [|done]. apply Hsrc in Hq. by apply H in Hq.
      - intros Hq y Ho. apply Hsrc in Ho. congruence. }
    split; [by intros (? & _ & ?)|by intros (? & ?)].
Qed.
Lemma held_fresh X s i area : inv_versions i = ∅ → held X s i area ∅.
Proof. intros Hv q x. rewrite lookup_empty, Hv. split; [done|]. intros (v & H & _). by rewrite lookup_empty in H. Qed.
Lemma held_before E X s i n fam folders area orc :
  closed E s i n fam → unique_states i → served E X area i folders → oracle_ok orc →
  ∃ t, extract X orc i s "latest" false area ∅ = (t, SOk) ∧ held X s i area t.
Proof.
  intros Hc Hu Hsv Ho. destruct (head_some _ _ _ _ _ Hc) as [_ [v Hv]]. pose proof (kp_good _ _ _ _ _ _ (cl_kept _ _ _ _ _ Hc)) as HG.
  assert (inv_versions i !! requested_version i "latest" = Some v) as Hv' by (by rewrite latest_is).
  destruct (extract_works E X s i n orc "latest" v area HG (sv_hash _ _ _ _ _ Hsv) Ho Hv') as (t & Ht & Hw); [by eapply previous_extractable|].
  exists t. split; [done|]. intros q x. rewrite Hw. split; [intros H; by exists v|]. intros (v2 & Hv2 & H). congruence.
Qed.
Lemma closed_same E s i i' n fam : same_record i i' → kept E s i n n fam → (1 <= n)%N → is_Some (inv_versions i' !! inv_head i') ∧ inv_head i' = version_name (inv_padding i') n.
Proof.
  intros Hr Hk Hn. pose proof (kept_same _ _ _ _ _ _ _ Hr Hk) as Hk'. pose proof (g_contig _ _ _ _ (kp_good _ _ _ _ _ _ Hk')) as Hg.
  assert (inv_head i' = version_name (inv_padding i') n) as Hh by (rewrite (proj1 Hg), decide_False by lia; done). split; [|done].
  rewrite Hh. apply Hg. exists n. split; [lia|done].
Qed.
Lemma unique_same i i' : same_record i i' → unique_states i → unique_states i'.
Proof. intros Hr H ver v. rewrite (sr_vers _ _ Hr). apply H. Qed.
Lemma held_same X s i i' area t : same_record i i' → held X s i' area t ↔ held X s i area t.
Proof.
  intros Hr. unfold held, wanted. by rewrite (sr_vers _ _ Hr), (sr_head _ _ Hr), (sr_man _ _ Hr), (sr_alg _ _ Hr).
Qed.

(** ** Requests in a row *)
Lemma archived_result E X area P parse ts s i :
  hex_hash (e_hash E) → json_ok P (e_json E) parse → archived E X area P parse ts s i →
  published E P parse s i ∧ unique_states i ∧ ∃ n fam, closed E s i n fam ∧ N.of_nat (length ts) = n ∧
    (∃ t ts', ts = t :: ts' ∧ held X s i area t) ∧
    ∀ k t orc, oracle_ok orc → rev ts !! k = Some t → extract X orc i s (version_name (inv_padding i) (N.of_nat k + 1)) false area ∅ = (t, SOk).
Proof.
  intros Hhex Hj. induction 1 as [s i orcs orc1 orc2 r folders src o Hf Hd Hsup Horcs Horc1 Hq Hno Hsv Hsrc Hi HP|
    t ts s i0 i orcs orc1 orc2 r folders src o del Ha IH Hl Hsup Horcs Horc1 Hq Hno Hsv Hecho Hsrc Hi HP].
  - assert (unique_states i) as Hu.
    { intros ver v Hv. destruct (fr_empty _ Hf) as (_ & H & _). by rewrite H, lookup_empty in Hv. }
    assert (held X s i area ∅) as Hh by (apply held_fresh, (fr_empty _ Hf)).
    assert (deletes E X area i (rq_echo r) false) as Hec.
    { right. intros b np d q _ (v & Hv & _). destruct (fr_empty _ Hf) as (_ & H & _). by rewrite H, lookup_empty in Hv. }
    destruct (request_result E P parse X s i 0 (λ _, i) orcs orc1 orc2 r folders Hhex Hj (fresh_kept E s i Hf Hd) Hsup Hu Horcs Horc1 Hq Hno)
      as (o' & Hi' & Hcomp & Hpad & Hin & Hu' & (fam' & Hc) & Hld & Hres).
    rewrite Hi in Hi'. apply (f_equal fst) in Hi'. cbn [fst] in Hi'. subst o'.
    assert (∀ orc, oracle_ok orc → extract X orc (ob_inv o) (apply_evs (ob_trace o) s) "latest" false area ∅ = (src, SOk)) as Hex.
    { intros orc Ho. rewrite (proj1 (Hres area src ∅ orc false Hsv Hsrc Hec Ho Hh)). unfold area_after. by rewrite (right_id_L ∅ (∪)). }
    split; [by eapply published_first|]. split; [done|]. exists (0 + 1)%N, fam'. split; [done|]. split; [done|]. split.
    { exists src, []. split; [done|]. destruct (Hres area src ∅ default_oracle false Hsv Hsrc Hec ltac:(by split) Hh) as [_ H]. revert H.
      unfold area_after. by rewrite (right_id_L ∅ (∪)). }
    intros k t orc Ho Hk. destruct k as [|k]; [|by destruct k]. injection Hk as <-. rewrite <- (Hex orc Ho).
    rewrite (extract_latest E _ _ _ _ _ _ _ _ _ Hc). by rewrite (proj1 (head_some _ _ _ _ _ Hc)).
  - destruct IH as (Hp & Hu0 & n & fam & Hc0 & Hlen & (t' & ts' & [= <- <-] & Hh0) & Hold).
    pose proof (loaded_same _ _ _ _ _ _ Hhex Hj Hp Hl) as Hr. pose proof (kept_same _ _ _ _ _ _ _ Hr (cl_kept _ _ _ _ _ Hc0)) as Hk.
    pose proof (unique_same _ _ Hr Hu0) as Hu.
    destruct (request_result E P parse X s i n fam orcs orc1 orc2 r folders Hhex Hj Hk Hsup Hu Horcs Horc1 Hq Hno)
      as (o' & Hi' & Hcomp & Hpad & Hin & Hu' & (fam' & Hc) & Hld & Hres).
    rewrite Hi in Hi'. apply (f_equal fst) in Hi'. cbn [fst] in Hi'. subst o'.
    assert (held X s i area t) as Hh by (by apply (held_same X s i0 i)).
    assert (∀ orc, oracle_ok orc → extract X orc (ob_inv o) (apply_evs (ob_trace o) s) "latest" false area ∅ = (area_after del src t, SOk)) as Hex.
    { intros orc Ho. by apply Hres. }
    split; [by eapply published_next|]. split; [done|]. exists (n + 1)%N, fam'. split; [done|]. split; [cbn [length] in *; lia|]. split.
    { eexists _, _. split; [done|]. apply (Hres area src t default_oracle del Hsv Hsrc Hecho ltac:(by split) Hh). }
    intros k t2 orc Ho Hk2. change (rev (?a :: t :: ts)) with (rev (t :: ts) ++ [a]) in Hk2. apply lookup_app_Some in Hk2 as [Hk2|[Hlk Hk2]].
    + assert (k < length (t :: ts)) as Hlt by (rewrite <- rev_length; by eapply lookup_lt_Some).
      specialize (Hold k t2 orc Ho Hk2). rewrite <- Hold, <- (extract_same X orc i0 i) by done. rewrite Hpad, (sr_pad _ _ Hr).
      eapply (extract_inherited E); [apply (kp_good _ _ _ _ _ _ Hk)|done|done|].
      apply (proj2 (g_contig _ _ _ _ (kp_good _ _ _ _ _ _ Hk))). exists (N.of_nat k + 1)%N. rewrite (sr_pad _ _ Hr). split; [lia|done].
    + rewrite rev_length in Hlk, Hk2. assert (k = length (t :: ts)) as ->.
      { apply lookup_lt_Some in Hk2 as H. cbn [length] in *. lia. }
      rewrite Nat.sub_diag in Hk2. injection Hk2 as <-. rewrite <- (Hex orc Ho). rewrite (extract_latest E _ _ _ _ _ _ _ _ _ Hc).
      rewrite (proj1 (head_some _ _ _ _ _ Hc)), Hlen. done.
Qed.
