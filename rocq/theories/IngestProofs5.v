(** Getting the folders back. *)
From Coq Require Import Ascii.
From stdpp Require Import base list strings gmap.
From Coq Require Import ZArith Lia.
From Verif Require Import GoStr PathModel InventoryModel ObjectModel InventorySpec InventoryProofs ObjectSpec ObjectProofs LookupProofs AddProofs
  ClaimsInventory ClaimsInventory2 CrashSpec LoadModel PathProofs CrashProofs LoadProofs SessionProofs PublishSpec PublishProofs PublishProofs2
  PublishProofs3 PublishProofs4 AreaModel AreaSpec ExtractProofs InheritProofs IngestModel IngestSpec IngestProofs IngestProofs2 IngestProofs3 IngestProofs4.

(** A version can be extracted: no path fails, contents of the area are apart, no two paths go to the same place. *)
Record extractable (X : xenv) (area : string) (st : smap) : Prop := Extractable {
  ex_can : ∀ q, x_can X q = true;
  ex_path : ∀ e d, lists st e d → x_path X e area ≠ XErr;
  ex_apart : areas_apart X area st;
  ex_clash : no_clash X area st
}.

Lemma extract_files_pass X src alg area c cs d exts data s :
  (∀ q, x_can X q = true) → (∀ e, e ∈ exts → x_path X e area ≠ XErr) → src !! c = Some data → x_hash X alg data = Some d →
  snd (extract_files X src alg area (c :: cs) d exts s) = SOk.
Proof.
  intros Hc He Hs Hh. revert s. induction exts as [|e exts IH]; intros s; [done|]. cbn [extract_files].
  destruct (x_path X e area) as [q| |] eqn:Eq; [|done|].
  - unfold extract_file. rewrite Hs, Hc, Hh. rewrite decide_True by done. apply IH. intros e' H. apply He. by right.
  - exfalso. by apply (He e); [left|].
Qed.
Lemma extract_works E X s i n orc ver v area :
  good (e_hash E) s i n → x_hash X = e_hash E → oracle_ok orc → inv_versions i !! requested_version i ver = Some v →
  extractable X area (v_state v) →
  ∃ t, extract X orc i s ver false area ∅ = (t, SOk) ∧ ∀ q x, t !! q = Some x ↔ wanted X i s area (v_state v) q x.
Proof.
  intros HG Hh Ho Hv [Hcan Hpath Hap Hcl].
  destruct (body X orc i s (requested_version i ver) area v ∅) as [xs st] eqn:Eb.
  assert (st = SOk) as ->.
  { change st with (snd (xs, st)). rewrite <- Eb. unfold body. apply iterate_status. apply Forall_forall. intros [d exts] Hin.
    apply state_elem in Hin; [|done]. unfold passes. cbn [fst snd].
    destruct (g_states _ _ _ _ HG _ _ d Hv) as [ps Hps]; [by eexists|]. destruct ps as [|c cs]; [by apply (g_nonempty _ _ _ _ HG) in Hps|].
    exists c, cs. split; [done|]. destruct (g_content _ _ _ _ HG d c) as (data & Hd & Hx); [exists (c :: cs); split; [done|left]|].
    apply (extract_files_pass X s (inv_alg i) area c cs d exts data); auto; [|by rewrite Hh]. intros e He. apply (Hpath e d). by exists exts. }
  exists (xs_files xs). split; [by rewrite (extract_body _ _ _ _ _ _ _ _ v Hv), Eb|]. intros q x. split.
  - intros Hq. destruct (only_stored X orc i s (requested_version i ver) area v ∅ xs Ho Eb q) as [H|(data & Hw & H)].
    + rewrite H in Hq. by rewrite lookup_empty in Hq.
    + rewrite H in Hq. by injection Hq as ->.
  - intros Hw. assert (target_name X area (v_state v) q) as Ht.
    { destruct Hw as (d & e & p & ps & Hl & Hp & _). by exists d, e. }
    destruct (exact X orc i s (requested_version i ver) area v ∅ xs Ho Eb Hap Hcl q Ht) as (data & Hw' & Hl). rewrite Hl. f_equal.
    by apply (wanted_unique X i s area (v_state v) q).
Qed.

(** The content that a version had keeps its meaning. *)
Lemma wanted_inherited E X s i s' i' n area ver v q x :
  good (e_hash E) s i n → inherits s i s' i' → inv_versions i !! ver = Some v →
  wanted X i' s' area (v_state v) q x ↔ wanted X i s area (v_state v) q x.
Proof.
  intros HG [_ _ ih_alg0 ih_vers0 ih_man0 ih_content0] Hv. split; intros (d & e & p & ps & Hl & Hp & Hm & Hs & Hh); exists d, e.
  - assert (is_Some (v_state v !! d)) as Hd by (destruct Hl as (l & H & _); by eexists).
    destruct (g_states _ _ _ _ HG _ _ d Hv Hd) as [ps0 Hps]. destruct ps0 as [|c cs]; [by apply (g_nonempty _ _ _ _ HG) in Hps|].
    destruct (ih_man0 d _ Hps) as [ext Hext]. rewrite Hm in Hext. injection Hext as -> _. exists c, cs.
    rewrite (ih_content0 d c) in Hs by (exists (c :: cs); split; [done|left]). rewrite ih_alg0 in Hh. done.
  - destruct (ih_man0 d _ Hm) as [ext Hext]. exists p, (ps ++ ext). split; [done|]. split; [done|]. split; [done|].
    rewrite ih_alg0. split; [|done]. rewrite (ih_content0 d p); [done|]. exists (p :: ps). split; [done|left].
Qed.

Section result.
  Context (E : env) (X : xenv) (s : storage) (i : inventory) (n : N) (fam : N → inventory) (Hk : kept E s i n n fam) (Hsup : supported E i).
  Context (Hu : ∀ ver v, inv_versions i !! ver = Some v → unique_paths (v_state v)).
  Context (folders : list (string * node)) (echo : bool) (s' : storage) (i' : inventory) (Hout : outcome E s i folders echo s' i').
  Context (n' : N) (HG' : good (e_hash E) s' i' n').
  Context (Hpl : placed E folders) (Hno : no_clashes E (inv_alg i) s folders) (area : string) (Hsv : served E X area i folders).

  Lemma result_source np d : current i' np d → current i np d ∨ brings E i folders np d.
  Proof using Hout. clear - Hout. intros [H|(_ & H & _)]%(oc_current _ _ _ _ _ _ _ Hout); [by right|by left]. Qed.
  (** Where a path of the area comes from. *)
  Lemma area_path np d q : current i np d ∨ brings E i folders np d → x_path X np area = XPath q → e_state_path E q area = Some np.
  Proof using Hsv.
    clear - Hsv. intros [Hc|(a & p & x & Ho & Hnp & _)] Hq.
    - destruct (sv_old _ _ _ _ _ Hsv np d Hc) as [H|(q' & H & Hs)]; congruence.
    - destruct (decide (a = area)) as [->|Hne].
      + rewrite (sv_back _ _ _ _ _ Hsv p x np Ho Hnp) in Hq. by injection Hq as ->.
      + rewrite (sv_other _ _ _ _ _ Hsv a p x np Ho Hnp Hne) in Hq. done.
  Qed.
  Lemma no_error np d : current i np d ∨ brings E i folders np d → x_path X np area ≠ XErr.
  Proof using Hsv.
    clear - Hsv. intros [Hc|(a & p & x & Ho & Hnp & _)].
    - destruct (sv_old _ _ _ _ _ Hsv np d Hc) as [H|(q' & H & Hs)]; congruence.
    - destruct (decide (a = area)) as [->|Hne].
      + by rewrite (sv_back _ _ _ _ _ Hsv p x np Ho Hnp).
      + by rewrite (sv_other _ _ _ _ _ Hsv a p x np Ho Hnp Hne).
  Qed.
  Lemma extractable_of st : unique_paths st → (∀ np d, lists st np d → current i np d ∨ brings E i folders np d) → extractable X area st.
  Proof using Hsv.
    clear - Hsv. intros [Hun _] Hsrc. split.
    - apply Hsv.
    - intros e d Hl. by apply (no_error e d), Hsrc.
    - intros d l1 e l2 Hd He. apply Forall_forall. intros e' He'. apply (sv_pure _ _ _ _ _ Hsv e e' d); [..|done]; apply Hsrc; exists (l1 ++ e :: l2); (split; [done|]).
      + apply elem_of_app. right. left.
      + apply elem_of_app. right. by right.
    - intros e d e' d' q Hl Hl' Hq Hq'. pose proof (area_path e d q (Hsrc _ _ Hl) Hq) as H1. pose proof (area_path e' d' q (Hsrc _ _ Hl') Hq') as H2.
      rewrite H1 in H2. injection H2 as <-. by apply (Hun e).
  Qed.
  (** The content that the manifest has for a digest after the ingest. *)
  Lemma content_offered d c cs x y a p :
    inv_manifest i' !! d = Some (c :: cs) → s' !! c = Some x → e_hash E (inv_alg i') x = Some d →
    offered folders a p y → e_hash E (inv_alg i) y = Some d → x = y.
  Proof using Hout Hno.
    clear - Hout Hno. intros Hm Hx Hd Ho Hy. rewrite (oc_alg _ _ _ _ _ _ _ Hout) in Hd.
    assert (lists (inv_manifest i') c d) as Hl by (exists (c :: cs); split; [done|left]).
    apply (Hno x y d); [|right; by exists a, p|done|done].
    destruct (oc_man _ _ _ _ _ _ _ Hout c d Hl) as [[_ H]|(a' & p' & x' & Ho' & Hd' & H)].
    - left. exists c. congruence.
    - right. exists a', p'. congruence.
  Qed.
  Lemma content_old d c cs c' cs' : lists (inv_manifest i) c d → inv_manifest i !! d = Some (c :: cs) → inv_manifest i' !! d = Some (c' :: cs') → c' = c ∧ s' !! c = s !! c.
  Proof using Hk Hsup Hout Hno.
    clear - Hk Hsup Hout Hno. intros Hl Hm Hm'. destruct (oc_first _ _ _ _ _ _ _ Hout d c cs Hm) as [cs2 Hm2]. rewrite Hm' in Hm2. injection Hm2 as -> _. split; [done|].
    assert (lists (inv_manifest i') c d) as Hl' by (exists (c :: cs'); split; [done|left]).
    destruct (oc_man _ _ _ _ _ _ _ Hout c d Hl') as [[_ H]|(a' & p' & x' & Ho' & Hd' & H)]; [done|].
    destruct (g_content _ _ _ _ (kp_good _ _ _ _ _ _ Hk) d c Hl) as (data & Hd & Hx). rewrite H, Hd. f_equal.
    apply (Hno x' data d); [right; by exists a', p'|left; by exists c|done|done].
  Qed.

  Lemma previous_extractable v : inv_versions i !! inv_head i = Some v → extractable X area (v_state v).
  Proof using Hu Hsv.
    clear - Hu Hsv. intros Hv. apply extractable_of; [by eapply Hu|]. intros np d Hl. left. by exists v.
  Qed.
  Lemma new_extractable v : inv_versions i' !! inv_head i' = Some v → extractable X area (v_state v).
  Proof using Hout Hsv.
    clear - Hout Hsv. intros Hv. apply extractable_of; [by eapply oc_unique|]. intros np d Hl. apply result_source. by exists v.
  Qed.
  (** What has to be extracted after the ingest: what was offered, and what was there, unless it was replaced or echo deletion is on. *)
  Lemma wanted_new v q x del : inv_versions i' !! inv_head i' = Some v → deletes E X area i echo del →
    wanted X i' s' area (v_state v) q x ↔ offered folders area q x ∨
      (∀ y, ¬ offered folders area q y) ∧ del = false ∧ ∃ v0, inv_versions i !! inv_head i = Some v0 ∧ wanted X i s area (v_state v0) q x.
  Proof using Hk Hsup Hout HG' Hpl Hno Hsv.
    intros Hv Hecho. pose proof (sv_hash _ _ _ _ _ Hsv) as Hxh. split.
    - intros (d & np & c & cs & Hl & Hq & Hm & Hs & Hh). rewrite Hxh in Hh. assert (current i' np d) as Hc by (by exists v).
      apply (oc_current _ _ _ _ _ _ _ Hout) in Hc as [Hb|(Hnb & Hc & Hpre)].
      + left. pose proof (area_path np d q (or_intror Hb) Hq) as Hnp. destruct Hb as (a & p & y & Ho & Hnp' & Hy).
        assert (x = y) as -> by exact (content_offered d c cs x y a p Hm Hs Hh Ho Hy).
        destruct (decide (a = area)) as [->|Hne].
        * rewrite (sv_back _ _ _ _ _ Hsv p y np Ho Hnp') in Hq. by injection Hq as ->.
        * rewrite (sv_other _ _ _ _ _ Hsv a p y np Ho Hnp' Hne) in Hq. done.
      + right. pose proof (area_path np d q (or_introl Hc) Hq) as Hnp. split; [|split].
        * intros y Ho. destruct (Hsup (inv_alg i) y) as [e He]; [by left|]. apply (Hnb e). by exists area, q, y.
        * destruct del; [|done]. exfalso. destruct Hecho as (Hechot & b & Hb & Hcov). specialize (Hcov np d q Hc Hq). specialize (Hpre Hechot b Hb).
          destruct Hcov as [r ->]. fold (base_of b) in Hpre. rewrite (proj2 (has_prefix_spec _ _)) in Hpre; [done|by exists r].
        * destruct Hc as (v0 & Hv0 & Hl0). exists v0. split; [done|]. assert (is_Some (v_state v0 !! d)) as Hd by (destruct Hl0 as (l & H & _); by eexists).
          destruct (g_states _ _ _ _ (kp_good _ _ _ _ _ _ Hk) _ _ d Hv0 Hd) as [ps0 Hps].
          destruct ps0 as [|c0 cs0]; [by apply (g_nonempty _ _ _ _ (kp_good _ _ _ _ _ _ Hk)) in Hps|].
          assert (lists (inv_manifest i) c0 d) as Hl1 by (exists (c0 :: cs0); split; [done|left]).
          destruct (content_old d c0 cs0 c cs Hl1 Hps Hm) as [-> Hsame]. exists d, np, c0, cs0. rewrite Hxh.
          rewrite (oc_alg _ _ _ _ _ _ _ Hout) in Hh. rewrite <- Hsame. done.
    - intros [Ho|(Hno' & Hech & v0 & Hv0 & d & np & c & cs & Hl & Hq & Hm & Hs & Hh)].
      + destruct (pl_file _ _ Hpl _ _ _ Ho) as (np & m & Hnp & _ & _). destruct (Hsup (inv_alg i) x) as [d Hd]; [by left|].
        assert (current i' np d) as (v' & Hv' & Hl).
        { apply (oc_current _ _ _ _ _ _ _ Hout). left. by exists area, q, x. }
        rewrite Hv in Hv'. injection Hv' as <-. assert (is_Some (v_state v !! d)) as Hsd by (destruct Hl as (l & H & _); by eexists).
        destruct (g_states _ _ _ _ HG' _ _ d Hv Hsd) as [ps0 Hps]. destruct ps0 as [|c cs]; [by apply (g_nonempty _ _ _ _ HG') in Hps|].
        destruct (g_content _ _ _ _ HG' d c) as (data & Hs & Hh); [exists (c :: cs); split; [done|left]|].
        assert (data = x) as -> by exact (content_offered d c cs data x area q Hps Hs Hh Ho Hd).
        exists d, np, c, cs. split; [done|]. split; [by apply (sv_back _ _ _ _ _ Hsv q x)|]. by rewrite Hxh.
      + assert (current i np d) as Hc by (by exists v0).
        assert (current i' np d) as (v' & Hv' & Hl').
        { apply (oc_current _ _ _ _ _ _ _ Hout). right. split; [|split; [done|]].
          2: { intros Het b Hb. rewrite Hech in Hecho. destruct Hecho as [Hf|Hsp]; [congruence|]. specialize (Hsp b np d q Hb Hc Hq).
            destruct (has_prefix (base_of b) np) eqn:Hpp; [|done]. by apply has_prefix_spec in Hpp. }
          intros d' (a & p & y & Ho & Hnp & _). destruct (decide (a = area)) as [->|Hne].
          - rewrite (sv_back _ _ _ _ _ Hsv p y np Ho Hnp) in Hq. injection Hq as ->. by apply (Hno' y).
          - rewrite (sv_other _ _ _ _ _ Hsv a p y np Ho Hnp Hne) in Hq. done. }
        rewrite Hv in Hv'. injection Hv' as <-. destruct (oc_first _ _ _ _ _ _ _ Hout d c cs Hm) as [cs' Hm'].
        assert (lists (inv_manifest i) c d) as Hl1 by (exists (c :: cs); split; [done|left]).
        destruct (content_old d c cs c cs' Hl1 Hm Hm') as [_ Hsame]. exists d, np, c, cs'. rewrite (oc_alg _ _ _ _ _ _ _ Hout), Hsame. done.
  Qed.
End result.

(** Extraction reads only what the loader restores. *)
Lemma extract_same X orc i i' s ver man area t : same_record i i' → extract X orc i' s ver man area t = extract X orc i s ver man area t.
Proof. intros []. unfold extract. by rewrite sr_head, sr_vers, sr_man, sr_alg. Qed.
