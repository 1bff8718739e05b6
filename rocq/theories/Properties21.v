(** Ingesting with extensions that change the object at the end of the request: C55, C56. *)
From Coq Require Import Ascii.
From stdpp Require Import base list strings gmap.
From Coq Require Import ZArith Lia.
From Verif Require Import GoStr PathModel InventoryModel ObjectModel InventorySpec ObjectSpec CrashSpec LoadModel ValidateModel SessionProofs PublishSpec PublishProofs PublishProofs2
  PublishProofs3 PublishProofs4 AreaModel AreaSpec InheritProofs IngestModel IngestSpec IngestProofs IngestProofs2 IngestProofs3 IngestProofs4 IngestProofs5 IngestProofs6 IngestProofs7
  HookSpec HookProofs HookProofs2 HookProofs3 Fixtures Fixtures2 Fixtures5 Fixtures8 Fixtures10 Fixtures11 Properties16.

(** * C55 with hooks: a created object gives the folders back *)

(** The extensions may add, delete, rename and copy files in the same version (UpdateObjectAfter) and in further versions that they
    open themselves (DoNewVersion), any number of times.  If the call succeeds, then every place of the area that no such call names
    holds what the folder had there, also if that is nothing.  Partial: the calls must be [orderly] and the newest version [retrievable]. *)
Theorem C55_hooks_partial E P parse X s i orcs orc1 orc2 r folders h o :
  hex_hash (e_hash E) → json_ok P (e_json E) parse → fresh i → declared s → supported E i →
  (∀ j k, oracle_ok (orcs j k)) → oracle_ok orc1 →
  NoDup (fst <$> folders) → (∀ a t, (a, t) ∈ folders → good_folder t) → placed E folders → (∃ a p x, offered folders a p x) →
  is_Some (e_state_path E "." "") → no_clashes E (inv_alg i) s folders →
  hooks_satisfy E (orderly E) orcs orc1 r folders h i →
  ingest E orcs orc1 orc2 r (given folders) h (open_object i) = (o, SOk) → P (ob_inv o) →
  let s' := apply_evs (ob_trace o) s in
  published E P parse s' (ob_inv o) ∧ ∃ i', load_inventory (e_hash E) parse s' "" = LInv i' [] ∧ unique_states i' ∧
  ∀ area T src orc, served E X area i folders → folder_of folders area src → hooks_satisfy E (stays_in E X area T) orcs orc1 r folders h i →
    retrievable X area (ob_inv o) → oracle_ok orc →
    ∃ t, extract X orc i' s' "latest" false area ∅ = (t, SOk) ∧ ∀ q, ¬ T q → t !! q = src !! q.
Proof.
  intros Hhex Hj Hf Hd Hsup Horcs Horc1 Hn Hg Hp Ho Hdot Hno Hh Hi HP.
  pose proof (fresh_proper E i r folders Hf Hsup Hn Hg Hp Ho Hdot) as Hq.
  assert (∀ ver v, inv_versions i !! ver ≠ Some v) as Hnone.
  { intros ver v Hv. destruct (fr_empty _ Hf) as (_ & H & _). by rewrite H, lookup_empty in Hv. }
  assert (unique_states i) as Hu by (intros ver v Hv; by apply Hnone in Hv).
  destruct (request_hooks E P parse X s i 0 (λ _, i) orcs orc1 orc2 r folders h o Hhex Hj (fresh_kept E s i Hf Hd) Hsup Hu Horcs Horc1 Hq Hno Hh Hi)
    as (Hcomp & Hu' & _ & Hld & Hres).
  cbv zeta. split; [exact (published_first _ _ _ _ _ _ _ Hf Hd Hsup Hcomp HP)|].
  destruct (Hld HP) as (i' & Hl & Hr). exists i'. split; [exact Hl|]. split; [exact (unique_same _ _ Hr Hu')|]. intros area T src orc Hsv Hsrc HT Hrt Horc.
  rewrite (extract_same _ _ _ _ _ _ _ _ _ Hr).
  destruct (Hres area T src ∅ orc false Hsv Hsrc ltac:(right; intros b np d q _ (v & Hv & _); by apply Hnone in Hv) HT Hrt Horc
    (held_fresh _ _ _ _ (proj1 (proj2 (fr_empty _ Hf))))) as (t & Ht & Heq).
  exists t. split; [exact Ht|]. intros q Hnt. rewrite (Heq q Hnt). unfold area_after. by rewrite (right_id_L ∅ (∪)).
Qed.
(** If no call of the extensions goes to the area, then the area comes back as it was. *)
Theorem C55_hooks_elsewhere_partial E P parse X s i orcs orc1 orc2 r folders h o area src orc :
  hex_hash (e_hash E) → json_ok P (e_json E) parse → fresh i → declared s → supported E i →
  (∀ j k, oracle_ok (orcs j k)) → oracle_ok orc1 →
  NoDup (fst <$> folders) → (∀ a t, (a, t) ∈ folders → good_folder t) → placed E folders → (∃ a p x, offered folders a p x) →
  is_Some (e_state_path E "." "") → no_clashes E (inv_alg i) s folders →
  hooks_satisfy E (orderly E) orcs orc1 r folders h i →
  ingest E orcs orc1 orc2 r (given folders) h (open_object i) = (o, SOk) → P (ob_inv o) →
  served E X area i folders → folder_of folders area src → hooks_satisfy E (stays_in E X area (λ _, False)) orcs orc1 r folders h i →
  retrievable X area (ob_inv o) → oracle_ok orc →
  ∃ i', load_inventory (e_hash E) parse (apply_evs (ob_trace o) s) "" = LInv i' [] ∧
    extract X orc i' (apply_evs (ob_trace o) s) "latest" false area ∅ = (src, SOk).
Proof.
  intros Hhex Hj Hf Hd Hsup Horcs Horc1 Hn Hg Hp Ho Hdot Hno Hh Hi HP Hsv Hsrc HT Hrt Horc.
  destruct (C55_hooks_partial E P parse X s i orcs orc1 orc2 r folders h o Hhex Hj Hf Hd Hsup Horcs Horc1 Hn Hg Hp Ho Hdot Hno Hh Hi HP)
    as (_ & i' & Hl & _ & Hres). exists i'. split; [exact Hl|]. destruct (Hres area (λ _, False) src orc Hsv Hsrc HT Hrt Horc) as (t & Ht & Heq).
  rewrite Ht. f_equal. apply map_eq. intros q. apply Heq. by intros [].
Qed.

(** * C56 with hooks *)
Theorem C56_hooks_partial E P parse X s i0 i orcs orc1 orc2 r folders h o :
  hex_hash (e_hash E) → json_ok P (e_json E) parse → published E P parse s i0 → load_inventory (e_hash E) parse s "" = LInv i [] → supported E i →
  unique_states i → (∀ j k, oracle_ok (orcs j k)) → oracle_ok orc1 → proper_request E i r folders → no_clashes E (inv_alg i) s folders →
  hooks_satisfy E (orderly E) orcs orc1 r folders h i →
  ingest E orcs orc1 orc2 r (given folders) h (open_object i) = (o, SOk) → P (ob_inv o) →
  let s' := apply_evs (ob_trace o) s in
  published E P parse s' (ob_inv o) ∧ ∃ i', load_inventory (e_hash E) parse s' "" = LInv i' [] ∧ unique_states i' ∧
  ∀ area T src orc del, served E X area i folders → folder_of folders area src → deletes E X area i (rq_echo r) del →
    hooks_satisfy E (stays_in E X area T) orcs orc1 r folders h i → retrievable X area (ob_inv o) → oracle_ok orc →
    ∃ before after, extract X orc i s "latest" false area ∅ = (before, SOk) ∧ extract X orc i' s' "latest" false area ∅ = (after, SOk) ∧
      ∀ q, ¬ T q → after !! q = area_after del src before !! q.
Proof.
  intros Hhex Hj Hp Hl Hsup Hu Horcs Horc1 Hq Hno Hh Hi HP. destruct (loaded_kept _ _ _ _ _ _ Hhex Hj Hp Hl) as (n & fam & Hc0 & Hk).
  pose proof (loaded_same _ _ _ _ _ _ Hhex Hj Hp Hl) as Hr0.
  destruct (request_hooks E P parse X s i n fam orcs orc1 orc2 r folders h o Hhex Hj Hk Hsup Hu Horcs Horc1 Hq Hno Hh Hi)
    as (Hcomp & Hu' & _ & Hld & Hres).
  cbv zeta. split; [exact (published_next _ _ _ _ _ _ _ _ Hp Hl Hsup Hcomp HP)|].
  destruct (Hld HP) as (i' & Hl' & Hr). exists i'. split; [exact Hl'|]. split; [exact (unique_same _ _ Hr Hu')|]. intros area T src orc del Hsv Hsrc Hdel HT Hrt Horc.
  assert (unique_states i0) as Hu0 by (intros ver v; rewrite <- (sr_vers _ _ Hr0); apply Hu).
  assert (served E X area i0 folders) as Hsv0.
  { assert (∀ np d, current i0 np d ↔ current i np d) as Hcur by (intros np d; unfold current, recorded; by rewrite (sr_vers _ _ Hr0), (sr_head _ _ Hr0)).
    assert (∀ np d, brings E i0 folders np d ↔ brings E i folders np d) as Hbr by (intros np d; unfold brings; by rewrite (sr_alg _ _ Hr0)).
    destruct Hsv as [V1 V2 V3 V4 V5 V6]. split; try done.
    - intros np d H. apply (V5 np d). by apply Hcur.
    - intros np np' d H1 H2. apply (V6 np np' d); [by rewrite <- Hcur, <- Hbr|by rewrite <- Hcur, <- Hbr]. }
  destruct (held_before E X s i0 n fam folders area orc Hc0 Hu0 Hsv0 Horc) as (t0 & Ht0 & Hh0). exists t0.
  apply (held_same X s i0 i area t0 Hr0) in Hh0. destruct (Hres area T src t0 orc del Hsv Hsrc Hdel HT Hrt Horc Hh0) as (t & Ht & Heq).
  exists t. rewrite (extract_same _ _ _ _ _ _ _ _ _ Hr0), (extract_same _ _ _ _ _ _ _ _ _ Hr). split; [exact Ht0|]. split; [exact Ht|exact Heq].
Qed.
Theorem C56_hooks_elsewhere_partial E P parse X s i0 i orcs orc1 orc2 r folders h o area src orc del :
  hex_hash (e_hash E) → json_ok P (e_json E) parse → published E P parse s i0 → load_inventory (e_hash E) parse s "" = LInv i [] → supported E i →
  unique_states i → (∀ j k, oracle_ok (orcs j k)) → oracle_ok orc1 → proper_request E i r folders → no_clashes E (inv_alg i) s folders →
  hooks_satisfy E (orderly E) orcs orc1 r folders h i →
  ingest E orcs orc1 orc2 r (given folders) h (open_object i) = (o, SOk) → P (ob_inv o) →
  served E X area i folders → folder_of folders area src → deletes E X area i (rq_echo r) del →
  hooks_satisfy E (stays_in E X area (λ _, False)) orcs orc1 r folders h i → retrievable X area (ob_inv o) → oracle_ok orc →
  ∃ i' before, load_inventory (e_hash E) parse (apply_evs (ob_trace o) s) "" = LInv i' [] ∧ extract X orc i s "latest" false area ∅ = (before, SOk) ∧
    extract X orc i' (apply_evs (ob_trace o) s) "latest" false area ∅ = (area_after del src before, SOk).
Proof.
  intros Hhex Hj Hp Hl Hsup Hu Horcs Horc1 Hq Hno Hh Hi HP Hsv Hsrc Hdel HT Hrt Horc.
  destruct (C56_hooks_partial E P parse X s i0 i orcs orc1 orc2 r folders h o Hhex Hj Hp Hl Hsup Hu Horcs Horc1 Hq Hno Hh Hi HP) as (_ & i' & Hl' & _ & Hres).
  destruct (Hres area (λ _, False) src orc del Hsv Hsrc Hdel HT Hrt Horc) as (before & after & Hb & Ha & Heq).
  exists i', before. split; [exact Hl'|]. split; [exact Hb|]. rewrite Ha. f_equal. apply map_eq. intros q. apply Heq. by intros [].
Qed.
(** An object with two areas: the content-subpath extension adds README.md, and another extension opens a version in which d/c is replaced by d/c.pdf.
    The folder metadata comes back as it was, the folder content except for the two places. *)
Example C55_hooks_example :
  let h := converting "data/d/c" "a43" "d/c.pdf" "P" in
  hex_hash hexh ∧ json_ok (λ _, True) jjson jparse ∧ fresh fresh0 ∧ declared store0 ∧ supported aenv fresh0 ∧
  proper_request aenv fresh0 (req false true) both ∧ (∀ area, area ∈ areas → served aenv ax area fresh0 both) ∧ no_clashes aenv "sha512" store0 both ∧
  hooks_satisfy aenv (orderly aenv) dfl2 default_oracle (req false true) both h fresh0 ∧
  hooks_satisfy aenv (stays_in aenv ax "content" (λ q, q ∈ ["d/c"; "d/c.pdf"])) dfl2 default_oracle (req false true) both h fresh0 ∧
  hooks_satisfy aenv (stays_in aenv ax "metadata" (λ _, False)) dfl2 default_oracle (req false true) both h fresh0 ∧
  ∃ o, ingest aenv dfl2 default_oracle default_oracle (req false true) (given both) h (open_object fresh0) = (o, SOk) ∧
    retrievable ax "content" (ob_inv o) ∧ retrievable ax "metadata" (ob_inv o) ∧ inv_head (ob_inv o) = "v2" ∧
    extract ax default_oracle (ob_inv o) (apply_evs (ob_trace o) store0) "latest" false "content" ∅ = ({[ "a" := "A"; "d/b" := "B"; "d/c.pdf" := "P" ]}, SOk) ∧
    extract ax default_oracle (ob_inv o) (apply_evs (ob_trace o) store0) "latest" false "metadata" ∅ = ({[ "m.xml" := "M" ]}, SOk).
Proof.
  cbv zeta. split; [exact hexh_ok|]. split; [exact jjson_ok|]. split; [exact fresh0_fresh|]. split; [exact store0_declared|].
  split; [by apply supportedb_env; [|vm_compute]|]. split; [exact both_proper|].
  split; [exact both_served|]. split; [exact (hexh_no_clashes aenv _ _ _ eq_refl)|].
  assert (all_hooks (λ orc _, orc = dflt) (converting "data/d/c" "a43" "d/c.pdf" "P")) as Ha by (by repeat constructor).
  split; [apply (hooksb_true aenv (orderlyb aenv) _ (orderlyb_true aenv) _ _ _ _ Ha); by vm_compute|].
  split; [apply (hooksb_true aenv (staysb aenv ax "content" ["d/c"; "d/c.pdf"]) _ (staysb_true aenv ax "content" _) _ _ _ _ Ha); by vm_compute|].
  split; [apply (hooksb_true aenv (staysb aenv ax "metadata" []) _ (staysb_nil aenv ax "metadata") _ _ _ _ Ha); by vm_compute|].
  assert (match ingested_by aenv (converting "data/d/c" "a43" "d/c.pdf" "P") (req false true) (given both) fresh0 with
          | Some o => retrievableb ax "content" (ob_inv o) && retrievableb ax "metadata" (ob_inv o) && bool_decide (inv_head (ob_inv o) = "v2") &&
              yields (extract ax default_oracle (ob_inv o) (apply_evs (ob_trace o) store0) "latest" false "content" ∅) {[ "a" := "A"; "d/b" := "B"; "d/c.pdf" := "P" ]} &&
              yields (extract ax default_oracle (ob_inv o) (apply_evs (ob_trace o) store0) "latest" false "metadata" ∅) {[ "m.xml" := "M" ]}
          | None => false end = true) as H by (by vm_compute).
  destruct (ingested_by aenv _ _ _ _) as [o|] eqn:E1; [|discriminate H].
  apply andb_prop in H as [H H5]. apply andb_prop in H as [H H4]. apply andb_prop in H as [H H3]. apply andb_prop in H as [H1 H2]. apply bool_decide_eq_true in H3.
  exists o. split; [exact (ingested_by_true _ _ _ _ _ _ E1)|]. split; [exact (retrievableb_true _ _ _ H1)|]. split; [exact (retrievableb_true _ _ _ H2)|].
  split; [exact H3|]. split; [exact (yields_true _ _ H4)|exact (yields_true _ _ H5)].
Qed.
(** An update with echo deletion; an extension opens a further version and renames d/e in it. *)
Example C56_hooks_example :
  let h := HMore [] "2024-01-02T00:00:00Z" [call (SRename "d/e" "d/f" "a43")] (HDone []) in
  ∃ ts s i0 i, kept_archive ts s i0 ∧ published penv (λ _, True) jparse s i0 ∧ load_inventory hexh jparse s "" = LInv i [] ∧ supported penv i ∧ unique_states i ∧
    proper_request penv i (req true true) [("content", t2)] ∧ no_clashes penv (inv_alg i) s [("content", t2)] ∧
    folder_of [("content", t2)] "content" {[ "a" := "A2"; "d/b" := "B"; "d/e" := "C" ]} ∧ served penv px "content" i [("content", t2)] ∧ deletes penv px "content" i true true ∧
    hooks_satisfy penv (orderly penv) dfl2 default_oracle (req true true) [("content", t2)] h i ∧
    hooks_satisfy penv (stays_in penv px "content" (λ q, q ∈ ["d/e"; "d/f"])) dfl2 default_oracle (req true true) [("content", t2)] h i ∧
    ∃ o, ingest penv dfl2 default_oracle default_oracle (req true true) (given [("content", t2)]) h (open_object i) = (o, SOk) ∧ retrievable px "content" (ob_inv o) ∧
      inv_head (ob_inv o) = "v3" ∧
      extract px default_oracle i s "latest" false "content" ∅ = ({[ "a" := "A"; "d/b" := "B"; "d/c" := "C" ]}, SOk) ∧
      extract px default_oracle (ob_inv o) (apply_evs (ob_trace o) s) "latest" false "content" ∅ = ({[ "a" := "A2"; "d/b" := "B"; "d/f" := "C" ]}, SOk).
Proof.
  cbv zeta.
  assert (match arch1 with
          | Some (ts, s, i0) => match loadb jparse s with
             | Some i => supportedb i && request_okb penv i (req true true) [("content", t2)] && yields (extract px default_oracle i s "latest" false "content" ∅) {[ "a" := "A"; "d/b" := "B"; "d/c" := "C" ]} &&
                hooksb penv (orderlyb penv) (req true true) [("content", t2)] (HMore [] "2024-01-02T00:00:00Z" [call (SRename "d/e" "d/f" "a43")] (HDone [])) i &&
                hooksb penv (staysb penv px "content" ["d/e"; "d/f"]) (req true true) [("content", t2)] (HMore [] "2024-01-02T00:00:00Z" [call (SRename "d/e" "d/f" "a43")] (HDone [])) i &&
                match ingested_by penv (HMore [] "2024-01-02T00:00:00Z" [call (SRename "d/e" "d/f" "a43")] (HDone [])) (req true true) (given [("content", t2)]) i with
                | Some o => retrievableb px "content" (ob_inv o) && bool_decide (inv_head (ob_inv o) = "v3") && yields (extract px default_oracle (ob_inv o) (apply_evs (ob_trace o) s) "latest" false "content" ∅) {[ "a" := "A2"; "d/b" := "B"; "d/f" := "C" ]}
                | None => false end
             | None => false end
          | None => false end = true) as H by (by vm_compute).
  assert (all_hooks (λ orc _, orc = dflt) (HMore [] "2024-01-02T00:00:00Z" [call (SRename "d/e" "d/f" "a43")] (HDone []))) as Ha by (by repeat constructor).
  destruct arch1 as [[[ts s] i0]|] eqn:E1; [|discriminate H]. destruct (loadb jparse s) as [i|] eqn:E2; [|discriminate H].
  apply andb_prop in H as [H H6]. apply andb_prop in H as [H H5]. apply andb_prop in H as [H H4]. apply andb_prop in H as [H H3]. apply andb_prop in H as [H1 H2].
  destruct (ingested_by penv _ (req true true) (given [("content", t2)]) i) as [o|] eqn:E3; [|discriminate H6].
  apply andb_prop in H6 as [H6 H8]. apply andb_prop in H6 as [H6 H7]. apply bool_decide_eq_true in H7.
  apply arch1_archived in E1. apply loadb_true in E2. destruct (archived_result penv px "content" _ jparse ts s i0 hexh_ok jjson_ok E1) as (Hp & Hu & _).
  pose proof (proj1 (folders_okb_true [("content", t2)] eq_refl) "content" t2 ltac:(left)) as Hg.
  exists ts, s, i0, i. split; [exact E1|]. split; [exact Hp|]. split; [exact E2|]. split; [exact (supportedb_env penv i eq_refl H1)|].
  split; [exact (unique_same _ _ (loaded_same penv _ _ _ _ _ hexh_ok jjson_ok Hp E2) Hu)|].
  split; [apply request_okb_true; [exact H2|exact (plain_placed penv px _ _ penv_paths Hg)]|].
  split; [exact (hexh_no_clashes penv _ _ _ eq_refl)|]. split.
  { assert ({[ "a" := "A2"; "d/b" := "B"; "d/e" := "C" ]} = files_of [("content", t2)] "content") as -> by (apply (bool_decide_unpack _); by vm_compute). apply files_of_true. by vm_compute. }
  split; [exact (plain_served penv px _ _ _ penv_paths)|].
  split; [exact (plain_deletes penv px "content" i true penv_paths)|].
  split; [exact (hooksb_true penv _ _ (orderlyb_true penv) _ _ _ _ Ha H4)|].
  split; [exact (hooksb_true penv _ _ (staysb_true penv px "content" _) _ _ _ _ Ha H5)|].
  exists o. split; [exact (ingested_by_true _ _ _ _ _ _ E3)|]. split; [exact (retrievableb_true _ _ _ H6)|]. split; [exact H7|]. split; [exact (yields_true _ _ H3)|exact (yields_true _ _ H8)].
Qed.
Print Assumptions C55_hooks_partial.
Print Assumptions C55_hooks_elsewhere_partial.
Print Assumptions C56_hooks_partial.
Print Assumptions C56_hooks_elsewhere_partial.
