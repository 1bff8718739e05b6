(** Ingesting folders and getting them back: C55, C56, C57. *)
From Coq Require Import Ascii.
From stdpp Require Import base list strings gmap.
From Coq Require Import ZArith Lia.
From Verif Require Import GoStr PathModel InventoryModel ObjectModel InventorySpec ObjectSpec CrashSpec LoadModel ValidateModel SessionProofs PublishSpec PublishProofs PublishProofs2
  PublishProofs3 PublishProofs4 AreaModel AreaSpec InheritProofs IngestModel IngestSpec IngestProofs IngestProofs2 IngestProofs3 IngestProofs4 IngestProofs5 IngestProofs6 IngestProofs7 Fixtures Fixtures2 Fixtures5 Fixtures8.

(** * C55: a created object gives the folders back *)

Lemma fresh_proper E i r folders : fresh i → supported E i → NoDup (fst <$> folders) → (∀ a t, (a, t) ∈ folders → good_folder t) →
  placed E folders → (∃ a p x, offered folders a p x) → is_Some (e_state_path E "." "") → proper_request E i r folders.
Proof.
  intros Hf Hs Hn Hg Hp (a & p & x & Ho) Hd.
  assert (∀ ver np d, ¬ recorded i ver np d) as Hno.
  { intros ver np d (v & Hv & _). destruct (fr_empty _ Hf) as (_ & H & _). by rewrite H, lookup_empty in Hv. }
  split; try done.
  - split.
    + intros np d _ (k & Hr & _). by apply Hno in Hr.
    + intros _ np d e _ Hr. by apply Hno in Hr.
  - destruct (pl_file _ _ Hp a p x Ho) as (np & m & Hnp & _). destruct (Hs (inv_alg i) x) as [d Hh]; [by left|].
    exists np, d. split; [by exists a, p, x|]. apply Hno.
Qed.

(** The call succeeds, and if the inventory can be read back (C51), then the object can be loaded and every area is extracted as it
    was: the same files with the same bytes and no others.  Partial: only for areas that share no content ([served]), and for folders
    that can be read completely; both are needed, see the refutations below. *)
Theorem C55_created_comes_back_partial E P parse X s i orcs orc1 orc2 r folders :
  hex_hash (e_hash E) → json_ok P (e_json E) parse → fresh i → declared s → supported E i →
  (∀ j k, oracle_ok (orcs j k)) → oracle_ok orc1 →
  NoDup (fst <$> folders) → (∀ a t, (a, t) ∈ folders → good_folder t) → placed E folders → (∃ a p x, offered folders a p x) →
  is_Some (e_state_path E "." "") → no_clashes E (inv_alg i) s folders →
  ∃ o, ingest E orcs orc1 orc2 r (given folders) (HDone []) (open_object i) = (o, SOk) ∧
    (P (ob_inv o) → let s' := apply_evs (ob_trace o) s in
      published E P parse s' (ob_inv o) ∧ ∃ i', load_inventory (e_hash E) parse s' "" = LInv i' [] ∧
      ∀ area src orc, served E X area i folders → folder_of folders area src → oracle_ok orc →
        extract X orc i' s' "latest" false area ∅ = (src, SOk)).
Proof.
  intros Hhex Hj Hf Hd Hsup Horcs Horc1 Hn Hg Hp Ho Hdot Hno.
  pose proof (fresh_proper E i r folders Hf Hsup Hn Hg Hp Ho Hdot) as Hq.
  assert (∀ ver v, inv_versions i !! ver ≠ Some v) as Hnone.
  { intros ver v Hv. destruct (fr_empty _ Hf) as (_ & H & _). by rewrite H, lookup_empty in Hv. }
  assert (unique_states i) as Hu by (intros ver v Hv; by apply Hnone in Hv).
  destruct (request_result E P parse X s i 0 (λ _, i) orcs orc1 orc2 r folders Hhex Hj (fresh_kept E s i Hf Hd) Hsup Hu Horcs Horc1 Hq Hno)
    as (o & Hi & Hcomp & Hpad & Hin & Hu' & (fam' & Hc) & Hld & Hres).
  exists o. split; [exact Hi|]. intros HP. cbv zeta. split; [exact (published_first _ _ _ _ _ _ _ Hf Hd Hsup Hcomp HP)|].
  destruct (Hld HP) as (i' & Hl & Hr). exists i'. split; [exact Hl|]. intros area src orc Hsv Hsrc Horc.
  rewrite (extract_same _ _ _ _ _ _ _ _ _ Hr).
  rewrite (proj1 (Hres area src ∅ orc false Hsv Hsrc ltac:(right; intros b np d q _ (v & Hv & _); by apply Hnone in Hv) Horc (held_fresh _ _ _ _ (proj1 (proj2 (fr_empty _ Hf)))))).
  unfold area_after. by rewrite (right_id_L ∅ (∪)).
Qed.
(** Without path extensions: any readable folder with a file in it comes back. *)
Theorem C55_plain_comes_back E P parse X s i orcs orc1 orc2 r t src p x :
  hex_hash (e_hash E) → json_ok P (e_json E) parse → fresh i → declared s → supported E i →
  (∀ j k, oracle_ok (orcs j k)) → oracle_ok orc1 → paths_by E X [] →
  good_folder t → (∀ p x, src !! p = Some x ↔ has_file t p x) → src !! p = Some x →
  no_clashes E (inv_alg i) s [("content", t)] →
  ∃ o, ingest E orcs orc1 orc2 r [("content", Some t)] (HDone []) (open_object i) = (o, SOk) ∧
    (P (ob_inv o) → let s' := apply_evs (ob_trace o) s in
      ∃ i', load_inventory (e_hash E) parse s' "" = LInv i' [] ∧ ∀ orc, oracle_ok orc → extract X orc i' s' "latest" false "content" ∅ = (src, SOk)).
Proof.
  intros Hhex Hj Hf Hd Hsup Horcs Horc1 HE Hg Hsrc Hx Hno.
  destruct (C55_created_comes_back_partial E P parse X s i orcs orc1 orc2 r [("content", t)] Hhex Hj Hf Hd Hsup Horcs Horc1) as (o & Hi & H).
  - by apply NoDup_singleton.
  - by intros a t' [= -> ->]%elem_of_list_singleton.
  - by eapply plain_placed.
  - exists "content", p, x, t. split; [left|]. by apply Hsrc.
  - rewrite (proj1 HE). by eexists.
  - exact Hno.
  - exists o. split; [exact Hi|]. intros HP. destruct (H HP) as (_ & i' & Hl & Hres). exists i'. split; [exact Hl|]. intros orc Horc.
    apply Hres; [by eapply plain_served| |done]. intros q y. rewrite Hsrc. split; [intros Hq; exists t; split; [left|done]|].
    by intros (t' & [= ->]%elem_of_list_singleton & Hq).
Qed.
(** With areas: every area comes back, if no content is in two areas. *)
Theorem C55_areas_come_back_partial E P parse X c areas s i orcs orc1 orc2 r folders :
  hex_hash (e_hash E) → json_ok P (e_json E) parse → fresh i → declared s → supported E i →
  (∀ j k, oracle_ok (orcs j k)) → oracle_ok orc1 → paths_by E X [c] → configured c areas → sp_area c ∈ areas →
  NoDup (fst <$> folders) → fst <$> folders ⊆ areas → (∀ a t, (a, t) ∈ folders → good_folder t) → (∃ a p x, offered folders a p x) →
  areas_share_nothing E areas i folders → no_clashes E (inv_alg i) s folders →
  ∃ o, ingest E orcs orc1 orc2 r (given folders) (HDone []) (open_object i) = (o, SOk) ∧
    (P (ob_inv o) → let s' := apply_evs (ob_trace o) s in
      ∃ i', load_inventory (e_hash E) parse s' "" = LInv i' [] ∧
      ∀ area src orc, area ∈ areas → folder_of folders area src → oracle_ok orc → extract X orc i' s' "latest" false area ∅ = (src, SOk)).
Proof.
  intros Hhex Hj Hf Hd Hsup Horcs Horc1 HE Hcf Hdef Hn Hsub Hg Ho Hsh Hno.
  destruct (C55_created_comes_back_partial E P parse X s i orcs orc1 orc2 r folders Hhex Hj Hf Hd Hsup Horcs Horc1 Hn Hg) as (o & Hi & H).
  - by eapply areas_placed.
  - exact Ho.
  - destruct (cf_area _ _ Hcf _ Hdef) as (Hnf & sub & Hsubp & _). rewrite (proj1 HE). cbn [mgr_state_path]. unfold sub_state_path. fold (requested c "").
    assert (requested c (sp_area c) = requested c "") as Hdd by (unfold requested; by destruct (decide (sp_area c = ""))).
    rewrite Hdd in Hnf, Hsubp. rewrite decide_False, Hsubp by done. by eexists.
  - exact Hno.
  - exists o. split; [exact Hi|]. intros HP. destruct (H HP) as (_ & i' & Hl & Hres). exists i'. split; [exact Hl|]. intros area src orc Ha Hsrc Horc.
    apply Hres; [|done..]. eapply areas_served; try done. intros np d (v & Hv & _). destruct (fr_empty _ Hf) as (_ & He & _). by rewrite He, lookup_empty in Hv.
Qed.
Example C55_example :
  hex_hash hexh ∧ json_ok (λ _, True) jjson jparse ∧ fresh fresh0 ∧ declared store0 ∧ supported aenv fresh0 ∧ paths_by aenv ax [areas2] ∧
  configured areas2 areas ∧ proper_request aenv fresh0 (req false true) both ∧ (∀ area, area ∈ areas → served aenv ax area fresh0 both) ∧
  no_clashes aenv "sha512" store0 both ∧
  folder_of both "content" {[ "a" := "A"; "d/b" := "B"; "d/c" := "C" ]} ∧ folder_of both "metadata" {[ "m.xml" := "M" ]} ∧
  ∃ o, ingest aenv dfl2 default_oracle default_oracle (req false true) (given both) (HDone []) (open_object fresh0) = (o, SOk) ∧
    apply_evs (ob_trace o) store0 !! "v1/content/meta/xml/m.xml" = Some "M" ∧
    extract ax default_oracle (ob_inv o) (apply_evs (ob_trace o) store0) "latest" false "metadata" ∅ = ({[ "m.xml" := "M" ]}, SOk).
Proof.
  split; [exact hexh_ok|]. split; [exact jjson_ok|]. split; [exact fresh0_fresh|]. split; [exact store0_declared|].
  split; [by apply supportedb_env; [|vm_compute]|]. split; [exact aenv_paths|]. split; [exact areas2_configured|]. split; [exact both_proper|].
  split; [exact both_served|]. split; [exact (hexh_no_clashes aenv _ _ _ eq_refl)|]. split.
  { assert ({[ "a" := "A"; "d/b" := "B"; "d/c" := "C" ]} = files_of both "content") as -> by (apply (bool_decide_unpack _); by vm_compute). apply files_of_true. by vm_compute. }
  split.
  { assert ({[ "m.xml" := "M" ]} = files_of both "metadata") as -> by (apply (bool_decide_unpack _); by vm_compute). apply files_of_true. by vm_compute. }
  assert (match ingested aenv (req false true) (given both) fresh0 with
          | Some o => bool_decide (apply_evs (ob_trace o) store0 !! "v1/content/meta/xml/m.xml" = Some "M") &&
                      yields (extract ax default_oracle (ob_inv o) (apply_evs (ob_trace o) store0) "latest" false "metadata" ∅) {[ "m.xml" := "M" ]}
          | None => false end = true) as H by (by vm_compute).
  destruct (ingested aenv (req false true) (given both) fresh0) as [o|] eqn:E; [|discriminate H]. apply andb_prop in H as [H1 H2].
  exists o. split; [exact (ingested_true _ _ _ _ _ E)|]. split; [by apply bool_decide_eq_true in H1|exact (yields_true _ _ H2)].
Qed.
Print Assumptions C55_created_comes_back_partial.
Print Assumptions C55_plain_comes_back.
Print Assumptions C55_areas_come_back_partial.

(** A file that cannot be opened, anywhere in one of the folders, is never left out silently: the request does not succeed.  For all objects,
    settings and path extensions. *)
Inductive has_closed_file : node → Prop :=
| closed_here : has_closed_file (NFile None)
| closed_below c l n t : (n, t) ∈ l → has_closed_file t → has_closed_file (NDir c l).
Lemma closed_visited t path : has_closed_file t → ∃ p, VFile p None ∈ walk path t.
Proof.
  intros H. revert path. induction H as [|c l n t Hin Ht IH]; intros path; [exists path; cbn [walk]; by left|].
  cbn [walk]. destruct (IH (path_join [path; n])) as [p Hp]. exists p. right. apply elem_of_app. right. clear -Hin Hp.
  induction l as [|[n' t'] l IHl]; [by apply elem_of_nil in Hin|]. apply elem_of_app. apply elem_of_cons in Hin as [[= <- <-]|Hin]; [by left|right; by apply IHl].
Qed.
Lemma closed_add E orcs k area dedup l p o : VFile p None ∈ l → (add_visits E orcs k area dedup l o).2 ≠ SOk.
Proof.
  revert k o. induction l as [|v l IH]; intros k o Hin; [by apply elem_of_nil in Hin|]. cbn [add_visits]. apply elem_of_cons in Hin as [<-|Hin].
  - unfold ob_add_unreadable. destruct (ob_add_dir E p area o) as [o1 []]; cbn [andThen snd]; intros H; discriminate H.
  - destruct (match v with VFile p (Some data) => _ | VFile p None => _ | VDir p => _ end) as [o1 []]; cbn [andThen snd]; [by apply IH|intros H; discriminate H..].
Qed.
Theorem C55_closed_file E orcs orc1 orc2 r folders h o area t :
  (area, Some t) ∈ folders → has_closed_file t → (ingest E orcs orc1 orc2 r folders h o).2 ≠ SOk.
Proof.
  intros Hin Hc. destruct (closed_visited t "." Hc) as [p Hp].
  assert (∀ j o, (add_folders E orcs j (rq_dedup r) folders o).2 ≠ SOk) as H.
  { revert Hin. induction folders as [|[a t'] l IH]; intros Hin j o'; [by apply elem_of_nil in Hin|]. cbn [add_folders]. apply elem_of_cons in Hin as [[= <- <-]|Hin].
    - cbn [add_folder]. pose proof (closed_add E (orcs j) 0 area (rq_dedup r) _ p o' Hp) as Ha.
      destruct (add_visits E (orcs j) 0 area (rq_dedup r) (walk "." t) o') as [o1 []]; cbn [andThen snd] in *; [by exfalso; apply Ha|intros H; discriminate H..].
    - destruct (add_folder E (orcs j) a (rq_dedup r) t' o') as [o1 []]; cbn [andThen snd]; [by apply IH|intros H; discriminate H..]. }
  unfold ingest. destruct (ob_start _ _ _ _ _ o) as [o1 []]; cbn [andThen snd]; [|intros K; discriminate K..].
  specialize (H 0 o1). destruct (add_folders E orcs 0 (rq_dedup r) folders o1) as [o2 []]; cbn [andThen snd] in *; [by exfalso; apply H|intros K; discriminate K..].
Qed.
Example C55_closed_file_example :
  has_closed_file (NDir true [("a", F "A"); ("d", NDir true [("b", NFile None)])]) ∧
  snd (ingest penv dfl2 default_oracle default_oracle (req false true) [("content", Some (NDir true [("a", F "A"); ("d", NDir true [("b", NFile None)])]))] (HDone []) (open_object fresh0)) = SErr "cannot open file".
Proof.
  split; [|vm_compute; reflexivity]. eapply (closed_below _ _ "d"); [right; left|]. eapply (closed_below _ _ "b"); [left|]. constructor.
Qed.
Print Assumptions C55_closed_file.
(** A directory that cannot be read does not stop the request: nothing of it is stored, and success is reported. *)
Theorem C55_unreadable_refuted :
  ∃ E s i r t o, fresh i ∧ declared s ∧ supported E i ∧ dir_at t ["d"] ∧ ¬ readable t ∧
    ingest E dfl2 default_oracle default_oracle r [("content", Some t)] (HDone []) (open_object i) = (o, SOk) ∧
    inv_head (ob_inv o) = "v1" ∧ ∀ p d, current (ob_inv o) p d → p = "a".
Proof.
  destruct (ingested penv (req false true) [("content", Some (NDir true [("a", F "A"); ("d", NDir false [])]))] fresh0) as [o|] eqn:E; [|vm_compute in E; discriminate E].
  exists penv, store0, fresh0, (req false true), (NDir true [("a", F "A"); ("d", NDir false [])]), o.
  split; [exact fresh0_fresh|]. split; [exact store0_declared|]. split; [by apply supportedb_env; [|vm_compute]|].
  split; [eapply (dir_below _ _ "d" (NDir false [])); [right; left|constructor]|].
  split. { intros Hr. inversion Hr as [|l Hnd Hpl H]; subst. assert (readable (NDir false [])) as H2 by (apply (H "d"); right; left). inversion H2. }
  split; [exact (ingested_true _ _ _ _ _ E)|].
  assert (match ingested penv (req false true) [("content", Some (NDir true [("a", F "A"); ("d", NDir false [])]))] fresh0 with
          | Some o => bool_decide (inv_head (ob_inv o) = "v1") && bool_decide (fst <$> now_listed (ob_inv o) = ["a"]) | None => false end = true) as H by (by vm_compute).
  rewrite E in H. apply andb_prop in H as [H1 H2]. apply bool_decide_eq_true in H1, H2. split; [exact H1|].
  intros p d Hc%now_spec. assert (p ∈ fst <$> now_listed (ob_inv o)) as Hp by (apply elem_of_list_fmap; by exists (p, d)).
  rewrite H2 in Hp. by apply elem_of_list_singleton in Hp.
Qed.
(** If the source itself cannot be read, the program crashes. *)
Theorem C55_root_refuted :
  ∃ E i r o, fresh i ∧ supported E i ∧ ingest E dfl2 default_oracle default_oracle r [("content", None)] (HDone []) (open_object i) = (o, SPanic).
Proof.
  exists penv, fresh0, (req false true), (ingest penv dfl2 default_oracle default_oracle (req false true) [("content", None)] (HDone []) (open_object fresh0)).1.
  split; [exact fresh0_fresh|]. split; [by apply supportedb_env; [|vm_compute]|]. by vm_compute.
Qed.
(** The same content in two areas: one of the areas comes back without it. *)
Definition shared : list (string * node) := [("content", NDir true [("a", F "A")]); ("metadata", NDir true [("m.xml", F "A")])].
Theorem C55_shared_content_refuted :
  ∃ E X c areas P parse s i r folders area src o, hex_hash (e_hash E) ∧ json_ok P (e_json E) parse ∧ fresh i ∧ declared s ∧ supported E i ∧
    paths_by E X [c] ∧ configured c areas ∧ area ∈ areas ∧ fst <$> folders ⊆ areas ∧ proper_request E i r folders ∧ no_clashes E (inv_alg i) s folders ∧
    folder_of folders area src ∧ src ≠ ∅ ∧
    ingest E dfl2 default_oracle default_oracle r (given folders) (HDone []) (open_object i) = (o, SOk) ∧
    extract X default_oracle (ob_inv o) (apply_evs (ob_trace o) s) "latest" false area ∅ = (∅, SOk).
Proof.
  assert (match ingested aenv (req false true) (given shared) fresh0 with
          | Some o => yields (extract ax default_oracle (ob_inv o) (apply_evs (ob_trace o) store0) "latest" false "metadata" ∅) ∅ | None => false end = true) as H by (by vm_compute).
  destruct (ingested aenv (req false true) (given shared) fresh0) as [o|] eqn:E; [|discriminate H].
  exists aenv, ax, areas2, areas, (λ _, True), jparse, store0, fresh0, (req false true), shared, "metadata", (files_of shared "metadata"), o.
  split; [exact hexh_ok|]. split; [exact jjson_ok|]. split; [exact fresh0_fresh|]. split; [exact store0_declared|]. split; [by apply supportedb_env; [|vm_compute]|].
  split; [exact aenv_paths|]. split; [exact areas2_configured|]. split; [right; left|]. split; [by intros a Ha|]. split.
  { apply request_okb_true; [by vm_compute|]. apply (areas_placed aenv ax areas2 areas aenv_paths areas2_configured); [|by intros a Ha]. apply folders_okb_true. by vm_compute. }
  split; [exact (hexh_no_clashes aenv _ _ _ eq_refl)|]. split; [apply files_of_true; by vm_compute|]. split; [apply (bool_decide_unpack _); by vm_compute|].
  split; [exact (ingested_true _ _ _ _ _ E)|]. exact (yields_true _ _ H).
Qed.
Print Assumptions C55_unreadable_refuted.
Print Assumptions C55_root_refuted.
Print Assumptions C55_shared_content_refuted.

(** * C56: an update adds to or replaces what is there *)

(** The call succeeds.  Afterwards an area holds the files of its folder; the other files that were there stay, or are gone if echo
    deletion covers the area.  Partial: a deleted file must not come back with its old content, with de-duplication a file must not change
    to content that is stored already ([addressed]), and something must be new ([changes]); all are needed, see the refutations below. *)
Theorem C56_update_partial E P parse X s i0 i orcs orc1 orc2 r folders :
  hex_hash (e_hash E) → json_ok P (e_json E) parse → published E P parse s i0 → load_inventory (e_hash E) parse s "" = LInv i [] → supported E i →
  unique_states i → (∀ j k, oracle_ok (orcs j k)) → oracle_ok orc1 → proper_request E i r folders → no_clashes E (inv_alg i) s folders →
  ∃ o, ingest E orcs orc1 orc2 r (given folders) (HDone []) (open_object i) = (o, SOk) ∧
    (P (ob_inv o) → let s' := apply_evs (ob_trace o) s in
      published E P parse s' (ob_inv o) ∧ ∃ i', load_inventory (e_hash E) parse s' "" = LInv i' [] ∧ unique_states i' ∧
      ∀ area src orc del, served E X area i folders → folder_of folders area src → deletes E X area i (rq_echo r) del → oracle_ok orc →
        ∃ before, extract X orc i s "latest" false area ∅ = (before, SOk) ∧
          extract X orc i' s' "latest" false area ∅ = (area_after del src before, SOk)).
Proof.
  intros Hhex Hj Hp Hl Hsup Hu Horcs Horc1 Hq Hno. destruct (loaded_kept _ _ _ _ _ _ Hhex Hj Hp Hl) as (n & fam & Hc0 & Hk).
  pose proof (loaded_same _ _ _ _ _ _ Hhex Hj Hp Hl) as Hr0.
  destruct (request_result E P parse X s i n fam orcs orc1 orc2 r folders Hhex Hj Hk Hsup Hu Horcs Horc1 Hq Hno)
    as (o & Hi & Hcomp & Hpad & Hin & Hu' & (fam' & Hc) & Hld & Hres).
  exists o. split; [exact Hi|]. intros HP. cbv zeta. split; [exact (published_next _ _ _ _ _ _ _ _ Hp Hl Hsup Hcomp HP)|].
  destruct (Hld HP) as (i' & Hl' & Hr). exists i'. split; [exact Hl'|]. split; [exact (unique_same _ _ Hr Hu')|]. intros area src orc del Hsv Hsrc Hdel Horc.
  assert (unique_states i0) as Hu0 by (intros ver v; rewrite <- (sr_vers _ _ Hr0); apply Hu).
  assert (served E X area i0 folders) as Hsv0.
  { assert (∀ np d, current i0 np d ↔ current i np d) as Hcur by (intros np d; unfold current, recorded; by rewrite (sr_vers _ _ Hr0), (sr_head _ _ Hr0)).
    assert (∀ np d, brings E i0 folders np d ↔ brings E i folders np d) as Hbr by (intros np d; unfold brings; by rewrite (sr_alg _ _ Hr0)).
    destruct Hsv as [V1 V2 V3 V4 V5 V6]. split; try done.
    - intros np d H. apply (V5 np d). by apply Hcur.
    - intros np np' d H1 H2. apply (V6 np np' d); [by rewrite <- Hcur, <- Hbr|by rewrite <- Hcur, <- Hbr]. }
  destruct (held_before E X s i0 n fam folders area orc Hc0 Hu0 Hsv0 Horc) as (t0 & Ht0 & Hh). exists t0.
  rewrite (extract_same _ _ _ _ _ _ _ _ _ Hr0). split; [exact Ht0|]. rewrite (extract_same _ _ _ _ _ _ _ _ _ Hr).
  apply (held_same X s i0 i area t0 Hr0) in Hh. by apply (Hres area src t0 orc del Hsv Hsrc Hdel Horc Hh).
Qed.
(** Without path extensions: echo deletion makes the object equal to the folder, otherwise the folder is laid over it. *)
Theorem C56_plain_update_partial E P parse X s i0 i orcs orc1 orc2 r t src :
  hex_hash (e_hash E) → json_ok P (e_json E) parse → published E P parse s i0 → load_inventory (e_hash E) parse s "" = LInv i [] → supported E i →
  unique_states i → (∀ j k, oracle_ok (orcs j k)) → oracle_ok orc1 → paths_by E X [] →
  good_folder t → (∀ p x, src !! p = Some x ↔ has_file t p x) → addressed E (rq_dedup r) i [("content", t)] → changes E i [("content", t)] →
  no_clashes E (inv_alg i) s [("content", t)] →
  ∃ o, ingest E orcs orc1 orc2 r [("content", Some t)] (HDone []) (open_object i) = (o, SOk) ∧
    (P (ob_inv o) → let s' := apply_evs (ob_trace o) s in
      ∃ i', load_inventory (e_hash E) parse s' "" = LInv i' [] ∧ ∀ orc, oracle_ok orc →
        ∃ before, extract X orc i s "latest" false "content" ∅ = (before, SOk) ∧
          extract X orc i' s' "latest" false "content" ∅ = ((if rq_echo r then src else src ∪ before), SOk)).
Proof.
  intros Hhex Hj Hp Hl Hsup Hu Horcs Horc1 HE Hg Hsrc Had Hch Hno.
  destruct (C56_update_partial E P parse X s i0 i orcs orc1 orc2 r [("content", t)] Hhex Hj Hp Hl Hsup Hu Horcs Horc1) as (o & Hi & H).
  - split; [by apply NoDup_singleton|by intros a t' [= -> ->]%elem_of_list_singleton|by eapply plain_placed|done|done|]. intros _. rewrite (proj1 HE). by eexists.
  - exact Hno.
  - exists o. split; [exact Hi|]. intros HP. destruct (H HP) as (_ & i' & Hl' & _ & Hres). exists i'. split; [exact Hl'|]. intros orc Horc.
    apply (Hres "content" src orc (rq_echo r)); [by eapply plain_served| |by eapply plain_deletes|done].
    intros q y. rewrite Hsrc. split; [intros Hq; exists t; split; [left|done]|]. by intros (t' & [= ->]%elem_of_list_singleton & Hq).
Qed.
(** With areas: echo deletion applies to the main area and to no other. *)
Theorem C56_areas_update_partial E P parse X c areas a0 s i0 i orcs orc1 orc2 r folders :
  hex_hash (e_hash E) → json_ok P (e_json E) parse → published E P parse s i0 → load_inventory (e_hash E) parse s "" = LInv i [] → supported E i →
  unique_states i → (∀ j k, oracle_ok (orcs j k)) → oracle_ok orc1 →
  paths_by E X [c] → configured c areas → a0 ∈ areas → requested c a0 = sp_area c → (∀ np d, current i np d → ∃ a, of_area E areas a np) →
  NoDup (fst <$> folders) → fst <$> folders ⊆ areas → (∀ a t, (a, t) ∈ folders → good_folder t) →
  addressed E (rq_dedup r) i folders → changes E i folders → areas_share_nothing E areas i folders → no_clashes E (inv_alg i) s folders →
  ∃ o, ingest E orcs orc1 orc2 r (given folders) (HDone []) (open_object i) = (o, SOk) ∧
    (P (ob_inv o) → let s' := apply_evs (ob_trace o) s in
      ∃ i', load_inventory (e_hash E) parse s' "" = LInv i' [] ∧ ∀ area src orc, area ∈ areas → folder_of folders area src → oracle_ok orc →
        ∃ before, extract X orc i s "latest" false area ∅ = (before, SOk) ∧
          extract X orc i' s' "latest" false area ∅ = ((if rq_echo r && bool_decide (area = a0) then src else src ∪ before), SOk)).
Proof.
  intros Hhex Hj Hp Hl Hsup Hu Horcs Horc1 HE Hcf Ha0 Hr0 Hcur Hn Hsub Hg Had Hch Hsh Hno.
  destruct (C56_update_partial E P parse X s i0 i orcs orc1 orc2 r folders Hhex Hj Hp Hl Hsup Hu Horcs Horc1) as (o & Hi & H).
  - split; [done|done|by eapply areas_placed|done|done|]. intros _.
    destruct (cf_area _ _ Hcf _ Ha0) as (Hnf & sub & Hsubp & _). rewrite (proj1 HE). cbn [mgr_state_path]. unfold sub_state_path. fold (requested c "").
    change (requested c "") with (sp_area c). rewrite Hr0 in Hnf, Hsubp. rewrite decide_False, Hsubp by done. by eexists.
  - exact Hno.
  - exists o. split; [exact Hi|]. intros HP. destruct (H HP) as (_ & i' & Hl' & _ & Hres). exists i'. split; [exact Hl'|]. intros area src orc Ha Hsrc Horc.
    apply (Hres area src orc (rq_echo r && bool_decide (area = a0))); [by eapply areas_served|done| |done].
    by eapply areas_deletes.
Qed.
Example C56_example :
  ∃ ts s i0 i, kept_archive ts s i0 ∧ published penv (λ _, True) jparse s i0 ∧ load_inventory hexh jparse s "" = LInv i [] ∧ supported penv i ∧ unique_states i ∧
    proper_request penv i (req true true) [("content", t2)] ∧ no_clashes penv (inv_alg i) s [("content", t2)] ∧
    folder_of [("content", t2)] "content" {[ "a" := "A2"; "d/b" := "B"; "d/e" := "C" ]} ∧ deletes penv px "content" i true true ∧
    ∃ o, ingest penv dfl2 default_oracle default_oracle (req true true) (given [("content", t2)]) (HDone []) (open_object i) = (o, SOk) ∧
      extract px default_oracle i s "latest" false "content" ∅ = ({[ "a" := "A"; "d/b" := "B"; "d/c" := "C" ]}, SOk) ∧
      extract px default_oracle (ob_inv o) (apply_evs (ob_trace o) s) "latest" false "content" ∅ = ({[ "a" := "A2"; "d/b" := "B"; "d/e" := "C" ]}, SOk).
Proof.
  assert (match arch1 with
          | Some (ts, s, i0) => match loadb jparse s with
             | Some i => supportedb i && request_okb penv i (req true true) [("content", t2)] && yields (extract px default_oracle i s "latest" false "content" ∅) {[ "a" := "A"; "d/b" := "B"; "d/c" := "C" ]} &&
                match ingested penv (req true true) (given [("content", t2)]) i with
                | Some o => yields (extract px default_oracle (ob_inv o) (apply_evs (ob_trace o) s) "latest" false "content" ∅) {[ "a" := "A2"; "d/b" := "B"; "d/e" := "C" ]}
                | None => false end
             | None => false end
          | None => false end = true) as H by (by vm_compute).
  destruct arch1 as [[[ts s] i0]|] eqn:E1; [|discriminate H]. destruct (loadb jparse s) as [i|] eqn:E2; [|discriminate H].
  apply andb_prop in H as [H H4]. apply andb_prop in H as [H H3]. apply andb_prop in H as [H1 H2].
  destruct (ingested penv (req true true) (given [("content", t2)]) i) as [o|] eqn:E3; [|discriminate H4].
  apply arch1_archived in E1. apply loadb_true in E2. destruct (archived_result penv px "content" _ jparse ts s i0 hexh_ok jjson_ok E1) as (Hp & Hu & _).
  exists ts, s, i0, i. split; [exact E1|]. split; [exact Hp|]. split; [exact E2|]. split; [exact (supportedb_env penv i eq_refl H1)|].
  split; [exact (unique_same _ _ (loaded_same penv _ _ _ _ _ hexh_ok jjson_ok Hp E2) Hu)|].
  split. { apply request_okb_true; [exact H2|]. apply (plain_placed penv px _ _ penv_paths). apply (proj1 (folders_okb_true [("content", t2)] eq_refl) "content"). left. }
  split; [exact (hexh_no_clashes penv _ _ _ eq_refl)|]. split.
  { assert ({[ "a" := "A2"; "d/b" := "B"; "d/e" := "C" ]} = files_of [("content", t2)] "content") as -> by (apply (bool_decide_unpack _); by vm_compute). apply files_of_true. by vm_compute. }
  split; [exact (plain_deletes penv px "content" i true penv_paths)|].
  exists o. split; [exact (ingested_true _ _ _ _ _ E3)|]. split; [exact (yields_true _ _ H3)|exact (yields_true _ _ H4)].
Qed.
Print Assumptions C56_update_partial.
Print Assumptions C56_plain_update_partial.
Print Assumptions C56_areas_update_partial.

(** What goes wrong without the hypotheses.  [update_differs]: a readable folder is brought with echo deletion, something of it is new,
    the call succeeds, and the object does not hold what the folder holds. *)
Definition update_differs (E : env) (X : AreaModel.xenv) (P : inventory → Prop) (parse : string → option inventory) (ts : list storage) (s : storage) (i0 i : inventory)
    (r : request) (t : node) (o : object) (src out : storage) : Prop :=
  hex_hash (e_hash E) ∧ json_ok P (e_json E) parse ∧ paths_by E X [] ∧ archived E X "content" P parse ts s i0 ∧
  load_inventory (e_hash E) parse s "" = LInv i [] ∧ supported E i ∧ rq_echo r = true ∧ good_folder t ∧ changes E i [("content", t)] ∧
  no_clashes E (inv_alg i) s [("content", t)] ∧ folder_of [("content", t)] "content" src ∧
  ingest E dfl2 default_oracle default_oracle r [("content", Some t)] (HDone []) (open_object i) = (o, SOk) ∧
  extract X default_oracle (ob_inv o) (apply_evs (ob_trace o) s) "latest" false "content" ∅ = (out, SOk) ∧ out ≠ src.
Lemma differs_true before dedup t out : (∀ ts s i, before = Some (ts, s, i) → kept_archive ts s i) → differs before dedup t out = true →
  ∃ E X P parse ts s i0 i o src, update_differs E X P parse ts s i0 i (req true dedup) t o src out.
Proof.
  intros Hb. unfold differs. destruct before as [[[ts s] i0]|]; [|done]. specialize (Hb ts s i0 eq_refl).
  destruct (loadb jparse s) as [i|] eqn:E2; [|done]. cbv zeta. intros H. apply andb_prop in H as [H H4]. apply andb_prop in H as [H H3]. apply andb_prop in H as [H1 H2].
  destruct (ingested penv (req true dedup) (given [("content", t)]) i) as [o|] eqn:E3; [|discriminate H4]. apply andb_prop in H4 as [H4 H5].
  apply loadb_true in E2. pose proof (proj1 (folders_okb_true _ H2)) as Hg.
  exists penv, px, (λ _, True), jparse, ts, s, i0, i, o, (files_of [("content", t)] "content").
  split; [exact hexh_ok|]. split; [exact jjson_ok|]. split; [exact penv_paths|]. split; [exact Hb|]. split; [exact E2|].
  split; [exact (supportedb_env penv i eq_refl H1)|]. split; [done|]. split; [apply (Hg "content"); left|]. split; [by apply changesb_true|].
  split; [exact (hexh_no_clashes penv _ _ _ eq_refl)|]. split; [by apply files_of_true|]. split; [exact (ingested_true _ _ _ _ _ E3)|].
  split; [exact (yields_true _ _ H4)|]. by apply bool_decide_eq_true in H5.
Qed.
(** A file that was deleted comes back with its old content: it is not stored in the new version. *)
Definition rev1 := first_request (false, true, NDir true [("a", F "A"); ("b", F "B")]).
Definition rev2 := rev1 ≫= next_request (true, true, NDir true [("a", F "A2")]).
Theorem C56_revived_refuted :
  ∃ E X P parse ts s i0 i r o src, update_differs E X P parse ts s i0 i r (NDir true [("a", F "A3"); ("b", F "B")]) o src {[ "a" := "A3" ]}.
Proof.
  destruct (differs_true rev2 true (NDir true [("a", F "A3"); ("b", F "B")]) {[ "a" := "A3" ]}) as (E & X & P & parse & ts & s & i0 & i & o & src & H).
  - intros ts s i. unfold rev2. destruct rev1 as [[[ts1 s1] i1]|] eqn:E1; [|done]. exact (next_archived _ _ _ _ _ _ _ (first_archived _ _ _ _ E1)).
  - by vm_compute.
  - by exists E, X, P, parse, ts, s, i0, i, (req true true), o, src.
Qed.
(** With de-duplication a file that changes to content stored already keeps its old content. *)
Theorem C56_dedup_refuted :
  ∃ E X P parse ts s i0 i r o src, rq_dedup r = true ∧ update_differs E X P parse ts s i0 i r (NDir true [("a", F "B"); ("b", F "B")]) o src {[ "a" := "A"; "b" := "B" ]}.
Proof.
  destruct (differs_true rev1 true (NDir true [("a", F "B"); ("b", F "B")]) {[ "a" := "A"; "b" := "B" ]}) as (E & X & P & parse & ts & s & i0 & i & o & src & H).
  - intros ts s i. exact (first_archived _ _ _ _).
  - by vm_compute.
  - by exists E, X, P, parse, ts, s, i0, i, (req true true), o, src.
Qed.
(** A request that only removes files removes nothing. *)
Theorem C56_only_deletions_refuted :
  ∃ E X P parse before ts s i0 i r t o src, hex_hash (e_hash E) ∧ json_ok P (e_json E) parse ∧ paths_by E X [] ∧ archived E X "content" P parse (before :: ts) s i0 ∧
    load_inventory (e_hash E) parse s "" = LInv i [] ∧ supported E i ∧ rq_echo r = true ∧ good_folder t ∧ addressed E (rq_dedup r) i [("content", t)] ∧
    folder_of [("content", t)] "content" src ∧ src ⊂ before ∧
    ingest E dfl2 default_oracle default_oracle r [("content", Some t)] (HDone []) (open_object i) = (o, SOk) ∧ apply_evs (ob_trace o) s = s.
Proof.
  assert (match rev1 with
          | Some (before :: ts, s, i0) => match loadb jparse s with
             | Some i => supportedb i && addressedb penv true i [("content", NDir true [("a", F "A")])] &&
                bool_decide (before = {[ "a" := "A"; "b" := "B" ]}) &&
                match ingested penv (req true true) (given [("content", NDir true [("a", F "A")])]) i with
                | Some o => bool_decide (apply_evs (ob_trace o) s = s)
                | None => false end
             | None => false end
          | _ => false end = true) as H by (by vm_compute).
  destruct rev1 as [[[[|before ts] s] i0]|] eqn:E1; [discriminate H| |discriminate H]. destruct (loadb jparse s) as [i|] eqn:E2; [|discriminate H].
  apply andb_prop in H as [H H4]. apply andb_prop in H as [H H3]. apply andb_prop in H as [H1 H2]. apply bool_decide_eq_true in H3.
  destruct (ingested penv (req true true) (given [("content", NDir true [("a", F "A")])]) i) as [o|] eqn:E3; [|discriminate H4].
  apply bool_decide_eq_true in H4. apply first_archived in E1. apply loadb_true in E2.
  assert (folders_okb [("content", NDir true [("a", F "A")])] = true) as Hok by done. pose proof (proj1 (folders_okb_true _ Hok)) as Hg.
  exists penv, px, (λ _, True), jparse, before, ts, s, i0, i, (req true true), (NDir true [("a", F "A")]), o, {[ "a" := "A" ]}.
  split; [exact hexh_ok|]. split; [exact jjson_ok|]. split; [exact penv_paths|]. split; [exact E1|]. split; [exact E2|].
  split; [exact (supportedb_env penv i eq_refl H1)|]. split; [done|]. split; [apply (Hg "content"); left|].
  split; [exact (addressedb_true penv true i _ Hg H2)|]. split; [exact (files_of_true _ "content" Hok)|].
  split; [subst before; clear; split; [apply (bool_decide_unpack _); by vm_compute|]; intros Hb; apply (bool_decide_pack _) in Hb; by vm_compute in Hb|].
  split; [exact (ingested_true _ _ _ _ _ E3)|exact H4].
Qed.
(** A directory that cannot be read: with echo deletion its files disappear from the new version, and success is reported. *)
Theorem C56_unreadable_refuted :
  ∃ E X P parse before ts s i0 i r t o, hex_hash (e_hash E) ∧ json_ok P (e_json E) parse ∧ paths_by E X [] ∧ archived E X "content" P parse (before :: ts) s i0 ∧
    load_inventory (e_hash E) parse s "" = LInv i [] ∧ supported E i ∧ t = NDir true [("a", NFile (Some "A2")); ("d", NDir false [])] ∧
    ingest E dfl2 default_oracle default_oracle r [("content", Some t)] (HDone []) (open_object i) = (o, SOk) ∧ is_Some (before !! "d/b") ∧
    extract X default_oracle (ob_inv o) (apply_evs (ob_trace o) s) "latest" false "content" ∅ = ({[ "a" := "A2" ]}, SOk).
Proof.
  assert (match arch1 with
          | Some (before :: ts, s, i0) => match loadb jparse s with
             | Some i => supportedb i && bool_decide (before !! "d/b" = Some "B") &&
                match ingested penv (req true true) [("content", Some (NDir true [("a", F "A2"); ("d", NDir false [])]))] i with
                | Some o => yields (extract px default_oracle (ob_inv o) (apply_evs (ob_trace o) s) "latest" false "content" ∅) {[ "a" := "A2" ]}
                | None => false end
             | None => false end
          | _ => false end = true) as H by (by vm_compute).
  destruct arch1 as [[[[|before ts] s] i0]|] eqn:E1; [discriminate H| |discriminate H]. destruct (loadb jparse s) as [i|] eqn:E2; [|discriminate H].
  apply andb_prop in H as [H H4]. apply andb_prop in H as [H1 H3]. apply bool_decide_eq_true in H3.
  destruct (ingested penv (req true true) [("content", Some (NDir true [("a", F "A2"); ("d", NDir false [])]))] i) as [o|] eqn:E3; [|discriminate H4].
  apply arch1_archived in E1. apply loadb_true in E2.
  exists penv, px, (λ _, True), jparse, before, ts, s, i0, i, (req true true), (NDir true [("a", NFile (Some "A2")); ("d", NDir false [])]), o.
  split; [exact hexh_ok|]. split; [exact jjson_ok|]. split; [exact penv_paths|]. split; [exact E1|]. split; [exact E2|].
  split; [exact (supportedb_env penv i eq_refl H1)|]. split; [done|]. split; [exact (ingested_true _ _ _ _ _ E3)|]. split; [by rewrite H3|exact (yields_true _ _ H4)].
Qed.
(** Areas whose folders begin alike: echo deletion of the main area removes the files of the other one, which the request does not name. *)
Definition before3 : option object := ingested benv (req false true) (given [("content", NDir true [("a", F "A")]); ("metadata", NDir true [("m.xml", F "M")])]) fresh0.
Theorem C56_similar_areas_refuted :
  ∃ E X c s i r t o, paths_by E X [c] ∧ sp_paths c !! "content" = Some "data" ∧ sp_paths c !! "metadata" = Some "data2" ∧ good_folder t ∧
    extract X default_oracle i s "latest" false "metadata" ∅ = ({[ "m.xml" := "M" ]}, SOk) ∧
    ingest E dfl2 default_oracle default_oracle r [("content", Some t)] (HDone []) (open_object i) = (o, SOk) ∧
    extract X default_oracle (ob_inv o) (apply_evs (ob_trace o) s) "latest" false "metadata" ∅ = (∅, SOk).
Proof.
  assert (match before3 with
          | Some o1 => let s := apply_evs (ob_trace o1) store0 in
             match loadb jparse s with
             | Some i => yields (extract bx default_oracle i s "latest" false "metadata" ∅) {[ "m.xml" := "M" ]} &&
                match ingested benv (req true true) [("content", Some (NDir true [("a", F "A2")]))] i with
                | Some o => yields (extract bx default_oracle (ob_inv o) (apply_evs (ob_trace o) s) "latest" false "metadata" ∅) ∅
                | None => false end
             | None => false end
          | _ => false end = true) as H by (by vm_compute).
  destruct before3 as [o1|] eqn:E1; [|discriminate H]. cbv zeta in H. destruct (loadb jparse (apply_evs (ob_trace o1) store0)) as [i|] eqn:E2; [|discriminate H].
  apply andb_prop in H as [H1 H2].
  destruct (ingested benv (req true true) [("content", Some (NDir true [("a", F "A2")]))] i) as [o|] eqn:E3; [|discriminate H2].
  exists benv, bx, areas3, (apply_evs (ob_trace o1) store0), i, (req true true), (NDir true [("a", F "A2")]), o.
  split; [by repeat split|]. split; [by vm_compute|]. split; [by vm_compute|].
  split; [apply (proj1 (folders_okb_true [("content", NDir true [("a", F "A2")])] eq_refl) "content"); left|].
  split; [exact (yields_true _ _ H1)|]. split; [exact (ingested_true _ _ _ _ _ E3)|exact (yields_true _ _ H2)].
Qed.
Print Assumptions C56_revived_refuted.
Print Assumptions C56_dedup_refuted.
Print Assumptions C56_only_deletions_refuted.
Print Assumptions C56_unreadable_refuted.
Print Assumptions C56_similar_areas_refuted.

(** * C57: every version stays available *)

(** After any number of requests, version k+1 is extracted to what the area held after request k+1, and there are no other versions. *)
Theorem C57_history E X area P parse ts s i i' :
  hex_hash (e_hash E) → json_ok P (e_json E) parse → archived E X area P parse ts s i → load_inventory (e_hash E) parse s "" = LInv i' [] →
  (∀ ver, is_Some (inv_versions i' !! ver) ↔ ∃ k, (1 <= k <= N.of_nat (length ts))%N ∧ ver = version_name (inv_padding i') k) ∧
  ∀ k t orc, oracle_ok orc → rev ts !! k = Some t → extract X orc i' s (version_name (inv_padding i') (N.of_nat k + 1)) false area ∅ = (t, SOk).
Proof.
  intros Hhex Hj Ha Hl. destruct (archived_result E X area P parse ts s i Hhex Hj Ha) as (Hp & _ & n & fam & Hc & Hlen & _ & H).
  pose proof (loaded_same _ _ _ _ _ _ Hhex Hj Hp Hl) as Hr. split.
  - intros ver. rewrite (sr_vers _ _ Hr), (sr_pad _ _ Hr), Hlen. apply (g_contig _ _ _ _ (kp_good _ _ _ _ _ _ (cl_kept _ _ _ _ _ Hc))).
  - intros k t orc Ho Hk. rewrite (extract_same _ _ _ _ _ _ _ _ _ Hr), (sr_pad _ _ Hr). by apply H.
Qed.
(** Whatever a complete session does to the object, the extraction of every earlier version stays the same: the same files, the same
    bytes, the same error, for every area and target. *)
Theorem C57_versions_stay E P parse X s i0 i s' i' i'' ver man area target orc :
  hex_hash (e_hash E) → json_ok P (e_json E) parse → published E P parse s i0 → load_inventory (e_hash E) parse s "" = LInv i [] → supported E i →
  complete E s i s' i' → P i' → load_inventory (e_hash E) parse s' "" = LInv i'' [] → is_Some (inv_versions i !! ver) → oracle_ok orc →
  extract X orc i'' s' ver man area target = extract X orc i s ver man area target.
Proof.
  intros Hhex Hj Hp Hl Hsup Hcomp HP Hl' Hver Ho. destruct (loaded_kept _ _ _ _ _ _ Hhex Hj Hp Hl) as (n & fam & Hc0 & Hk).
  pose proof (published_next _ _ _ _ _ _ _ _ Hp Hl Hsup Hcomp HP) as Hp'. pose proof (loaded_same _ _ _ _ _ _ Hhex Hj Hp' Hl') as Hr'.
  rewrite (extract_same _ _ _ _ _ _ _ _ _ Hr').
  exact (extract_inherited E X orc s i s' i' n ver man area target (kp_good _ _ _ _ _ _ Hk) (complete_inherits E s Hhex i n fam Hk s' i' Hsup Hcomp) Ho Hver).
Qed.
Example C57_example :
  ∃ s i i', kept_archive [{[ "a" := "A3"; "d/b" := "B"; "d/e" := "C"; "f" := "new" ]}; {[ "a" := "A2"; "d/b" := "B"; "d/e" := "C" ]}; {[ "a" := "A"; "d/b" := "B"; "d/c" := "C" ]}] s i ∧
    load_inventory hexh jparse s "" = LInv i' [] ∧ inv_padding i' = 0%Z ∧
    extract px default_oracle i' s "v1" false "content" ∅ = ({[ "a" := "A"; "d/b" := "B"; "d/c" := "C" ]}, SOk) ∧
    extract px default_oracle i' s "v3" false "content" ∅ = ({[ "a" := "A3"; "d/b" := "B"; "d/e" := "C"; "f" := "new" ]}, SOk).
Proof.
  assert (match arch3 with
          | Some (ts, s, i) => match loadb jparse s with
             | Some i' => bool_decide (ts = [{[ "a" := "A3"; "d/b" := "B"; "d/e" := "C"; "f" := "new" ]}; {[ "a" := "A2"; "d/b" := "B"; "d/e" := "C" ]}; {[ "a" := "A"; "d/b" := "B"; "d/c" := "C" ]}]) &&
                bool_decide (inv_padding i' = 0%Z) && yields (extract px default_oracle i' s "v1" false "content" ∅) {[ "a" := "A"; "d/b" := "B"; "d/c" := "C" ]} &&
                yields (extract px default_oracle i' s "v3" false "content" ∅) {[ "a" := "A3"; "d/b" := "B"; "d/e" := "C"; "f" := "new" ]}
             | None => false end
          | _ => false end = true) as H by (by vm_compute).
  destruct arch3 as [[[ts s] i]|] eqn:E1; [|discriminate H]. destruct (loadb jparse s) as [i'|] eqn:E2; [|discriminate H].
  apply andb_prop in H as [H H4]. apply andb_prop in H as [H H3]. apply andb_prop in H as [H1 H2]. apply bool_decide_eq_true in H1, H2. subst ts.
  exists s, i, i'. split; [exact (arch3_archived _ _ _ E1)|]. split; [exact (loadb_true _ _ _ E2)|]. split; [exact H2|].
  split; [exact (yields_true _ _ H3)|exact (yields_true _ _ H4)].
Qed.
Print Assumptions C57_history.
Print Assumptions C57_versions_stay.
