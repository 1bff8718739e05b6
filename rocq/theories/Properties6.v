(** Properties C38 and C39: areas and extraction. *)
From Coq Require Import Ascii ZArith Lia.
From stdpp Require Import base list strings gmap.
From Verif Require Import GoStr PathModel InventoryModel InventorySpec ObjectModel CrashSpec AreaModel AreaSpec AreaProofs ExtractProofs.

(** * C38: area paths *)

(** Full statement: for every configured folder.  Missing: folders that are not relative paths of plain names; see the
    refutation. *)
Theorem C38_round_trip_partial c area sub p :
  requested c area ≠ "full" → sp_paths c !! requested c area = Some sub → folder sub → clean_rel p →
  ∃ s, mgr_state_path [c] p area = Some s ∧ mgr_extract_path [c] s area = XPath p.
Proof.
  intros H1 H2 H3 H4. destruct (round_trip c area sub p H1 H2 H3 H4) as (s & Hs & Hn & Hx). exists s.
  split; [by apply mgr_state_one|by rewrite mgr_one].
Qed.
(** The whole object ([full]) and objects without the extension: paths are not changed, and every path is extracted. *)
Theorem C38_full_area l p area : l = [] ∨ (∃ c, l = [c] ∧ requested c area = "full") →
  mgr_state_path l p area = Some p ∧ mgr_extract_path l p area = XPath p.
Proof.
  intros [-> | (c & -> & H)]; [done|]. rewrite mgr_one. cbn [mgr_state_path].
  unfold sub_state_path, sub_extract_path. fold (requested c area). rewrite H. destruct (decide ("full" = "full")); [|done].
  by destruct (decide (p = "")).
Qed.
(** Full statement: for all pairs of areas.  Missing: areas whose folders begin with one another, as content and content2; see
    the refutation. *)
Theorem C38_other_area_partial c a1 a2 s1 s2 p :
  requested c a1 ≠ "full" → requested c a2 ≠ "full" →
  sp_paths c !! requested c a1 = Some s1 → sp_paths c !! requested c a2 = Some s2 →
  clean_rel s1 → clean_rel p → ¬ starts s1 s2 → ¬ starts s2 s1 →
  ∃ s, mgr_state_path [c] p a1 = Some s ∧ mgr_extract_path [c] s a2 = XWrongArea.
Proof.
  intros H1 H2 H3 H4 H5 H6 H7 H8. destruct (other_area c a1 a2 s1 s2 p H1 H2 H3 H4 H5 H6 H7 H8) as (s & Hs & Hx).
  exists s. split; [|by rewrite mgr_one]. apply mgr_state_one; [done|].
  destruct (round_trip c a1 s1 p H1 H3) as (s' & Hs' & Hn & _); [right; by left|done|]. congruence.
Qed.
(** A folder configured with a slash at its end: only files below it are extracted. *)
Theorem C38_below_folder_partial c area s p e : requested c area ≠ "full" → sp_paths c !! requested c area = Some (s +:+ "/") →
  str_head e ≠ Some slash → mgr_extract_path [c] e area = XPath p → below s e.
Proof. rewrite mgr_one. apply extract_below. Qed.
(** An area which is not configured is refused in both directions. *)
Theorem C38_unknown_area c area p : requested c area ≠ "full" → sp_paths c !! requested c area = None →
  mgr_state_path [c] p area = None ∧ mgr_extract_path [c] p area = XErr.
Proof.
  intros H1 H2. rewrite mgr_one. cbn [mgr_state_path]. unfold sub_state_path, sub_extract_path. fold (requested c area).
  destruct (decide (requested c area = "full")); [done|]. by rewrite H2.
Qed.
Definition two_areas : subpaths := SubPaths {[ "content" := "data"; "metadata" := "meta/xml/" ]} "content".
Example C38_example :
  folder "data" ∧ folder "meta/xml/" ∧ clean_rel "a/b.txt" ∧ ¬ starts "data" "meta/xml/" ∧ ¬ starts "meta/xml/" "data" ∧
  mgr_state_path [two_areas] "a/b.txt" "" = Some "data/a/b.txt" ∧
  mgr_state_path [two_areas] "a/b.txt" "metadata" = Some "meta/xml/a/b.txt" ∧
  mgr_extract_path [two_areas] "meta/xml/a/b.txt" "metadata" = XPath "a/b.txt" ∧
  mgr_extract_path [two_areas] "meta/xml/a/b.txt" "content" = XWrongArea.
Proof.
  assert (∀ s, bool_decide (Forall (λ c, c ≠ "" ∧ c ≠ "." ∧ c ≠ ".." ∧ str_mem slash c = false) (split_slash s)) = true → clean_rel s) as H.
  { intros s Hs. apply bool_decide_eq_true in Hs. exact Hs. }
  split; [right; left; by apply H|]. split; [right; right; exists "meta/xml"; split; [by apply H|done]|].
  split; [by apply H|]. split; [by intros [r [=]]|]. split; [by intros [r [=]]|]. by vm_compute.
Qed.
Print Assumptions C38_round_trip_partial.
Print Assumptions C38_full_area.
Print Assumptions C38_other_area_partial.
Print Assumptions C38_below_folder_partial.
Print Assumptions C38_unknown_area.
(** A folder written with a dot: the file is not found in its own area. *)
Theorem C38_round_trip_refuted : ∃ c area sub p s, sp_paths c !! area = Some sub ∧ area ≠ "full" ∧ area ≠ "" ∧
  mgr_state_path [c] p area = Some s ∧ mgr_extract_path [c] s area = XWrongArea.
Proof. exists (SubPaths {[ "content" := "./data" ]} "content"), "content", "./data", "a", "data/a". by vm_compute. Qed.
(** A file of one area is extracted, under a wrong name, when another area is requested. *)
Theorem C38_other_area_refuted : ∃ c p s q, sp_paths c !! "one" = Some "content" ∧ sp_paths c !! "two" = Some "content2" ∧
  mgr_state_path [c] p "two" = Some s ∧ mgr_extract_path [c] s "one" = XPath q ∧ p = "a" ∧ q = "2/a".
Proof. exists (SubPaths {[ "one" := "content"; "two" := "content2" ]} "one"), "a", "content2/a", "2/a". by vm_compute. Qed.
Print Assumptions C38_round_trip_refuted.
Print Assumptions C38_other_area_refuted.

(** * C39: extraction *)

(** A successful extraction only ever writes stored content with the recorded digest, under a name a listed path maps to. *)
Theorem C39_only_stored_content X orc i src ver area t t' v :
  oracle_ok orc → inv_versions i !! requested_version i ver = Some v →
  extract X orc i src ver false area t = (t', SOk) →
  ∀ q, t' !! q = t !! q ∨ ∃ data, wanted X i src area (v_state v) q data ∧ t' !! q = Some data.
Proof.
  intros Ho Hv. rewrite (extract_body _ _ _ _ _ _ _ _ v) by done.
  destruct (body X orc i src (requested_version i ver) area v t) as [s st] eqn:Eb. destruct st; [|done..]. intros [= <-].
  by apply (only_stored X orc i src (requested_version i ver)).
Qed.
(** Full statement: for every state.  Missing: digests listing a path of another area before a path of the requested one, and
    states writing two contents to one place; see the refutations. *)
Theorem C39_complete_partial X orc i src ver area t t' v :
  oracle_ok orc → inv_versions i !! requested_version i ver = Some v →
  areas_apart X area (v_state v) → no_clash X area (v_state v) →
  extract X orc i src ver false area t = (t', SOk) →
  ∀ q, target_name X area (v_state v) q →
    ∃ data, wanted X i src area (v_state v) q data ∧ t' !! q = Some data ∧
      ∀ data', wanted X i src area (v_state v) q data' → data' = data.
Proof.
  intros Ho Hv Ha Hc. rewrite (extract_body _ _ _ _ _ _ _ _ v) by done.
  destruct (body X orc i src (requested_version i ver) area v t) as [s st] eqn:Eb. destruct st; [|done..]. intros [= <-] q Hq.
  destruct (exact X orc i src (requested_version i ver) area v t s Ho Eb Ha Hc q Hq) as (data & Hw & Hl).
  exists data. split; [done|]. split; [done|]. intros data' Hw'. by apply (wanted_unique X i src area (v_state v) q).
Qed.
(** The whole object: every logical path is written with its content. *)
Theorem C39_whole_object X orc i src ver area t t' v e d :
  oracle_ok orc → inv_versions i !! requested_version i ver = Some v → (∀ e, x_path X e area = XPath e) →
  unique_paths (v_state v) → extract X orc i src ver false area t = (t', SOk) → lists (v_state v) e d →
  ∃ data, t' !! e = Some data ∧ x_hash X (inv_alg i) data = Some d ∧
    ∃ p ps, inv_manifest i !! d = Some (p :: ps) ∧ src !! p = Some data.
Proof.
  intros Ho Hv Hid [Hu _] Hx Hl.
  destruct (C39_complete_partial X orc i src ver area t t' v Ho Hv) with (q := e) as (data & Hw & Ht & _).
  - intros d0 l1 e0 l2 _ H. by rewrite Hid in H.
  - intros e0 d0 e1 d1 q H0 H1. rewrite !Hid. intros [= ->] [= ->]. by apply (Hu q).
  - done.
  - exists d, e. split; [done|apply Hid].
  - exists data. split; [done|]. destruct Hw as (d' & e' & p & ps & Hl' & Hx' & Hm & Hs & Hh). rewrite Hid in Hx'. injection Hx' as ->.
    rewrite (Hu e d d') by done. split; [done|]. by exists p, ps.
Qed.
(** Whatever the outcome, no other file of the target is touched. *)
Theorem C39_nothing_else X orc i src ver man area t v q :
  oracle_ok orc → inv_versions i !! requested_version i ver = Some v → ¬ target_name X area (v_state v) q →
  (man = true → q ≠ "manifest." +:+ inv_alg i) →
  fst (extract X orc i src ver man area t) !! q = t !! q.
Proof.
  intros Ho Hv Hn Hq. rewrite (extract_body _ _ _ _ _ _ _ _ v) by done.
  pose proof (body_frame X orc i src (requested_version i ver) area v t q Ho Hn) as H.
  destruct (body X orc i src (requested_version i ver) area v t) as [s st]. cbn in H. destruct st; [|done..].
  destruct man; [|done]. destruct (x_can X _); [|done]. cbn. rewrite lookup_insert_ne; [done|]. by intros <-; apply Hq.
Qed.
(** The verdict does not depend on the iteration order. *)
Theorem C39_verdict_order X orc orc' i src ver man area t : oracle_ok orc → oracle_ok orc' →
  snd (extract X orc i src ver man area t) = SOk → snd (extract X orc' i src ver man area t) = SOk.
Proof. apply verdict_order. Qed.
(** Content that does not have its digest makes the extraction fail.  Missing: see [C39_complete_partial]. *)
Theorem C39_mismatch_fails_partial X orc i src ver man area t v e d q p ps data :
  oracle_ok orc → inv_versions i !! requested_version i ver = Some v → areas_apart X area (v_state v) →
  lists (v_state v) e d → x_path X e area = XPath q → inv_manifest i !! d = Some (p :: ps) → src !! p = Some data →
  x_hash X (inv_alg i) data ≠ Some d →
  snd (extract X orc i src ver man area t) ≠ SOk.
Proof.
  intros Ho Hv Ha (exts & Hst & He) Hq Hm Hs Hh. rewrite (extract_body _ _ _ _ _ _ _ _ v) by done.
  destruct (body X orc i src (requested_version i ver) area v t) as [s st] eqn:Eb. destruct st; [|done..]. intros _. exfalso.
  assert ((d, exts) ∈ o_state orc 0 (requested_version i ver) (v_state v)) as Hin by (by apply state_elem).
  destruct (iterate_each _ _ _ _ _ _ _ _ _ _ Eb Hin) as (p' & ps' & s1 & s2 & Hm' & Hk).
  assert (q ∈ picked X area exts) as Hp.
  { eapply target_picked; [exact Hk| |done|done]. intros l1 e1 l2 ->. by apply (Ha d l1). }
  apply extract_files_ok in Hk as [Hk _]. destruct (Hk q) as [[? _]|[_ (data' & (p1 & ps1 & E & Hs' & Hh') & _)]]; [done|].
  congruence.
Qed.
(** With the option for a manifest file: it lists exactly the extracted files with their digests, and the rest is as without. *)
Theorem C39_manifest_file_partial X orc i src ver area t t' v :
  oracle_ok orc → inv_versions i !! requested_version i ver = Some v → areas_apart X area (v_state v) →
  extract X orc i src ver true area t = (t', SOk) →
  ∃ l t0, extract X orc i src ver false area t = (t0, SOk) ∧ t' = <["manifest." +:+ inv_alg i := text l]> t0 ∧
    ∀ d q, (d, q) ∈ l ↔ ∃ e, lists (v_state v) e d ∧ x_path X e area = XPath q.
Proof.
  intros Ho Hv Ha. rewrite !(extract_body _ _ _ _ _ _ _ _ v) by done.
  destruct (body X orc i src (requested_version i ver) area v t) as [s st] eqn:Eb. destruct st; [|done..].
  destruct (x_can X _); [|done]. intros [= <-].
  destruct (manifest_text X orc i src (requested_version i ver) area v t s Ho Eb Ha) as (l & Hl & Hin).
  exists l, (xs_files s). rewrite Hl. done.
Qed.
(** IterateStateFiles visits every digest of the version once, with all its content paths, or fails if a digest has none. *)
Theorem C39_iteration orc i ver v r :
  oracle_ok orc → inv_versions i !! requested_version i ver = Some v →
  iterate_state_files orc i ver = inl r →
  r ≡ₚ (λ de : string * list string, (default [] (inv_manifest i !! de.1), de.2, de.1)) <$> map_to_list (v_state v).
Proof.
  intros [Ho _] Hv. unfold iterate_state_files. fold (requested_version i ver). rewrite Hv. intros [_ ->]%resolve_ok.
  by rewrite (Ho 0 (requested_version i ver) (v_state v)).
Qed.
Theorem C39_iteration_fails orc i ver v d :
  oracle_ok orc → inv_versions i !! requested_version i ver = Some v → is_Some (v_state v !! d) →
  default [] (inv_manifest i !! d) = [] → ∃ e, iterate_state_files orc i ver = inr e.
Proof.
  intros Ho Hv [exts Hd] Hm. unfold iterate_state_files. fold (requested_version i ver). rewrite Hv.
  destruct (resolve_states _ _) as [r|e] eqn:E; [|by exists e]. exfalso. apply resolve_ok in E as [HF _].
  assert ((d, exts) ∈ o_state orc 0 (requested_version i ver) (v_state v)) as Hin by (by apply state_elem).
  rewrite Forall_forall in HF. destruct (HF _ Hin) as (p & ps & H). cbn in H. rewrite H in Hm. done.
Qed.

Lemma same_result (x : storage * status) m st : bool_decide (x.1 = m) = true → x.2 = st → x = (m, st).
Proof. destruct x as [m' st']. cbn. intros H%bool_decide_eq_true ->. by rewrite H. Qed.
(** Digests of the examples: a letter for the algorithm and the data. *)
Definition toy_digest (alg data : string) : option string := if decide (alg = "toy") then Some ("h" +:+ data) else None.
Definition x_areas : xenv := XEnv toy_digest (mgr_extract_path [two_areas]) (λ _, true).
Definition inv_of (man st : smap) : inventory :=
  Inventory "id" "" "toy" "v1" "" man {[ "v1" := Version "" "" "" "" st ]} ∅ [] 0 false false.
Definition inv_x : inventory :=
  inv_of {[ "hA" := ["v1/content/data/a"]; "hM" := ["v1/content/meta/xml/m"; "v1/content/z"] ]}
         {[ "hA" := ["data/a"; "data/b"]; "hM" := ["meta/xml/m"] ]}.
Definition src_x : storage := {[ "v1/content/data/a" := "A"; "v1/content/meta/xml/m" := "M"; "v1/content/z" := "M" ]}.
Example C39_example :
  oracle_ok default_oracle ∧
  areas_apart x_areas "content" {[ "hA" := ["data/a"; "data/b"]; "hM" := ["meta/xml/m"] ]} ∧
  extract x_areas default_oracle inv_x src_x "" false "content" {[ "old" := "O" ]} =
    ({[ "old" := "O"; "a" := "A"; "b" := "A" ]}, SOk) ∧
  extract x_areas default_oracle inv_x src_x "v1" true "full" ∅ =
    ({[ "data/a" := "A"; "data/b" := "A"; "meta/xml/m" := "M";
        "manifest.toy" := text [("hA", "data/a"); ("hA", "data/b"); ("hM", "meta/xml/m")] ]}, SOk) ∧
  snd (extract x_areas default_oracle inv_x (<["v1/content/data/a" := "B"]> src_x) "" false "content" ∅) = SErr "invalid digest".
Proof.
  split; [by split|]. split.
  { intros d l1 e l2 Hl Hw. destruct (decide (d = "hA")) as [->|H1].
    - change (Some ["data/a"; "data/b"] = Some (l1 ++ e :: l2)) in Hl. apply (inj Some) in Hl.
      assert (e ∈ ["data/a"; "data/b"]) as He by (rewrite Hl; set_solver).
      repeat (apply elem_of_cons in He as [-> | He]; [by vm_compute in Hw|]). by apply elem_of_nil in He.
    - destruct (decide (d = "hM")) as [->|H2].
      + change (Some ["meta/xml/m"] = Some (l1 ++ e :: l2)) in Hl. apply (inj Some) in Hl.
        destruct l1 as [|x l1]; [injection Hl as <- <-; by apply Forall_nil|]. injection Hl as _ Hl. by destruct l1.
      + rewrite !lookup_insert_ne, lookup_singleton_ne in Hl by done. done. }
  split; [by apply same_result; vm_compute|]. split; [by apply same_result; vm_compute|]. by vm_compute.
Qed.
Print Assumptions C39_only_stored_content.
Print Assumptions C39_complete_partial.
Print Assumptions C39_whole_object.
Print Assumptions C39_nothing_else.
Print Assumptions C39_verdict_order.
Print Assumptions C39_mismatch_fails_partial.
Print Assumptions C39_manifest_file_partial.
Print Assumptions C39_iteration.
Print Assumptions C39_iteration_fails.
(** The same content in two areas: the extraction succeeds without writing the file. *)
Theorem C39_complete_refuted : ∃ X i src area q, 
  (∃ d e v, inv_versions i !! "v1" = Some v ∧ lists (v_state v) e d ∧ x_path X e area = XPath q) ∧
  unique_paths {[ "hA" := ["meta/xml/a"; "data/a"] ]} ∧
  extract X default_oracle i src "v1" false area ∅ = (∅, SOk).
Proof.
  exists x_areas, (inv_of {[ "hA" := ["v1/content/data/a"] ]} {[ "hA" := ["meta/xml/a"; "data/a"] ]}), src_x, "content", "a".
  split; [|split].
  - exists "hA", "data/a", (Version "" "" "" "" {[ "hA" := ["meta/xml/a"; "data/a"] ]}). split; [done|]. split; [|by vm_compute].
    exists ["meta/xml/a"; "data/a"]. split; [done|]. by apply elem_of_list_further, elem_of_list_here.
  - split.
    + intros p d1 d2 (ps1 & H1 & _) (ps2 & H2 & _). apply lookup_singleton_Some in H1 as [<- _]. by apply lookup_singleton_Some in H2 as [<- _].
    + intros d ps H. apply lookup_singleton_Some in H as [_ <-]. apply (bool_decide_unpack _). by vm_compute.
  - by apply same_result; vm_compute.
Qed.
(** Such a file may be damaged without the extraction failing. *)
Theorem C39_mismatch_refuted : ∃ X i src area d e q p data v, 
  inv_versions i !! "v1" = Some v ∧ lists (v_state v) e d ∧ x_path X e area = XPath q ∧
  inv_manifest i !! d = Some [p] ∧ src !! p = Some data ∧ x_hash X (inv_alg i) data ≠ Some d ∧
  snd (extract X default_oracle i src "v1" false area ∅) = SOk.
Proof.
  exists x_areas, (inv_of {[ "hA" := ["v1/content/data/a"] ]} {[ "hA" := ["meta/xml/a"; "data/a"] ]}), {[ "v1/content/data/a" := "damaged" ]},
    "content", "hA", "data/a", "a", "v1/content/data/a", "damaged", (Version "" "" "" "" {[ "hA" := ["meta/xml/a"; "data/a"] ]}).
  split; [done|]. split; [exists ["meta/xml/a"; "data/a"]; split; [done|]; by apply elem_of_list_further, elem_of_list_here|]. by vm_compute.
Qed.
(** Two different logical paths of one state written to the same place: which content stays depends on the order. *)
Theorem C39_clash_refuted : ∃ X i src area orc orc' q, oracle_ok orc ∧ oracle_ok orc' ∧
  extract X orc i src "v1" false area ∅ = ({[ q := "A" ]}, SOk) ∧
  extract X orc' i src "v1" false area ∅ = ({[ q := "B" ]}, SOk).
Proof.
  exists x_areas, (inv_of {[ "hA" := ["v1/content/data/a"]; "hB" := ["v1/content/dataa"] ]} {[ "hA" := ["data/a"]; "hB" := ["dataa"] ]}),
    {[ "v1/content/data/a" := "A"; "v1/content/dataa" := "B" ]}, "content".
  exists default_oracle, (Oracle (λ _ _ m, rev (map_to_list m)) (λ _ m, rev (map_to_list m))), "a".
  split; [by split|]. split; [split; intros; cbn; by rewrite <- Permutation_rev|].
  split; by apply same_result; vm_compute.
Qed.
(** The manifest file replaces an extracted file of the same name. *)
Theorem C39_manifest_overwrites_refuted : ∃ X i src t', 
  extract X default_oracle i src "v1" true "full" ∅ = (t', SOk) ∧
  (∃ d v, inv_versions i !! "v1" = Some v ∧ lists (v_state v) "manifest.toy" d ∧ x_hash X "toy" "A" = Some d) ∧
  src !! "v1/content/manifest.toy" = Some "A" ∧ t' !! "manifest.toy" ≠ Some "A".
Proof.
  exists x_areas, (inv_of {[ "hA" := ["v1/content/manifest.toy"] ]} {[ "hA" := ["manifest.toy"] ]}), {[ "v1/content/manifest.toy" := "A" ]},
    {[ "manifest.toy" := text [("hA", "manifest.toy")] ]}.
  split; [by apply same_result; vm_compute|]. split; [|by vm_compute].
  exists "hA", (Version "" "" "" "" {[ "hA" := ["manifest.toy"] ]}). split; [done|]. split; [|by vm_compute].
  exists ["manifest.toy"]. split; [done|]. apply elem_of_list_here.
Qed.
Print Assumptions C39_complete_refuted.
Print Assumptions C39_mismatch_refuted.
Print Assumptions C39_clash_refuted.
Print Assumptions C39_manifest_overwrites_refuted.
