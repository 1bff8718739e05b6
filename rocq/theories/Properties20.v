(** Side files of extensions and the indexer: C61 and C62. *)
From Coq Require Import Ascii.
From stdpp Require Import base list strings gmap.
From Coq Require Import ZArith Lia.
From Verif Require Import GoStr PathModel PathProofs InventoryModel ObjectModel InventorySpec ObjectSpec CrashSpec CrashProofs LoadModel AreaModel AreaSpec ValidateModel PublishSpec
  JsonlModel JsonlSpec JsonlProofs JsonlProofs2 JsonlProofs3 Properties2 Fixtures Fixtures2 Fixtures3 Fixtures5 Fixtures8 Fixtures10.

(** * C61: side files of extensions are read back *)

(** What an extension stored for the current version is what it reads for this version.  Partial: storage configurations for which the
    reader means the file of the writer, see the refutations. *)
Theorem C61_read_back_partial Z E l J orc t o o' s :
  codec_ok Z → manifest_by E l → agreeing l J → str_mem slash (js_name J) = false → str_mem slash (inv_head (ob_inv o)) = false →
  write_jsonl Z E l J orc (z_br Z t) o = (o', SOk) →
  read_jsonl Z l J (ob_inv o') (apply_evs (ob_trace o') s) (inv_head (ob_inv o')) = Some t.
Proof. intros HZ HE HJ Hn Hh Hw. by eapply write_read. Qed.
(** It stays: whatever is done with the object later, also if that fails or is interrupted, the file of an old version is read as before.
    Partial: files in the folders of the versions. *)
Theorem C61_stays_partial Z E l J i n k ops s s' p :
  head_number i n → CrashSpec.plain_name (content_name i) → clean_names E ops → str_mem slash (inv_alg i) = false →
  crash s (ob_trace (orun E ops (open_object i))) s' → (1 <= k <= n)%N →
  read_target l J i (version_name (inv_padding i) k) = Some p → CrashSpec.below (version_name (inv_padding i) k) p →
  read_jsonl Z l J (ob_inv (orun E ops (open_object i))) s' (version_name (inv_padding i) k) = read_jsonl Z l J i s (version_name (inv_padding i) k).
Proof.
  intros Hn Hc Hcl Ha Hcr Hk Hp Hb. rewrite (read_jsonl_cdir Z l J i) by (by eapply orun_cdir). unfold read_jsonl. rewrite Hp.
  by rewrite (C16_earlier_content_unchanged_partial E i n k ops s s' p Hn Hc Hcl Ha Hcr Hk Hb).
Qed.

(** A handle on the fresh object, update started. *)
Definition astarted (i : inventory) : object := orun aenv [(dflt, OStart "2024-02-02" "next" "me" "mailto:me" false)] (open_object i).
Definition text0 : string := "line 1" +:+ String nl ("line 2" +:+ String nl "").
Example C61_example :
  ∃ o, write_jsonl zc aenv [areas2] jarea dflt (z_br zc text0) (astarted fresh0) = (o, SOk) ∧
    read_target [areas2] jarea (ob_inv o) "v1" = Some "v1/content/meta/xml/indexer_v1.jsonl.br" ∧
    read_jsonl zc [areas2] jarea (ob_inv o) (apply_evs (ob_trace o) store0) "v1" = Some text0 ∧
    read_jsonl zc [areas2] jarea (ob_inv o) (apply_evs (ob_trace o) store0) "v2" = None.
Proof.
  destruct (write_jsonl zc aenv [areas2] jarea dflt (z_br zc text0) (astarted fresh0)) as [o st] eqn:Ho.
  assert (st = SOk) as -> by (apply (f_equal snd) in Ho; vm_compute in Ho; by symmetry).
  exists o. split; [done|]. apply (f_equal fst) in Ho. cbn [fst] in Ho. subst o. split; [by vm_compute|]. split; by vm_compute.
Qed.
(** The same for the other ways of storing: each is read back. *)
Example C61_kinds_example :
  Forall (λ q : list subpaths * env * jstore, ∃ o, write_jsonl zc q.1.2 q.1.1 q.2 dflt (z_br zc text0) (astarted fresh0) = (o, SOk) ∧
      read_jsonl zc q.1.1 q.2 (ob_inv o) (apply_evs (ob_trace o) store0) "v1" = Some text0)
    [([areas2], aenv, JStore "indexer" "gzip" "area" "content" "");
     ([], penv, JStore "indexer" "none" "path" "side" "");
     ([SubPaths {[ "content" := "data" ]} "full"], Env hexh jjson (mgr_state_path [SubPaths {[ "content" := "data" ]} "full"]) (mgr_state_path [SubPaths {[ "content" := "data" ]} "full"]) [],
        JStore "indexer" "none" "path" "side" "");
     ([areas2], aenv, JStore "indexer" "brotli" "extension" "side" "extensions/NNNN-indexer")].
Proof.
  repeat (constructor; [match goal with |- context [write_jsonl ?a ?b ?c ?d ?e ?f ?g] => exists (write_jsonl a b c d e f g).1 end; split; by vm_compute|]).
  constructor.
Qed.
(** A stored object with a side file; the next session changes the same logical file and is not finished. *)
Definition aops : list (oracle * oop) := [(dflt, OStart "2024-02-02" "next" "me" "mailto:me" false); (dflt, OSimple (SAdd "A3" "a" "content" true))].
Definition iops0 : list (bool * sop) := [(true, SAdd "A" "a" "content" true); (true, SAdd "Long" "b" "" true)].
Example C61_stays_example :
  ∃ s i, head_number i 1 ∧ CrashSpec.plain_name (content_name i) ∧ clean_names aenv aops ∧ str_mem slash (inv_alg i) = false ∧
    crash s (ob_trace (orun aenv aops (open_object i))) (apply_evs (ob_trace (orun aenv aops (open_object i))) s) ∧
    read_target [areas2] jarea i (version_name (inv_padding i) 1) = Some "v1/content/meta/xml/indexer_v1.jsonl.br" ∧
    CrashSpec.below (version_name (inv_padding i) 1) "v1/content/meta/xml/indexer_v1.jsonl.br" ∧
    is_Some (read_jsonl zc [areas2] jarea i s "v1") ∧ inv_head (ob_inv (orun aenv aops (open_object i))) = "v2".
Proof.
  destruct (runb aenv zc [areas2] jarea short true iops0 [] [] store0 fresh0) as [[[[s i] x] ls]|] eqn:E; [|exfalso; revert E; clear; vm_compute; discriminate].
  assert (match runb aenv zc [areas2] jarea short true iops0 [] [] store0 fresh0 with
          | Some (s, i, _, _) => bool_decide (inv_versions i ≠ ∅) && bool_decide (fst <$> map_to_list (inv_versions i) = ["v1"]) && bool_decide (inv_head i = "v1" ∧ inv_padding i = 0%Z ∧ inv_contentdir i = "" ∧ inv_alg i = "sha512") &&
              bool_decide (is_Some (read_jsonl zc [areas2] jarea i s "v1")) && bool_decide (inv_head (ob_inv (orun aenv aops (open_object i))) = "v2")
          | None => false end = true) as H by (clear; by vm_compute).
  rewrite E in H. clear E. apply andb_prop in H as [H H5]. apply andb_prop in H as [H H4]. apply andb_prop in H as [H H3]. apply andb_prop in H as [H1 H2].
  apply bool_decide_eq_true in H1, H2, H3, H4, H5. destruct H3 as (Ha & Hb & Hc & Hd). exists s, i.
  split; [split|].
  - exists 1%N. rewrite Ha, Hb. split; [done|]. split.
    { intros _. split; [by vm_compute|]. assert ("v1" ∈ fst <$> map_to_list (inv_versions i)) as Hv by (rewrite H2; by left).
      apply elem_of_list_fmap in Hv as ([v' y] & -> & Hv). apply elem_of_map_to_list in Hv. by exists y. }
    intros v [x' Hv]. apply elem_of_map_to_list in Hv. apply (elem_of_list_fmap_1 fst) in Hv. rewrite H2 in Hv.
    cbn [fst] in Hv. apply elem_of_list_singleton in Hv as ->. exists 1%N. by vm_compute.
  - rewrite Ha, Hb. by vm_compute.
  - unfold content_name. rewrite Hb, Hc, Hd. split; [repeat split; by vm_compute|]. split.
    { repeat constructor. intros m Hm. vm_compute in Hm. injection Hm as <-. apply clean_relb_true. by vm_compute. }
    split; [by vm_compute|]. split; [apply crash_all|]. split; [|split; [by exists "content/meta/xml/indexer_v1.jsonl.br"|exact (conj H4 H5)]].
    unfold read_target, manifest_name_version, content_dir. rewrite Hc. by vm_compute.
Qed.

(** The reader compares the storage type as it is, the writer in lower case: a file that is written without error is never found. *)
Theorem C61_capital_type_refuted :
  ∃ Z E l J o o', codec_ok Z ∧ manifest_by E l ∧ write_jsonl Z E l J dflt (z_br Z text0) o = (o', SOk) ∧
    ∀ i s v, read_jsonl Z l J i s v = None.
Proof.
  exists zc, aenv, [areas2], (JStore "indexer" "brotli" "Area" "metadata" ""), (astarted fresh0),
    (write_jsonl zc aenv [areas2] (JStore "indexer" "brotli" "Area" "metadata" "") dflt (z_br zc text0) (astarted fresh0)).1.
  split; [exact zc_ok|]. split; [exact aenv_by|]. split; [by vm_compute|]. intros i s v. done.
Qed.
(** With content areas and the storage type path the writer puts the folder of the area in front twice. *)
Theorem C61_path_twice_refuted :
  ∃ Z E l J o o', codec_ok Z ∧ manifest_by E l ∧ write_jsonl Z E l J dflt (z_br Z text0) o = (o', SOk) ∧
    apply_evs (ob_trace o') ∅ !! "v1/content/data/data/side/indexer_v1.jsonl" = Some text0 ∧
    read_target l J (ob_inv o') "v1" = Some "v1/content/data/side/indexer_v1.jsonl" ∧ read_jsonl Z l J (ob_inv o') (apply_evs (ob_trace o') ∅) "v1" = None.
Proof.
  exists zc, aenv, [areas2], (JStore "indexer" "none" "path" "side" ""), (astarted fresh0),
    (write_jsonl zc aenv [areas2] (JStore "indexer" "none" "path" "side" "") dflt (z_br zc text0) (astarted fresh0)).1.
  split; [exact zc_ok|]. split; [exact aenv_by|]. split; [by vm_compute|]. split; [by vm_compute|]. split; by vm_compute.
Qed.
(** Without content areas the storage type path makes a logical path that begins with a slash. *)
Theorem C61_path_slash_refuted :
  ∃ Z E l J o o' p d, codec_ok Z ∧ manifest_by E l ∧ agreeing l J ∧ write_jsonl Z E l J dflt (z_br Z text0) o = (o', SOk) ∧
    current (ob_inv o') p d ∧ ¬ clean_rel p.
Proof.
  exists zc, penv, [], (JStore "indexer" "none" "path" "side" ""), (astarted fresh0),
    (write_jsonl zc penv [] (JStore "indexer" "none" "path" "side" "") dflt (z_br zc text0) (astarted fresh0)).1, "/side/indexer_v1.jsonl", ("a" +:+ hex_str text0).
  split; [exact zc_ok|]. split; [done|]. split; [constructor|]. split; [by vm_compute|]. split; [apply currentb_true; by vm_compute|].
  unfold clean_rel. intros H. apply (Forall_inv (l := ["side"; "indexer_v1.jsonl"])) in H. by destruct H as [H _].
Qed.
(** With the storage name left empty the writer uses the default area and the reader fails. *)
Theorem C61_no_name_refuted :
  ∃ Z E l J o o', codec_ok Z ∧ manifest_by E l ∧ write_jsonl Z E l J dflt (z_br Z text0) o = (o', SOk) ∧
    ∀ i s v, read_jsonl Z l J i s v = None.
Proof.
  exists zc, aenv, [areas2], (JStore "indexer" "brotli" "area" "" ""), (astarted fresh0),
    (write_jsonl zc aenv [areas2] (JStore "indexer" "brotli" "area" "" "") dflt (z_br zc text0) (astarted fresh0)).1.
  split; [exact zc_ok|]. split; [exact aenv_by|]. split; [by vm_compute|]. intros i s v. done.
Qed.
Print Assumptions C61_read_back_partial.
Print Assumptions C61_stays_partial.
Print Assumptions C61_capital_type_refuted.
Print Assumptions C61_path_twice_refuted.
Print Assumptions C61_path_slash_refuted.
Print Assumptions C61_no_name_refuted.

(** * C62: the metadata of the indexer belongs to the content *)

(** The result for a file that is streamed is recorded with the content path of the file, and stays recorded. *)
Theorem C62_recorded {R} E (index : list string → string → option R) orc op o x o1 x1 o2 x2 data exts m r :
  istep E index true orc op o x = (o1, x1, SOk) → streamed E orc op o = Some (data, exts, m) → index exts data = Some r → icalls E index o1 x1 o2 x2 →
  ∃ lines more, ix_buf x2 !! inv_head (ob_inv o) = Some (lines ++ (m, r) :: more).
Proof.
  intros H Hs Hr Hc. destruct (istep_recorded _ _ _ _ _ _ _ _ _ _ _ _ H Hs Hr) as [lines Hl].
  destruct (icalls_keeps _ _ _ _ _ _ _ _ Hc Hl) as [more Hm]. exists lines, more. by rewrite <- app_assoc in Hm.
Qed.
(** An object that was created and updated by sessions with the indexer: GetMetadata of a new handle does not fail, whatever the map
    orders.  A digest in its answer is that of the content which gave the result; no recorded result is missing.  Partial: sessions in
    which at least one file is streamed; every new file has a new content path. *)
Theorem C62_metadata_partial {R} E P parse Z (L : printer R) l J index V s i lines i' w :
  hex_hash (e_hash E) → json_ok P (e_json E) parse → codec_ok Z → printer_ok V L → manifest_by E l → agreeing l J → str_mem slash (js_name J) = false →
  indexed E P parse Z L l J index V s i lines → load_inventory (e_hash E) parse s "" = LInv i' [] → vorder_ok w →
  ∃ r, ix_metadata Z L w l J ix_new i' s = Some r ∧
    (∀ d a, r !! d = Some a → ∃ p exts data, (p, a) ∈ lines ∧ lists (inv_manifest i') p d ∧ index exts data = Some a ∧ e_hash E (inv_alg i') data = Some d) ∧
    (∀ p a, (p, a) ∈ lines → ∃ d a', lists (inv_manifest i') p d ∧ r !! d = Some a').
Proof. intros Hhex Hj HZ HL HE HJ Hn Hi Hl Hw. by eapply indexed_metadata. Qed.
(** Such an object is one of those of C50: it was made by complete sessions. *)
Theorem C62_published_partial {R} E P parse Z (L : printer R) l J index V s i lines :
  hex_hash (e_hash E) → json_ok P (e_json E) parse → codec_ok Z → manifest_by E l → agreeing l J → str_mem slash (js_name J) = false →
  indexed E P parse Z L l J index V s i lines → published E P parse s i.
Proof. intros Hhex Hj HZ HE HJ Hn Hi. by eapply indexed_sided in Hi as [H _]. Qed.

(** Two sessions; in the second one another extension adds a file after the indexer. *)
Definition iops1 : list (bool * sop) := [(true, SAdd "A" "a" "content" true); (true, SAdd "Long" "b" "" true); (false, SAdd "M" "m.xml" "metadata" false)].
Definition iops2 : list (bool * sop) := [(true, SAdd "A2!" "a" "content" true); (true, SAdd "" "empty" "content" false)].
Definition isessions : option (storage * inventory * inventory * list (string * bool)) :=
  '(s1, i1, x1, l1) ← runb aenv zc [areas2] jarea short true iops1 [] [] store0 fresh0;
  i2 ← aload s1;
  if asup fresh0 && asup i2 then
    '(s2, i3, x2, l2) ← runb aenv zc [areas2] jarea short true iops2 [(true, SAdd "Z" "z" "metadata" true)] [(false, SAddReader "readme" ["README.md"] "full")] s1 i2;
    i4 ← aload s2;
    Some (s2, i3, i4, l1 ++ l2)
  else None.
Lemma isessions_true s i i' lines : isessions = Some (s, i, i', lines) →
  indexed aenv (λ _, True) jparse zc lb [areas2] jarea short one_line s i lines ∧ load_inventory (e_hash aenv) jparse s "" = LInv i' [].
Proof.
  unfold isessions. destruct (runb _ _ _ _ _ _ iops1 _ _ _ _) as [[[[s1 i1] x1] l1]|] eqn:E1; [|done]. cbn [mbind option_bind].
  destruct (aload s1) as [i2|] eqn:E2; [|done]. cbn [mbind option_bind]. destruct (asup fresh0) eqn:E3; [|done]. destruct (asup i2) eqn:E4; [|done]. cbn [andb].
  destruct (runb _ _ _ _ _ _ iops2 _ _ _ _) as [[[[s2 i3] x2] l2]|] eqn:E5; [|done]. cbn [mbind option_bind]. destruct (aload s2) as [i4|] eqn:E6; [|done]. cbn [mbind option_bind].
  intros [= <- <- <- <-]. split; [|exact (aload_true s2 i4 E6)].
  apply runb_true in E1, E5. eapply indexed_next; [|exact (aload_true s1 i2 E2)|exact (asup_true i2 E4)|exact E5|exact I].
  eapply indexed_first; [exact fresh0_fresh|exact store0_declared|exact (asup_true fresh0 E3)|exact E1|exact I].
Qed.
Example C62_example :
  ∃ s i i' lines, indexed aenv (λ _, True) jparse zc lb [areas2] jarea short one_line s i lines ∧ load_inventory (e_hash aenv) jparse s "" = LInv i' [] ∧
    lines = [("v1/content/data/a", true); ("v1/content/data/b", false); ("v2/content/data/a", false); ("v2/content/meta/xml/z", true)] ∧
    ix_metadata zc lb default_vorder [areas2] jarea ix_new i' s = Some {[ "a" +:+ hex_str "A" := true; "a" +:+ hex_str "Long" := false; "a" +:+ hex_str "A2!" := false; "a" +:+ hex_str "Z" := true ]}.
Proof.
  assert (match isessions with
          | Some (s, i, i', lines) => bool_decide (lines = [("v1/content/data/a", true); ("v1/content/data/b", false); ("v2/content/data/a", false); ("v2/content/meta/xml/z", true)]) &&
              bool_decide (ix_metadata zc lb default_vorder [areas2] jarea ix_new i' s =
                Some {[ "a" +:+ hex_str "A" := true; "a" +:+ hex_str "Long" := false; "a" +:+ hex_str "A2!" := false; "a" +:+ hex_str "Z" := true ]})
          | None => false end = true) as H by (by vm_compute).
  destruct isessions as [[[[s i] i'] lines]|] eqn:Hs; [|done]. apply andb_prop in H as [H1 H2]. apply bool_decide_eq_true in H1, H2.
  destruct (isessions_true _ _ _ _ Hs) as [Q1 Q2]. exists s, i, i', lines. exact (conj Q1 (conj Q2 (conj H1 H2))).
Qed.

(** A version in which nothing is streamed has no side file: from then on GetMetadata fails for the whole object. *)
Theorem C62_nothing_streamed_refuted :
  ∃ s1 i1 x1 l1 i2 s2 i3 x2 l2, runb aenv zc [areas2] jarea short true iops1 [] [] store0 fresh0 = Some (s1, i1, x1, l1) ∧
    is_Some (ix_metadata zc lb default_vorder [areas2] jarea ix_new i1 s1) ∧ aload s1 = Some i2 ∧
    runb aenv zc [areas2] jarea short false [(true, SRename "data/b" "data/c" ("a" +:+ hex_str "Long"))] [] [] s1 i2 = Some (s2, i3, x2, l2) ∧
    ix_metadata zc lb default_vorder [areas2] jarea ix_new i3 s2 = None.
Proof.
  assert (match runb aenv zc [areas2] jarea short true iops1 [] [] store0 fresh0 with
          | Some (s1, i1, x1, l1) =>
              match aload s1 with
              | Some i2 => match runb aenv zc [areas2] jarea short false [(true, SRename "data/b" "data/c" ("a" +:+ hex_str "Long"))] [] [] s1 i2 with
                           | Some (s2, i3, x2, l2) => bool_decide (is_Some (ix_metadata zc lb default_vorder [areas2] jarea ix_new i1 s1)) &&
                                                      bool_decide (ix_metadata zc lb default_vorder [areas2] jarea ix_new i3 s2 = None)
                           | None => false
                           end
              | None => false
              end
          | None => false end = true) as H by (by vm_compute).
  destruct (runb _ _ _ _ _ _ iops1 _ _ _ _) as [[[[s1 i1] x1] l1]|]; [|done]. destruct (aload s1) as [i2|] eqn:E2; [|done].
  destruct (runb _ _ _ _ _ false _ _ _ _ _) as [[[[s2 i3] x2] l2]|] eqn:E3; [|done]. apply andb_prop in H as [H1 H2]. apply bool_decide_eq_true in H1, H2.
  exists s1, i1, x1, l1, i2, s2, i3, x2, l2. exact (conj eq_refl (conj H1 (conj E2 (conj E3 H2)))).
Qed.
Definition rev_order : vorder := VOrder (λ _ A m, rev (map_to_list m)).
(** A path that is added twice in one version: both results have the same content path, and the result of the new content is reported
    for the digest of the old one. *)
Definition itwice : list (bool * sop) := [(true, SAdd "A" "a" "content" false); (true, SAdd "Long" "a" "content" false)].
Theorem C62_added_twice_refuted :
  vorder_ok rev_order ∧ ∃ s1 i1 x1 l1 r, runb aenv zc [areas2] jarea short false itwice [] [] store0 fresh0 = Some (s1, i1, x1, l1) ∧
    ix_metadata zc lb rev_order [areas2] jarea ix_new i1 s1 = Some r ∧ short ["data/a"] "A" = Some true ∧ short ["data/a"] "Long" = Some false ∧
    r !! ("a" +:+ hex_str "A") = Some false.
Proof.
  split; [intros n A m; cbn; symmetry; apply Permutation_rev|].
  assert (match runb aenv zc [areas2] jarea short false itwice [] [] store0 fresh0 with
          | Some (s1, i1, x1, l1) => match ix_metadata zc lb rev_order [areas2] jarea ix_new i1 s1 with
                                     | Some r => bool_decide (r !! ("a" +:+ hex_str "A") = Some false)
                                     | None => false
                                     end
          | None => false end = true) as H by (by vm_compute).
  destruct (runb _ _ _ _ _ _ itwice _ _ _ _) as [[[[s1 i1] x1] l1]|]; [|done]. destruct (ix_metadata _ _ _ _ _ _ i1 s1) as [r|] eqn:Er; [|done].
  apply bool_decide_eq_true in H. exists s1, i1, x1, l1, r. exact (conj eq_refl (conj Er (conj eq_refl (conj eq_refl H)))).
Qed.
(** After UpdateObjectAfter the writer is closed: a second update with the same handle in which nothing is streamed fails, and so does
    every file that is added with hooks by a later extension, if there is a result for it. *)
Theorem C62_closed_writer_refuted :
  ∃ o x o1 x1, ix_after zc lb aenv [areas2] jarea dflt o x = (o1, x1, SOk) ∧ (ix_after zc lb aenv [areas2] jarea dflt o1 x1).2 = SErr "cannot flush brotli writer" ∧
    proper aenv dflt (SAddReader "readme" ["README.md"] "full") o1 ∧
    (sop_step aenv dflt (SAddReader "readme" ["README.md"] "full") o1).2 = SOk ∧
    (istep aenv short true dflt (SAddReader "readme" ["README.md"] "full") o1 x1).2 = SErr "cannot brotli".
Proof.
  destruct (icallsb aenv short true iops1 (astarted fresh0) ix_new) as [[o x]|] eqn:E.
  - assert (match icallsb aenv short true iops1 (astarted fresh0) ix_new with
            | Some (o, x) =>
                let r := ix_after zc lb aenv [areas2] jarea dflt o x in
                match r.2 with SOk => true | _ => false end &&
                match (ix_after zc lb aenv [areas2] jarea dflt r.1.1 r.1.2).2 with SErr e => bool_decide (e = "cannot flush brotli writer") | _ => false end &&
                guardb aenv (SAddReader "readme" ["README.md"] "full") r.1.1 &&
                match (sop_step aenv dflt (SAddReader "readme" ["README.md"] "full") r.1.1).2 with SOk => true | _ => false end &&
                match (istep aenv short true dflt (SAddReader "readme" ["README.md"] "full") r.1.1 r.1.2).2 with SErr e => bool_decide (e = "cannot brotli") | _ => false end
            | None => false end = true) as H by (clear; by vm_compute).
    rewrite E in H. destruct (ix_after zc lb aenv [areas2] jarea dflt o x) as [[o1 x1] st] eqn:E1. cbv zeta in H. cbn [fst snd] in H.
    apply andb_prop in H as [H H5]. apply andb_prop in H as [H H4]. apply andb_prop in H as [H H3]. apply andb_prop in H as [H1 H2].
    exists o, x, o1, x1. destruct st; [|done..]. split; [done|].
    destruct (ix_after zc lb aenv [areas2] jarea dflt o1 x1).2; [done| |done]. apply bool_decide_eq_true in H2 as ->. split; [done|]. split; [by apply guardb_true|].
    split; [by destruct (sop_step _ _ _ _).2|]. destruct (istep _ _ _ _ _ _ _).2; [done| |done]. by apply bool_decide_eq_true in H5 as ->.
  - exfalso. revert E. vm_compute. discriminate.
Qed.
Print Assumptions C62_recorded.
Print Assumptions C62_metadata_partial.
Print Assumptions C62_published_partial.
Print Assumptions C62_nothing_streamed_refuted.
Print Assumptions C62_added_twice_refuted.
Print Assumptions C62_closed_writer_refuted.
