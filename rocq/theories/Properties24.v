(** Storage roots filled by requests and validated as a whole: C67. *)
From Coq Require Import Ascii.
From stdpp Require Import base list strings gmap.
From Coq Require Import ZArith Lia.
From Verif Require Import GoStr PathModel PathProofs InventoryModel ObjectModel InventorySpec ObjectSpec CrashSpec CrashProofs LoadModel PublishSpec AreaModel AreaProofs IngestModel IngestSpec
  IngestProofs6 IngestProofs7 IngestProofs8 LayoutModel LayoutSpec LayoutProofs LayoutProofs3 RootModel RootSpec RootProofs RootAddModel RootAddSpec RootAddProofs RootAddProofs2
  ValidateModel CheckModel AcceptSpec JsonModel JsonInvModel JsonInvSpec Properties12 RootCheckModel RootCheckSpec RootCheckProofs RootCheckProofs2 RootCheckProofs3 RootFillSpec RootFillProofs RootFillProofs2 RootFillProofs3
  Properties1 Properties4 Properties10 Properties16 Properties17 Properties18 Fixtures Fixtures2 Fixtures3 Fixtures5 Fixtures6 Properties3 Fixtures8 Fixtures9 Fixtures13 Fixtures14 RootModel RootAddModel.

(** * C67: a storage root that was filled by requests is valid as a whole *)

(** The objects that a walk over the root finds are exactly those that were created, each in the folder of its identifier. *)
Theorem C67_objects_found E X area P parse rt fixalgs allowed ids s0 H s tr p :
  hex_hash (e_hash E) → json_ok P (e_json E) parse → (∀ x b, (x, b) ∈ e_ext_files E → clean_rel x) → proper_root rt fixalgs allowed ids s0 →
  root_history E X area P parse rt fixalgs allowed ids s0 H s → extensions_free rt ids → RootFillSpec.started (rt_version rt) s0 → lists tr s →
  (∃ l, object_dir tr p l) ↔ ∃ id ts, H !! id = Some ts ∧ root_path (rt_layouts rt) id = Some (p, false).
Proof.
  intros Hhex Hj Hx Hr Hh Hfree Hst Hls. exact (history_found E X area P parse rt fixalgs allowed ids s0 Hhex Hj Hx Hr H s Hh tr Hfree Hst Hls p).
Qed.
(** After any number of requests the validation of the whole root comes to its end and shows nothing but warnings.  Partial: without path
    extensions; no version may hold a file and a directory of the same name (see C58); the identifiers have folders apart from each other
    (see C59) and from the folder of the extensions; the extensions are those the program writes. *)
Theorem C67_filled_valid_partial E X P parse decode w lx create rt fixalgs allowed ids s0 H s tr :
  hex_hash (e_hash E) → json_ok P (e_json E) parse → (∀ i, decode (e_json E i) = Some (doc_of i)) → paths_by E X [] → vorder_ok w →
  (∀ x b, (x, b) ∈ e_ext_files E → clean_rel x) → proper_root rt fixalgs allowed ids s0 →
  root_history E X "content" P parse rt fixalgs allowed ids s0 H s → ¬ ids "" → (∀ id ts, H !! id = Some ts → Forall no_conflict ts) →
  extensions_free rt ids → RootFillSpec.started (rt_version rt) s0 → lists tr s →
  (∀ e, extensions_of tr e → managed create e ∧ ∀ name, ¬ unknown create e name) → (∀ p l e, object_dir tr p l → extensions_of l e → managed create e) →
  ∃ fs, validate_root (e_hash E) decode w lx create tr = RDone fs ∧ ∀ x, x ∈ fs → warning (snd x).
Proof.
  intros Hhex Hj Hdec HE Hw Hx Hr Hh Hne Hc Hfree Hst Hls H1 H2.
  apply (history_good E X "content" P parse rt fixalgs allowed ids s0 Hhex Hj Hx Hr H s Hh tr Hfree Hst Hls _ _ _ _ _ H1 H2).
  intros id ts f HH Hf. pose proof (history_dom _ _ _ _ _ _ _ _ _ _ _ _ _ _ Hh HH) as Hid.
  apply (C59_objects_valid_partial E X P parse decode w lx rt fixalgs allowed ids s0 H s id f ts Hhex Hj Hdec HE Hw Hx Hr Hh Hid); [by intros ->|done|done|by eapply Hc].
Qed.
(** The same with the JSON text that is really written and read. *)
Theorem C67_text_valid_partial E X fits tm t0 w w' lx lx' create rt fixalgs allowed ids s0 H s tr :
  hex_hash (e_hash E) → utf8_hash (e_hash E) → e_json E = inventory_text → paths_by E X [] → vorder_ok w → vorder_ok w' →
  (∀ x b, (x, b) ∈ e_ext_files E → clean_rel x) → proper_root rt fixalgs allowed ids s0 →
  root_history E X "content" (storable tm) (parse_text fits tm t0 w lx) rt fixalgs allowed ids s0 H s → ¬ ids "" → (∀ id ts, H !! id = Some ts → Forall no_conflict ts) →
  extensions_free rt ids → RootFillSpec.started (rt_version rt) s0 → lists tr s →
  (∀ e, extensions_of tr e → managed create e ∧ ∀ name, ¬ unknown create e name) → (∀ p l e, object_dir tr p l → extensions_of l e → managed create e) →
  ∃ fs, validate_root (e_hash E) (decode_text fits tm t0) w' lx' create tr = RDone fs ∧ ∀ x, x ∈ fs → warning (snd x).
Proof.
  intros Hhex Hut Hjs HE Hw Hw' Hx Hr Hh Hne Hc Hfree Hst Hls H1 H2.
  assert (json_ok (storable tm) (e_json E) (parse_text fits tm t0 w lx)) as Hj by (rewrite Hjs; by apply C51_encoding_ok_partial).
  apply (history_good E X "content" _ _ rt fixalgs allowed ids s0 Hhex Hj Hx Hr H s Hh tr Hfree Hst Hls _ _ _ _ _ H1 H2).
  intros id ts f HH Hf. pose proof (history_dom _ _ _ _ _ _ _ _ _ _ _ _ _ _ Hh HH) as Hid.
  destruct (history_ok E X "content" _ _ rt fixalgs allowed ids s0 Hhex Hj Hx Hr H s Hh) as [Ho _].
  specialize (Ho id f Hid Hf). rewrite HH in Ho. destruct Ho as (i & i2 & Harch & Hi & Hal & Hty & Hcd & _).
  apply (C58_text_valid_partial E X fits tm t0 w w' lx lx' ts _ i Hhex Hut Hjs HE Hw Hw' Harch (Hc _ _ HH)).
  - rewrite Hi. by intros ->.
  - rewrite Hty. unfold inventory_type. by case_decide.
  - rewrite Hal. apply Hr.
  - unfold content_name. rewrite Hcd. exact apart_content.
Qed.
(** The storage root that Init leaves is such a beginning. *)
Theorem C67_init_started v others s : (∀ p data, (p, data) ∈ others → inside "extensions" p ∨ str_mem slash p = false ∧ str_mem "="%char p = false) →
  root_init v others ∅ = (s, SOk) → RootFillSpec.started v s.
Proof. apply init_started. Qed.

(** Two objects with five requests in a root with extensions. *)
Definition root_others : list (string * string) :=
  [("ocfl_layout.json", "{}"); ("README.md", "text"); ("extensions/initial/config.json", "initial"); ("extensions/NNNN-gocfl-extension-manager/config.json", manager_name)].
Definition s_start : storage := (root_init "1.1" root_others ∅).1.
Lemma rt4_proper2 : proper_root rt4 [] [] (λ id, id ∈ ids3) s_start.
Proof.
  split; [by right|by left| |exact rt4_apart|].
  - intros a Ha. by apply elem_of_nil in Ha.
  - intros id f p Hid Hf [r ->]. change (rt_layouts rt4) with [build4 toy_hash c4] in Hf.
    assert (∀ q x, s_start !! q = Some x → forallb (λ d : string * storage, true) [] = true → q ∈ "0=ocfl_1.1" :: (fst <$> root_others)) as Hs.
    { intros q x Hq _. apply elem_of_map_to_list in Hq. apply (elem_of_list_fmap_1 fst) in Hq. cbn [fst] in Hq. revert Hq.
      assert (forallb (λ y, bool_decide (y ∈ "0=ocfl_1.1" :: (fst <$> root_others))) (fst <$> map_to_list s_start) = true) as Hb by (by vm_compute).
      intros Hq. rewrite forallb_forall in Hb. apply elem_of_list_In, Hb, bool_decide_eq_true in Hq. done. }
    destruct (s_start !! (f +:+ "/" +:+ r)) eqn:E; [|done]. apply Hs in E; [|done]. exfalso.
    unfold ids3 in Hid. rewrite !elem_of_cons, elem_of_nil in Hid.
    destruct Hid as [-> |[-> |[-> |[]]]]; vm_compute in Hf; injection Hf as <-; revert E; cbn [fmap list_fmap root_others fst]; rewrite !elem_of_cons, elem_of_nil;
      intros [E|[E|[E|[E|[E|[]]]]]]; discriminate E.
Qed.
Lemma rt4_free : extensions_free rt4 (λ id, id ∈ ids3).
Proof.
  intros id f Hid Hf. unfold ids3 in Hid. rewrite !elem_of_cons, elem_of_nil in Hid.
  destruct Hid as [-> |[-> |[-> |[]]]]; vm_compute in Hf; injection Hf as <-; (split; [done|]); intros [r Hr]; discriminate Hr.
Qed.
Lemma s_start_started : RootFillSpec.started "1.1" s_start.
Proof.
  apply (init_started "1.1" root_others); [|by apply done_with].
  intros p data Hi. unfold root_others in Hi. rewrite !elem_of_cons, elem_of_nil in Hi.
  destruct Hi as [[= -> _]|[[= -> _]|[[= -> _]|[[= -> _]|[]]]]]; [by right..|left; by exists "initial/config.json"|left; by exists "NNNN-gocfl-extension-manager/config.json"].
Qed.
Definition filled : contents * storage := default (∅, ∅) (root_steps rt4 s_start calls5).
Definition filled_tree : list (string * RootModel.node) := tree_of filled.2.
Example C67_example :
  hex_hash (e_hash penv) ∧ json_ok (λ _, True) (e_json penv) jparse ∧ (∀ i, jdecode (e_json penv i) = Some (doc_of i)) ∧ paths_by penv px [] ∧ vorder_ok wd ∧
  (∀ x b, (x, b) ∈ e_ext_files penv → clean_rel x) ∧ proper_root rt4 [] [] (λ id, id ∈ ids3) s_start ∧
  root_history penv px "content" (λ _, True) jparse rt4 [] [] (λ id, id ∈ ids3) s_start filled.1 filled.2 ∧ "" ∉ ids3 ∧
  (∀ id ts, filled.1 !! id = Some ts → Forall no_conflict ts) ∧ extensions_free rt4 (λ id, id ∈ ids3) ∧ RootFillSpec.started (rt_version rt4) s_start ∧ lists filled_tree filled.2 ∧
  (∀ e, extensions_of filled_tree e → managed toy_create e ∧ ∀ name, ¬ unknown toy_create e name) ∧
  (∀ p l e, object_dir filled_tree p l → extensions_of l e → managed toy_create e) ∧
  dom filled.1 = {["obj:1"; "a/b"]} ∧ get_object_folders filled_tree = ["03/f2/15/03f21561"; "05/a6/b3/05a6b36f"] ∧
  validate_root hexh jdecode wd lx0 toy_create filled_tree =
    RDone [("", Finding "W000" ["initial"]); ("03/f2/15/03f21561", Finding "W000" ["initial"]); ("", Finding "W000" ["initial"]); ("05/a6/b3/05a6b36f", Finding "W000" ["initial"])].
Proof.
  assert (is_Some (root_steps rt4 s_start calls5)) as [[H s] Es] by (apply (bool_decide_unpack _); by vm_compute).
  assert (lists filled_tree filled.2) as Hl by (apply listsb_true; by vm_compute).
  assert (root_history penv px "content" (λ _, True) jparse rt4 [] [] (λ id, id ∈ ids3) s_start filled.1 filled.2) as Hh.
  { unfold filled. rewrite Es. cbn [default fst snd]. eapply root_steps_true; [|exact Es]. intros x Hx. unfold calls5 in Hx. rewrite !elem_of_cons, elem_of_nil in Hx. unfold ids3. rewrite !elem_of_cons.
    destruct Hx as [-> |[-> |[-> |[-> |[-> |[]]]]]]; cbn [fst snd]; tauto. }
  split; [exact hexh_ok|]. split; [exact jjson_ok|]. split; [exact jdecode_ok|]. split; [exact penv_paths|]. split; [exact wd_ok|]. split; [exact penv_ext|].
  split; [exact rt4_proper2|]. split; [exact Hh|]. split; [by apply (bool_decide_unpack _); vm_compute|]. split.
  { intros id ts HH. assert (forallb (λ x : string * list storage, forallb no_conflictb x.2) (map_to_list filled.1) = true) as Hb by (by vm_compute).
    rewrite forallb_forall in Hb. apply elem_of_map_to_list, elem_of_list_In, Hb in HH. cbn [snd] in HH. apply Forall_forall. intros t Ht. rewrite forallb_forall in HH.
    apply no_conflictb_true, HH. by apply elem_of_list_In. }
  split; [exact rt4_free|]. split; [exact s_start_started|]. split; [exact Hl|].
  pose proof (tidy_nodup _ (ls_tidy _ _ Hl)) as Hnd. split.
  { intros e He. rewrite (extensions_found _ _ Hnd He). split; [apply managedb_true|apply knownb_true]; by vm_compute. }
  split.
  { intros p l e Hp He. assert (tidy_root filled_tree) as Ht.
    { exact (history_tidy penv px "content" _ jparse rt4 [] [] _ s_start hexh_ok jjson_ok penv_ext rt4_proper2 filled.1 filled.2 Hh filled_tree s_start_started Hl). }
    assert (forallb (λ p, match find_folder p filled_tree with Some l => bool_decide (NoDup (fst <$> l)) && managedb toy_create (ext_folder l) | None => false end) (get_object_folders filled_tree) = true) as Hb
      by (by vm_compute).
    rewrite forallb_forall in Hb. specialize (Hb p (proj1 (elem_of_list_In _ _) (proj2 (proj2 (root_found _ Ht) p) (object_dir_in _ _ _ Hp)))).
    rewrite (find_object_dir _ _ _ Ht Hp) in Hb. apply andb_prop in Hb as [Hb1%bool_decide_eq_true Hb2]. rewrite (extensions_found _ _ Hb1 He). by apply managedb_true. }
  split; [apply (bool_decide_unpack _); by vm_compute|]. split; by vm_compute.
Qed.
(** Two objects with the JSON text that is really written. *)
Definition text_new (x : string * IngestModel.node) (c : contents * storage) : option (contents * storage) :=
  let '(id, t) := x in
  let '(H, s) := c in
  let folders := [("content", t)] in
  match H !! id with
  | Some _ => None
  | None =>
      if supportedb (new_of rt4 id) && request_okb txenv (new_of rt4 id) (req false true) folders then
        o ← ingested txenv (req false true) (given folders) (new_of rt4 id);
        if storableb tm0 (ob_inv o) then
          match add_object txenv tparse rt4 [] [] id id dfl2 default_oracle default_oracle (req false true) (given folders) (HDone []) s with
          | (s', SOk) => Some (<[id := [files_of folders "content"]]> H, s')
          | _ => None
          end
        else None
      else None
  end.
Lemma text_new_true id t H s H' s' : id ∈ ids3 → text_new (id, t) (H, s) = Some (H', s') →
  root_request txenv px "content" (storable tm0) tparse rt4 [] [] (λ id, id ∈ ids3) H s H' s' SOk.
Proof.
  intros Hid. unfold text_new. destruct (H !! id) eqn:EH; [done|]. destruct (supportedb (new_of rt4 id)) eqn:E3; [|done]. cbn [andb].
  destruct (request_okb _ _ _ _) eqn:E1; [|done]. destruct (ingested _ _ _ _) as [o|] eqn:E4; [|done]. cbn [mbind option_bind].
  destruct (storableb tm0 (ob_inv o)) eqn:E5; [|done]. destruct (add_object _ _ _ _ _ _ _ _ _ _ _ _ _ _) as [s1 []] eqn:E2; [|done..]. intros Heq.
  apply (inj Some) in Heq. pose proof (f_equal fst Heq) as Hq1. pose proof (f_equal snd Heq) as Hq2. cbn [fst snd] in Hq1, Hq2. subst H' s'. clear Heq.
  pose proof (okb_good _ _ _ _ E1) as Hf. apply ingested_true in E4.
  eapply (request_new txenv px "content" _ tparse rt4 [] [] _ H s id _ dfl2 default_oracle default_oracle (req false true) [("content", t)]).
  - exact Hid.
  - exact EH.
  - reflexivity.
  - by apply (supportedb_env txenv (new_of rt4 id)).
  - exact dfl2_ok.
  - exact dflt_ok.
  - apply request_okb_true; [exact E1|]. apply (plain_placed txenv px _ _ txenv_paths). apply (proj1 (folders_okb_true _ Hf) "content"). left.
  - by apply hexh_no_clashes.
  - exact (plain_served _ _ _ _ _ txenv_paths).
  - by apply files_of_true.
  - intros o' Ho. change (new_inventory id (inventory_type (rt_version rt4)) (rt_alg rt4) []) with (new_of rt4 id) in Ho. rewrite E4 in Ho. injection Ho as <-. exact (storableb_true _ _ E5).
  - exact E2.
Qed.
Definition texts : contents * storage := default (∅, ∅) (text_new ("obj:1", t1) (∅, s_start) ≫= text_new ("a/b", NDir true [("x", F "X")])).
Definition text_tree : list (string * RootModel.node) := tree_of texts.2.
Lemma texts_history : root_history txenv px "content" (storable tm0) tparse rt4 [] [] (λ id, id ∈ ids3) s_start texts.1 texts.2.
Proof.
  assert (is_Some (text_new ("obj:1", t1) (∅, s_start) ≫= text_new ("a/b", NDir true [("x", F "X")]))) as [[H s] Es] by (apply (bool_decide_unpack _); by vm_compute).
  unfold texts. rewrite Es. cbn [default fst snd]. destruct (text_new ("obj:1", t1) (∅, s_start)) as [[H1 s1]|] eqn:E1; [|discriminate Es]. cbn [mbind option_bind] in Es.
  eapply history_request; [eapply history_request; [apply history_start|]|].
  - eapply text_new_true; [|exact E1]. by apply (bool_decide_unpack _); vm_compute.
  - eapply text_new_true; [|exact Es]. by apply (bool_decide_unpack _); vm_compute.
Qed.
Example C67_text_example :
  hex_hash (e_hash txenv) ∧ utf8_hash (e_hash txenv) ∧ e_json txenv = inventory_text ∧ paths_by txenv px [] ∧ vorder_ok wd ∧ (∀ x b, (x, b) ∈ e_ext_files txenv → clean_rel x) ∧
  proper_root rt4 [] [] (λ id, id ∈ ids3) s_start ∧
  root_history txenv px "content" (storable tm0) (parse_text fits0 tm0 zero_time wd lx0) rt4 [] [] (λ id, id ∈ ids3) s_start texts.1 texts.2 ∧ "" ∉ ids3 ∧
  (∀ id ts, texts.1 !! id = Some ts → Forall no_conflict ts) ∧ extensions_free rt4 (λ id, id ∈ ids3) ∧ RootFillSpec.started (rt_version rt4) s_start ∧ lists text_tree texts.2 ∧
  (∀ e, extensions_of text_tree e → managed toy_create e ∧ ∀ name, ¬ unknown toy_create e name) ∧
  (∀ p l e, object_dir text_tree p l → extensions_of l e → managed toy_create e) ∧ get_object_folders text_tree = ["03/f2/15/03f21561"; "05/a6/b3/05a6b36f"].
Proof.
  assert (lists text_tree texts.2) as Hl by (apply listsb_true; by vm_compute).
  assert (∀ x b, (x, b) ∈ e_ext_files txenv → clean_rel x) as Hx by (intros x b Hi; apply (penv_ext x b); exact Hi).
  assert (json_ok (storable tm0) (e_json txenv) tparse) as Hj by (by apply C51_encoding_ok_partial; exact wd_ok).
  split; [exact hexh_ok|]. split; [exact hexh_utf8|]. split; [reflexivity|]. split; [exact txenv_paths|]. split; [exact wd_ok|]. split; [exact Hx|].
  split; [exact rt4_proper2|]. split; [exact texts_history|]. split; [by apply (bool_decide_unpack _); vm_compute|]. split.
  { intros id ts HH. assert (forallb (λ x : string * list storage, forallb no_conflictb x.2) (map_to_list texts.1) = true) as Hb by (by vm_compute).
    rewrite forallb_forall in Hb. apply elem_of_map_to_list, elem_of_list_In, Hb in HH. cbn [snd] in HH. apply Forall_forall. intros t Ht. rewrite forallb_forall in HH.
    apply no_conflictb_true, HH. by apply elem_of_list_In. }
  split; [exact rt4_free|]. split; [exact s_start_started|]. split; [exact Hl|].
  pose proof (tidy_nodup _ (ls_tidy _ _ Hl)) as Hnd. split.
  { intros e He. rewrite (extensions_found _ _ Hnd He). split; [apply managedb_true|apply knownb_true]; by vm_compute. }
  split; [|by vm_compute].
  intros p l e Hp He. assert (tidy_root text_tree) as Ht.
  { exact (history_tidy txenv px "content" _ tparse rt4 [] [] _ s_start hexh_ok Hj Hx rt4_proper2 texts.1 texts.2 texts_history text_tree s_start_started Hl). }
  assert (forallb (λ p, match find_folder p text_tree with Some l => bool_decide (NoDup (fst <$> l)) && managedb toy_create (ext_folder l) | None => false end) (get_object_folders text_tree) = true) as Hb
    by (by vm_compute).
  rewrite forallb_forall in Hb. specialize (Hb p (proj1 (elem_of_list_In _ _) (proj2 (proj2 (root_found _ Ht) p) (object_dir_in _ _ _ Hp)))).
  rewrite (find_object_dir _ _ _ Ht Hp) in Hb. apply andb_prop in Hb as [Hb1%bool_decide_eq_true Hb2]. rewrite (extensions_found _ _ Hb1 He). by apply managedb_true.
Qed.
(** The flat layout and an object with the identifier extensions: the request succeeds and the object alone is valid, but from then on
    the validation of the whole root panics, as its version folder is taken for an extension. *)
Lemma s_root_started : RootFillSpec.started "1.1" s_root.
Proof.
  assert (s_root = (root_init "1.1" [("ocfl_layout.json", "{}")] ∅).1) as -> by (apply (bool_decide_unpack _); by vm_compute).
  apply (init_started "1.1" [("ocfl_layout.json", "{}")]); [|by apply done_with]. intros p data [= -> _]%elem_of_list_singleton. by right.
Qed.
Theorem C67_extensions_refuted : ∃ E parse decode w lx create rt (s s1 s2 : storage) tr1 tr2,
  (∀ i, decode (e_json E i) = Some (doc_of i)) ∧ vorder_ok w ∧ rt_layouts rt = [build toy_hashes Flat] ∧ RootFillSpec.started (rt_version rt) s ∧
  (let add id t s := add_object E parse rt [] [] id id dfl2 default_oracle default_oracle (req false true) (given [("content", t)]) (HDone []) s in
   add "a" t1 s = (s1, SOk) ∧ add "extensions" t2 s1 = (s2, SOk)) ∧ lists tr1 s1 ∧ lists tr2 s2 ∧
  (∃ fs, validate_root (e_hash E) decode w lx create tr1 = RDone fs ∧ ∀ x, x ∈ fs → warning (snd x)) ∧
  validate_object (e_hash E) decode w lx (sub_files "extensions" s2) = VDone [] ∧ "extensions" ∉ get_object_folders tr2 ∧
  validate_root (e_hash E) decode w lx create tr2 = RPanic.
Proof.
  exists penv, jparse, jdecode, wd, lx0, toy_create, flat, s_root, (adds flat false true "a" t1 s_root).1, (adds flat false true "extensions" t2 (adds flat false true "a" t1 s_root).1).1.
  exists (tree_of (adds flat false true "a" t1 s_root).1), (tree_of (adds flat false true "extensions" t2 (adds flat false true "a" t1 s_root).1).1).
  split; [exact jdecode_ok|]. split; [exact wd_ok|]. split; [done|]. split; [exact s_root_started|]. cbv zeta.
  split; [split; unfold adds; apply done_with; by vm_compute|]. split; [apply listsb_true; by vm_compute|]. split; [apply listsb_true; by vm_compute|].
  split; [|split; [by vm_compute|split; [apply (bool_decide_unpack _); by vm_compute|by vm_compute]]].
  exists [("", Finding "W000" ["initial"]); ("a", Finding "W000" ["initial"])]. split; [by vm_compute|].
  intros x Hx. rewrite !elem_of_cons, elem_of_nil in Hx. destruct Hx as [-> |[-> |[]]]; by eexists.
Qed.

Print Assumptions C67_objects_found.
Print Assumptions C67_filled_valid_partial.
Print Assumptions C67_text_valid_partial.
Print Assumptions C67_init_started.
Print Assumptions C67_extensions_refuted.
