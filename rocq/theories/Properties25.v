(** Extraction of a whole storage root and of its metadata: C68 and C69. *)
From Coq Require Import Ascii.
From stdpp Require Import base list strings gmap.
From Coq Require Import ZArith Lia.
From Verif Require Import GoStr PathModel PathProofs InventoryModel ObjectModel InventorySpec ObjectSpec CrashSpec CrashProofs LoadModel PublishSpec AreaModel AreaProofs IngestModel IngestSpec
  IngestProofs6 IngestProofs7 IngestProofs8 LayoutModel LayoutSpec LayoutProofs LayoutProofs3 RootModel RootSpec RootProofs RootAddModel RootAddSpec RootAddProofs RootAddProofs2
  ValidateModel CheckModel AcceptSpec JsonModel JsonInvModel JsonInvSpec Properties12 RootCheckModel RootCheckSpec RootCheckProofs RootCheckProofs2 RootCheckProofs3 RootFillSpec RootFillProofs RootFillProofs2 RootFillProofs3
  MetaModel MetaSpec RootExtractModel RootExtractSpec RootExtractProofs RootExtractProofs2
  Properties1 Properties4 Properties10 Properties16 Properties17 Properties18 Properties19 Properties24 Fixtures Fixtures2 Fixtures3 Fixtures5 Fixtures6 Properties3 Fixtures8 Fixtures9 Fixtures13 Fixtures14 RootModel RootAddModel.

(** * C68: the extraction of a storage root gives back what was handed in *)

(** Without an object the folder of every created object is filled with the content of the requested version of this object, and nothing
    else is written.  Partial: every object must have the requested version (always so for the latest one), see
    [C68_missing_version_refuted]; the area is the default one, see [C68_area_refuted]. *)
Theorem C68_whole_root_partial E X area P parse rt fixalgs allowed ids s0 H s tr create orcs version area' :
  hex_hash (e_hash E) → json_ok P (e_json E) parse → (∀ x b, (x, b) ∈ e_ext_files E → clean_rel x) → proper_root rt fixalgs allowed ids s0 →
  root_history E X area P parse rt fixalgs allowed ids s0 H s → extensions_free rt ids → RootFillSpec.started (rt_version rt) s0 → lists tr s →
  (∀ p l e, object_dir tr p l → extensions_of l e → managed create e) → (∀ n, oracle_ok (orcs n)) →
  (∀ e, x_path X e "" = x_path X e area) → (∀ id ts, H !! id = Some ts → ∃ t, content_at version ts t) →
  ∃ dest, extract_command (e_hash E) parse create tr X orcs (rt_layouts rt) "" "" version false area' ∅ = (dest, SOk) ∧
    ∀ q x, dest !! q = Some x ↔
      ∃ id ts f r t, H !! id = Some ts ∧ root_path (rt_layouts rt) id = Some (f, false) ∧ content_at version ts t ∧ q = f +:+ "/" +:+ r ∧ t !! r = Some x.
Proof.
  intros Hhex Hj Hx Hr Hh Hfree Hst Hls Hman Ho Hxp Hall. unfold extract_command. rewrite map_to_list_empty. unfold extract_root. rewrite decide_True by done.
  assert (∀ ts t, content_at (if decide (version = "") then "latest" else version) ts t ↔ content_at version ts t) as Hct.
  { intros ts t. case_decide as E0; [|done]. subst version. unfold content_at. split; (intros [[_ H']|(k & E' & _)]; [left; split; auto|discriminate E']). }
  destruct (history_whole E X area P parse rt fixalgs allowed ids s0 Hhex Hj Hx Hr H s Hh tr Hfree Hst Hls create Hman orcs (if decide (version = "") then "latest" else version) Ho Hxp) as (dest & Hd & Hq).
  { intros id ts HH. destruct (Hall id ts HH) as [t Ht]. exists t. by apply Hct. }
  exists dest. split; [exact Hd|]. intros q x. rewrite Hq. split; intros (id & ts & f & r & t & H1 & H2 & H3%Hct & H4); by exists id, ts, f, r, t.
Qed.
(** Every object has a latest version. *)
Theorem C68_latest E X area P parse rt fixalgs allowed ids s0 H s tr create version id ts :
  hex_hash (e_hash E) → json_ok P (e_json E) parse → (∀ x b, (x, b) ∈ e_ext_files E → clean_rel x) → proper_root rt fixalgs allowed ids s0 →
  root_history E X area P parse rt fixalgs allowed ids s0 H s → extensions_free rt ids → RootFillSpec.started (rt_version rt) s0 → lists tr s →
  (∀ p l e, object_dir tr p l → extensions_of l e → managed create e) →
  version = "" ∨ version = "latest" → H !! id = Some ts → ∃ t ts', ts = t :: ts' ∧ content_at version ts t.
Proof.
  intros Hhex Hj Hx Hr Hh Hfree Hst Hls Hman Hv HH.
  destruct (ka_folder _ _ (pr_apart _ _ _ _ _ Hr) id (history_dom _ _ _ _ _ _ _ _ _ _ _ _ _ _ Hh HH)) as (f & Hf & _).
  destruct (history_open E X area P parse rt fixalgs allowed ids s0 Hhex Hj Hx Hr H s Hh tr Hfree Hst Hls create Hman id ts f HH Hf) as (i & i2 & Ha & _).
  destruct (archived_result E X area P parse ts _ i Hhex Hj Ha) as (_ & _ & n & fam & _ & _ & (t & ts' & -> & _) & _). exists t, ts'. split; [done|]. by left.
Qed.
(** One object, named by its identifier or by its folder: the content of the requested version and area.  If it does not have this
    version, there is an error and nothing is written. *)
Theorem C68_one_object E X area P parse rt fixalgs allowed ids s0 H s tr create orcs version path name id f ts :
  hex_hash (e_hash E) → json_ok P (e_json E) parse → (∀ x b, (x, b) ∈ e_ext_files E → clean_rel x) → proper_root rt fixalgs allowed ids s0 →
  root_history E X area P parse rt fixalgs allowed ids s0 H s → extensions_free rt ids → RootFillSpec.started (rt_version rt) s0 → lists tr s →
  (∀ p l e, object_dir tr p l → extensions_of l e → managed create e) → (∀ n, oracle_ok (orcs n)) → ¬ ids "" →
  H !! id = Some ts → root_path (rt_layouts rt) id = Some (f, false) → path = "" ∧ name = id ∨ path = f →
  (∀ t, content_at version ts t → extract_command (e_hash E) parse create tr X orcs (rt_layouts rt) path name version false area ∅ = (t, SOk)) ∧
  ((∀ t, ¬ content_at version ts t) → ∀ man area', ∃ msg, extract_command (e_hash E) parse create tr X orcs (rt_layouts rt) path name version man area' ∅ = (∅, SErr msg)).
Proof.
  intros Hhex Hj Hx Hr Hh Hfree Hst Hls Hman Ho Hne HH Hf Hname. pose proof (history_dom _ _ _ _ _ _ _ _ _ _ _ _ _ _ Hh HH) as Hid.
  destruct (history_extract E X area P parse rt fixalgs allowed ids s0 Hhex Hj Hx Hr H s Hh tr Hfree Hst Hls create Hman id ts f HH Hf) as (i2 & Hop & _ & _ & _ & _ & Hex & Hno).
  assert (f ≠ "") as Hf0. { destruct (ka_folder _ _ (pr_apart _ _ _ _ _ Hr) id Hid) as (g & Hg & Hc). assert (g = f) as -> by congruence. intros ->. by apply Forall_inv in Hc as [Hc _]. }
  assert (¬ (path = "" ∧ name = "")) as Hn. { intros [-> ->]. destruct Hname as [[_ <-]|<-]; done. }
  assert (open_one (e_hash E) parse create tr (rt_layouts rt) path name = OpenedAt i2 (sub_files f s)) as Hone.
  { unfold open_one. destruct Hname as [[-> ->]| ->]; [rewrite decide_True by done; by rewrite Hf|by rewrite decide_False]. }
  assert (∀ ts t, content_at (if decide (version = "") then "latest" else version) ts t ↔ content_at version ts t) as Hct.
  { intros ts1 t. case_decide as E0; [|done]. subst version. unfold content_at. split; (intros [[_ H']|(k & E' & _)]; [left; split; auto|discriminate E']). }
  unfold extract_command. rewrite map_to_list_empty. unfold extract_root. split.
  - intros t Ht. rewrite decide_False by done. rewrite Hone. apply Hex; [apply Ho|by apply Hct].
  - intros Hall man area'. exists "invalid version". rewrite decide_False by done. rewrite Hone. apply Hno. intros t Ht. apply (Hall t). by apply Hct.
Qed.
(** An object that was not created: an error, and nothing is written. *)
Theorem C68_not_created E X area P parse rt fixalgs allowed ids s0 H s tr create orcs version man area' id :
  hex_hash (e_hash E) → json_ok P (e_json E) parse → (∀ x b, (x, b) ∈ e_ext_files E → clean_rel x) → proper_root rt fixalgs allowed ids s0 →
  root_history E X area P parse rt fixalgs allowed ids s0 H s → lists tr s → ids id → id ≠ "" → H !! id = None →
  ∃ msg, extract_command (e_hash E) parse create tr X orcs (rt_layouts rt) "" id version man area' ∅ = (∅, SErr msg).
Proof.
  intros Hhex Hj Hx Hr Hh Hls Hid Hne HH. destruct (ka_folder _ _ (pr_apart _ _ _ _ _ Hr) id Hid) as (f & Hf & _). eexists.
  unfold extract_command. rewrite map_to_list_empty. unfold extract_root. rewrite decide_False by (by intros [_ ->]). unfold open_one. rewrite decide_True by done. rewrite Hf.
  rewrite (history_nothing E X area P parse rt fixalgs allowed ids s0 Hhex Hj Hx Hr H s Hh tr Hls create id f Hid HH Hf). reflexivity.
Qed.
(** Nothing is written over the files of a target that is in use. *)
Theorem C68_target_kept hash parse create tr X orcs ls path id version man area target :
  target ≠ ∅ → ∃ msg, extract_command hash parse create tr X orcs ls path id version man area target = (target, SErr msg).
Proof.
  intros Hne. unfold extract_command. destruct (map_to_list target) eqn:E; [by apply map_to_list_empty_iff in E|]. by eexists.
Qed.

Definition stops (x : storage * status) (m : storage) : bool := match x with (t, SErr _) => bool_decide (t = m) | _ => false end.
Lemma stops_true x m : stops x m = true → ∃ msg, x = (m, SErr msg).
Proof. destruct x as [t [|msg|]]; try done. intros H%bool_decide_eq_true. exists msg. by subst. Qed.
(** The same two objects as in [C67_example]. *)
Definition orcs0 : nat → oracle := λ _, default_oracle.
Definition taken (path id version area : string) : storage * status := extract_command hexh jparse toy_create filled_tree px orcs0 (rt_layouts rt4) path id version false area ∅.
Example C68_example :
  root_history penv px "content" (λ _, True) jparse rt4 [] [] (λ id, id ∈ ids3) s_start filled.1 filled.2 ∧ lists filled_tree filled.2 ∧
  (∀ p l e, object_dir filled_tree p l → extensions_of l e → managed toy_create e) ∧ "" ∉ ids3 ∧ (∀ n, oracle_ok (orcs0 n)) ∧ (∀ e, x_path px e "" = x_path px e "content") ∧
  (∃ ts, filled.1 !! "obj:1" = Some ts ∧ length ts = 3) ∧ filled.1 !! "a/b" = Some [{[ "x" := "X"; "y" := "A" ]}; {[ "x" := "X" ]}] ∧ filled.1 !! "obj:2" = None ∧
  yields (taken "" "" "" "content") {[ "03/f2/15/03f21561/x" := "X"; "03/f2/15/03f21561/y" := "A"; "05/a6/b3/05a6b36f/a" := "A3"; "05/a6/b3/05a6b36f/f" := "new";
    "05/a6/b3/05a6b36f/d/b" := "B"; "05/a6/b3/05a6b36f/d/e" := "C" ]} = true ∧
  yields (taken "" "" "v1" "content") {[ "03/f2/15/03f21561/x" := "X"; "05/a6/b3/05a6b36f/a" := "A"; "05/a6/b3/05a6b36f/d/b" := "B"; "05/a6/b3/05a6b36f/d/c" := "C" ]} = true ∧
  yields (taken "" "obj:1" "v2" "content") {[ "a" := "A2"; "d/b" := "B"; "d/e" := "C" ]} = true ∧ yields (taken "03/f2/15/03f21561" "" "latest" "content") {[ "x" := "X"; "y" := "A" ]} = true ∧
  (taken "" "a/b" "v3" "content").2 = SErr "invalid version" ∧ (taken "" "obj:2" "" "content").2 = SErr "cannot get version".
Proof.
  destruct C67_example as (_ & _ & _ & _ & _ & _ & _ & Hh & Hne & _ & _ & _ & Hl & _ & Hm & _).
  split; [exact Hh|]. split; [exact Hl|]. split; [exact Hm|]. split; [exact Hne|]. split; [by intros n; split|]. split; [done|].
  split. { destruct (filled.1 !! "obj:1") as [ts|] eqn:E; [|by vm_compute in E]. exists ts. split; [done|]. assert (length <$> filled.1 !! "obj:1" = Some 3) as E2 by (by vm_compute). rewrite E in E2. by injection E2. }
  split; [apply (bool_decide_unpack _); by vm_compute|]. split; [by vm_compute|]. repeat (split; [by vm_compute|]). by vm_compute.
Qed.
(** A version that one object does not have: the extraction of the whole root ends there.  The other object has this version, but its
    files are not written. *)
Theorem C68_missing_version_refuted : ∃ E X P parse rt ids s0 H s tr create,
  proper_root rt [] [] ids s0 ∧ root_history E X "content" P parse rt [] [] ids s0 H s ∧ lists tr s ∧ (∀ e, x_path X e "" = x_path X e "content") ∧
  (∃ id ts t, H !! id = Some ts ∧ content_at "v3" ts t ∧ t ≠ ∅) ∧
  ∃ msg, extract_command (e_hash E) parse create tr X orcs0 (rt_layouts rt) "" "" "v3" false "content" ∅ = (∅, SErr msg).
Proof.
  destruct C67_example as (_ & _ & _ & _ & _ & _ & Hp & Hh & _ & _ & _ & _ & Hl & _).
  exists penv, px, (λ _, True), jparse, rt4, (λ id, id ∈ ids3), s_start, filled.1, filled.2, filled_tree, toy_create.
  split; [exact Hp|]. split; [exact Hh|]. split; [exact Hl|]. split; [done|]. split.
  - destruct (filled.1 !! "obj:1") as [ts|] eqn:E; [|by vm_compute in E].
    assert ((λ ts, rev ts !! 2) <$> filled.1 !! "obj:1" = Some (Some {[ "a" := "A3"; "f" := "new"; "d/b" := "B"; "d/e" := "C" ]})) as E2 by (apply (bool_decide_unpack _); by vm_compute).
    rewrite E in E2. injection E2 as E2. eexists "obj:1", ts, _. split; [exact E|]. split; [right; exists 2; split; [done|exact E2]|]. intros E3. apply (f_equal (lookup "a")) in E3. by vm_compute in E3.
  - apply stops_true. by vm_compute.
Qed.
(** The whole root is extracted with the default area, whatever area is requested; one object is extracted with the requested one. *)
Definition areas_root : storage := (add_object aenv jparse flat [] [] "a" "a" dfl2 default_oracle default_oracle (req false true) (given both) (HDone []) s_root).1.
Theorem C68_area_refuted : ∃ E X parse create rt s0 s tr folders,
  add_object E parse rt [] [] "a" "a" dfl2 default_oracle default_oracle (req false true) (given folders) (HDone []) s0 = (s, SOk) ∧ lists tr s ∧
  root_path (rt_layouts rt) "a" = Some ("a", false) ∧ files_of folders "metadata" = {[ "m.xml" := "M" ]} ∧ x_path X "meta/xml/m.xml" "metadata" = XPath "m.xml" ∧
  extract_command (e_hash E) parse create tr X orcs0 (rt_layouts rt) "" "a" "" false "metadata" ∅ = ({[ "m.xml" := "M" ]}, SOk) ∧
  ∃ dest, extract_command (e_hash E) parse create tr X orcs0 (rt_layouts rt) "" "" "" false "metadata" ∅ = (dest, SOk) ∧ dest !! "a/m.xml" = None ∧
    dest !! "a/a" = Some "A" ∧ files_of folders "content" !! "a" = Some "A".
Proof.
  exists aenv, ax, jparse, toy_create, flat, s_root, areas_root, (tree_of areas_root), both.
  split; [unfold areas_root; apply done_with; by vm_compute|]. split; [apply listsb_true; by vm_compute|]. split; [by vm_compute|]. split; [apply (bool_decide_unpack _); by vm_compute|]. split; [by vm_compute|].
  split; [apply yields_true; by vm_compute|]. eexists. split; [apply done_with; by vm_compute|]. repeat (split; [by vm_compute|]). by vm_compute.
Qed.
(** One content file is missing in one object: the extraction of the whole root ends there, and nothing of the other object, which is
    intact, is written. *)
Definition damaged_root : storage := delete "03/f2/15/03f21561/v1/content/x" filled.2.
Theorem C68_damaged_refuted : ∃ E X P parse rt ids s0 H s tr create damaged,
  proper_root rt [] [] ids s0 ∧ root_history E X "content" P parse rt [] [] ids s0 H s ∧ inside "03/f2/15/03f21561" damaged ∧ lists tr (delete damaged s) ∧
  root_path (rt_layouts rt) "obj:1" = Some ("05/a6/b3/05a6b36f", false) ∧ sub_files "05/a6/b3/05a6b36f" (delete damaged s) = sub_files "05/a6/b3/05a6b36f" s ∧
  (extract_command (e_hash E) parse create tr X orcs0 (rt_layouts rt) "" "obj:1" "" false "content" ∅).2 = SOk ∧
  ∃ dest msg, extract_command (e_hash E) parse create tr X orcs0 (rt_layouts rt) "" "" "" false "content" ∅ = (dest, SErr msg) ∧ sub_files "05/a6/b3/05a6b36f" dest = ∅.
Proof.
  destruct C67_example as (_ & _ & _ & _ & _ & _ & Hp & Hh & _ & _ & _ & _ & Hl & _).
  exists penv, px, (λ _, True), jparse, rt4, (λ id, id ∈ ids3), s_start, filled.1, filled.2, (tree_of damaged_root), toy_create, "03/f2/15/03f21561/v1/content/x".
  split; [exact Hp|]. split; [exact Hh|]. split; [by exists "v1/content/x"|]. split; [apply listsb_true; by vm_compute|]. split; [by vm_compute|]. split; [apply (bool_decide_unpack _); by vm_compute|].
  split; [by vm_compute|].
  destruct (extract_command hexh jparse toy_create (tree_of damaged_root) px orcs0 (rt_layouts rt4) "" "" "" false "content" ∅) as [dest st] eqn:E.
  assert (match extract_command hexh jparse toy_create (tree_of damaged_root) px orcs0 (rt_layouts rt4) "" "" "" false "content" ∅ with (d, SErr _) => bool_decide (sub_files "05/a6/b3/05a6b36f" d = ∅) | _ => false end = true) as Hb by (by vm_compute).
  rewrite E in Hb. destruct st as [|msg|]; try discriminate Hb. exists dest, msg. split; [exact E|]. by apply bool_decide_eq_true in Hb.
Qed.

(** * C69: the metadata of a whole storage root *)

(** The report has one entry for every created object, and no other.  The entry agrees with the inventory of the object and with what its
    extensions report. *)
Theorem C69_objects_reported {A} E X area P parse rt fixalgs allowed ids s0 H s tr create ws (exts : string → list (string * (gmap string A + string))) :
  hex_hash (e_hash E) → json_ok P (e_json E) parse → (∀ x b, (x, b) ∈ e_ext_files E → clean_rel x) → proper_root rt fixalgs allowed ids s0 →
  root_history E X area P parse rt fixalgs allowed ids s0 H s → extensions_free rt ids → RootFillSpec.started (rt_version rt) s0 → lists tr s →
  (∀ p l e, object_dir tr p l → extensions_of l e → managed create e) → (∀ n, worders_ok (ws n)) →
  (∀ id ts f e x, H !! id = Some ts → root_path (rt_layouts rt) id = Some (f, false) → (e, inr x) ∉ exts f) →
  ∃ res, root_meta (e_hash E) parse create tr ws exts = inl res ∧ (∀ id, is_Some (res !! id) ↔ is_Some (H !! id)) ∧
    ∀ id ts f m, H !! id = Some ts → root_path (rt_layouts rt) id = Some (f, false) → res !! id = Some m →
      om_id m = id ∧ om_head m = "v" +:+ dec_of_N (N.of_nat (length ts)) ∧
      (∀ ver, is_Some (om_versions m !! ver) ↔ ∃ k, k < length ts ∧ ver = "v" +:+ dec_of_N (N.of_nat (S k))) ∧
      ∃ i, load_inventory (e_hash E) parse (sub_files f s) "" = LInv i [] ∧ reports i (exts f) m.
Proof.
  intros Hhex Hj Hx Hr Hh Hfree Hst Hls Hman Hws Hok.
  destruct (history_meta E X area P parse rt fixalgs allowed ids s0 Hhex Hj Hx Hr H s Hh tr Hfree Hst Hls create Hman ws exts Hws Hok) as (res & Hres & Hdom & Hall).
  exists res. split; [exact Hres|]. split; [exact Hdom|]. intros id ts f m HH Hf Hm. destruct (Hall id ts f m HH Hf Hm) as (i & Hl & Hrep).
  destruct (history_extract E X area P parse rt fixalgs allowed ids s0 Hhex Hj Hx Hr H s Hh tr Hfree Hst Hls create Hman id ts f HH Hf) as (i2 & _ & Hi & Hl2 & Hvs & Hhead & _).
  rewrite Hl in Hl2. injection Hl2 as <-. split; [by rewrite (rp_id _ _ _ Hrep)|]. split; [by rewrite (rp_head _ _ _ Hrep)|]. split; [|by exists i].
  intros ver. rewrite <- Hvs. split.
  - intros [y Hy]. apply (rp_versions _ _ _ Hrep) in Hy as (v & Hv & _). by exists v.
  - intros [v Hv]. eexists. apply (rp_versions _ _ _ Hrep). by exists v.
Qed.
(** The files in the report are exactly the files that were handed in, in every version under their paths and with the digests of their
    content.  Partial: for objects without path extensions; with them the report has the logical paths, see C39 for how these are mapped. *)
Theorem C69_files_reported_partial {A} E X area P parse rt fixalgs allowed ids s0 H s tr create ws (exts : string → list (string * (gmap string A + string))) res id ts f m k t :
  hex_hash (e_hash E) → json_ok P (e_json E) parse → (∀ x b, (x, b) ∈ e_ext_files E → clean_rel x) → proper_root rt fixalgs allowed ids s0 →
  root_history E X area P parse rt fixalgs allowed ids s0 H s → extensions_free rt ids → RootFillSpec.started (rt_version rt) s0 → lists tr s →
  (∀ p l e, object_dir tr p l → extensions_of l e → managed create e) → (∀ n, worders_ok (ws n)) →
  (∀ id ts f e x, H !! id = Some ts → root_path (rt_layouts rt) id = Some (f, false) → (e, inr x) ∉ exts f) →
  (∀ e, x_path X e area = XPath e) →
  root_meta (e_hash E) parse create tr ws exts = inl res → res !! id = Some m → H !! id = Some ts → root_path (rt_layouts rt) id = Some (f, false) → rev ts !! k = Some t →
  let names d p := ∃ g ns, om_files m !! d = Some g ∧ fm_versions g !! ("v" +:+ dec_of_N (N.of_nat (S k))) = Some ns ∧ p ∈ ns in
  (∀ p data, t !! p = Some data → ∃ d, x_hash X (om_alg m) data = Some d ∧ names d p) ∧
  ∀ d p, names d p → ∃ data, t !! p = Some data ∧ x_hash X (om_alg m) data = Some d.
Proof.
  intros Hhex Hj Hx Hr Hh Hfree Hst Hls Hman Hws Hok Hxp Hres Hm HH Hf Hk names.
  destruct (history_meta E X area P parse rt fixalgs allowed ids s0 Hhex Hj Hx Hr H s Hh tr Hfree Hst Hls create Hman ws exts Hws Hok) as (res' & Hres' & _ & Hall).
  rewrite Hres in Hres'. injection Hres' as <-. destruct (Hall id ts f m HH Hf Hm) as (i & Hl & Hrep).
  destruct (history_extract E X area P parse rt fixalgs allowed ids s0 Hhex Hj Hx Hr H s Hh tr Hfree Hst Hls create Hman id ts f HH Hf) as (i2 & _ & _ & Hl2 & Hvs & _).
  rewrite Hl in Hl2. injection Hl2 as <-. set (ver := "v" +:+ dec_of_N (N.of_nat (S k))) in *.
  assert (is_Some (inv_versions i !! ver)) as [v Hv]. { apply Hvs. exists k. split; [|done]. apply lookup_lt_Some in Hk. by rewrite rev_length in Hk. }
  destruct (history_files E X area P parse rt fixalgs allowed ids s0 Hhex Hj Hx Hr H s Hh tr Hfree Hst Hls create Hman id ts f i ver t HH Hf Hl Hxp) as [H1 H2]; [by exists v|right; by exists k|].
  rewrite (rp_alg _ _ _ Hrep). split.
  - intros p data Hp. destruct (H2 p data Hp) as (d & Hrec & Hd). exists d. split; [exact Hd|]. destruct (H1 p d Hrec) as (_ & _ & _ & q & qs & Hman2).
    destruct (rp_files_all _ _ _ Hrep d q qs Hman2) as [g Hg]. destruct (rp_files _ _ _ Hrep d g Hg) as (q' & qs' & _ & Hfr). destruct Hrec as (v' & Hv' & ns & Hns & Hpn).
    exists g, ns. split; [exact Hg|]. split; [apply (fr_versions _ _ _ _ _ _ Hfr); by exists v'|exact Hpn].
  - intros d p (g & ns & Hg & Hns & Hpn). destruct (rp_files _ _ _ Hrep d g Hg) as (q' & qs' & _ & Hfr). apply (fr_versions _ _ _ _ _ _ Hfr) in Hns as (v' & Hv' & Hst').
    destruct (H1 p d) as (data & Hp & Hd & _); [exists v'; split; [exact Hv'|by exists ns]|]. by exists data.
Qed.
(** If an extension of one object fails, there is no report at all. *)
Theorem C69_one_fails {A} E X area P parse rt fixalgs allowed ids s0 H s tr create ws (exts : string → list (string * (gmap string A + string))) id ts f e x :
  hex_hash (e_hash E) → json_ok P (e_json E) parse → (∀ x b, (x, b) ∈ e_ext_files E → clean_rel x) → proper_root rt fixalgs allowed ids s0 →
  root_history E X area P parse rt fixalgs allowed ids s0 H s → extensions_free rt ids → RootFillSpec.started (rt_version rt) s0 → lists tr s →
  (∀ p l e, object_dir tr p l → extensions_of l e → managed create e) →
  H !! id = Some ts → root_path (rt_layouts rt) id = Some (f, false) → (e, inr x) ∈ exts f →
  ∃ msg, root_meta (e_hash E) parse create tr ws exts = inr (SErr msg).
Proof.
  intros Hhex Hj Hx Hr Hh Hfree Hst Hls Hman HH Hf He.
  exact (history_meta_fails E X area P parse rt fixalgs allowed ids s0 Hhex Hj Hx Hr H s Hh tr Hfree Hst Hls create Hman ws exts id ts f e x HH Hf He).
Qed.
Definition exts_none : string → list (string * (gmap string string + string)) := λ _, [("NNNN-indexer", inl ∅)].
Definition exts_bad : string → list (string * (gmap string string + string)) := λ f, if decide (f = "05/a6/b3/05a6b36f") then [("NNNN-indexer", inr "cannot read")] else [].
Definition metas (exts : string → list (string * (gmap string string + string))) (tr : list (string * RootModel.node)) : gmap string (object_meta string) + status :=
  root_meta hexh jparse toy_create tr (λ _, w0) exts.
(** The identifier, the head and the numbers of versions and of contents of every entry. *)
Definition entries (r : gmap string (object_meta string) + status) : list (string * (string * string * nat * nat)) :=
  match r with inl g => (λ e : string * object_meta string, (e.1, (om_id e.2, om_head e.2, size (om_versions e.2), size (om_files e.2)))) <$> map_to_list g | inr _ => [] end.
Example C69_example :
  root_history penv px "content" (λ _, True) jparse rt4 [] [] (λ id, id ∈ ids3) s_start filled.1 filled.2 ∧ lists filled_tree filled.2 ∧
  (∀ p l e, object_dir filled_tree p l → extensions_of l e → managed toy_create e) ∧ worders_ok w0 ∧ (∀ e, x_path px e "content" = XPath e) ∧ (∀ f e x, (e, inr x) ∉ exts_none f) ∧
  ("NNNN-indexer", inr "cannot read") ∈ exts_bad "05/a6/b3/05a6b36f" ∧
  list_to_set (entries (metas exts_none filled_tree)) = ({[ ("a/b", ("a/b", "v2", 2, 2)); ("obj:1", ("obj:1", "v3", 3, 6)) ]} : gset _) ∧ metas exts_bad filled_tree = inr (SErr "cannot read").
Proof.
  destruct C67_example as (_ & _ & _ & _ & _ & _ & _ & Hh & Hne & _ & _ & _ & Hl & _ & Hm & _).
  split; [exact Hh|]. split; [exact Hl|]. split; [exact Hm|]. split; [exact w0_ok|]. split; [done|].
  split; [intros f e x; unfold exts_none; by intros ?%elem_of_list_singleton|]. split; [apply elem_of_list_here|]. split; [apply (bool_decide_unpack _); by vm_compute|by vm_compute].
Qed.
(** Two objects with the same identifier, as after copying a folder: the report of the root has one entry for both. *)
Definition copied_root : storage := put_folder "copy" (sub_files "03/f2/15/03f21561" filled.2) filled.2.
Theorem C69_same_identifier_refuted : ∃ E P parse rt ids s0 H s tr create folder,
  proper_root rt [] [] ids s0 ∧ root_history E px "content" P parse rt [] [] ids s0 H s ∧ lists tr s ∧
  ∃ tr2, lists tr2 (put_folder "copy" (sub_files folder s) s) ∧ get_object_folders tr2 = get_object_folders tr ++ ["copy"] ∧
    ∃ res, root_meta (e_hash E) parse create tr2 (λ _, w0) exts_none = inl res ∧ size res = length (get_object_folders tr) ∧ length (get_object_folders tr) = 2.
Proof.
  destruct C67_example as (_ & _ & _ & _ & _ & _ & Hp & Hh & _ & _ & _ & _ & Hl & _).
  exists penv, (λ _, True), jparse, rt4, (λ id, id ∈ ids3), s_start, filled.1, filled.2, filled_tree, toy_create, "03/f2/15/03f21561".
  split; [exact Hp|]. split; [exact Hh|]. split; [exact Hl|]. exists (tree_of copied_root). split; [apply listsb_true; by vm_compute|]. split; [by vm_compute|].
  destruct (root_meta hexh jparse toy_create (tree_of copied_root) (λ _, w0) exts_none) as [res|st] eqn:E.
  - exists res. split; [exact E|]. assert (match root_meta hexh jparse toy_create (tree_of copied_root) (λ _, w0) exts_none with inl r => size r | inr _ => 0 end = 2) as E2 by (by vm_compute). rewrite E in E2.
    assert (length (get_object_folders filled_tree) = 2) as E3 by (by vm_compute). split; [rewrite E3; exact E2|exact E3].
  - assert (match root_meta hexh jparse toy_create (tree_of copied_root) (λ _, w0) exts_none with inl _ => true | inr _ => false end = true) as E2 by (by vm_compute). rewrite E in E2. discriminate E2.
Qed.

Print Assumptions C68_whole_root_partial.
Print Assumptions C68_latest.
Print Assumptions C68_one_object.
Print Assumptions C68_not_created.
Print Assumptions C68_target_kept.
Print Assumptions C68_missing_version_refuted.
Print Assumptions C68_area_refuted.
Print Assumptions C68_damaged_refuted.
Print Assumptions C69_objects_reported.
Print Assumptions C69_files_reported_partial.
Print Assumptions C69_one_fails.
Print Assumptions C69_same_identifier_refuted.
