(** What the validator accepts can be read. *)
From Coq Require Import Ascii.
From stdpp Require Import base list strings gmap.
From Coq Require Import ZArith Lia.
From Verif Require ValidateProofs2.
From Verif Require Import GoStr InventoryModel InventorySpec ObjectModel LoadModel AreaModel AreaSpec CrashSpec ValidateModel ValidateSpec CheckModel CheckSpec
  AcceptSpec AcceptProofs JsonInvModel ForeignModel ForeignProofs Fixtures Fixtures2 Fixtures3 Properties3 Properties14.

(** * C78: an accepted object can be loaded and extracted *)

(** Version [V] is meant by the request: the newest one if none is named. *)
Definition means (d : doc) (ver V : string) : Prop :=
  ((ver = "" ∨ ver = "latest") ∧ V = os_val (dc_head d)) ∨ (ver ≠ "" ∧ ver ≠ "latest" ∧ V = ver).
(** All digests of the manifest are written in lower case. *)
Definition lower_case (d : doc) : Prop := ∀ dg p, man_lists d dg p → to_lower dg = dg.

Lemma means_requested d i ver V : inv_head i = os_val (dc_head d) → means d ver V → requested_version i ver = V.
Proof.
  intros Hh [[H ->]|(H1 & H2 & ->)]; unfold requested_version; [by rewrite decide_True|]. rewrite decide_False; [done|]. by intros [?|?].
Qed.
Lemma listed_state d V v dg p : has_version d V v → lists (default ∅ (state_of v)) p dg ↔ state_lists d V dg p.
Proof.
  intros (vs & Hvs & Hv). split.
  - intros (exts & Hs & Hp). unfold state_of in Hs. destruct (vd_state v) as [[st e]|] eqn:E; cbn in Hs; [|by rewrite lookup_empty in Hs].
    exists v, st, e, exts. split; [by exists vs|done].
  - intros (v' & st & e & ps & (vs' & Hvs' & Hv') & Hst & Hl & Hp). rewrite Hvs in Hvs'. injection Hvs' as <-. rewrite Hv in Hv'.
    injection Hv' as <-. exists ps. unfold state_of. by rewrite Hst.
Qed.

(** Full statement: every object of any origin that the validator accepts can be loaded, and the extraction of every version gives every
    file of the version with its content and leaves all other files of the target alone.  False for digests in upper case, for digests
    without content path, and for paths with two digests; see below.  Proved for all other objects (a path with several digests gets the
    content of one of them), with every decoder and every iteration order.  The target must accept the names. *)
Theorem C78_extracted_partial hash decode w lx s :
  vorder_ok w → only_warnings (validate_object hash decode w lx s) →
  ∃ b d i, s !! "inventory.json" = Some b ∧ decode b = Some d ∧ load_inventory hash (parse_of decode w lx) s "" = LInv i [] ∧
    (no_empty_entry d → lower_case d →
     ∀ X orc ver V v area t, x_hash X = hash → oracle_ok orc → means d ver V → has_version d V v →
      (∀ e, x_path X e area = XPath e) → (∀ dg p, state_lists d V dg p → x_can X p = true) →
      ∃ t', extract X orc i s ver false area t = (t', SOk) ∧
        (∀ p, (¬ ∃ dg, state_lists d V dg p) → t' !! p = t !! p) ∧
        (∀ p dg, state_lists d V dg p → ∃ c dg', state_lists d V dg' p ∧ t' !! p = Some c ∧ hash (dc_alg d) c = Some dg')).
Proof.
  intros Hw Hok. destruct (accepted_extracts _ _ _ _ _ Hw Hok) as (b & d & i & Hb & Hd & Hl & Ha & Hh & Hvs & Hx).
  exists b, d, i. split; [done|]. split; [done|]. split; [done|]. intros Hne Hlow X orc ver V v area t HX Ho Hm Hv Hid Hcan.
  pose proof (means_requested d i ver V Hh Hm) as HV. destruct (Hvs V v Hv) as (v1 & Hv1 & Hst).
  assert (snd (extract X orc i s ver false area t) = SOk) as Hs.
  { apply (Hx Hne Hlow X orc ver false area t v v1); rewrite ?HV; try done.
    - intros e dg _. by rewrite Hid.
    - intros q (dg & e & He & Hp). rewrite Hid in Hp. injection Hp as ->. apply (Hcan dg). apply (listed_state d V v); [done|]. by rewrite <- Hst. }
  destruct (extract_whole X orc i s ver area t v1 Ho ltac:(by rewrite HV) Hid Hs) as (t' & Ht & H1 & H2). exists t'. split; [exact Ht|].
  rewrite HX, Ha, Hst in H2. rewrite Hst in H1. split.
  - intros p Hp. apply H1. intros [dg Hdg]. apply Hp. exists dg. by apply (listed_state d V v).
  - intros p dg Hp. destruct (H2 p dg) as (c & dg' & Hc1 & Hc2 & Hc3); [by apply (listed_state d V v)|]. exists c, dg'.
    split; [by apply (listed_state d V v)|done].
Qed.
(** Extraction with areas, with or without the manifest file, succeeds in the same cases. *)
Theorem C78_areas_partial hash decode w lx s :
  vorder_ok w → only_warnings (validate_object hash decode w lx s) →
  ∃ b d i, s !! "inventory.json" = Some b ∧ decode b = Some d ∧ load_inventory hash (parse_of decode w lx) s "" = LInv i [] ∧
    (no_empty_entry d → lower_case d →
     ∀ X orc ver V v mf area t, x_hash X = hash → oracle_ok orc → means d ver V → has_version d V v →
      (∀ dg p, state_lists d V dg p → x_path X p area ≠ XErr) →
      (∀ dg p q, state_lists d V dg p → x_path X p area = XPath q → x_can X q = true) →
      (mf = true → x_can X ("manifest." +:+ dc_alg d) = true) →
      snd (extract X orc i s ver mf area t) = SOk).
Proof.
  intros Hw Hok. destruct (accepted_extracts _ _ _ _ _ Hw Hok) as (b & d & i & Hb & Hd & Hl & Ha & Hh & Hvs & Hx).
  exists b, d, i. split; [done|]. split; [done|]. split; [done|]. intros Hne Hlow X orc ver V v mf area t HX Ho Hm Hv Hp Hcan Hmf.
  pose proof (means_requested d i ver V Hh Hm) as HV. destruct (Hvs V v Hv) as (v1 & Hv1 & Hst).
  apply (Hx Hne Hlow X orc ver mf area t v v1); rewrite ?HV; try done.
  - intros e dg He. rewrite Hst in He. apply (Hp dg). by apply (listed_state d V v).
  - intros q (dg & e & He & Hq). rewrite Hst in He. apply (Hcan dg e q); [|done]. by apply (listed_state d V v).
Qed.
(** Extraction without extensions into a target that takes every name. *)
Definition plainly (hash : string → string → option string) (X : AreaModel.xenv) : Prop :=
  x_hash X = hash ∧ (∀ e area, x_path X e area = XPath e) ∧ ∀ p, x_can X p = true.
Definition fx : AreaModel.xenv := XEnv hexh (mgr_extract_path []) (λ _, true).
Lemma fx_plainly : plainly hexh fx.
Proof. split; [done|]. by split. Qed.
Lemma lower_doc2 : lower_case doc2.
Proof.
  intros dg p (m & ps & [= <-] & Hl & _). apply lookup_insert_Some in Hl as [[<- _]|[_ [<- _]%lookup_singleton_Some]]; vm_compute; reflexivity.
Qed.
Lemma filled_doc2 : no_empty_entry doc2.
Proof. intros m dg ps [= <-] Hl. by apply lookup_insert_Some in Hl as [[_ <-]|[_ [_ <-]%lookup_singleton_Some]]. Qed.
Definition inv_of (d : doc) : inventory := to_inventory (finalize wd lx0 false d).1.
(** An object with two versions, not made by this program: both versions are extracted. *)
Example C78_example :
  vorder_ok wd ∧ only_warnings (validate_object hexh dec2 wd lx0 store2) ∧ no_empty_entry doc2 ∧ lower_case doc2 ∧ plainly hexh fx ∧
  means doc2 "" "v2" ∧ means doc2 "v1" "v1" ∧ load_inventory hexh (parse_of dec2 wd lx0) store2 "" = LInv (inv_of doc2) [] ∧
  (extract fx dflt (inv_of doc2) store2 "" false "" {["old" := "o"]}).1 = {["old" := "o"; "a" := "x"; "b/c" := "y"; "d" := "y"]} ∧
  (extract fx dflt (inv_of doc2) store2 "" false "" {["old" := "o"]}).2 = SOk ∧
  (extract fx dflt (inv_of doc2) store2 "v1" true "" ∅).1 = {["a" := "x"; "manifest.sha512" := "a78 a" +:+ newline]} ∧
  (extract fx dflt (inv_of doc2) store2 "v1" true "" ∅).2 = SOk.
Proof.
  split; [exact wd_ok|]. split; [apply all_warnings_true; vm_compute; reflexivity|]. split; [exact filled_doc2|]. split; [exact lower_doc2|].
  split; [exact fx_plainly|]. split; [left; split; [by left|done]|]. split; [right; split; [intros H; discriminate H|split; [intros H; discriminate H|done]]|]. split; [vm_compute; reflexivity|].
  split; [apply (bool_decide_unpack _); vm_compute; exact I|]. split; [vm_compute; reflexivity|].
  split; [apply (bool_decide_unpack _); vm_compute; exact I|vm_compute; reflexivity].
Qed.
Print Assumptions C78_extracted_partial.
Print Assumptions C78_areas_partial.

(** A digest in upper case: accepted without any error, and the extraction fails. *)
Definition upper_doc : doc := mkdoc {["A78" := ["v1/content/a"]]} {["v1" := mkver {["A78" := ["a"]]}]} "v1".
Theorem C78_upper_case_refuted : ∃ hash decode w lx s d i X orc msg,
  vorder_ok w ∧ only_warnings (validate_object hash decode w lx s) ∧ s !! "inventory.json" = Some "root" ∧ decode "root" = Some d ∧
  no_empty_entry d ∧ load_inventory hash (parse_of decode w lx) s "" = LInv i [] ∧ plainly hash X ∧ oracle_ok orc ∧
  snd (extract X orc i s "" false "" ∅) = SErr msg.
Proof.
  exists hexh, (one_decode upper_doc), wd, lx0, (one_store {["v1/content/a" := "x"]}), upper_doc, (inv_of upper_doc), fx, dflt, "invalid digest".
  split; [exact wd_ok|]. split; [apply all_warnings_true; vm_compute; reflexivity|]. split; [vm_compute; reflexivity|]. split; [done|].
  split; [intros m dg ps [= <-] Hl; by apply lookup_singleton_Some in Hl as [_ <-]|]. split; [vm_compute; reflexivity|]. split; [exact fx_plainly|].
  split; [exact dflt_ok|]. vm_compute; reflexivity.
Qed.
Lemma dom_finished (m : gmap string vdoc) : dom (to_version <$> map_imap (λ ver v, Some (fin_version ver v).2) m) = dom m.
Proof.
  apply set_eq. intros ver. rewrite !elem_of_dom, lookup_fmap, map_lookup_imap. destruct (m !! ver) as [v|]; cbn; split; intros [x Hx]; try discriminate Hx; by eexists.
Qed.
(** What the loader returns, for objects of any origin, also if they are not valid: the inventory in the file, and only if it has no empty path and
    every version has a date and a usable name.  Everything else is an error or a panic, never another inventory. *)
Theorem C78_loaded hash decode w lx s i codes :
  vorder_ok w → load_inventory hash (parse_of decode w lx) s "" = LInv i codes →
  ∃ b d, s !! "inventory.json" = Some b ∧ decode b = Some d ∧ checkable d ∧ inv_id i = dc_id d ∧ inv_alg i = dc_alg d ∧
    inv_manifest i = default ∅ (dc_manifest d) ∧ inv_fixity i = dc_fixity d ∧ dom (inv_versions i) = dom (default ∅ (dc_versions d)) ∧
    (codes = [] ↔ ∃ text dg, s !! ("inventory.json." +:+ dc_alg d) = Some text ∧ sidecar_parse text = Some dg ∧ hash (dc_alg d) b = Some dg).
Proof.
  intros Hw. unfold load_inventory. rewrite str_app_nil_l. destruct (s !! "inventory.json") as [b|] eqn:Hb; [|done]. unfold parse_of at 1.
  destruct (decode b) as [d|] eqn:Hd; [|done]. destruct (finalize w lx false d) as [d1 v] eqn:Hf. destruct v as [fs| |]; [|done..].
  assert (checkable d) as Hc by (apply (ValidateProofs2.verdict_iff w lx d Hw); exists fs; unfold validated; by rewrite Hf).
  assert (inv_id (to_inventory d1) = dc_id d ∧ inv_alg (to_inventory d1) = dc_alg d ∧ inv_manifest (to_inventory d1) = default ∅ (dc_manifest d) ∧
    inv_fixity (to_inventory d1) = dc_fixity d ∧ dom (inv_versions (to_inventory d1)) = dom (default ∅ (dc_versions d))) as (F1 & F2 & F3 & F4 & F5).
  { unfold finalize in Hf. destruct (check_doc w lx _) as [pad r]. injection Hf as <- _. repeat split; try reflexivity.
    exact (dom_finished (default ∅ (dc_versions d))). }
  rewrite F2. set (i1 := to_inventory d1) in *. clearbody i1. intros Hl.
  assert (i = i1 ∧ (codes = [] ↔ ∃ text dg, s !! ("inventory.json." +:+ dc_alg d) = Some text ∧ sidecar_parse text = Some dg ∧ hash (dc_alg d) b = Some dg)) as [-> Hcodes].
  { change ("inventory.json" +:+ "." +:+ dc_alg d) with ("inventory.json." +:+ dc_alg d) in Hl.
    destruct (s !! ("inventory.json." +:+ dc_alg d)) as [text|] eqn:Ht.
    2:{ injection Hl as <- <-. split; [done|]. split; [intros K; discriminate K|intros (t & dg & K & _); discriminate K]. }
    destruct (sidecar_parse text) as [dg|] eqn:Hp.
    2:{ injection Hl as <- <-. split; [done|]. split; [intros K; discriminate K|intros (t & dg & [= <-] & K & _); congruence]. }
    destruct (hash (dc_alg d) b) as [dg'|] eqn:Hh; [|done]. destruct (decide (dg = dg')) as [-> |Hne]; injection Hl as <- <-; (split; [done|]).
    - split; [intros _; by exists text, dg'|done].
    - split; [intros K; discriminate K|intros (t & x & [= <-] & K1 & K2); congruence]. }
  exists b, d. done.
Qed.
Example C78_loaded_example :
  load_inventory hexh (parse_of (one_decode upper_doc) wd lx0) (delete "inventory.json.sha512" (one_store ∅)) "" = LInv (inv_of upper_doc) ["E058"] ∧
  ¬ checkable (mkdoc {["a78" := ["v1/content/a"]]} {["v1" := mkver {["a78" := ["a"; ""]]}]} "v1") ∧
  load_inventory hexh (parse_of (one_decode (mkdoc {["a78" := ["v1/content/a"]]} {["v1" := mkver {["a78" := ["a"; ""]]}]} "v1")) wd lx0) (one_store ∅) "" =
    LErr "cannot initiate inventory object".
Proof.
  split; [vm_compute; reflexivity|]. split; [|vm_compute; reflexivity]. intros H. apply (ValidateProofs2.verdict_iff wd lx0 _ wd_ok) in H as [fs H]. vm_compute in H. discriminate H.
Qed.
Print Assumptions C78_loaded.
(** A digest without content path: accepted, and the extraction fails. *)
Theorem C78_no_content_path_refuted : ∃ hash decode w lx s d i X orc msg,
  vorder_ok w ∧ only_warnings (validate_object hash decode w lx s) ∧ s !! "inventory.json" = Some "root" ∧ decode "root" = Some d ∧
  (∀ m dg, dc_manifest d = Some m → is_Some (m !! dg) → to_lower dg = dg) ∧ load_inventory hash (parse_of decode w lx) s "" = LInv i [] ∧
  plainly hash X ∧ oracle_ok orc ∧ snd (extract X orc i s "" false "" ∅) = SErr msg.
Proof.
  exists hexh, (one_decode lost_doc), wd, lx0, (one_store {["v1/other/x" := "x"]}), lost_doc, (inv_of lost_doc), fx, dflt, "invalid manifest for digest".
  split; [exact wd_ok|]. split; [apply all_warnings_true; vm_compute; reflexivity|]. split; [vm_compute; reflexivity|]. split; [done|].
  split; [intros m dg [= <-] [ps Hl]; by apply lookup_singleton_Some in Hl as [<- _]|]. split; [vm_compute; reflexivity|]. split; [exact fx_plainly|].
  split; [exact dflt_ok|]. vm_compute; reflexivity.
Qed.
(** A path listed under two digests: accepted, and the extracted content depends on the iteration order of the map. *)
Definition double_doc : doc :=
  mkdoc {["a78" := ["v1/content/a"]; "a79" := ["v1/content/b"]]} {["v1" := mkver {["a78" := ["a"]; "a79" := ["a"]]}]} "v1".
Definition turned : oracle := Oracle (λ _ _ m, stdpp.list.reverse (map_to_list m)) (λ _ m, map_to_list m).
Lemma turned_ok : oracle_ok turned.
Proof. split; [|done]. intros n ver m. apply reverse_Permutation. Qed.
Theorem C78_two_contents_refuted : ∃ hash decode w lx s d i X orc1 orc2 t1 t2,
  vorder_ok w ∧ only_warnings (validate_object hash decode w lx s) ∧ s !! "inventory.json" = Some "root" ∧ decode "root" = Some d ∧
  no_empty_entry d ∧ lower_case d ∧ load_inventory hash (parse_of decode w lx) s "" = LInv i [] ∧ plainly hash X ∧ oracle_ok orc1 ∧ oracle_ok orc2 ∧
  extract X orc1 i s "" false "" ∅ = (t1, SOk) ∧ extract X orc2 i s "" false "" ∅ = (t2, SOk) ∧ t1 !! "a" ≠ t2 !! "a".
Proof.
  exists hexh, (one_decode double_doc), wd, lx0, (one_store {["v1/content/a" := "x"; "v1/content/b" := "y"]}), double_doc, (inv_of double_doc), fx, dflt, turned,
    (extract fx dflt (inv_of double_doc) (one_store {["v1/content/a" := "x"; "v1/content/b" := "y"]}) "" false "" ∅).1,
    (extract fx turned (inv_of double_doc) (one_store {["v1/content/a" := "x"; "v1/content/b" := "y"]}) "" false "" ∅).1.
  split; [exact wd_ok|]. split; [apply all_warnings_true; vm_compute; reflexivity|]. split; [vm_compute; reflexivity|]. split; [done|].
  split; [intros m dg ps [= <-] Hl; by apply lookup_insert_Some in Hl as [[_ <-]|[_ [_ <-]%lookup_singleton_Some]]|].
  split; [intros dg p (m & ps & [= <-] & Hl & _); apply lookup_insert_Some in Hl as [[<- _]|[_ [<- _]%lookup_singleton_Some]]; vm_compute; reflexivity|].
  split; [vm_compute; reflexivity|]. split; [exact fx_plainly|]. split; [exact dflt_ok|]. split; [exact turned_ok|].
  split; [vm_compute; reflexivity|]. split; [vm_compute; reflexivity|]. intros H. vm_compute in H. discriminate H.
Qed.
Print Assumptions C78_upper_case_refuted.
Print Assumptions C78_no_content_path_refuted.
Print Assumptions C78_two_contents_refuted.
