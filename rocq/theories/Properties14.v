(** What acceptance by the validator guarantees. *)
From Coq Require Import Ascii.
From stdpp Require Import base list strings gmap.
From Coq Require Import ZArith Lia.
From Verif Require Import GoStr InventoryModel ObjectModel CrashSpec ValidateModel ValidateSpec CheckModel CheckSpec AcceptSpec AcceptProofs
  GuaranteeSpec GuaranteeProofs2 GuaranteeProofs3 Fixtures2 Fixtures3 Properties3.

(** All findings are warnings, for concrete lists. *)
Definition all_warnings (v : verdict) : bool :=
  match v with VDone fs => forallb (λ f, bool_decide (str_head (f_code f) = Some "W"%char)) fs | _ => false end.
Lemma all_warnings_true v : all_warnings v = true → only_warnings v.
Proof.
  destruct v as [fs| |]; [|done..]. cbn [all_warnings]. rewrite forallb_forall. intros H. exists fs. split; [done|].
  intros f Hf. apply elem_of_list_In, H, bool_decide_eq_true in Hf. destruct (f_code f) as [|c r] eqn:E; [done|]. injection Hf as ->. exists r. done.
Qed.

(** * C53: an accepted object keeps what its inventory promises *)

(** One inventory.  Full statement: it is accepted if and only if it satisfies the rules.  False because of conflicts between logical
    paths that are not found.  Proved for inventories without such conflicts, for every iteration order. *)
Theorem C53_inventory_partial w lx d : vorder_ok w → conflict_free d → only_warnings (finalize w lx false d).2 ↔ sound_doc d.
Proof.
  intros Hw Hc. split; [|apply sound_validated; exact Hw]. intros (fs & H & Hf). exact (clean_sound w lx Hw d fs H Hf Hc).
Qed.
Example C53_inventory_example : vorder_ok wd ∧ conflict_free doc2 ∧ only_warnings (finalize wd lx0 false doc2).2 ∧
  conflict_free (mkdoc ∅ ∅ "v1") ∧ ¬ only_warnings (finalize wd lx0 false (mkdoc ∅ ∅ "v1")).2.
Proof.
  split; [exact wd_ok|]. split; [|split; [apply all_warnings_true; by vm_compute|split]].
  - intros ver dg dg' p q (v & st & e & ps & Hv & Hst & Hl & Hp) (v' & st' & e' & ps' & Hv' & Hst' & Hl' & Hq) [r Hr].
    assert (∀ x y z sx, has_version doc2 ver x → vd_state x = Some (sx, y) → ∀ k, sx !! k = Some z → ∀ g, g ∈ z → g ∈ ["a"; "b/c"; "d"]) as Hall.
    { clear. intros x y z sx (vs & [= <-] & Hx) Hs k Hk g Hg. apply lookup_insert_Some in Hx as [[_ <-]|[_ Hx]].
      - injection Hs as <- _. apply lookup_singleton_Some in Hk as [_ <-]. set_solver.
      - apply lookup_singleton_Some in Hx as [_ <-]. injection Hs as <- _. apply lookup_insert_Some in Hk as [[_ <-]|[_ Hk]]; [set_solver|].
        apply lookup_singleton_Some in Hk as [_ <-]. set_solver. }
    pose proof (Hall _ _ _ _ Hv Hst _ Hl _ Hp) as H1. pose proof (Hall _ _ _ _ Hv' Hst' _ Hl' _ Hq) as H2.
    rewrite !elem_of_cons, elem_of_nil in H1, H2. destruct H1 as [->|[->|[->|[]]]], H2 as [->|[->|[->|[]]]]; discriminate Hr.
  - intros ver dg dg' p q (v & st & e & ps & (vs & [= <-] & Hv) & _). by rewrite lookup_empty in Hv.
  - intros (fs & E & Hf). vm_compute in E. injection E as <-. destruct (Hf _ ltac:(left)) as [r Hr]. discriminate.
Qed.
Theorem C53_hidden_conflict_refuted : ∃ w lx d, vorder_ok w ∧ only_warnings (finalize w lx false d).2 ∧ ¬ sound_doc d.
Proof.
  exists wd, lx0, (logical_doc ["a"; "a-b"; "a/c"]). split; [exact wd_ok|]. split; [apply all_warnings_true; by vm_compute|].
  intros H. apply (sd_dirs _ H "v1" "a78" "a78" "a" "a/c"); [apply logical_lists; set_solver..|]. by exists "c".
Qed.
Print Assumptions C53_inventory_partial.
Print Assumptions C53_hidden_conflict_refuted.

(** The stored object.  Full statement: an accepted object satisfies the rules ([sound_object] of C49).  False in several points, see
    below.  Proved, for every iteration order and all digest functions: what [assured] lists.  The root inventory and every version
    inventory that is there have a sidecar with their digest, have the same identification and content directory, the head of their
    folder and exactly the versions up to it, each with the logical paths of the root inventory.  Everything that they record is stored
    with the recorded digest below a folder of a version folder.  Every digest of a state is in the manifest. *)
Theorem C53_accepted_assured_partial hash decode w lx s :
  vorder_ok w → only_warnings (validate_object hash decode w lx s) → ∃ d, assured hash decode s d.
Proof. exact (accepted_assured hash decode w lx s). Qed.
(** Every file of every version can be retrieved, with the recorded digest, if no digest of the manifest has an empty list. *)
Theorem C53_retrievable_partial hash decode w lx s :
  vorder_ok w → only_warnings (validate_object hash decode w lx s) →
  ∃ b d, s !! "inventory.json" = Some b ∧ decode b = Some d ∧ (no_empty_entry d →
    ∀ ver dg p, state_lists d ver dg p → ∃ q, man_lists d dg q ∧ intact hash (dc_alg d) s dg q).
Proof. exact (accepted_retrievable hash decode w lx s). Qed.
Example C53_example :
  vorder_ok wd ∧ only_warnings (validate_object hexh dec2 wd lx0 store2) ∧ no_empty_entry doc2 ∧ state_lists doc2 "v2" "a79" "b/c" ∧
  ¬ only_warnings (validate_object hexh dec2 wd lx0 (<["v2/content/b" := "z"]> store2)).
Proof.
  split; [exact wd_ok|]. split; [apply all_warnings_true; by vm_compute|]. split; [|split].
  - intros m dg ps [= <-] Hl. apply lookup_insert_Some in Hl as [[_ <-]|[_ [_ <-]%lookup_singleton_Some]]; done.
  - eexists _, _, _, _. split; [eexists; split; [reflexivity|by vm_compute]|]. split; [reflexivity|]. split; [by vm_compute|left].
  - intros (fs & E & Hf). vm_compute in E. injection E as <-. destruct (Hf _ ltac:(left)) as [r Hr]. discriminate.
Qed.
Print Assumptions C53_accepted_assured_partial.
Print Assumptions C53_retrievable_partial.

(** An object with one version, whose inventories are decoded as [d]. *)
Definition one_decode (d : doc) (b : string) : option doc := if decide (b = "root") then Some d else None.
Definition one_store (files : gmap string string) : storage :=
  files ∪ {["0=ocfl_object_1.1" := "ocfl_object_1.1"; "inventory.json" := "root"; "inventory.json.sha512" := toy_side "root";
    "v1/inventory.json" := "root"; "v1/inventory.json.sha512" := toy_side "root"]}.
(** The manifest has an empty list for the digest of file a, and a file with this digest lies outside of the content directory:
    accepted, but no content path leads to the content of a. *)
Definition lost_doc : doc := mkdoc {["a78" := []]} {["v1" := mkver {["a78" := ["a"]]}]} "v1".
Theorem C53_no_content_path_refuted : ∃ hash decode w lx s d,
  vorder_ok w ∧ only_warnings (validate_object hash decode w lx s) ∧ s !! "inventory.json" = Some "root" ∧ decode "root" = Some d ∧
  sound_doc d ∧ (∃ dg, state_lists d "v1" dg "a") ∧ ∀ dg q, ¬ man_lists d dg q.
Proof.
  exists hexh, (one_decode lost_doc), wd, lx0, (one_store {["v1/other/x" := "x"]}), lost_doc. split; [exact wd_ok|].
  split; [apply all_warnings_true; by vm_compute|]. split; [by vm_compute|]. split; [done|]. split; [|split].
  - apply (C53_inventory_partial wd lx0); [exact wd_ok| |apply all_warnings_true; by vm_compute].
    intros ver dg dg' p q (v & st & e & ps & (vs & [= <-] & Hv) & Hst & Hl & Hp) (v' & st' & e' & ps' & (vs' & [= <-] & Hv') & Hst' & Hl' & Hq) [r Hr].
    apply lookup_singleton_Some in Hv as [_ <-]. apply lookup_singleton_Some in Hv' as [_ <-]. injection Hst as <- _. injection Hst' as <- _.
    apply lookup_singleton_Some in Hl as [_ <-]. apply lookup_singleton_Some in Hl' as [_ <-].
    apply elem_of_list_singleton in Hp as ->. apply elem_of_list_singleton in Hq as ->. discriminate.
  - exists "a78". eexists _, _, _, _. split; [eexists; split; [reflexivity|by vm_compute]|]. split; [reflexivity|]. split; [by vm_compute|left].
  - intros dg q (m & ps & [= <-] & Hl & Hq). apply lookup_singleton_Some in Hl as [_ <-]. by apply elem_of_nil in Hq.
Qed.
(** The content of a version lies outside of the content directory: a warning only. *)
Definition outside_doc : doc := mkdoc {["a78" := ["v1/other/x"]]} {["v1" := mkver {["a78" := ["a"]]}]} "v1".
Theorem C53_outside_content_refuted : ∃ hash decode w lx s d p c,
  vorder_ok w ∧ only_warnings (validate_object hash decode w lx s) ∧ s !! "inventory.json" = Some "root" ∧ decode "root" = Some d ∧
  content_folder d c ∧ man_lists d "a78" p ∧ ∀ ver r, str_mem "/" ver = false → p ≠ ver +:+ "/" +:+ c +:+ "/" +:+ r.
Proof.
  exists hexh, (one_decode outside_doc), wd, lx0, (one_store {["v1/other/x" := "x"]}), outside_doc, "v1/other/x", "content". split; [exact wd_ok|].
  split; [apply all_warnings_true; by vm_compute|]. split; [by vm_compute|]. split; [done|]. split; [by left|]. split.
  - eexists _, _. split; [reflexivity|]. split; [by vm_compute|left].
  - intros ver r Hv E. destruct ver as [|a [|b [|e ver]]]; [discriminate E..|].
    assert (e = "/"%char) as -> by (by injection E). injection E as <- <- E. done.
Qed.
(** The inventory of the newest version is missing: a warning only. *)
Theorem C53_no_version_inventory_refuted : ∃ hash decode w lx s d,
  vorder_ok w ∧ only_warnings (validate_object hash decode w lx s) ∧ s !! "inventory.json" = Some "root" ∧ decode "root" = Some d ∧
  newest d "v2" ∧ s !! "v2/inventory.json" = None.
Proof.
  exists hexh, dec2, wd, lx0, (delete "v2/inventory.json" (delete "v2/inventory.json.sha512" store2)), doc2. split; [exact wd_ok|].
  split; [apply all_warnings_true; by vm_compute|]. split; [by vm_compute|]. split; [done|]. split; [|by vm_compute].
  exists (mkver {["a78" := ["a"]; "a79" := ["b/c"; "d"]]}), 2%N. split; [eexists; split; [reflexivity|by vm_compute]|]. split; [exact numbered_v2|].
  intros ver' v' n' [->| ->]%doc2_versions Hn.
  - rewrite (ValidateProofs.numbered_fun _ _ _ Hn numbered_v1). lia.
  - rewrite (ValidateProofs.numbered_fun _ _ _ Hn numbered_v2). lia.
Qed.
Print Assumptions C53_no_content_path_refuted.
Print Assumptions C53_outside_content_refuted.
Print Assumptions C53_no_version_inventory_refuted.

(** * C54: every stored file is accounted for *)

(** Full statement: the object holds nothing but the declaration, the inventories and sidecars, logs, extensions, and content that is
    listed in the manifest.  False: other folders of a version folder bring a warning only.  Proved: all other files are as they
    should be.  A file below the content directory of a version is in the manifest of the root inventory and of the inventories of this
    version and the later ones. *)
Theorem C54_files_accounted_partial hash decode w lx s :
  vorder_ok w → only_warnings (validate_object hash decode w lx s) →
  ∃ b d, s !! "inventory.json" = Some b ∧ decode b = Some d ∧ ∀ p x, s !! p = Some x →
    root_name p ∨ (∃ r, p = "logs/" +:+ r) ∨ (∃ r, p = "extensions/" +:+ r) ∨
    ∃ ver v r, has_version d ver v ∧ p = ver +:+ "/" +:+ r ∧
      ((∃ a b, r = a +:+ "/" +:+ b ∧ (content_folder d a → ∃ dg, man_lists d dg p ∧ intact hash (dc_alg d) s dg p)) ∨
       root_name r ∧ ∀ vb e, s !! (ver +:+ "/inventory.json") = Some vb → decode vb = Some e →
         r = "inventory.json" ∨ r = "inventory.json." +:+ dc_alg e).
Proof.
  intros Hw H. destruct (accepted_assured _ _ _ _ _ Hw H) as [d Hd]. destruct (as_root _ _ _ _ Hd) as (b & dg & t & Hb & He & _).
  rewrite str_app_nil_l in Hb. exists b, d. split; [done|]. split; [done|]. intros p x Hx.
  destruct (as_files _ _ _ _ Hd p x Hx) as [Hp|[Hp|[Hp|(ver & v & r & Hv & -> & Hr)]]]; [by left|by right; left|by right; right; left|].
  right. right. right. exists ver, v, r. split; [done|]. split; [done|]. destruct Hr as [(a & b' & ->)|[Hr Hk]].
  - left. exists a, b'. split; [done|]. intros Hc. destruct (as_listed _ _ _ _ Hd a ver v b' x Hc Hv Hx) as [(dg' & Hm) _]. exists dg'. split; [done|].
    by destruct (as_content _ _ _ _ Hd d dg' _ (or_introl eq_refl) Hm).
  - right. split; [done|]. intros vb e Hvb He'. destruct (as_version _ _ _ _ Hd ver v vb Hv Hvb) as (e' & He'' & Hki).
    rewrite He' in He''. injection He'' as <-. by apply Hk.
Qed.
(** In the manifests of the versions: each file is in that of its own version and of all later ones. *)
Theorem C54_listed_by_versions hash decode w lx s b d c ver v r x ver2 v2 vb e n m :
  vorder_ok w → only_warnings (validate_object hash decode w lx s) → s !! "inventory.json" = Some b → decode b = Some d →
  content_folder d c → has_version d ver v → s !! (ver +:+ "/" +:+ c +:+ "/" +:+ r) = Some x →
  has_version d ver2 v2 → s !! (ver2 +:+ "/inventory.json") = Some vb → decode vb = Some e → numbered ver n → numbered ver2 m → (n <= m)%N →
  ∃ dg, man_lists e dg (ver +:+ "/" +:+ c +:+ "/" +:+ r).
Proof.
  intros Hw H Hb Hd Hc Hv Hx Hv2 Hvb He Hn Hm Hle. destruct (accepted_assured _ _ _ _ _ Hw H) as [d' Hd'].
  destruct (as_root _ _ _ _ Hd') as (b' & dg & t & Hb' & He' & _). rewrite str_app_nil_l in Hb'. rewrite Hb in Hb'. injection Hb' as <-.
  rewrite Hd in He'. injection He' as <-. destruct (as_version _ _ _ _ Hd' ver2 v2 vb Hv2 Hvb) as (e' & He'' & Hki).
  rewrite He in He''. injection He'' as <-. destruct (as_listed _ _ _ _ Hd' c ver v r x Hc Hv Hx) as [_ Hl].
  exact (Hl ver2 e n m (ex_intro _ v2 Hv2) Hki Hn Hm Hle).
Qed.
(** A file in another folder of a version folder with an inventory brings a warning that names the folder. *)
Theorem C54_other_folder_warned_partial hash decode w lx s fs b d ver v vb e a r x :
  vorder_ok w → validate_object hash decode w lx s = VDone fs → s !! "inventory.json" = Some b → decode b = Some d →
  all_numbered d → distinct_numbers d → has_version d ver v → s !! (ver +:+ "/inventory.json") = Some vb → decode vb = Some e →
  str_mem "/" a = false → s !! (ver +:+ "/" +:+ a +:+ "/" +:+ r) = Some x → ¬ content_folder e a → Finding "W002" [a; ver] ∈ fs.
Proof. exact (other_folder_warned hash decode w lx s fs b d ver v vb e a r x). Qed.
Example C54_example :
  vorder_ok wd ∧ only_warnings (validate_object hexh dec2 wd lx0 store2) ∧ content_folder doc2 "content" ∧ store2 !! "v1/content/a" = Some "x" ∧
  ¬ only_warnings (validate_object hexh dec2 wd lx0 (<["v1/content/b" := "y"]> store2)) ∧
  ¬ only_warnings (validate_object hexh dec2 wd lx0 (<["v1/note" := "y"]> store2)) ∧
  ¬ only_warnings (validate_object hexh dec2 wd lx0 (<["note" := "y"]> store2)) ∧
  ¬ only_warnings (validate_object hexh dec2 wd lx0 (<["more/note" := "y"]> store2)) ∧
  only_warnings (validate_object hexh dec2 wd lx0 (<["logs/note" := "y"]> store2)).
Proof.
  assert (∀ v, match v with VDone (Finding (String "E" r) args :: fs) => true | _ => false end = true → ¬ only_warnings v) as Hno.
  { intros v Hv (fs & -> & Hf). destruct fs as [|[c args] fs]; [done|]. destruct (Hf _ ltac:(left)) as [r Hr]. cbn [f_code] in Hr. subst c. done. }
  split; [exact wd_ok|]. split; [apply all_warnings_true; by vm_compute|]. split; [by left|]. split; [by vm_compute|].
  split; [apply Hno; by vm_compute|]. split; [apply Hno; by vm_compute|]. split; [apply Hno; by vm_compute|]. split; [apply Hno; by vm_compute|].
  apply all_warnings_true; by vm_compute.
Qed.
(** A surplus file in another folder of a version: accepted, and without even a warning if the name of the folder is the beginning of
    the name of the content directory and the version has no inventory. *)
Theorem C54_surplus_refuted : ∃ hash decode w lx s p x d,
  vorder_ok w ∧ s !! p = None ∧ s !! "inventory.json" = Some "root" ∧ decode "root" = Some d ∧ (∀ dg, ¬ man_lists d dg p) ∧
  only_warnings (validate_object hash decode w lx (<[p := x]> s)) ∧
  validate_object hash decode w lx (<[p := x]> s) = validate_object hash decode w lx s.
Proof.
  exists hexh, dec2, wd, lx0, (delete "v2/inventory.json" (delete "v2/inventory.json.sha512" store2)), "v2/con/x", "x", doc2. split; [exact wd_ok|].
  split; [by vm_compute|]. split; [by vm_compute|]. split; [done|]. split; [|split; [apply all_warnings_true; by vm_compute|by vm_compute]].
  intros dg (m & ps & [= <-] & Hl & Hp). apply lookup_insert_Some in Hl as [[_ <-]|[_ [_ <-]%lookup_singleton_Some]]; apply elem_of_list_singleton in Hp; discriminate.
Qed.
Print Assumptions C54_files_accounted_partial.
Print Assumptions C54_listed_by_versions.
Print Assumptions C54_other_folder_warned_partial.
Print Assumptions C54_surplus_refuted.
