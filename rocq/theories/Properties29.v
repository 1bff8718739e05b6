(** METS and PREMIS documents: C73. *)
From Coq Require Import Ascii.
From stdpp Require Import base list strings gmap.
From Coq Require Import ZArith Lia.
From Verif Require Import GoStr PathModel InventoryModel ObjectModel InventorySpec ObjectSpec CrashSpec LoadModel AreaModel ValidateModel PublishSpec MetaModel MetaSpec
  JsonlModel MigrateModel MetsModel MetsSpec MetsProofs MetsProofs2 Fixtures Fixtures2 Fixtures3 Fixtures5 Fixtures8 Fixtures10 Fixtures12 Fixtures16 Fixtures17.

(** * C73: the METS document lists the files of the version, and it is stored with the PREMIS document it refers to *)

(** In a session of an object that the software made, the documents are made, and the METS document has one entry for every file of the working
    version except metadata files: with its digest, its group, its logical path and its content paths.  Partial: the content folder is called
    content, no two areas have the same path, no logical path is listed twice (C09), no primary metadata is configured, the extensions report
    and the names are built without error. *)
Theorem C73_listed_partial {A} (view : gmap string A → fview) w O E P parse l areas C exts s i now msg un ua echo o1 o m N :
  worders_ok w → hex_hash (e_hash E) → json_ok P (e_json E) parse → supported E i → separate areas →
  (fresh i ∧ declared s) ∨ (∃ i0, published E P parse s i0 ∧ load_inventory (e_hash E) parse s "" = LInv i []) →
  ob_start now msg un ua echo (open_object i) = (o1, SOk) → calls E o1 o → content_name i = "content" →
  (∀ v, inv_versions (ob_inv o) !! inv_head (ob_inv o) = Some v → unique_paths (v_state v)) →
  get_metadata w exts (ob_inv o) = inl m → names_of E l (mo_sprintf O) C = inl N → mc_primary C = "" →
  ∃ D Pr, documents view w O E l areas C exts (ob_inv o) = inl (D, Pr) ∧ NoDup (named D) ∧
    (∀ p, p ∈ named D ↔ (∃ d, current (ob_inv o) p d) ∧ ¬ metadata_file areas p) ∧
    (∀ f, f ∈ d_files D → ∃ p d, current (ob_inv o) p d ∧ urls f = [p] ∧ stands_for areas (ob_inv o) f p d).
Proof.
  intros W Hhex Hj Hs Ha Hor Hst Hc Hn Hu Hm HN Hpr. destruct (session_ready E P parse s i now msg un ua echo o1 o Hhex Hj Hs Hor Hst Hc Hn) as (HR & Hconv & Hv).
  destruct (documents_made view w W O E l areas C exts (ob_inv o) HR Hconv Ha m N Hm Hv HN Hpr) as (D & Pr & HD). exists D, Pr. split; [done|].
  destruct (named_files view w W O E l areas C exts (ob_inv o) HR Hconv Ha D Pr HD Hu) as [H1 H2]. split; [done|]. split; [done|].
  exact (files_stand view w W O E l areas C exts (ob_inv o) HR Hconv Ha D Pr HD).
Qed.
(** The same for any inventory in order, also with primary metadata: if documents are made, they are about this object and this version. *)
Theorem C73_documents_partial {A} (view : gmap string A → fview) w O E l areas C exts i D P :
  worders_ok w → resolvable i → conventional i → separate areas → (∀ v, inv_versions i !! inv_head i = Some v → unique_paths (v_state v)) →
  documents view w O E l areas C exts i = inl (D, P) →
  d_id D = inv_id i ∧ d_head D = inv_head i ∧ (∃ v, inv_versions i !! inv_head i = Some v ∧ d_message D = v_message v) ∧
  NoDup (named D) ∧ (∀ p, p ∈ named D ↔ (∃ d, current i p d) ∧ ¬ metadata_file areas p) ∧
  (∀ f, f ∈ d_files D → ∃ p d, current i p d ∧ urls f = [p] ∧ stands_for areas i f p d).
Proof.
  intros W HR Hconv Ha Hu HD. destruct (named_files view w W O E l areas C exts i HR Hconv Ha D P HD Hu) as [H1 H2].
  destruct (documents_parts view w W O E l areas C exts i HR Hconv Ha D P HD) as (m & v & N & xs & a & _ & Hv & _ & _ & _ & H3 & H4 & H5 & _).
  split_and!; [done|done|by exists v|done|done|]. exact (files_stand view w W O E l areas C exts i HR Hconv Ha D P HD).
Qed.
(** The primary metadata that is configured as type:area:file or type:file, the latter for the content area if the object has areas.  [names_primary]
    gives the type and the logical path. *)
Inductive names_primary (areas : gmap string string) : string → string → string → Prop :=
| names_in_area ty a f p : str_mem ":"%char ty = false → str_mem ":"%char a = false → str_mem ":"%char f = false → areas !! a = Some p →
    names_primary areas (ty +:+ ":" +:+ a +:+ ":" +:+ f) ty (path_join [p; f])
| names_in_content ty f p : str_mem ":"%char ty = false → str_mem ":"%char f = false → areas !! "content" = Some p →
    names_primary areas (ty +:+ ":" +:+ f) ty (path_join [p; f])
| names_without_areas ty f : str_mem ":"%char ty = false → str_mem ":"%char f = false → areas = ∅ →
    names_primary areas (ty +:+ ":" +:+ f) ty (path_clean f).
Lemma primary_name_spec areas t ty name : primary_name areas t = Some (ty, name) ↔ names_primary areas t ty name.
Proof.
  split.
  - unfold primary_name. pose proof (split_on_elem_no_sep ":"%char t) as Hf. pose proof (join_split ":"%char t) as Hj.
    destruct (split_on ":"%char t) as [|x [|y [|z [|u l]]]]; try done.
    + cbn in Hj. subst t. apply Forall_cons in Hf as [H1 Hf]. apply Forall_cons in Hf as [H2 _]. case_decide as E.
      * intros [= <- <-]. by constructor.
      * destruct (areas !! "content") as [p|] eqn:Ha; [|done]. intros [= <- <-]. by constructor.
    + cbn in Hj. subst t. apply Forall_cons in Hf as [H1 Hf]. apply Forall_cons in Hf as [H2 Hf]. apply Forall_cons in Hf as [H3 _].
      destruct (areas !! y) as [p|] eqn:Ha; [|done]. intros [= <- <-]. by constructor.
  - intros H. unfold primary_name. destruct H as [ty a f p H1 H2 H3 Ha|ty f p H1 H2 Ha|ty f H1 H2 ->].
    + assert (Hs : split_on ":"%char (ty +:+ ":" +:+ a +:+ ":" +:+ f) = [ty; a; f]).
      { change (split_on ":"%char (str_join (String ":"%char "") [ty; a; f]) = [ty; a; f]). apply split_join; [done|]. by repeat constructor. }
      by rewrite Hs, Ha.
    + assert (Hs : split_on ":"%char (ty +:+ ":" +:+ f) = [ty; f]).
      { change (split_on ":"%char (str_join (String ":"%char "") [ty; f]) = [ty; f]). apply split_join; [done|]. by repeat constructor. }
      rewrite Hs, decide_False; [by rewrite Ha|]. intros ->. by rewrite lookup_empty in Ha.
    + assert (Hs : split_on ":"%char (ty +:+ ":" +:+ f) = [ty; f]).
      { change (split_on ":"%char (str_join (String ":"%char "") [ty; f]) = [ty; f]). apply split_join; [done|]. by repeat constructor. }
      by rewrite Hs, decide_True by done.
Qed.

(** Metadata files are referred to with their digest: every one but the documents themselves and files with the content of the primary
    metadata; and nothing else is referred to as metadata of the area. *)
Theorem C73_metadata_partial {A} (view : gmap string A → fview) w O E l areas C exts i D P :
  worders_ok w → resolvable i → conventional i → separate areas → documents view w O E l areas C exts i = inl (D, P) →
  (∀ p d, current i p d → metadata_file areas p → (∀ N, names_of E l (mo_sprintf O) C = inl N → p ≠ n_mets N ∧ p ≠ n_premis N) →
    (mc_primary C = "" ∨ ∃ ty name, names_primary areas (mc_primary C) ty name ∧ ¬ current i name d) →
    ∃ r, r ∈ d_dmd D ∧ r_loc r = External p ∧ refers areas i r p d ∧ r_type r = "OTHER" ∧ r_other r = "UNKNOWN" ∧
      ∀ name, (inv_alg i, name) ∈ mets_algorithms → r_sumtype r = name) ∧
  (∀ r, r ∈ d_dmd D → r_group r = "area-metadata" → ∃ p d, current i p d ∧ refers areas i r p d).
Proof.
  intros W HR Hconv Ha HD. split.
  - intros p d Hc Hd Hn Hp0.
    assert (Hp : mc_primary C = "" ∨ ∃ ty name, primary_name areas (mc_primary C) = Some (ty, name) ∧ ¬ current i name d).
    { destruct Hp0 as [?|(ty & name & H1 & H2)]; [by left|right]. exists ty, name. by rewrite primary_name_spec. }
    destruct (metadata_found view w W O E l areas C exts i HR Hconv Ha D P HD p d Hc Hd Hn Hp) as (r & H1 & H2 & H3 & H4 & H5 & H6).
    exists r. split; [done|]. split; [done|]. split; [done|]. split; [done|]. split; [done|]. rewrite H4. intros name Hname. unfold mets_algorithms in Hname.
    rewrite !elem_of_cons, elem_of_nil in Hname. by destruct Hname as [[= -> ->]|[[= -> ->]|[[= -> ->]|[[= -> ->]|[[= -> ->]|[]]]]]].
  - exact (metadata_only view w W O E l areas C exts i HR Hconv Ha D P HD).
Qed.
(** The primary metadata is referred to twice, by a logical path and by a content path with its content, and its content not otherwise. *)
Theorem C73_primary_partial {A} (view : gmap string A → fview) w O E l areas C exts i D P :
  worders_ok w → resolvable i → conventional i → separate areas → documents view w O E l areas C exts i = inl (D, P) → mc_primary C ≠ "" →
  ∃ ty name d q r1 r2, names_primary areas (mc_primary C) ty name ∧ current i name d ∧ current i q d ∧
    r1 ∈ d_dmd D ∧ r2 ∈ d_dmd D ∧ r_group r1 = "primary-metadata" ∧ r_group r2 = "primary-metadata" ∧ r_sum r1 = d ∧ r_sum r2 = d ∧
    r_loc r1 = External q ∧ (∃ c, r_loc r2 = Internal c ∧ lists (inv_manifest i) c d) ∧
    (∀ r, r ∈ d_dmd D → r_sum r = d → r = r1 ∨ r = r2).
Proof.
  intros W HR Hconv Ha HD Hp. destruct (primary_found view w W O E l areas C exts i HR Hconv Ha D P HD Hp) as (ty & name & d & q & r1 & r2 & Hn & H).
  exists ty, name, d, q, r1, r2. split; [by apply primary_name_spec|exact H].
Qed.
(** The PREMIS document: one object for every entry of the METS document, with the same identifier, and these are distinct; a packing event for
    every entry and every version that has its content, with date and address of the version, and no other packing events for the files. *)
Theorem C73_premis_partial {A} (view : gmap string A → fview) w O E l areas C exts i D P :
  worders_ok w → resolvable i → conventional i → separate areas → (∀ v, inv_versions i !! inv_head i = Some v → unique_paths (v_state v)) →
  documents view w O E l areas C exts i = inl (D, P) → Inj (=) (=) (mo_uuid O) →
  p_id <$> pd_objects P = m_id <$> d_files D ∧ NoDup (m_id <$> d_files D) ∧
  (∀ f p d ver v, f ∈ d_files D → urls f = [p] → current i p d → inv_versions i !! ver = Some v → is_Some (v_state v !! d) →
    Packing (m_id f) (v_created v) (v_uaddr v) ∈ pd_events P) ∧
  (∀ id date addr, Packing id date addr ∈ pd_events P →
    ∃ p d ver v, current i p d ∧ inv_versions i !! ver = Some v ∧ is_Some (v_state v !! d) ∧ date = v_created v ∧ addr = v_uaddr v ∧
      (metadata_file areas p ∨ ∃ f, f ∈ d_files D ∧ urls f = [p] ∧ m_id f = id)).
Proof.
  intros W HR Hconv Ha Hu HD Hinj. split_and!.
  - exact (objects_files view w W O E l areas C exts i HR Hconv Ha D P HD).
  - exact (ids_unique view w W O E l areas C exts i HR Hconv Ha D P HD Hu Hinj).
  - intros f p d ver v. exact (packed view w W O E l areas C exts i HR Hconv Ha D P HD Hu f p d ver v).
  - exact (packed_only view w W O E l areas C exts i HR Hconv Ha D P HD).
Qed.
(** A file that was made by a migration has an event with its identifier as outcome, or the error; the source is the identifier of a file with
    the digest it was made from, and it is missing only if no such file is left. *)
Theorem C73_migration_partial {A} (view : gmap string A → fview) w O E l areas C exts i D P m f p d fm r :
  worders_ok w → resolvable i → conventional i → separate areas → (∀ v, inv_versions i !! inv_head i = Some v → unique_paths (v_state v)) →
  documents view w O E l areas C exts i = inl (D, P) →
  get_metadata w exts i = inl m → f ∈ d_files D → urls f = [p] → current i p d → om_files m !! d = Some fm → f_migration (view (fm_ext fm)) = Some r →
  (∀ k, mo_uuid O k ≠ "") → ¬ (∃ e, current i "" e) →
  ∃ v src, inv_versions i !! inv_head i = Some v ∧
    Migration (v_created v) (mr_id r) src (if decide (mr_error r = "") then inl (m_id f) else inr (mr_error r)) ∈ pd_events P ∧
    (∀ j, src = Some j → ∃ q, current i q (mr_source r) ∧ ∀ g, g ∈ d_files D → urls g = [q] → m_id g = j) ∧
    (src = None → ∀ q, ¬ current i q (mr_source r)).
Proof. intros W HR Hconv Ha Hu HD. exact (migrated view w W O E l areas C exts i HR Hconv Ha D P HD Hu m f p d fm r). Qed.
(** Both documents are stored under their names: after the hook, and after any further calls, each lies at the content path for its name and the
    manifest has its digest; the digest that METS gives for PREMIS is that of the stored text.  The hook only adds files, so its sessions are
    those of C50.  Partial: storage types area and path. *)
Theorem C73_stored_partial {A} (view : gmap string A → fview) w O E l areas C exts orcs o D P rest o' s :
  worders_ok w → resolvable (ob_inv o) → conventional (ob_inv o) → separate areas →
  to_lower (mc_type C) = "area" ∨ to_lower (mc_type C) = "path" → is_Some (area_path l "content") →
  documents view w O E l areas C exts (ob_inv o) = inl (D, P) →
  mets_after view w O E l areas C exts orcs o = sops_run E (hook_calls orcs O C l D P) o ∧
  (sops_run E (hook_calls orcs O C l D P ++ rest) o = (o', SOk) → guarded_sops E (proper E) (hook_calls orcs O C l D P ++ rest) o →
   (∃ f a, kept_as l C (mc_mets C) = Some (f, a) ∧ keeps_file E s (ob_inv o) f a (mo_mets O D) o') ∧
   (∃ f a text, kept_as l C (mc_premis C) = Some (f, a) ∧ keeps_file E s (ob_inv o) f a text o' ∧ Forall (λ r, r_sum r = mo_sha O text) (d_amd D))).
Proof.
  intros W HR Hconv Ha Ht Hc HD. split.
  - apply (hook_run view w O E l areas C exts orcs o D P); [|done]. destruct Ht as [-> | ->]; done.
  - intros Hr Hg. destruct (stored E O l C orcs o D P rest o' s Hc Hr Hg) as [H1 (f & a & H2 & H3)]. split; [done|]. exists f, a, (mo_premis O P). split_and!; [done|done|].
    destruct (documents_parts view w W O E l areas C exts (ob_inv o) HR Hconv Ha D P HD) as (m & v & N & xs & b & _ & _ & _ & _ & _ & _ & _ & _ & _ & _ & _ & _ & H & _). done.
Qed.

(** A first version with two files, one made from the other, a metadata file and a schema. *)
Lemma mrun_ready a i o ops : separate a → fresh i → supported (menv a) i → content_name i = "content" → mrun a ops i = Some o →
  resolvable (ob_inv o) ∧ conventional (ob_inv o) ∧ is_Some (inv_versions (ob_inv o) !! inv_head (ob_inv o)).
Proof.
  intros Ha Hf Hs Hc. unfold mrun, mstart. destruct (ob_start _ _ _ _ _ _) as [o1 []] eqn:Hst; [|done..]. cbn [mbind option_bind]. intros Hops.
  eapply (session_ready (menv a) (λ _, True) jparse store0 i); [exact hexh_ok|exact jjson_ok|done|left; split; [done|exact store0_declared]|exact Hst|by eapply sopsb_calls|done].
Qed.
(** The documents of the hook in it, and the object after the hook. *)
Lemma eg_ready : match eg with Some (o, o', D, P) => uniqueb_head (ob_inv o) | None => false end = true.
Proof. vm_compute. reflexivity. Qed.
Lemma eg_made : ∃ o o' D P, eg = Some (o, o', D, P) ∧ mrun areas3 mops fresh0 = Some o ∧ resolvable (ob_inv o) ∧ conventional (ob_inv o) ∧
  documents mview worders0 mout0 (menv areas3) (subs areas3) areas3 (mconf0 "area" "") mknown (ob_inv o) = inl (D, P) ∧
  mets_after mview worders0 mout0 (menv areas3) (subs areas3) areas3 (mconf0 "area" "") mknown (λ _, dflt) o = (o', SOk) ∧
  (∀ v, inv_versions (ob_inv o) !! inv_head (ob_inv o) = Some v → unique_paths (v_state v)).
Proof.
  pose proof eg_ready as H. destruct eg as [[[[o o'] D] P]|] eqn:He; [|discriminate]. exists o, o', D, P. destruct (mhook_true _ _ _ _ _ _ _ _ He) as [H1 H2].
  destruct (mdocs_true _ _ _ _ _ _ _ H1) as [H3 H4]. destruct (mrun_ready areas3 fresh0 o mops areas3_separate fresh0_fresh (menv_supported areas3) eq_refl H3) as (H5 & H6 & H7).
  split_and!; [reflexivity|exact H3|exact H5|exact H6|exact H4|exact H2|]. exact (uniqueb_head_true _ H).
Qed.
Lemma eg_shows {T} (f : object → object → mdoc → pdoc → T) o o' D P x : eg = Some (o, o', D, P) → (match eg with Some (o, o', D, P) => Some (f o o' D P) | None => None end = Some x) → f o o' D P = x.
Proof. intros ->. by intros [= ->]. Qed.
Lemma mout0_inj : Inj (=) (=) (mo_uuid mout0).
Proof. intros a b H. apply (str_app_inv_l "uuid-") in H. apply dec_of_N_inj in H. lia. Qed.
Example C73_example : ∃ o o' D P, mrun areas3 mops fresh0 = Some o ∧
  mets_after mview worders0 mout0 (menv areas3) (subs areas3) areas3 (mconf0 "area" "") mknown (λ _, dflt) o = (o', SOk) ∧
  documents mview worders0 mout0 (menv areas3) (subs areas3) areas3 (mconf0 "area" "") mknown (ob_inv o) = inl (D, P) ∧
  named D = ["data/sub/b.txt"; "data/a.txt"; "meta/schemas/s.xsd"] ∧ m_group <$> d_files D = ["content"; "content"; "schemas"] ∧
  r_loc <$> d_dmd D = [Internal "v1/content/meta/info.xml"; External "meta/info.xml"] ∧
  Migration "2024-01-01T00:00:00Z" "tool" (Some "uuid-2") (inl "uuid-1") ∈ pd_events P ∧
  apply_evs (ob_trace o') store0 !! "v1/content/meta/premis.xml" = Some "PREMIS uuid-1/uuid-2/uuid-3" ∧
  (* the theorems apply *)
  (∀ p, p ∈ named D ↔ (∃ d, current (ob_inv o) p d) ∧ ¬ metadata_file areas3 p) ∧
  p_id <$> pd_objects P = m_id <$> d_files D ∧ NoDup (m_id <$> d_files D).
Proof.
  destruct eg_made as (o & o' & D & P & He & H1 & H2 & H3 & H4 & H5 & H6). exists o, o', D, P. split; [exact H1|]. split; [exact H5|]. split; [exact H4|].
  split; [apply (eg_shows (λ _ _ D _, named D) _ _ _ _ _ He); vm_compute; reflexivity|].
  split; [apply (eg_shows (λ _ _ D _, m_group <$> d_files D) _ _ _ _ _ He); vm_compute; reflexivity|].
  split; [apply (eg_shows (λ _ _ D _, r_loc <$> d_dmd D) _ _ _ _ _ He); vm_compute; reflexivity|].
  split. { assert (pd_events P !! 2 = Some (Migration "2024-01-01T00:00:00Z" "tool" (Some "uuid-2") (inl "uuid-1"))) as H by
             (apply (eg_shows (λ _ _ _ P, pd_events P !! 2) _ _ _ _ _ He); vm_compute; reflexivity). exact (elem_of_list_lookup_2 _ _ _ H). }
  split; [apply (eg_shows (λ _ o' _ _, apply_evs (ob_trace o') store0 !! "v1/content/meta/premis.xml") _ _ _ _ _ He); vm_compute; reflexivity|].
  split. { destruct (C73_documents_partial mview worders0 mout0 _ _ _ _ _ _ D P worders0_ok H2 H3 areas3_separate H6 H4) as (_ & _ & _ & _ & H & _). exact H. }
  destruct (C73_premis_partial mview worders0 mout0 _ _ _ _ _ _ D P worders0_ok H2 H3 areas3_separate H6 H4 mout0_inj) as (Ha & Hb & _). split; [exact Ha|exact Hb].
Qed.
(** The first theorem, for the same session. *)
Definition eg_reportb : bool := match mrun areas3 mops fresh0 with Some o => match get_metadata worders0 mknown (ob_inv o) with inl _ => true | inr _ => false end | None => false end.
Example C73_listed_example : ∃ o D P, mrun areas3 mops fresh0 = Some o ∧
  documents mview worders0 mout0 (menv areas3) (subs areas3) areas3 (mconf0 "area" "") mknown (ob_inv o) = inl (D, P) ∧ NoDup (named D).
Proof.
  destruct eg_made as (o & o' & D & P & He & H1 & H2 & H3 & H4 & H5 & H6).
  assert (eg_reportb = true) as Hb by (vm_compute; reflexivity). unfold eg_reportb in Hb. rewrite H1 in Hb.
  destruct (get_metadata worders0 mknown (ob_inv o)) as [m|] eqn:Hm; [|discriminate]. clear Hb. exists o.
  assert (names_of (menv areas3) (subs areas3) (mo_sprintf mout0) (mconf0 "area" "") = inl (MNames "meta/mets.xml" "meta/premis.xml" "meta/premis.xml")) as HN by (vm_compute; reflexivity).
  unfold mrun, mstart in H1. destruct (ob_start "2024-01-01T00:00:00Z" "msg" "me" "mailto:me" false (open_object fresh0)) as [o1 []] eqn:Hst; [|discriminate..].
  cbn [mbind option_bind] in H1.
  destruct (C73_listed_partial mview worders0 mout0 (menv areas3) (λ _, True) jparse (subs areas3) areas3 (mconf0 "area" "") mknown store0 fresh0 _ _ _ _ _ o1 o m _
    worders0_ok hexh_ok jjson_ok (menv_supported areas3) areas3_separate (or_introl (conj fresh0_fresh store0_declared)) Hst (sopsb_calls _ _ _ _ H1) eq_refl H6 Hm HN eq_refl)
    as (D' & P' & HD & Hn & _).
  exists D', P'. split; [|split; [exact HD|exact Hn]]. unfold mrun, mstart. rewrite Hst. exact H1.
Qed.
(** A run of the hook when there is nothing to check but what it leaves. *)
Lemma eg_stored : ∃ o o' D P, eg = Some (o, o', D, P) ∧ sopsb (menv areas3) (mets_calls mout0 (mconf0 "area" "") (subs areas3) D P) o = Some o'.
Proof.
  assert (match eg with Some (o, o', D, P) => match sopsb (menv areas3) (mets_calls mout0 (mconf0 "area" "") (subs areas3) D P) o with Some _ => true | None => false end | None => false end = true) as H
    by (vm_compute; reflexivity).
  pose proof eg_made as (o & o' & D & P & He & H1 & H2 & H3 & H4 & H5 & H6). rewrite He in H. exists o, o', D, P. split; [exact He|].
  destruct (sopsb (menv areas3) (mets_calls mout0 (mconf0 "area" "") (subs areas3) D P) o) as [o2|] eqn:Hs; [|discriminate H]. destruct (sopsb_sops _ _ _ _ Hs) as [_ H7].
  pose proof (hook_run mview worders0 mout0 (menv areas3) (subs areas3) areas3 (mconf0 "area" "") mknown (λ _, dflt) o D P) as Hr.
  rewrite Hr in H5; [|vm_compute; discriminate|exact H4]. unfold hook_calls in H5. rewrite imap_dflt in H5. rewrite H7 in H5. injection H5 as <-. reflexivity.
Qed.

(** The documents are stored. *)
Example C73_stored_example : ∃ o o' D P, eg = Some (o, o', D, P) ∧
  keeps_file (menv areas3) store0 (ob_inv o) "mets.xml" "metadata" (mo_mets mout0 D) o' ∧
  ∃ text, keeps_file (menv areas3) store0 (ob_inv o) "premis.xml" "metadata" text o' ∧ Forall (λ r, r_sum r = mo_sha mout0 text) (d_amd D).
Proof.
  destruct eg_stored as (o & o' & D & P & He & Hs). destruct eg_made as (o1 & o2 & D1 & P1 & He1 & H1 & H2 & H3 & H4 & _). rewrite He in He1. injection He1 as <- <- <- <-.
  exists o, o', D, P. split; [exact He|]. destruct (sopsb_sops _ _ _ _ Hs) as [Hg Hr].
  destruct (C73_stored_partial mview worders0 mout0 (menv areas3) (subs areas3) areas3 (mconf0 "area" "") mknown (λ _, dflt) o D P [] o' store0
    worders0_ok H2 H3 areas3_separate (or_introl eq_refl) ltac:(vm_compute; by eexists) H4) as [_ H].
  unfold hook_calls in H. rewrite imap_dflt, app_nil_r in H. destruct (H Hr Hg) as [(f & a & Hk & HK) (f' & a' & text & Hk' & HK' & Ha)].
  vm_compute in Hk, Hk'. injection Hk as <- <-. injection Hk' as <- <-. split; [exact HK|]. exists text. split; [exact HK'|exact Ha].
Qed.
(** The metadata file and the migrated file of the example. *)
Example C73_metadata_example : ∃ o o' D P r, eg = Some (o, o', D, P) ∧ r ∈ d_dmd D ∧ r_loc r = External "meta/info.xml" ∧ refers areas3 (ob_inv o) r "meta/info.xml" "a4d".
Proof.
  destruct eg_made as (o & o' & D & P & He & H1 & H2 & H3 & H4 & _). 
  assert (currentb (ob_inv o) "meta/info.xml" "a4d" = true) as Hc by (apply (eg_shows (λ o _ _ _, currentb (ob_inv o) "meta/info.xml" "a4d") _ _ _ _ _ He); vm_compute; reflexivity).
  apply currentb_true in Hc.
  destruct (C73_metadata_partial mview worders0 mout0 _ _ _ _ _ _ D P worders0_ok H2 H3 areas3_separate H4) as [H _].
  destruct (H "meta/info.xml" "a4d" Hc) as (r & Hr & Hl & Hf & _).
  - exists "meta", "info.xml", []. split; [split_and!; [done|repeat constructor|done]|]. split; [left; vm_compute; reflexivity|done].
  - intros N HN. vm_compute in HN. injection HN as <-. split; discriminate.
  - left. reflexivity.
  - exists o, o', D, P, r. split; [exact He|]. split; [exact Hr|]. split; [exact Hl|exact Hf].
Qed.
Example C73_migration_example : ∃ o o' D P f src v, eg = Some (o, o', D, P) ∧ f ∈ d_files D ∧ urls f = ["data/sub/b.txt"] ∧ inv_versions (ob_inv o) !! inv_head (ob_inv o) = Some v ∧
  Migration (v_created v) "tool" (Some src) (inl (m_id f)) ∈ pd_events P ∧ ∀ g, g ∈ d_files D → urls g = ["data/a.txt"] → m_id g = src.
Proof.
  destruct eg_made as (o & o' & D & P & He & H1 & H2 & H3 & H4 & H5 & H6).
  assert (currentb (ob_inv o) "data/sub/b.txt" "a42" && currentb (ob_inv o) "data/a.txt" "a41" && only_oneb (ob_inv o) "data/a.txt" "a41" &&
    match d_files D with f :: _ => bool_decide (urls f = ["data/sub/b.txt"]) | [] => false end &&
    match get_metadata worders0 mknown (ob_inv o) with inl m => match om_files m !! "a42" with Some fm => bool_decide (f_migration (mview (fm_ext fm)) = Some (MRes "a41" "" "tool")) | None => false end | inr _ => false end
    = true) as Hc by (apply (eg_shows (λ o _ D _, currentb (ob_inv o) "data/sub/b.txt" "a42" && currentb (ob_inv o) "data/a.txt" "a41" && only_oneb (ob_inv o) "data/a.txt" "a41" &&
    match d_files D with f :: _ => bool_decide (urls f = ["data/sub/b.txt"]) | [] => false end &&
    match get_metadata worders0 mknown (ob_inv o) with inl m => match om_files m !! "a42" with Some fm => bool_decide (f_migration (mview (fm_ext fm)) = Some (MRes "a41" "" "tool")) | None => false end | inr _ => false end) _ _ _ _ _ He); vm_compute; reflexivity).
  rewrite !andb_true_iff in Hc. destruct Hc as [[[[Ha Hb] Ho] Hf] Hm]. apply currentb_true in Ha. apply currentb_true in Hb.
  destruct (d_files D) as [|f fs] eqn:Hfs; [discriminate Hf|]. apply bool_decide_eq_true in Hf.
  destruct (get_metadata worders0 mknown (ob_inv o)) as [m|] eqn:Hg; [|discriminate Hm]. destruct (om_files m !! "a42") as [fm|] eqn:Hfm; [|discriminate Hm]. apply bool_decide_eq_true in Hm.
  assert (f ∈ d_files D) as Hin by (rewrite Hfs; left).
  destruct (C73_migration_partial mview worders0 mout0 _ _ _ _ _ _ D P m f "data/sub/b.txt" "a42" fm (MRes "a41" "" "tool")
    worders0_ok H2 H3 areas3_separate H6 H4 Hg Hin Hf Ha Hfm Hm) as (v & src & Hv & He1 & Hs1 & Hs2).
  - intros k. discriminate.
  - assert (no_emptyb (ob_inv o) = true) as Hn by (apply (eg_shows (λ o _ _ _, no_emptyb (ob_inv o)) _ _ _ _ _ He); vm_compute; reflexivity). exact (no_emptyb_true _ Hn).
  - destruct src as [src|]; [|destruct (Hs2 eq_refl _ Hb)]. destruct (Hs1 _ eq_refl) as (q & Hq & Hid). cbn [mr_source] in Hq. apply (only_oneb_true _ _ _ Ho) in Hq. subst q.
    exists o, o', D, P, f, src, v. split; [exact He|]. split; [exact Hin|]. split; [exact Hf|]. split; [exact Hv|]. split; [exact He1|]. exact Hid.
Qed.
(** With the primary metadata DC in the area metadata. *)
Definition egp := mdocs areas3 (mconf0 "area" "dc:metadata:info.xml") mops fresh0.
Example C73_primary_example : ∃ o D P r1 r2, egp = Some (o, D, P) ∧ r1 ∈ d_dmd D ∧ r2 ∈ d_dmd D ∧ r_sum r1 = "a4d" ∧ r_sum r2 = "a4d" ∧
  (∀ r, r ∈ d_dmd D → r_sum r = "a4d" → r = r1 ∨ r = r2).
Proof.
  assert (match egp with Some (o, D, P) => only_digestb (ob_inv o) "meta/info.xml" "a4d" | None => false end = true) as H by (vm_compute; reflexivity).
  destruct egp as [[[o D] P]|] eqn:He; [|discriminate]. destruct (mdocs_true _ _ _ _ _ _ _ He) as [H3 H4].
  destruct (mrun_ready areas3 fresh0 o mops areas3_separate fresh0_fresh (menv_supported areas3) eq_refl H3) as (H5 & H6 & H7).
  destruct (C73_primary_partial mview worders0 mout0 _ _ _ _ _ _ D P worders0_ok H5 H6 areas3_separate H4 ltac:(discriminate))
    as (ty & name & d & q & r1 & r2 & Hn & Hd & _ & Hr1 & Hr2 & _ & _ & Hs1 & Hs2 & _ & _ & Ho).
  apply primary_name_spec in Hn. vm_compute in Hn. injection Hn as <- <-. apply (only_digestb_true _ _ _ H) in Hd. subst d. exists o, D, P, r1, r2. split_and!; [reflexivity|exact Hr1|exact Hr2|exact Hs1|exact Hs2|exact Ho].
Qed.

(** * What does not hold *)

(** [o] is the working object of a first session. *)
Definition reaches (E : env) (i : inventory) (o : object) : Prop :=
  fresh i ∧ supported E i ∧ ∃ now msg un ua echo o1, ob_start now msg un ua echo (open_object i) = (o1, SOk) ∧ calls E o1 o.
Lemma mrun_reaches a ops i o : fresh i → supported (menv a) i → mrun a ops i = Some o → reaches (menv a) i o.
Proof.
  unfold mrun, mstart. intros Hf Hs. destruct (ob_start _ _ _ _ _ _) as [o1 []] eqn:Hst; [|done..]. cbn [mbind option_bind]. intros H.
  split; [done|]. split; [done|]. do 6 eexists. split; [exact Hst|]. by eapply sopsb_calls.
Qed.
Lemma mrun_fresh0 a ops o : mrun a ops fresh0 = Some o → reaches (menv a) fresh0 o.
Proof. apply mrun_reaches; [exact fresh0_fresh|apply menv_supported]. Qed.

(** An object with another content folder gets no documents, and the update does not fail. *)
Definition fresh_data : inventory := Inventory "id:1" "https://ocfl.io/1.1/spec/#inventory" "sha512" "" "data" ∅ ∅ ∅ ["md5"] 0 false false.
Theorem C73_content_folder_refuted : ∃ E O C l areas i o, reaches E i o ∧ (∃ p d, current (ob_inv o) p d) ∧ separate areas ∧
  mets_after mview worders0 O E l areas C mknown (λ _, dflt) o = (o, SOk).
Proof.
  assert (match mrun areas3 mops fresh_data with
    | Some o => currentb (ob_inv o) "data/a.txt" "a41" && match documents mview worders0 mout0 (menv areas3) (subs areas3) areas3 (mconf0 "area" "") mknown (ob_inv o) with inr Silent => true | _ => false end
    | None => false end = true) as H by (vm_compute; reflexivity).
  destruct (mrun areas3 mops fresh_data) as [o|] eqn:Hr; [|discriminate H]. apply andb_prop in H as [H1 H2].
  exists (menv areas3), mout0, (mconf0 "area" ""), (subs areas3), areas3, fresh_data, o. split_and!.
  - apply (mrun_reaches _ mops); [|exact (asup_true fresh_data eq_refl)|exact Hr]. split; vm_compute; intuition congruence.
  - exists "data/a.txt", "a41". exact (currentb_true _ _ _ H1).
  - exact areas3_separate.
  - unfold mets_after. destruct (documents _ _ _ _ _ _ _ _ _) as [[D P]|[|e]]; [discriminate H2|reflexivity|discriminate H2].
Qed.

(** The entries for the files always say SHA-512, also if the object uses another digest. *)
Definition hash256 (a x : string) : option string := hexh (if decide (a = "sha256") then "sha512" else a) x.
Definition env256 : env := Env hash256 jjson (mgr_state_path (subs areas3)) (mgr_state_path (subs areas3)) [("initial/config.json", "{}")].
Definition fresh256 : inventory := new_inventory "id:1" "https://ocfl.io/1.1/spec/#inventory" "sha256" [].
Lemma sup256 : supported env256 fresh256.
Proof. intros alg x [-> |H]; [by eexists|]. cbn [inv_fixalgs fresh256 new_inventory] in H. by apply elem_of_nil in H. Qed.
Theorem C73_digest_type_refuted : ∃ E O C l areas i o D P f, reaches E i o ∧ separate areas ∧
  documents mview worders0 O E l areas C mknown (ob_inv o) = inl (D, P) ∧ f ∈ d_files D ∧ inv_alg (ob_inv o) = "sha256" ∧ m_sumtype f = "SHA-512" ∧
  e_hash E "sha256" "A" = Some (m_sum f).
Proof.
  assert (match (o ← mstart fresh256; sopsb env256 mops o) with
    | Some o => match documents mview worders0 mout0 env256 (subs areas3) areas3 (mconf0 "area" "") mknown (ob_inv o) with
                | inl (D, P) => existsb (λ f, bool_decide (m_sumtype f = "SHA-512" ∧ m_sum f = "a41")) (d_files D) && bool_decide (inv_alg (ob_inv o) = "sha256")
                | inr _ => false end
    | None => false end = true) as H by (vm_compute; reflexivity).
  unfold mstart in H. destruct (ob_start "2024-01-01T00:00:00Z" "msg" "me" "mailto:me" false (open_object fresh256)) as [o1 []] eqn:Hst; [|discriminate H..]. cbn [mbind option_bind] in H.
  destruct (sopsb env256 mops o1) as [o|] eqn:Hr; [|discriminate H]. destruct (documents _ _ _ _ _ _ _ _ _) as [[D P]|] eqn:HD; [|discriminate H].
  apply andb_prop in H as [H1 H2]. apply bool_decide_eq_true in H2. apply existsb_exists in H1 as (f & Hf%elem_of_list_In & [Hs Hd]%bool_decide_eq_true).
  exists env256, mout0, (mconf0 "area" ""), (subs areas3), areas3, fresh256, o, D, P, f. split_and!; [|exact areas3_separate|exact HD|exact Hf|exact H2|exact Hs|rewrite Hd; vm_compute; reflexivity].
  split; [split; vm_compute; intuition congruence|]. split; [exact sup256|]. do 6 eexists. split; [exact Hst|]. exact (sopsb_calls _ _ _ _ Hr).
Qed.

(** The reference to the PREMIS document with a path in the object names a file that does not exist, and has no type for its digest. *)
Theorem C73_premis_path_refuted : ∃ E O C l areas i o o' D P r href, reaches E i o ∧ separate areas ∧
  documents mview worders0 O E l areas C mknown (ob_inv o) = inl (D, P) ∧ mets_after mview worders0 O E l areas C mknown (λ _, dflt) o = (o', SOk) ∧
  r ∈ d_amd D ∧ r_loc r = Internal href ∧ apply_evs (ob_trace o') store0 !! href = None ∧ r_sumtype r = "".
Proof.
  destruct eg_made as (o & o' & D & P & He & H1 & H2 & H3 & H4 & H5 & H6).
  assert (existsb (λ r, bool_decide (r_loc r = Internal "meta/premis.xml" ∧ r_sumtype r = "")) (d_amd D) && bool_decide (apply_evs (ob_trace o') store0 !! "meta/premis.xml" = None) = true) as H
    by (apply (eg_shows (λ _ o' D _, existsb (λ r, bool_decide (r_loc r = Internal "meta/premis.xml" ∧ r_sumtype r = "")) (d_amd D) &&
          bool_decide (apply_evs (ob_trace o') store0 !! "meta/premis.xml" = None)) _ _ _ _ _ He); vm_compute; reflexivity).
  apply andb_prop in H as [Ha Hb]. apply bool_decide_eq_true in Hb. apply existsb_exists in Ha as (r & Hr%elem_of_list_In & [Hl Ht]%bool_decide_eq_true).
  exists (menv areas3), mout0, (mconf0 "area" ""), (subs areas3), areas3, fresh0, o, o', D, P, r, "meta/premis.xml".
  split_and!; [exact (mrun_fresh0 _ _ _ H1)|exact areas3_separate|exact H4|exact H5|exact Hr|exact Hl|exact Hb|exact Ht].
Qed.
(** In the folder of the extension the file for PREMIS has the text of the METS document, and not the digest that METS gives for it. *)
Definition egx := mhook areas3 (mconf0 "extension" "") mops fresh0.
Definition xpremis : string := "extensions/NNNN-mets/metadata/premis.xml%!(EXTRA ocfl.OCFLVersion=1.1)".
Lemma egx_text : match egx with Some (o, o', D, P) =>
  bool_decide (apply_evs (ob_trace o') store0 !! xpremis = Some (mo_mets mout0 D)) && forallb (λ r, negb (bool_decide (r_sum r = mo_sha mout0 (mo_mets mout0 D)))) (d_amd D) | None => false end = true.
Proof. vm_compute. reflexivity. Qed.
Theorem C73_extension_refuted : ∃ E O C l areas i o o' D P, reaches E i o ∧ separate areas ∧ mc_type C = "extension" ∧
  documents mview worders0 O E l areas C mknown (ob_inv o) = inl (D, P) ∧ mets_after mview worders0 O E l areas C mknown (λ _, dflt) o = (o', SOk) ∧
  apply_evs (ob_trace o') store0 !! path_join [mc_folder C; mc_storage C; mo_sprintf O (mc_premis C)] = Some (mo_mets O D) ∧
  ∀ r, r ∈ d_amd D → r_sum r ≠ mo_sha O (mo_mets O D).
Proof.
  pose proof egx_text as H. destruct egx as [[[[o o'] D] P]|] eqn:He; [|discriminate H]. apply andb_prop in H as [Ha Hb]. apply bool_decide_eq_true in Ha. rewrite forallb_forall in Hb.
  destruct (mhook_true _ _ _ _ _ _ _ _ He) as [H1 H2]. destruct (mdocs_true _ _ _ _ _ _ _ H1) as [H3 H4].
  exists (menv areas3), mout0, (mconf0 "extension" ""), (subs areas3), areas3, fresh0, o, o', D, P.
  split_and!; [exact (mrun_fresh0 _ _ _ H3)|exact areas3_separate|reflexivity|exact H4|exact H2|exact Ha|].
  intros r Hr%elem_of_list_In%Hb. apply negb_true_iff, bool_decide_eq_false in Hr. exact Hr.
Qed.
(** A metadata file with the content of another file: the struct map has an identifier that the document does not define. *)
Definition egs := mdocs areas3 (mconf0 "area" "") [SAdd "A" "a.txt" "content" true; SAdd "A" "x.xml" "metadata" true] fresh0.
Theorem C73_struct_refuted : ∃ E O C l areas i o D P a id, reaches E i o ∧ separate areas ∧
  documents mview worders0 O E l areas C mknown (ob_inv o) = inl (D, P) ∧ (a, id) ∈ d_struct D ∧
  id ∉ m_id <$> d_files D ∧ id ∉ r_id <$> d_dmd D ∧ id ∉ r_id <$> d_amd D.
Proof.
  assert (match egs with Some (o, D, P) =>
    existsb (λ x : string * string, bool_decide (x.2 ∉ m_id <$> d_files D ∧ x.2 ∉ r_id <$> d_dmd D ∧ x.2 ∉ r_id <$> d_amd D)) (d_struct D) | None => false end = true) as H
    by (vm_compute; reflexivity).
  destruct egs as [[[o D] P]|] eqn:He; [|discriminate H]. apply existsb_exists in H as ([a id] & Hin%elem_of_list_In & Hn%bool_decide_eq_true).
  destruct (mdocs_true _ _ _ _ _ _ _ He) as [H3 H4].
  exists (menv areas3), mout0, (mconf0 "area" ""), (subs areas3), areas3, fresh0, o, D, P, a, id. split_and!; [exact (mrun_fresh0 _ _ _ H3)|exact areas3_separate|exact H4|exact Hin|apply Hn..].
Qed.
(** Two files with the content of one metadata file: two references have the same identifier. *)
Definition egt := mdocs areas3 (mconf0 "area" "") [SAdd "M" "m.xml" "metadata" true; SAdd "M" "n.xml" "metadata" false] fresh0.
Theorem C73_reference_ids_refuted : ∃ E O C l areas i o D P, reaches E i o ∧ separate areas ∧ Inj (=) (=) (mo_uuid O) ∧
  documents mview worders0 O E l areas C mknown (ob_inv o) = inl (D, P) ∧ ¬ NoDup (r_id <$> d_dmd D).
Proof.
  assert (match egt with Some (o, D, P) => bool_decide (¬ NoDup (r_id <$> d_dmd D)) | None => false end = true) as H by (vm_compute; reflexivity).
  destruct egt as [[[o D] P]|] eqn:He; [|discriminate H]. apply bool_decide_eq_true in H. destruct (mdocs_true _ _ _ _ _ _ _ He) as [H3 H4].
  exists (menv areas3), mout0, (mconf0 "area" ""), (subs areas3), areas3, fresh0, o, D, P. split_and!; [exact (mrun_fresh0 _ _ _ H3)|exact areas3_separate|exact mout0_inj|exact H4|exact H].
Qed.
(** Without areas a folder of the content that is called metadata is left out of the list of files ... *)
Definition egf := mdocs ∅ (mconf0 "area" "") [SAdd "A" "metadata/a.txt" "content" true] fresh0.
Theorem C73_metadata_folder_refuted : ∃ E O C i o D P p d, reaches E i o ∧ documents mview worders0 O E [] ∅ C mknown (ob_inv o) = inl (D, P) ∧ current (ob_inv o) p d ∧ p ∉ named D.
Proof.
  assert (match egf with Some (o, D, P) => currentb (ob_inv o) "metadata/a.txt" "a41" && bool_decide ("metadata/a.txt" ∉ named D) | None => false end = true) as H by (vm_compute; reflexivity).
  destruct egf as [[[o D] P]|] eqn:He; [|discriminate H]. apply andb_prop in H as [H1 H2]. apply currentb_true in H1. apply bool_decide_eq_true in H2. destruct (mdocs_true _ _ _ _ _ _ _ He) as [H3 H4].
  exists (menv ∅), mout0, (mconf0 "area" ""), fresh0, o, D, P, "metadata/a.txt", "a41". split_and!; [exact (mrun_fresh0 _ _ _ H3)|exact H4|exact H1|exact H2].
Qed.
(** ... and if the path of the area metadata has two elements, its files are listed as content, and not referred to as metadata. *)
Definition areas4 : gmap string string := {[ "content" := "data"; "metadata" := "meta/xml" ]}.
Definition egq := mdocs areas4 (mconf0 "area" "") [SAdd "M" "info.xml" "metadata" true] fresh0.
Theorem C73_area_path_refuted : ∃ E O C l areas i o D P p, reaches E i o ∧ e_state_path E "info.xml" "metadata" = Some p ∧
  documents mview worders0 O E l areas C mknown (ob_inv o) = inl (D, P) ∧ (∃ d, current (ob_inv o) p d) ∧ p ∈ named D ∧ d_dmd D = [].
Proof.
  assert (match egq with Some (o, D, P) => currentb (ob_inv o) "meta/xml/info.xml" "a4d" && bool_decide ("meta/xml/info.xml" ∈ named D) && match d_dmd D with [] => true | _ => false end | None => false end
    = true) as H by (vm_compute; reflexivity).
  destruct egq as [[[o D] P]|] eqn:He; [|discriminate H]. rewrite !andb_true_iff in H. destruct H as [[H1 H2] H5]. apply currentb_true in H1. apply bool_decide_eq_true in H2.
  destruct (mdocs_true _ _ _ _ _ _ _ He) as [H3 H4].
  exists (menv areas4), mout0, (mconf0 "area" ""), (subs areas4), areas4, fresh0, o, D, P, "meta/xml/info.xml".
  split_and!; [exact (mrun_fresh0 _ _ _ H3)|vm_compute; reflexivity|exact H4|exists "a4d"; exact H1|exact H2|]. destruct (d_dmd D); [reflexivity|discriminate H5].
Qed.
(** With the primary metadata that a new configuration has the update fails, also if info.json is in the area metadata. *)
Theorem C73_default_refuted : ∃ E O C l areas i o msg, reaches E i o ∧ separate areas ∧ mc_primary C = "metadata:info.json" ∧
  (∃ p d, e_state_path E "info.json" "metadata" = Some p ∧ current (ob_inv o) p d) ∧ mets_after mview worders0 O E l areas C mknown (λ _, dflt) o = (o, SErr msg).
Proof.
  assert (match mrun areas3 [SAdd "A" "a.txt" "content" true; SAdd "M" "info.json" "metadata" true] fresh0 with
    | Some o => currentb (ob_inv o) "meta/info.json" "a4d" &&
        match documents mview worders0 mout0 (menv areas3) (subs areas3) areas3 (mconf0 "area" "metadata:info.json") mknown (ob_inv o) with inr (Failed e) => true | _ => false end
    | None => false end = true) as H by (vm_compute; reflexivity).
  destruct (mrun areas3 _ fresh0) as [o|] eqn:Hr; [|discriminate H]. apply andb_prop in H as [H1 H2].
  destruct (documents mview worders0 mout0 (menv areas3) (subs areas3) areas3 (mconf0 "area" "metadata:info.json") mknown (ob_inv o)) as [[D P]|[|e]] eqn:HD; [discriminate H2..|].
  exists (menv areas3), mout0, (mconf0 "area" "metadata:info.json"), (subs areas3), areas3, fresh0, o, e. split_and!; [exact (mrun_fresh0 _ _ _ Hr)|exact areas3_separate|reflexivity| |].
  - exists "meta/info.json", "a4d". split; [vm_compute; reflexivity|exact (currentb_true _ _ _ H1)].
  - unfold mets_after. rewrite HD. reflexivity.
Qed.
(** With storage type path the documents are not in the folder that is configured: the path of the content area is used twice. *)
Definition egd := mhook areas3 (mconf0 "path" "") mops fresh0.
Theorem C73_path_twice_refuted : ∃ E O C l areas i o o' D P, reaches E i o ∧ separate areas ∧ mc_type C = "path" ∧ mc_storage C = "metadata" ∧ area_path l "content" = Some "data" ∧
  documents mview worders0 O E l areas C mknown (ob_inv o) = inl (D, P) ∧ mets_after mview worders0 O E l areas C mknown (λ _, dflt) o = (o', SOk) ∧
  apply_evs (ob_trace o') store0 !! "v1/content/data/data/metadata/mets.xml" = Some (mo_mets O D) ∧
  apply_evs (ob_trace o') store0 !! "v1/content/data/metadata/mets.xml" = None ∧ apply_evs (ob_trace o') store0 !! "v1/content/metadata/mets.xml" = None.
Proof.
  assert (match egd with Some (o, o', D, P) => bool_decide (apply_evs (ob_trace o') store0 !! "v1/content/data/data/metadata/mets.xml" = Some (mo_mets mout0 D)) &&
    bool_decide (apply_evs (ob_trace o') store0 !! "v1/content/data/metadata/mets.xml" = None) && bool_decide (apply_evs (ob_trace o') store0 !! "v1/content/metadata/mets.xml" = None)
    | None => false end = true) as H by (vm_compute; reflexivity).
  destruct egd as [[[[o o'] D] P]|] eqn:He; [|discriminate H]. rewrite !andb_true_iff, !bool_decide_eq_true in H. destruct H as [[Ha Hb] Hc].
  destruct (mhook_true _ _ _ _ _ _ _ _ He) as [H1 H2]. destruct (mdocs_true _ _ _ _ _ _ _ H1) as [H3 H4].
  exists (menv areas3), mout0, (mconf0 "path" ""), (subs areas3), areas3, fresh0, o, o', D, P.
  split_and!; [exact (mrun_fresh0 _ _ _ H3)|exact areas3_separate|reflexivity|reflexivity|vm_compute; reflexivity|exact H4|exact H2|exact Ha|exact Hb|exact Hc].
Qed.
(** Packing events of metadata files are about an object that the PREMIS document does not have. *)
Theorem C73_event_object_refuted : ∃ E O C l areas i o D P id date addr, reaches E i o ∧ separate areas ∧
  documents mview worders0 O E l areas C mknown (ob_inv o) = inl (D, P) ∧ Packing id date addr ∈ pd_events P ∧ id ∉ p_id <$> pd_objects P.
Proof.
  destruct eg_made as (o & o' & D & P & He & H1 & H2 & H3 & H4 & H5 & H6).
  assert (existsb (λ e, match e with Packing id _ _ => bool_decide (id ∉ p_id <$> pd_objects P) | _ => false end) (pd_events P) = true) as H
    by (apply (eg_shows (λ _ _ _ P, existsb (λ e, match e with Packing id _ _ => bool_decide (id ∉ p_id <$> pd_objects P) | _ => false end) (pd_events P)) _ _ _ _ _ He); vm_compute; reflexivity).
  apply existsb_exists in H as ([id date addr|] & Hin%elem_of_list_In & Hn); [|discriminate Hn]. apply bool_decide_eq_true in Hn.
  exists (menv areas3), mout0, (mconf0 "area" ""), (subs areas3), areas3, fresh0, o, D, P, id, date, addr. split_and!; [exact (mrun_fresh0 _ _ _ H1)|exact areas3_separate|exact H4|exact Hin|exact Hn].
Qed.
Print Assumptions C73_listed_partial.
Print Assumptions C73_documents_partial.
Print Assumptions C73_metadata_partial.
Print Assumptions C73_primary_partial.
Print Assumptions C73_premis_partial.
Print Assumptions C73_migration_partial.
Print Assumptions C73_stored_partial.
Print Assumptions C73_example.
Print Assumptions C73_listed_example.
Print Assumptions C73_stored_example.
Print Assumptions C73_metadata_example.
Print Assumptions C73_migration_example.
Print Assumptions C73_primary_example.
Print Assumptions C73_content_folder_refuted.
Print Assumptions C73_digest_type_refuted.
Print Assumptions C73_premis_path_refuted.
Print Assumptions C73_extension_refuted.
Print Assumptions C73_struct_refuted.
Print Assumptions C73_reference_ids_refuted.
Print Assumptions C73_metadata_folder_refuted.
Print Assumptions C73_area_path_refuted.
Print Assumptions C73_default_refuted.
Print Assumptions C73_path_twice_refuted.
Print Assumptions C73_event_object_refuted.
