(** The migration extension: C63 and C64. *)
From Coq Require Import Ascii.
From stdpp Require Import base list strings gmap.
From Coq Require Import ZArith Lia.
From Verif Require Import GoStr PathModel InventoryModel ObjectModel InventorySpec ObjectSpec CrashSpec LoadModel AreaModel ValidateModel ValidateSpec PublishSpec InventoryProofs
  JsonlModel JsonlSpec MigrateModel MigrateSpec MigrateProofs MigrateProofs4 MigrateProofs5 MigrateProofs6 Fixtures Fixtures2 Fixtures3 Fixtures5 Fixtures8 Fixtures10 Fixtures12.

(** * C63: the automated version has the converted files *)

(** The newest version after DoNewVersion is the one before it, with the converted files at their names and the originals kept, deleted or
    moved as the strategy says; contents whose conversion failed are as before.  The converted data is stored and in the manifest.  Other files
    and versions do not change.  The side file has a line for every content, with an error exactly if the conversion failed.  Nothing is
    left to do.  For all map orders, tools, names and strategies.  Partial: contents that do not get in each other's way, see [migratable]
    and the refutations. *)
Theorem C63_migrated_partial Z L E l J S w orc orcs meta s o x n np m :
  let i := ob_inv o in let T cs f := mi_files x !! cs = Some f in
  automated i n → migratable E S i n (λ cs, is_Some (meta !! cs)) T → (∀ cs f, T cs f → already_migrated (mi_migrated x) cs = false) →
  hex_hash (e_hash E) → nonempty_hash E → supported E i → codec_ok Z → vorder_ok w → oracle_ok orc → (∀ k j, oracle_ok (orcs k j)) →
  side_file E l J i np m → (∀ cs f e m', T cs f → new_place E S i n cs f e m' → m' ≠ m) →
  ∃ o' x' lines data, do_new_version Z L E l J S w orc orcs (Some meta) o x = (o', x', SOk) ∧
    (∀ ver, ver ≠ inv_head i → inv_versions (ob_inv o') !! ver = inv_versions i !! ver) ∧
    (∀ q d, lists (inv_manifest i) q d → lists (inv_manifest (ob_inv o')) q d) ∧
    inv_head (ob_inv o') = inv_head i ∧ inv_id (ob_inv o') = inv_id i ∧ inv_alg (ob_inv o') = inv_alg i ∧
    (∀ q d, q ≠ np → current (ob_inv o') q d ↔ migrated E S i n T q d) ∧
    (∀ cs f y e m', T cs f → product E S i n cs f y → new_place E S i n cs f e m' →
       ∃ d, e_hash E (inv_alg i) y = Some d ∧ lists (inv_manifest (ob_inv o')) m' d ∧ apply_evs (ob_trace o') s !! m' = Some y) ∧
    (∀ q, q ≠ m → (∀ cs f y e m', T cs f → product E S i n cs f y → new_place E S i n cs f e m' → q ≠ m') →
       apply_evs (ob_trace o') s !! q = apply_evs (ob_trace o) s !! q) ∧
    mi_files x' = ∅ ∧ mi_done x' = true ∧ (∀ cs f, T cs f → already_migrated (mi_migrated x') cs = true) ∧
    mi_buf x' = <[inv_head i := lines]> (mi_buf x) ∧ repack Z (js_compress J) (z_br Z (text_of L lines)) = Some data ∧ apply_evs (ob_trace o') s !! m = Some data ∧
    (∀ line, line ∈ lines → ∃ cs f, T cs f ∧ line_of E S i n cs f line) ∧
    (∀ cs f, T cs f → ∃ line, line ∈ lines ∧ line_of E S i n cs f line).
Proof.
  intros i T Hau Hma Hnew Hhex Hne Hsup HZ Hw Ho Hos Hside Hsm.
  destruct (migration_ok Z L E l J S w orc orcs meta s o x n np m Hau Hma Hnew Hhex Hne Hsup HZ Hw Ho Hos Hside Hsm) as (o' & x' & lines & data & Heq & Hext & H).
  exists o', x', lines, data. split; [exact Heq|]. split; [apply (er_vers _ _ Hext)|]. split.
  { intros q d (ps & Hps & Hq). destruct (er_man _ _ Hext d ps Hps) as [ext He]. exists (ps ++ ext). split; [done|]. apply elem_of_app. by left. }
  split; [apply (er_head _ _ Hext)|]. split; [apply (er_id _ _ Hext)|]. split; [apply (er_alg _ _ Hext)|]. exact H.
Qed.
(** The version that EndUpdate starts for it is as assumed there. *)
Theorem C63_started now msg un ua echo o k :
  contiguous (ob_inv o) k → (1 <= k)%N → (inv_padding (ob_inv o) <= 0)%Z →
  (∀ ver v, inv_versions (ob_inv o) !! ver = Some v → unique_paths (v_state v)) →
  ∃ o', ob_start now msg un ua echo o = (o', SOk) ∧ automated (ob_inv o') (k + 1) ∧ earlier (ob_inv o') (k + 1) = inv_head (ob_inv o).
Proof. exact (started_automated now msg un ua echo o k). Qed.
(** It is a sequence of calls on the object, so what is proved about histories with extension hooks holds for objects that migrate.  No
    assumptions about the contents.  Partial: the side file is not in the folder of the extension; DoNewVersion does not panic. *)
Theorem C63_calls_partial E Z L l J S w orc orcs meta o x o' x' st :
  (∀ p, write_target l J (inv_head (ob_inv o)) ≠ JFile p) →
  do_new_version Z L E l J S w orc orcs meta o x = (o', x', st) → st ≠ SPanic → ∃ cs, sops_run E cs o = (o', st).
Proof. exact (migration_calls E Z L l J S w orc orcs meta o x o' x' st). Qed.

(** NeedNewVersion: a handle that has not migrated yet asks for the automated version exactly if a content is to be converted.  After
    DoNewVersion, successful or not, it never asks again, whatever else is planned later: EndUpdate ends, and later updates with the same
    handle convert nothing. *)
Theorem C63_asked x : mi_done x = false → mi_need x = true ↔ ∃ cs f, mi_files x !! cs = Some f.
Proof.
  intros Hd. unfold mi_need. rewrite Hd. cbn [negb]. rewrite andb_true_r, negb_true_iff, bool_decide_eq_false. split.
  - intros H. by apply map_choose in H.
  - intros (cs & f & H) He. rewrite He, lookup_empty in H. discriminate H.
Qed.
Theorem C63_once Z L E l J S w orc orcs meta o x o' x' st plans :
  do_new_version Z L E l J S w orc orcs meta o x = (o', x', st) →
  mi_need x' = false ∧ mi_need (foldl (λ y (p : (string → option mfun) * string * list (string * (option mres * option string))), mi_after p.1.1 p.1.2 p.2 y) x' plans) = false.
Proof.
  intros H. assert (mi_done x' = true) as Hd.
  { unfold do_new_version in H. destruct meta as [meta|]; [|by injection H as _ <- _]. destruct (rev _) as [|? [|? ?]]; [by injection H as _ <- _..|].
    destruct (mi_loop _ _ _ _ _ _ _ _ _ _) as [[[o1 mig] lines] s1]. destruct s1; [|by injection H as _ <- _..].
    destruct (write_jsonl _ _ _ _ _ _ _) as [o2 s2]. by injection H as _ <- _. }
  assert (∀ y, mi_done y = true → mi_need y = false) as Hn by (intros y Hy; unfold mi_need; rewrite Hy; apply andb_false_r).
  split; [by apply Hn|]. apply Hn. clear H. revert x' Hd. induction plans as [|p plans IH]; intros y Hy; [done|]. cbn [foldl]. apply IH.
  unfold mi_after. by repeat case_match.
Qed.

(** Two files with the same content are replaced, one cannot be converted, one goes to a folder with its conversion, one gets a second
    file, one is not touched. *)
Definition mo1 : object := automatic (add "content" <$> [("a.doc", "A"); ("d/copy.doc", "A"); ("x.doc", "X1"); ("f.doc", "FF"); ("e.doc", "EE"); ("n.txt", "N")]).
Definition mx1 : mist := to_do [("A", pdf Replace); ("X1", pdf Replace); ("FF", in_folder); ("EE", pdf Add)].
Definition side1 : string := "meta/xml/migration_v2.jsonl.br".
Lemma mx1_todo cs f : mi_files mx1 !! cs = Some f ↔ (cs, f) ∈ map_to_list (mi_files mx1).
Proof. by rewrite elem_of_map_to_list. Qed.
Lemma migratable_iff E S i n (metas metas' : string → Prop) (T T' : string → mfun → Prop) : (∀ cs, metas' cs → metas cs) → (∀ cs f, T cs f ↔ T' cs f) → migratable E S i n metas T → migratable E S i n metas' T'.
Proof.
  intros Hm HT [H1 H2 H3 H4 H5 H6 H7 H8].
  assert (∀ cs f p, planned i n T' cs f p ↔ planned i n T cs f p) as Hp by (intros; unfold planned; by rewrite HT).
  split.
  - intros cs f H%HT. by apply H1 in H.
  - intros cs f p H%Hp. by apply H2 in H.
  - intros cs f p H%Hp. by apply H3 in H.
  - intros cs f p cs' f' p' H%Hp H'%Hp. by eapply H4.
  - intros cs f p cs' f' p' H%Hp H'%Hp. by eapply H5.
  - intros cs f e m cs' f' e' m' H%HT H'%HT. by eapply H6.
  - intros cs f H%HT Hs Hx. eapply H7; eauto.
  - intros cs f p H%Hp Hs. destruct (H8 _ _ _ H Hs) as (K1 & K2 & K3). split; [done|]. split; intros cs' f' p' H'%Hp; [by eapply K2|by eapply K3].
Qed.
Lemma aenv_nonempty : nonempty_hash aenv.
Proof. intros alg data d. change (e_hash aenv) with hexh. unfold hexh. destruct (decide _); [|destruct (decide _)]; [by intros [= <-]..|done]. Qed.
Lemma mo1_automated : automated (ob_inv mo1) 2.
Proof. apply (automatedb_true _ 2). by vm_compute. Qed.
Lemma mo1_migratable : migratable aenv (around mo1) (ob_inv mo1) 2 (λ cs, is_Some ((∅ : gmap string mres) !! cs)) (λ cs f, mi_files mx1 !! cs = Some f).
Proof.
  eapply migratable_iff; [| |apply (migratableb_true aenv (around mo1) (ob_inv mo1) 2 [] (map_to_list (mi_files mx1))); by vm_compute].
  - intros cs [a H]. by rewrite lookup_empty in H.
  - intros cs f. by rewrite mx1_todo.
Qed.
Lemma mo1_side : side_file aenv [areas2] jmig (ob_inv mo1) side1 "v2/content/meta/xml/migration_v2.jsonl.br".
Proof.
  unfold side_file. assert (write_target [areas2] jmig (inv_head (ob_inv mo1)) = JAdd ["migration_v2.jsonl.br"] "metadata") as -> by (by vm_compute).
  exists "migration_v2.jsonl.br", side1. split; [done|]. split; [by vm_compute|]. split; by vm_compute.
Qed.
Example C63_example :
  automated (ob_inv mo1) 2 ∧ migratable aenv (around mo1) (ob_inv mo1) 2 (λ cs, is_Some ((∅ : gmap string mres) !! cs)) (λ cs f, mi_files mx1 !! cs = Some f) ∧
  (∀ cs f, mi_files mx1 !! cs = Some f → already_migrated (mi_migrated mx1) cs = false) ∧
  hex_hash (e_hash aenv) ∧ nonempty_hash aenv ∧ supported aenv (ob_inv mo1) ∧ codec_ok zc ∧ vorder_ok wd ∧ oracle_ok dflt ∧
  side_file aenv [areas2] jmig (ob_inv mo1) side1 "v2/content/meta/xml/migration_v2.jsonl.br" ∧
  (∀ cs f e m', mi_files mx1 !! cs = Some f → new_place aenv (around mo1) (ob_inv mo1) 2 cs f e m' → m' ≠ "v2/content/meta/xml/migration_v2.jsonl.br") ∧
  (migrate ∅ mo1 mx1).2 = SOk ∧
  same_list (filter (λ e : string * string, e.1 ≠ side1) (files_now (migrate ∅ mo1 mx1).1.1))
    [("data/a.pdf", dig "pdf:A"); ("data/d/copy.pdf", dig "pdf:A"); ("data/x.doc", dig "X1"); ("data/f.doc/f.doc", dig "FF");
     ("data/f.doc/v2.f.pdf", dig "pdf:FF"); ("data/e.doc", dig "EE"); ("data/e.pdf", dig "pdf:EE"); ("data/n.txt", dig "N")] = true ∧
  apply_evs (ob_trace (migrate ∅ mo1 mx1).1.1) store0 !! "v2/content/data/f.doc/v2.f.pdf" = Some "pdf:FF".
Proof.
  split; [exact mo1_automated|]. split; [exact mo1_migratable|]. split; [intros cs f _; by vm_compute|]. split; [exact hexh_ok|]. split; [exact aenv_nonempty|].
  split; [apply asup_true; by vm_compute|]. split; [exact zc_ok|]. split; [exact wd_ok|]. split; [exact dflt_ok|]. split; [exact mo1_side|]. split.
  { intros cs f e m' HT Hp%placeb_spec. apply mx1_todo, elem_of_list_In in HT.
    assert (forallb (λ t : string * mfun, bool_decide (placeb aenv (around mo1) (ob_inv mo1) 2 t.1 t.2 ≠ Some "v2/content/meta/xml/migration_v2.jsonl.br")) (map_to_list (mi_files mx1)) = true) as H
      by (by vm_compute).
    rewrite forallb_forall in H. apply H in HT. cbn [fst snd] in HT. apply bool_decide_eq_true in HT. intros ->. exact (HT Hp). }
  split; [by vm_compute|]. split; by vm_compute.
Qed.
Example C63_started_example :
  let o := orun aenv (begin :: [add "content" ("a.doc", "A")] ++ ended) (open_object fresh0) in
  contiguous (ob_inv o) 1 ∧ (inv_padding (ob_inv o) <= 0)%Z ∧ (∀ ver v, inv_versions (ob_inv o) !! ver = Some v → unique_paths (v_state v)) ∧
  automatedb (ob_inv (ob_start "2024-02-02" "automated version" "gocfl" "https://github.com/je4/gocfl" false o).1) 2 = true.
Proof.
  cbv zeta. set (o := orun _ _ _).
  assert (forallb (λ e : string * version, bool_decide (e.1 = "v1") && upb (v_state e.2)) (map_to_list (inv_versions (ob_inv o))) = true ∧
    inv_head (ob_inv o) = "v1" ∧ is_Some (inv_versions (ob_inv o) !! "v1") ∧ inv_padding (ob_inv o) = 0%Z) as (H1 & H2 & H3 & H4).
  { split; [by vm_compute|]. split; [by vm_compute|]. split; [vm_compute; eauto|by vm_compute]. }
  assert (automatedb (ob_inv (ob_start "2024-02-02" "automated version" "gocfl" "https://github.com/je4/gocfl" false o).1) 2 = true) as H5 by (by vm_compute).
  clearbody o.
  assert (∀ ver v, inv_versions (ob_inv o) !! ver = Some v → ver = "v1" ∧ unique_paths (v_state v)) as Hv.
  { intros ver v Hv%elem_of_map_to_list%elem_of_list_In. rewrite forallb_forall in H1. apply H1 in Hv. apply andb_prop in Hv as [Ha%bool_decide_eq_true Hb]. split; [done|by apply upb_true]. }
  split; [|split; [by rewrite H4|split; [intros ver v H; exact (proj2 (Hv ver v H))|exact H5]]].
  split; [by rewrite H2, H4|]. intros ver. rewrite H4. split.
  - intros [v H]. apply Hv in H as [-> _]. exists 1%N. split; [lia|by vm_compute].
  - intros (k & Hk & ->). assert (k = 1%N) as -> by lia. exact H3.
Qed.
Definition mcalls : list hcall :=
  [HTry dflt (SAddReader "pdf:FF" ["f.doc/v2.f.pdf"] "content"); HCall dflt (SRename "data/f.doc" "data/f.doc/f.doc" (dig "FF"));
   HTry dflt (SAddReader "pdf:A" ["a.pdf"; "d/copy.pdf"] "content"); HCall dflt (SDelete "data/a.doc" (dig "A")); HCall dflt (SDelete "data/d/copy.doc" (dig "A"));
   HTry dflt (SAddReader "pdf:EE" ["e.pdf"] "content");
   HCall (shift_oracle dflt) (SAddReader (z_br zc (text_of lm (default [] (mi_buf (migrate ∅ mo1 mx1).1.2 !! "v2")))) ["migration_v2.jsonl.br"] "metadata")].
Example C63_calls_example :
  (∀ p, write_target [areas2] jmig (inv_head (ob_inv mo1)) ≠ JFile p) ∧ (migrate ∅ mo1 mx1).2 ≠ SPanic ∧
  (sops_run aenv mcalls mo1).2 = SOk ∧ ob_trace (sops_run aenv mcalls mo1).1 = ob_trace (migrate ∅ mo1 mx1).1.1 ∧
  files_now (sops_run aenv mcalls mo1).1 = files_now (migrate ∅ mo1 mx1).1.1.
Proof.
  split; [intros p; by vm_compute|]. split; [by vm_compute|]. split; [by vm_compute|]. split; by vm_compute.
Qed.

(** The conditions are needed.  A file that was deleted again: its content is still in the manifest, and DoNewVersion panics. *)
Definition gone : object := automatic [add "content" ("a.doc", "A"); (dflt, OSimple (SDelete "data/a.doc" (dig "A")))].
Theorem C63_deleted_file_refuted : ∃ o x, automated (ob_inv o) 2 ∧ (∀ cs f, mi_files x !! cs = Some f → lists (inv_manifest (ob_inv o)) "v1/content/data/a.doc" cs ∧
    is_Some (ms_read (around o) "v1/content/data/a.doc")) ∧ (migrate ∅ o x).2 = SPanic.
Proof.
  exists gone, (to_do [("A", pdf Replace)]). split; [apply (automatedb_true _ 2); by vm_compute|]. split; [|by vm_compute].
  intros cs f Hf. unfold to_do in Hf. cbn [mi_files fmap list_fmap list_to_map foldr fst snd] in Hf. apply lookup_insert_Some in Hf as [[<- _]|[_ H]]; [|by rewrite lookup_empty in H].
  split; [apply listed_spec; apply (bool_decide_unpack _); by vm_compute|]. vm_compute. eauto.
Qed.
(** A file outside of the default area: DoNewVersion fails, and with it the update. *)
Theorem C63_other_area_refuted : ∃ o x e, automated (ob_inv o) 2 ∧ current (ob_inv o) "meta/xml/a.doc" (dig "A") ∧
    mi_files x = {[ dig "A" := pdf Replace ]} ∧ (migrate ∅ o x).2 = SErr e.
Proof.
  exists (automatic [add "metadata" ("a.doc", "A")]), (to_do [("A", pdf Replace)]), "cannot build extract path". split; [apply (automatedb_true _ 2); by vm_compute|].
  split; [apply now_spec; apply (bool_decide_unpack _); by vm_compute|]. split; [done|by vm_compute].
Qed.
(** Two contents with the same target name: both originals are deleted, only one of the converted files is in the new version. *)
Definition clash : object := automatic (add "content" <$> [("a.doc", "A"); ("a.doc.doc", "B")]).
Theorem C63_same_target_refuted : ∃ o x, automated (ob_inv o) 2 ∧ (migrate ∅ o x).2 = SOk ∧ let i := ob_inv (migrate ∅ o x).1.1 in
    current (ob_inv o) "data/a.doc.doc" (dig "B") ∧ mf_run (pdf Replace) "" "" "B" = Some "pdf:B" ∧ mi_files x !! dig "B" = Some (pdf Replace) ∧
    (∀ p, ¬ current i p (dig "B")) ∧ (∀ p, ¬ current i p (dig "pdf:B")).
Proof.
  exists clash, (to_do [("A", pdf Replace); ("B", pdf Replace)]). split; [apply (automatedb_true _ 2); by vm_compute|]. split; [by vm_compute|]. cbv zeta.
  split; [apply now_spec; apply (bool_decide_unpack _); by vm_compute|]. split; [done|]. split; [done|].
  set (i := ob_inv _). assert (forallb (λ e : string * string, bool_decide (e.2 ≠ dig "B") && bool_decide (e.2 ≠ dig "pdf:B")) (now_listed i) = true) as H by (by vm_compute).
  clearbody i. rewrite forallb_forall in H.
  split; intros p Hp%now_spec%elem_of_list_In; apply H in Hp; apply andb_prop in Hp as [H1%bool_decide_eq_true H2%bool_decide_eq_true]; [by apply H1|by apply H2].
Qed.
(** A target name that was deleted earlier with the same content: neither the original nor the converted file is in the new version. *)
Definition deleted_before : object :=
  automatic ((add "content" <$> [("a.doc", "A"); ("a.pdf", "pdf:A")]) ++ ended ++ [begin; (dflt, OSimple (SDelete "data/a.pdf" (dig "pdf:A")))]).
Theorem C63_deleted_target_refuted : ∃ o x, automated (ob_inv o) 3 ∧ current (ob_inv o) "data/a.doc" (dig "A") ∧ (migrate ∅ o x).2 = SOk ∧
    let i := ob_inv (migrate ∅ o x).1.1 in ∀ p d, current i p d → p = "meta/xml/migration_v3.jsonl.br".
Proof.
  exists deleted_before, (to_do [("A", pdf Replace)]). split; [apply (automatedb_true _ 3); by vm_compute|].
  split; [apply now_spec; apply (bool_decide_unpack _); by vm_compute|]. split; [by vm_compute|]. cbv zeta.
  set (i := ob_inv _). assert (forallb (λ e : string * string, bool_decide (e.1 = "meta/xml/migration_v3.jsonl.br")) (now_listed i) = true) as H by (by vm_compute).
  clearbody i. rewrite forallb_forall in H. intros p d Hp%now_spec%elem_of_list_In. apply H in Hp. by apply bool_decide_eq_true in Hp.
Qed.
(** A file that has the target name is replaced, although nothing was to be done with it. *)
Theorem C63_unrelated_file_refuted : ∃ o x, automated (ob_inv o) 2 ∧ current (ob_inv o) "data/a.pdf" (dig "Old") ∧ mi_files x !! dig "Old" = None ∧ (migrate ∅ o x).2 = SOk ∧
    ∀ p, ¬ current (ob_inv (migrate ∅ o x).1.1) p (dig "Old").
Proof.
  exists (automatic (add "content" <$> [("a.doc", "A"); ("a.pdf", "Old")])), (to_do [("A", pdf Add)]). split; [apply (automatedb_true _ 2); by vm_compute|].
  split; [apply now_spec; apply (bool_decide_unpack _); by vm_compute|]. split; [done|]. split; [by vm_compute|].
  set (i := ob_inv _). assert (forallb (λ e : string * string, bool_decide (e.2 ≠ dig "Old")) (now_listed i) = true) as H by (by vm_compute).
  clearbody i. rewrite forallb_forall in H. intros p Hp%now_spec%elem_of_list_In. apply H in Hp. apply bool_decide_eq_true in Hp. by apply Hp.
Qed.
(** The strategy folder for a content that is itself the result of a migration: it is moved to the empty name. *)
Theorem C63_folder_again_refuted : ∃ o x meta, automated (ob_inv o) 2 ∧ current (ob_inv o) "data/a.doc" (dig "A") ∧ is_Some (meta !! dig "A") ∧ (migrate meta o x).2 = SOk ∧
    current (ob_inv (migrate meta o x).1.1) "" (dig "A").
Proof.
  exists (automatic [add "content" ("a.doc", "A")]), (to_do [("A", in_folder)]), {[ dig "A" := MRes "" "" "" ]}. split; [apply (automatedb_true _ 2); by vm_compute|].
  split; [apply now_spec; apply (bool_decide_unpack _); by vm_compute|]. split; [rewrite lookup_singleton; eauto|]. split; [by vm_compute|].
  apply now_spec. apply (bool_decide_unpack _). by vm_compute.
Qed.
(** A content with two names: the manifest lists the new content path twice. *)
Theorem C63_listed_twice_refuted : ∃ o x, automated (ob_inv o) 2 ∧ (migrate ∅ o x).2 = SOk ∧ (∀ d ps, inv_manifest (ob_inv o) !! d = Some ps → NoDup ps) ∧
    inv_manifest (ob_inv (migrate ∅ o x).1.1) !! dig "pdf:A" = Some ["v2/content/data/a.pdf"; "v2/content/data/a.pdf"].
Proof.
  exists (automatic (add "content" <$> [("a.doc", "A"); ("b.doc", "A")])), (to_do [("A", pdf Replace)]). split; [apply (automatedb_true _ 2); by vm_compute|].
  split; [by vm_compute|]. split; [|by vm_compute].
  set (m := inv_manifest _). assert (forallb (λ e : string * list string, bool_decide (NoDup e.2)) (map_to_list m) = true) as H by (by vm_compute).
  clearbody m. rewrite forallb_forall in H. intros d ps Hd%elem_of_map_to_list%elem_of_list_In. apply H in Hd. by apply bool_decide_eq_true in Hd.
Qed.

(** The same update: the version is asked for before the migration, and not after it, also if another content is planned. *)
Example C63_once_example :
  mi_done mx1 = false ∧ mi_need mx1 = true ∧ (migrate ∅ mo1 mx1).2 = SOk ∧ mi_need (migrate ∅ mo1 mx1).1.2 = false ∧
  mi_files (mi_after (λ _, Some (pdf Add)) "v2" [("new", (None, Some "fmt/40"))] (migrate ∅ mo1 mx1).1.2) !! "new" <> None ∧
  mi_need (mi_after (λ _, Some (pdf Add)) "v2" [("new", (None, Some "fmt/40"))] (migrate ∅ mo1 mx1).1.2) = false.
Proof.
  split; [done|]. split; [vm_compute; reflexivity|]. split; [vm_compute; reflexivity|]. split; [vm_compute; reflexivity|].
  split; [intros H; vm_compute in H; discriminate H|vm_compute; reflexivity].
Qed.

Print Assumptions C63_migrated_partial.
Print Assumptions C63_started.
Print Assumptions C63_calls_partial.
Print Assumptions C63_asked.
Print Assumptions C63_once.
Print Assumptions C63_example.
Print Assumptions C63_deleted_file_refuted.
Print Assumptions C63_other_area_refuted.
Print Assumptions C63_same_target_refuted.
Print Assumptions C63_deleted_target_refuted.
Print Assumptions C63_unrelated_file_refuted.
Print Assumptions C63_folder_again_refuted.
Print Assumptions C63_listed_twice_refuted.

(** * C64: a recorded migration is not repeated *)

(** What a new handle plans after the metadata was read, for an object whose side files can be read ([log_ok]).  GetMetadata does not fail.
    Only stored contents with a known format are planned; all of them that no line of a side file has as source are planned.  A content that
    a line has as source, also one that failed, is not planned.  Partial: unless another content was converted to the same result. *)
Theorem C64_planned_partial Z L l J i s w1 w2 lookup head pron files x :
  mi_files x = ∅ → mi_migrated x = ∅ → log_ok Z L l J x i s → vorder_ok w1 → vorder_ok w2 →
  ∃ r, mi_metadata Z L w1 w2 l J x i s = Some r ∧ (reported i r pron files →
    (∀ c f, (∃ p, lists (inv_manifest i) p c) → (∃ pr, pron c = Some pr ∧ lookup pr = Some f) →
       (∀ p a, entry Z L l J x i s p a → ¬ lists (inv_manifest i) (mr_source a) c) → mi_files (mi_after lookup head files x) !! c = Some f) ∧
    (∀ c f, mi_files (mi_after lookup head files x) !! c = Some f → (∃ p, lists (inv_manifest i) p c) ∧ ∃ pr, pron c = Some pr ∧ lookup pr = Some f) ∧
    (∀ p a d, entry Z L l J x i s p a → lists (inv_manifest i) (mr_source a) d →
       (∀ c p' a', about i p a c → entry Z L l J x i s p' a' → about i p' a' c → lists (inv_manifest i) (mr_source a') d) →
       mi_files (mi_after lookup head files x) !! d = None)).
Proof. exact (planned_files Z L l J i s w1 w2 lookup head pron files x). Qed.
(** The results that GetMetadata gives: every one is that of a line, kept under the digest of the converted file, or of the original if
    there is none; no line is without one. *)
Theorem C64_metadata Z L l J x i s w1 w2 : log_ok Z L l J x i s → vorder_ok w1 → vorder_ok w2 →
  ∃ r, mi_metadata Z L w1 w2 l J x i s = Some r ∧
    (∀ c e, r !! c = Some e → ∃ p a, entry Z L l J x i s p a ∧ about i p a c ∧ lists (inv_manifest i) (mr_source a) (mr_source e) ∧ mr_error e = mr_error a ∧ mr_id e = mr_id a) ∧
    (∀ p a c, entry Z L l J x i s p a → about i p a c → is_Some (r !! c)).
Proof. intros H. exact (metadata_logged Z L l J x i s H w1 w2). Qed.

(** The object of the example above after its migration, seen by a new handle: only n.txt is left. *)
Definition mo2 : object := (migrate ∅ mo1 mx1).1.1.
Definition ms2 : storage := apply_evs (ob_trace mo2) store0.
Example C64_example :
  log_ok zc lm [areas2] jmig mi_new (ob_inv mo2) ms2 ∧ (∀ r, reported (ob_inv mo2) r (known ["A"; "X1"; "FF"; "EE"; "N"]) (report (ob_inv mo2) r (known ["A"; "X1"; "FF"; "EE"; "N"]))) ∧
  entry zc lm [areas2] jmig mi_new (ob_inv mo2) ms2 "v2/content/data/x.pdf" (MRes "v1/content/data/x.doc" "cannot migrate file" "doc2pdf") ∧
  about (ob_inv mo2) "v2/content/data/x.pdf" (MRes "v1/content/data/x.doc" "cannot migrate file" "doc2pdf") (dig "X1") ∧
  ((λ x, (map_to_list (mi_files x)).*1) <$> replan (pdf Replace) ["A"; "X1"; "FF"; "EE"; "N"] mo2) = Some [dig "N"].
Proof.
  assert (log_okb zc lm [areas2] jmig (ob_inv mo2) ms2 = true) as Hb by (by vm_compute).
  split; [by apply log_okb_true|]. split; [intros r; apply report_ok; by vm_compute|]. split.
  { exists "v2", (recs zc lm [areas2] jmig (ob_inv mo2) ms2 "v2"). split; [apply recs_logged; [done|exact Hb|vm_compute; eauto]|].
    apply (bool_decide_unpack _). by vm_compute. }
  split; [apply aboutb_true; by vm_compute|by vm_compute].
Qed.
(** Two contents that are converted to the same data: only one of them is known as migrated, the other one is converted again with the
    next update.  If the originals were deleted, this panics. *)
Definition twins : object := automatic (add "content" <$> [("a.doc", "A"); ("b.doc", "B")]).
Definition twins_later (st : strategy) : object :=
  orun aenv (ended ++ [begin; add "content" ("n.txt", "N")]) (migrate ∅ twins (to_do [("A", narrow st); ("B", narrow st)])).1.1.
Theorem C64_same_result_refuted : ∃ o p a d x, log_ok zc lm [areas2] jmig mi_new (ob_inv o) (apply_evs (ob_trace o) store0) ∧
    entry zc lm [areas2] jmig mi_new (ob_inv o) (apply_evs (ob_trace o) store0) p a ∧ mr_error a = "" ∧ lists (inv_manifest (ob_inv o)) (mr_source a) d ∧
    replan (narrow Add) ["A"; "B"] o = Some x ∧ is_Some (mi_files x !! d).
Proof.
  set (o := twins_later Add). exists o, "v2/content/data/b.pdf", (MRes "v1/content/data/b.doc" "" "narrow"), (dig "B").
  destruct (replan (narrow Add) ["A"; "B"] o) as [x|] eqn:Hx.
  2:{ exfalso. apply (f_equal (λ q : option mist, bool_decide (is_Some q))) in Hx. vm_compute in Hx. done. }
  exists x. assert (log_okb zc lm [areas2] jmig (ob_inv o) (apply_evs (ob_trace o) store0) = true) as Hb by (by vm_compute).
  split; [by apply log_okb_true|]. split.
  { exists "v2", (recs zc lm [areas2] jmig (ob_inv o) (apply_evs (ob_trace o) store0) "v2"). split; [apply recs_logged; [done|exact Hb|vm_compute; eauto]|].
    apply (bool_decide_unpack _). by vm_compute. }
  split; [done|]. split; [apply listed_spec; apply (bool_decide_unpack _); by vm_compute|]. split; [done|].
  apply (f_equal (λ q : option mist, match q with Some x => bool_decide (is_Some (mi_files x !! dig "B")) | None => false end)) in Hx.
  assert (bool_decide (is_Some (mi_files x !! dig "B")) = true) as H; [|by apply bool_decide_eq_true in H]. rewrite <- Hx. by vm_compute.
Qed.
Theorem C64_again_panics_refuted : ∃ o x, log_ok zc lm [areas2] jmig mi_new (ob_inv o) (apply_evs (ob_trace o) store0) ∧ replan (narrow Replace) ["A"; "B"] o = Some x ∧
    (migrate ∅ (orun aenv (ended ++ [begin]) o) x).2 = SPanic.
Proof.
  set (o := twins_later Replace). exists o. destruct (replan (narrow Replace) ["A"; "B"] o) as [x|] eqn:Hx.
  2:{ exfalso. apply (f_equal (λ q : option mist, bool_decide (is_Some q))) in Hx. vm_compute in Hx. done. }
  exists x. split; [apply log_okb_true; [done|by vm_compute]|]. split; [done|].
  apply (f_equal (λ q : option mist, match q with Some x => (migrate ∅ (orun aenv (ended ++ [begin]) o) x).2 | None => SOk end)) in Hx.
  rewrite <- Hx. by vm_compute.
Qed.
(** A side file with a line about a path that is not in the manifest, and no error: GetMetadata fails. *)
Definition stray : object := orun aenv [begin; add "content" ("a.doc", "A"); add "metadata" ("migration_v1.jsonl.br", z_br zc (text_of lm [("v9/x", MRes "v1/content/data/a.doc" "" "doc2pdf")]))] (open_object fresh0).
Theorem C64_stray_line_refuted : ∃ o p a, entry zc lm [areas2] jmig mi_new (ob_inv o) (apply_evs (ob_trace o) store0) p a ∧
    lists (inv_manifest (ob_inv o)) (mr_source a) (dig "A") ∧ mi_metadata zc lm wd wd [areas2] jmig mi_new (ob_inv o) (apply_evs (ob_trace o) store0) = None.
Proof.
  set (o := stray). exists o, "v9/x", (MRes "v1/content/data/a.doc" "" "doc2pdf"). split.
  { exists "v1", [("v9/x", MRes "v1/content/data/a.doc" "" "doc2pdf")]. split; [|by left]. split; [vm_compute; eauto|]. split.
    - intros p a [= -> ->]%elem_of_list_singleton. split; [by vm_compute|apply one_lineb_true; by vm_compute].
    - right. split; [done|]. left. by vm_compute. }
  split; [apply listed_spec; apply (bool_decide_unpack _); by vm_compute|].
  destruct (mi_metadata _ _ _ _ _ _ _ _ _) as [r|] eqn:Hr; [|done]. exfalso. apply (f_equal (λ q : option (gmap string mres), bool_decide (is_Some q))) in Hr. vm_compute in Hr. done.
Qed.

Print Assumptions C64_planned_partial.
Print Assumptions C64_metadata.
Print Assumptions C64_example.
Print Assumptions C64_same_result_refuted.
Print Assumptions C64_again_panics_refuted.
Print Assumptions C64_stray_line_refuted.
