(** Metadata of the source file system: C74. *)
From Coq Require Import Ascii.
From stdpp Require Import base list strings gmap.
From Coq Require Import ZArith Lia.
From Verif Require Import GoStr PathModel PathProofs InventoryModel ObjectModel InventorySpec ObjectSpec CrashSpec LoadModel AreaModel AreaSpec ValidateModel PublishSpec
  JsonlModel JsonlSpec FsModel FsSpec FsProofs FsProofs2 Fixtures Fixtures2 Fixtures3 Fixtures5 Fixtures8 Fixtures10 MigrateModel Fixtures12 Fixtures18.

(** * C74: the metadata of the source file system is kept and reported *)

(** The metadata of a file that is stored is recorded with the logical path of the file and the version, and stays recorded. *)
Theorem C74_recorded {R} E folders (o o0 o1 o2 : object) (x0 x1 x2 : ixst (string * R)) orc data src area dedup r :
  inv_head (ob_inv o) ≠ "" → fcalls E folders o ix_new o0 x0 →
  fs_add_file E orc data src area dedup (StatOk r) o0 x0 = (o1, x1, SOk) → is_Some (streamed E orc (SAdd data src area dedup) o0) →
  fcalls E folders o1 x1 o2 x2 →
  ∃ p lines more, e_state_path E src area = Some p ∧
    ix_buf x2 !! inv_head (ob_inv o) = Some (lines ++ (p, (inv_head (ob_inv o), r)) :: more).
Proof.
  intros Hh Hc Ha Hs Hc2. destruct (fcalls_lines E folders _ _ _ _ Hc Hh new_stamped) as (S0 & _ & He0).
  assert (inv_head (ob_inv o0) ≠ "") as Hh0 by (by rewrite He0).
  destruct (file_lines E _ _ _ _ _ _ _ _ _ _ Ha Hh0 S0) as (S1 & _ & Hr). destruct (Hr r eq_refl Hs) as (p & lines & Hp & Hl). rewrite He0 in Hl.
  assert (inv_head (ob_inv o1) ≠ "") as Hh1.
  { by rewrite (file_head E _ _ _ _ _ _ _ _ _ _ Ha). }
  destruct (fcalls_lines E folders _ _ _ _ Hc2 Hh1 S1) as (_ & K & _). destruct (K _ _ Hl) as [more Hm].
  exists p, lines, more. split; [done|]. by rewrite <- app_assoc in Hm.
Qed.
(** The same for a folder: it is there as an empty file, and its metadata is recorded with the logical path of this file.  Partial: if this
    is not the first empty file of the object, or if the content areas do not change the path (refuted below otherwise). *)
Theorem C74_folder_recorded_partial {R} E folders (o o0 o1 o2 : object) (x0 x1 x2 : ixst (string * R)) orc src area r d p :
  inv_head (ob_inv o) ≠ "" → folders ≠ "" → fcalls E folders o ix_new o0 x0 →
  fs_add_dir E orc folders src area (StatOk r) o0 x0 = (o1, x1, SOk) →
  e_hash E (inv_alg (ob_inv o0)) "" = Some d → e_state_path E (path_join [src; folders]) area = Some p →
  is_Some (inv_manifest (ob_inv o0) !! d) ∨ p = path_join [src; folders] →
  fcalls E folders o1 x1 o2 x2 →
  (is_Some (inv_manifest (ob_inv o0) !! d) → current (ob_inv o1) p d) ∧
  ∃ lines more, ix_buf x2 !! inv_head (ob_inv o) = Some (lines ++ (p, (inv_head (ob_inv o), r)) :: more).
Proof.
  intros Hh Hf Hc Ha Hd Hp Hor Hc2. destruct (fcalls_lines E folders _ _ _ _ Hc Hh new_stamped) as (S0 & _ & He0).
  assert (inv_head (ob_inv o0) ≠ "") as Hh0 by (by rewrite He0).
  destruct (dir_lines E folders _ _ _ _ _ _ _ _ Ha Hh0 S0) as (S1 & _ & Hr). destruct (Hr r eq_refl Hf) as (d' & p' & q & lines & Hd' & Hp' & Hl & Hcase).
  rewrite Hd in Hd'. injection Hd' as <-. rewrite Hp in Hp'. injection Hp' as <-. rewrite He0 in Hl.
  assert (q = p ∧ (is_Some (inv_manifest (ob_inv o0) !! d) → current (ob_inv o1) p d)) as [-> Hcur].
  { destruct Hcase as [(Hm & -> & Hcur)|(Hm & -> & _)]; [done|]. destruct Hor as [[y Hy]| ->]; [by rewrite Hy in Hm|]. split; [done|]. intros [y Hy]. by rewrite Hy in Hm. }
  split; [exact Hcur|]. assert (inv_head (ob_inv o1) ≠ "") as Hh1 by (by rewrite (dir_head E folders _ _ _ _ _ _ _ _ Ha)).
  destruct (fcalls_lines E folders _ _ _ _ Hc2 Hh1 S1) as (_ & K & _). destruct (K _ _ Hl) as [more Hm]. exists lines, more. by rewrite <- app_assoc in Hm.
Qed.
(** GetMetadata of a new handle on an object with any history of sessions, with and without the extension, whatever the map orders: under
    each digest and version are exactly the lines that were recorded in this version for the paths that the version gives to the digest.
    Partial: see the refutations. *)
Theorem C74_report_partial {R} E P parse Z (L : printer (string * R)) l J folders s i book i' w orc :
  hex_hash (e_hash E) → json_ok P (e_json E) parse → codec_ok Z → manifest_by E l → agreeing l J → str_mem slash (js_name J) = false →
  stated E P parse Z L l J folders s i book → load_inventory (e_hash E) parse s "" = LInv i' [] → vorder_ok w → oracle_ok orc →
  ∃ r, fs_metadata Z L w orc l J ix_new i' s = Some r ∧
    ∀ d u, entry r d u = filter (λ e : string * (string * R), e.1 ∈ paths_at i' u d) (default [] (book !! u)).
Proof. intros Hhex Hj HZ HE HJ Hn Hst Hl Hw Ho. by eapply stated_report. Qed.
(** Such an object is one of those of C50: it was made by complete sessions. *)
Theorem C74_published_partial {R} E P parse Z (L : printer (string * R)) l J folders s i book :
  hex_hash (e_hash E) → json_ok P (e_json E) parse → codec_ok Z → manifest_by E l → agreeing l J → str_mem slash (js_name J) = false →
  stated E P parse Z L l J folders s i book → published E P parse s i.
Proof. intros Hhex Hj HZ HE HJ Hn Hst. by eapply stated_filed in Hst as [H _]. Qed.

(** Two sessions with files and folders; in the second one other extensions add files before and after. *)
Definition fops1 : list fop :=
  [FDir "." "content" (StatOk "root"); FFile "A" "a" "content" true (StatOk "ma"); FDir "d" "content" (StatOk "md"); FFile "A" "d/b" "" true (StatOk "mb");
   FFile "X" "d/c" "" true StatNone].
Definition fops2 : list fop :=
  [FFile "A2" "a" "content" true (StatOk "ma2"); FDir "e" "content" (StatOk "me"); FOp (SRename "data/d/c" "data/d/f" (dig "X"))].
Definition fsessions := runf2 aenv [areas2] jfs ".keep" false fops1 fops2 [SAdd "Z" "z" "metadata" true] [SAddReader "readme" ["README.md"] "full"].
Definition flines1 : list (string * (string * string)) := [(".keep", ("v1", "root")); ("data/a", ("v1", "ma")); ("data/d/.keep", ("v1", "md"))].
Definition flines2 : list (string * (string * string)) := [("data/a", ("v2", "ma2")); ("data/e/.keep", ("v2", "me"))].
Definition freport : gmap string (gmap string (list (string * (string * string)))) :=
  {[ dig "" := {[ "v1" := [("data/d/.keep", ("v1", "md"))]; "v2" := [("data/e/.keep", ("v2", "me"))] ]};
     dig "A" := {[ "v1" := [("data/a", ("v1", "ma"))] ]}; dig "A2" := {[ "v2" := [("data/a", ("v2", "ma2"))] ]} ]}.
Example C74_example :
  ∃ s i i', stated aenv (λ _, True) jparse zc lf [areas2] jfs ".keep" s i {[ "v2" := flines2; "v1" := flines1 ]} ∧ load_inventory (e_hash aenv) jparse s "" = LInv i' [] ∧
    fs_metadata zc lf default_vorder dflt [areas2] jfs ix_new i' s = Some freport ∧ paths_at i' "v1" (dig "A") = ["data/a"; "data/d/b"] ∧
    paths_at i' "v2" (dig "") = ["data/.keep"; "data/d/.keep"; "data/e/.keep"].
Proof.
  assert (match fsessions with
          | Some (s, i, i', l1, l2) => bool_decide (l1 = flines1) && bool_decide (l2 = flines2) && bool_decide (fs_metadata zc lf default_vorder dflt [areas2] jfs ix_new i' s = Some freport) &&
              bool_decide (paths_at i' "v1" (dig "A") = ["data/a"; "data/d/b"] ∧ paths_at i' "v2" (dig "") = ["data/.keep"; "data/d/.keep"; "data/e/.keep"])
          | None => false end = true) as H by (by vm_compute).
  destruct fsessions as [[[[[s i] i'] l1] l2]|] eqn:Hs; [|discriminate H]. apply andb_prop in H as [H H4]. apply andb_prop in H as [H H3]. apply andb_prop in H as [H1 H2].
  apply bool_decide_eq_true in H1, H2, H3, H4. subst l1 l2. destruct (runf2_true aenv eq_refl asup_true [areas2] jfs ".keep" _ _ _ _ _ _ _ _ _ _ Hs) as [Q1 Q2].
  exists s, i, i'. exact (conj Q1 (conj Q2 (conj H3 H4))).
Qed.
(** The hypotheses of the first two theorems: a file and a folder, with calls before and after. *)
Definition fstart (i : inventory) : object := orun aenv [(dflt, OStart "2024-02-02" "next" "me" "mailto:me" false)] (open_object i).
Example C74_recorded_example :
  ∃ o0 x0 o1 x1 o2 x2, inv_head (ob_inv (fstart fresh0)) ≠ "" ∧ fcalls aenv ".keep" (fstart fresh0) ix_new o0 x0 ∧
    fs_add_file aenv dflt "B" "d/b" "" true (StatOk "mb") o0 x0 = (o1, x1, SOk) ∧ is_Some (streamed aenv dflt (SAdd "B" "d/b" "" true) o0) ∧
    fcalls aenv ".keep" o1 x1 o2 x2 ∧ ix_buf x2 !! "v1" = Some (flines1 ++ [("data/d/b", ("v1", "mb")); ("data/e/.keep", ("v1", "me"))]).
Proof.
  assert (match fcallsb aenv ".keep" (take 3 fops1) (fstart fresh0) ix_new with
          | Some (o0, x0) =>
              match fs_add_file aenv dflt "B" "d/b" "" true (StatOk "mb") o0 x0 with
              | (o1, x1, SOk) => bool_decide (is_Some (streamed aenv dflt (SAdd "B" "d/b" "" true) o0)) &&
                  match fcallsb aenv ".keep" [FDir "e" "content" (StatOk "me")] o1 x1 with
                  | Some (o2, x2) => bool_decide (ix_buf x2 !! "v1" = Some (flines1 ++ [("data/d/b", ("v1", "mb")); ("data/e/.keep", ("v1", "me"))]))
                  | None => false
                  end
              | _ => false
              end
          | None => false end = true) as H by (by vm_compute).
  destruct (fcallsb aenv ".keep" (take 3 fops1) (fstart fresh0) ix_new) as [[o0 x0]|] eqn:E1; [|discriminate H].
  destruct (fs_add_file aenv dflt "B" "d/b" "" true (StatOk "mb") o0 x0) as [[o1 x1] []] eqn:E2; [|discriminate H..]. apply andb_prop in H as [H1 H2]. apply bool_decide_eq_true in H1.
  destruct (fcallsb aenv ".keep" [FDir "e" "content" (StatOk "me")] o1 x1) as [[o2 x2]|] eqn:E3; [|discriminate H2]. apply bool_decide_eq_true in H2.
  exists o0, x0, o1, x1, o2, x2. split; [by vm_compute|]. exact (conj (fcallsb_true _ _ _ _ _ _ _ E1) (conj E2 (conj H1 (conj (fcallsb_true _ _ _ _ _ _ _ E3) H2)))).
Qed.
Example C74_folder_example :
  ∃ o0 x0 o1 x1, fcalls aenv ".keep" (fstart fresh0) ix_new o0 x0 ∧ fs_add_dir aenv dflt ".keep" "d" "content" (StatOk "md") o0 x0 = (o1, x1, SOk) ∧
    e_hash aenv (inv_alg (ob_inv o0)) "" = Some (dig "") ∧ e_state_path aenv (path_join ["d"; ".keep"]) "content" = Some "data/d/.keep" ∧
    is_Some (inv_manifest (ob_inv o0) !! dig "") ∧ ix_buf x1 !! "v1" = Some flines1.
Proof.
  assert (match fcallsb aenv ".keep" (take 2 fops1) (fstart fresh0) ix_new with
          | Some (o0, x0) =>
              match fs_add_dir aenv dflt ".keep" "d" "content" (StatOk "md") o0 x0 with
              | (o1, x1, SOk) => bool_decide (e_hash aenv (inv_alg (ob_inv o0)) "" = Some (dig "")) && bool_decide (is_Some (inv_manifest (ob_inv o0) !! dig "")) && bool_decide (ix_buf x1 !! "v1" = Some flines1)
              | _ => false
              end
          | None => false end = true) as H by (by vm_compute).
  destruct (fcallsb aenv ".keep" (take 2 fops1) (fstart fresh0) ix_new) as [[o0 x0]|] eqn:E1; [|discriminate H].
  destruct (fs_add_dir aenv dflt ".keep" "d" "content" (StatOk "md") o0 x0) as [[o1 x1] []] eqn:E2; [|discriminate H..]. apply andb_prop in H as [H H3]. apply andb_prop in H as [H1 H2].
  apply bool_decide_eq_true in H1, H2, H3. exists o0, x0, o1, x1. split; [exact (fcallsb_true _ _ _ _ _ _ _ E1)|]. split; [exact E2|]. split; [exact H1|]. split; [by vm_compute|]. split; [exact H2|exact H3].
Qed.

(** A file whose content is already in the object has no metadata: nothing is recorded, and the report has nothing for its path. *)
Theorem C74_same_content_refuted :
  ∃ s i i' l1 r, runf1 aenv [areas2] jfs ".keep" false fops1 [] [] = Some (s, i, i', l1) ∧ FFile "A" "d/b" "" true (StatOk "mb") ∈ fops1 ∧
    fs_metadata zc lf default_vorder dflt [areas2] jfs ix_new i' s = Some r ∧ "data/d/b" ∈ paths_at i' "v1" (dig "A") ∧
    ∀ d u e, e ∈ entry r d u → e.1 ≠ "data/d/b" ∧ e.2.2 ≠ "mb".
Proof.
  assert (match runf1 aenv [areas2] jfs ".keep" false fops1 [] [] with
          | Some (s, i, i', l1) => bool_decide (fs_metadata zc lf default_vorder dflt [areas2] jfs ix_new i' s = Some (delete (dig "A2") (<[dig "" := {[ "v1" := [("data/d/.keep", ("v1", "md"))] ]}]> freport))) &&
              bool_decide ("data/d/b" ∈ paths_at i' "v1" (dig "A"))
          | None => false end = true) as H by (by vm_compute).
  destruct (runf1 aenv [areas2] jfs ".keep" false fops1 [] []) as [[[[s i] i'] l1]|]; [|discriminate H]. apply andb_prop in H as [H1 H2]. apply bool_decide_eq_true in H1, H2.
  eexists s, i, i', l1, _. split; [done|]. split; [right; right; right; left|]. split; [exact H1|]. split; [exact H2|]. apply (entries_all _ (λ e, e.1 ≠ _ ∧ e.2.2 ≠ _)). apply (bool_decide_unpack _). by vm_compute.
Qed.
(** The first empty file of an object with content areas is recorded under the path before the mapping: the folder is in the version, its
    metadata is not in the report. *)
Theorem C74_first_folder_refuted :
  ∃ s i i' l1 r, runf1 aenv [areas2] jfs ".keep" false fops1 [] [] = Some (s, i, i', l1) ∧ (".keep", ("v1", "root")) ∈ l1 ∧
    fs_metadata zc lf default_vorder dflt [areas2] jfs ix_new i' s = Some r ∧ "data/.keep" ∈ paths_at i' "v1" (dig "") ∧
    ∀ d u e, e ∈ entry r d u → e.1 ≠ "data/.keep" ∧ e.2.2 ≠ "root".
Proof.
  assert (match runf1 aenv [areas2] jfs ".keep" false fops1 [] [] with
          | Some (s, i, i', l1) => bool_decide (fs_metadata zc lf default_vorder dflt [areas2] jfs ix_new i' s = Some (delete (dig "A2") (<[dig "" := {[ "v1" := [("data/d/.keep", ("v1", "md"))] ]}]> freport))) &&
              bool_decide ("data/.keep" ∈ paths_at i' "v1" (dig "")) && bool_decide ((".keep", ("v1", "root")) ∈ l1)
          | None => false end = true) as H by (by vm_compute).
  destruct (runf1 aenv [areas2] jfs ".keep" false fops1 [] []) as [[[[s i] i'] l1]|]; [|discriminate H]. apply andb_prop in H as [H H3]. apply andb_prop in H as [H1 H2]. apply bool_decide_eq_true in H1, H2, H3.
  eexists s, i, i', l1, _. split; [done|]. split; [exact H3|]. split; [exact H1|]. split; [exact H2|]. apply (entries_all _ (λ e, e.1 ≠ _ ∧ e.2.2 ≠ _)). apply (bool_decide_unpack _). by vm_compute.
Qed.
(** With echo deletion the folders after the first one are taken out of the version again in the session that adds them. *)
Theorem C74_echo_folder_refuted :
  ∃ s i i' l1, runf1 penv [] jfs_plain ".keep" true [FDir "." "" (StatOk "root"); FFile "A" "a" "" true (StatOk "ma"); FDir "d" "" (StatOk "md"); FFile "B" "d/b" "" true (StatOk "mb")] [] [] =
      Some (s, i, i', l1) ∧
    ("d/.keep", ("v1", "md")) ∈ l1 ∧ paths_at i' "v1" (dig "") = [".keep"] ∧ paths_at i' "v1" (dig "B") = ["d/b"].
Proof.
  assert (match runf1 penv [] jfs_plain ".keep" true [FDir "." "" (StatOk "root"); FFile "A" "a" "" true (StatOk "ma"); FDir "d" "" (StatOk "md"); FFile "B" "d/b" "" true (StatOk "mb")] [] [] with
          | Some (s, i, i', l1) => bool_decide (("d/.keep", ("v1", "md")) ∈ l1) && bool_decide (paths_at i' "v1" (dig "") = [".keep"] ∧ paths_at i' "v1" (dig "B") = ["d/b"])
          | None => false end = true) as H by (by vm_compute).
  destruct (runf1 penv [] jfs_plain ".keep" true _ [] []) as [[[[s i] i'] l1]|]; [|discriminate H]. apply andb_prop in H as [H1 H2]. apply bool_decide_eq_true in H1, H2.
  exists s, i, i', l1. exact (conj eq_refl (conj H1 H2)).
Qed.
(** Lines are looked up by path after the session: if a file gets the path that another one had when it was added, it gets its metadata. *)
Theorem C74_renamed_refuted :
  ∃ s i i' l1 r, runf1 aenv [areas2] jfs "" false
      [FFile "A" "a" "" true (StatOk "ma"); FFile "B" "b" "" true (StatOk "mb"); FOp (SRename "data/a" "data/c" (dig "A")); FOp (SRename "data/b" "data/a" (dig "B"))] [] [] = Some (s, i, i', l1) ∧
    fs_metadata zc lf default_vorder dflt [areas2] jfs ix_new i' s = Some r ∧
    entry r (dig "B") "v1" = [("data/a", ("v1", "ma"))] ∧ entry r (dig "A") "v1" = [].
Proof.
  assert (match runf1 aenv [areas2] jfs "" false
      [FFile "A" "a" "" true (StatOk "ma"); FFile "B" "b" "" true (StatOk "mb"); FOp (SRename "data/a" "data/c" (dig "A")); FOp (SRename "data/b" "data/a" (dig "B"))] [] [] with
          | Some (s, i, i', l1) => match fs_metadata zc lf default_vorder dflt [areas2] jfs ix_new i' s with
                                   | Some r => bool_decide (entry r (dig "B") "v1" = [("data/a", ("v1", "ma"))] ∧ entry r (dig "A") "v1" = [])
                                   | None => false
                                   end
          | None => false end = true) as H by (by vm_compute).
  destruct (runf1 aenv [areas2] jfs "" false _ [] []) as [[[[s i] i'] l1]|]; [|discriminate H].
  destruct (fs_metadata zc lf default_vorder dflt [areas2] jfs ix_new i' s) as [r|] eqn:Hr; [|discriminate H]. apply bool_decide_eq_true in H.
  exists s, i, i', l1, r. split; [done|]. split; [exact Hr|exact H].
Qed.
Print Assumptions C74_recorded.
Print Assumptions C74_folder_recorded_partial.
Print Assumptions C74_report_partial.
Print Assumptions C74_published_partial.
Print Assumptions C74_same_content_refuted.
Print Assumptions C74_first_folder_refuted.
Print Assumptions C74_echo_folder_refuted.
Print Assumptions C74_renamed_refuted.
