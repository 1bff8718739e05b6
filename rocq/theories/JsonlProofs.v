(** Side files are read back. *)
From Coq Require Import Ascii.
From stdpp Require Import base list strings gmap.
From Coq Require Import ZArith Lia.
From Verif Require Import GoStr PathModel PathProofs InventoryModel InventorySpec InventoryProofs LookupProofs ClaimsInventory2 AddProofs ObjectModel ObjectSpec ObjectProofs CrashSpec CrashProofs
  LoadModel LoadProofs AreaModel AreaSpec AreaProofs ValidateModel PublishSpec JsonlModel JsonlSpec.

(** * Names *)
Lemma str_mem_app2 c a b : str_mem c (a +:+ b) = str_mem c a || str_mem c b.
Proof. induction a as [|x a IH]; [done|]. change (String x a +:+ b) with (String x (a +:+ b)). cbn [str_mem]. destruct (decide _); [done|]. apply IH. Qed.
Lemma split_slash_none p : str_mem slash p = false → split_slash p = [p].
Proof. unfold split_slash. intros H. by apply split_on_no_sep. Qed.
Lemma jsonl_name_plain name v ext : str_mem slash name = false → str_mem slash v = false → str_mem slash ext = false →
  plain_name (jsonl_name name v ext).
Proof.
  intros H1 H2 H3. unfold jsonl_name. assert (6 <= String.length (name +:+ "_" +:+ v +:+ ".jsonl" +:+ ext))%nat as Hl.
  { rewrite !str_length_app. cbn [String.length]. lia. }
  repeat split; try (intros Heq; rewrite Heq in Hl; cbn in Hl; lia).
  by rewrite !str_mem_app2, H1, H2, H3.
Qed.
Lemma compress_ext_slash c ext : compress_ext c = Some ext → str_mem slash ext = false.
Proof. unfold compress_ext. repeat case_decide; by intros [= <-]. Qed.
Lemma clean_rel_plain p : plain_name p → clean_rel p.
Proof. intros H. unfold clean_rel. rewrite split_slash_none by apply H. by constructor. Qed.

(** A double slash makes no difference. *)
Lemma path_clean_double a b : a ≠ "" → path_clean (a +:+ "/" +:+ "/" +:+ b) = path_clean (a +:+ "/" +:+ b).
Proof.
  intros Ha. unfold path_clean.
  assert (str_head (a +:+ "/" +:+ "/" +:+ b) = str_head (a +:+ "/" +:+ b)) as -> by (by destruct a).
  assert (∀ r, clean_comps r [] (split_slash (a +:+ "/" +:+ "/" +:+ b)) = clean_comps r [] (split_slash (a +:+ "/" +:+ b))) as Hc; [|by rewrite !Hc].
  intros r. rewrite (split_slash_app a ("/" +:+ b)), (split_slash_app a b). change ("/" +:+ b) with ("" +:+ "/" +:+ b).
  rewrite split_slash_app. apply clean_comps_app_empty.
Qed.
Lemma path_join_slash v c t : path_join [v; c; "/" +:+ t] = path_join [v; c; t] ∨ (v = "" ∧ c = "").
Proof.
  cbn [path_join]. destruct (decide (v = "")) as [-> |Hv].
  - destruct (decide (c = "")) as [-> |Hc]; [by right|left].
    exact (path_clean_double c t Hc).
  - left. change (join_slash [v; c; "/" +:+ t]) with (v +:+ "/" +:+ c +:+ "/" +:+ "/" +:+ t).
    change (join_slash [v; c; t]) with (v +:+ "/" +:+ c +:+ "/" +:+ t).
    pose proof (path_clean_double (v +:+ "/" +:+ c) t) as H. rewrite <- !str_app_assoc in H. apply H. by destruct v.
Qed.
Lemma content_dir_ne i : content_dir i ≠ "".
Proof. unfold content_dir. by destruct (decide _). Qed.
Lemma manifest_version_slash i v t : manifest_name_version i ("/" +:+ t) v = manifest_name_version i t v.
Proof. unfold manifest_name_version. destruct (path_join_slash v (content_dir i) t) as [-> |[_ H]]; [done|]. by apply content_dir_ne in H. Qed.
Lemma manifest_version_head i t : manifest_name_version i t (inv_head i) = manifest_name i t.
Proof. done. Qed.

(** * The writer and the reader mean the same file *)
Lemma clean_rel_ne p : clean_rel p → p ≠ "".
Proof. apply clean_rel_nonempty. Qed.
Lemma area_join sub name : clean_rel sub → plain_name name → path_join [sub; name] = sub +:+ "/" +:+ name.
Proof. intros H1 H2. apply join_two; [done|by apply clean_rel_plain]. Qed.

Lemma agreeing_target E l J i :
  manifest_by E l → agreeing l J → str_mem slash (js_name J) = false → str_mem slash (inv_head i) = false →
  ∀ p, read_target l J i (inv_head i) = Some p →
  match write_target l J (inv_head i) with
  | JAdd files area => ∃ f mp, files = [f] ∧ e_manifest_path E f area = Some mp ∧ p = manifest_name i mp
  | JFile q => p = q
  | JError _ => False
  end.
Proof.
  intros HE Ha Hn Hh p. unfold read_target, write_target.
  destruct (compress_ext (js_compress J)) as [ext|] eqn:Hx; [|done]. apply compress_ext_slash in Hx as Hes.
  pose proof (jsonl_name_plain (js_name J) (inv_head i) ext Hn Hh Hes) as Hp.
  destruct Ha as [c name compress storage folder sub H1 H2 H3 H4|name compress storage folder|c name compress storage folder H1|name compress storage folder|l name compress storage folder];
    cbn [js_name js_type js_storage js_folder js_compress] in *.
  - rewrite !decide_True by done. unfold area_path. cbn [area_path_from]. rewrite H3. rewrite decide_False by (by apply clean_rel_ne).
    intros [= <-]. eexists _, _. split; [done|]. rewrite HE. cbn [mgr_state_path]. unfold sub_state_path.
    rewrite (decide_False (P := storage = "")), (decide_False (P := storage = "full")), H3 by done. rewrite area_join by done.
    rewrite decide_False by (by destruct sub). split; [reflexivity|]. apply manifest_version_head.
  - rewrite !decide_True by done. unfold area_path. cbn [area_path_from]. intros [= <-]. eexists _, _. split; [done|]. rewrite HE. split; [reflexivity|].
    change ("" +:+ ?x) with x. rewrite manifest_version_slash. apply manifest_version_head.
  - change (to_lower "path") with "path". rewrite !(decide_False (P := "path" = "area")), !decide_True by done.
    destruct (area_path [c] "content") as [q|]; [|done]. intros [= <-]. eexists _, _. split; [done|]. rewrite HE. cbn [mgr_state_path]. unfold sub_state_path.
    rewrite (decide_True (P := "" = "")), H1, decide_True by done. rewrite decide_False by (by destruct q). split; [reflexivity|]. apply manifest_version_head.
  - change (to_lower "path") with "path". rewrite !(decide_False (P := "path" = "area")), !decide_True by done.
    destruct (area_path [] "content") as [q|]; [|done]. intros [= <-]. eexists _, _. split; [done|]. rewrite HE. split; [reflexivity|]. apply manifest_version_head.
  - change (to_lower "extension") with "extension". rewrite !(decide_False (P := "extension" = "area")), !(decide_False (P := "extension" = "path")), !decide_True by done.
    by intros [= <-].
Qed.
(** The reader fails only if the writer does. *)
Lemma agreeing_read l J i v : agreeing l J → ∀ t, write_target l J v = t → (∀ e, t ≠ JError e) → ∃ p, read_target l J i v = Some p.
Proof.
  intros Ha t <- Hne. unfold read_target, write_target in *.
  destruct (compress_ext (js_compress J)) as [ext|]; [|by destruct (Hne "invalid compression")].
  destruct Ha as [c name compress storage folder sub H1 H2 H3 H4|name compress storage folder|c name compress storage folder H1|name compress storage folder|l name compress storage folder];
    cbn [js_name js_type js_storage js_folder js_compress] in *.
  - rewrite decide_True by done. unfold area_path. cbn [area_path_from]. rewrite H3, decide_False by (by apply clean_rel_ne). by eexists.
  - rewrite decide_True by done. by eexists.
  - change (to_lower "path") with "path" in Hne. rewrite (decide_False (P := "path" = "area")), decide_True in Hne by done.
    rewrite (decide_False (P := "path" = "area")), decide_True by done.
    destruct (area_path [c] "content") as [q|]; [by eexists|]. by destruct (Hne "cannot get area path").
  - rewrite (decide_False (P := "path" = "area")), decide_True by done. by eexists.
  - rewrite (decide_False (P := "extension" = "area")), (decide_False (P := "extension" = "path")), decide_True by done. by eexists.
Qed.

(** * Storing a stream *)
Lemma ext_rel_lists i i' p d : ext_rel i i' → lists (inv_manifest i) p d → lists (inv_manifest i') p d.
Proof. intros He (ps & H1 & H2). destruct (er_man _ _ He d ps H1) as [x Hx]. exists (ps ++ x). split; [done|]. apply elem_of_app. by left. Qed.
Lemma add_state_file_listed orc n m d f i i' :
  m ≠ "" → add_state_file orc n m d f i = (i', SOk) → lists (inv_manifest i') m d.
Proof.
  intros Hm H. assert (inv_manifest i' = <[d := default [] (inv_manifest i !! d) ++ [m]]> (inv_manifest i)) as ->.
  { revert H. unfold add_state_file. destruct (already_exists orc n i f d) as [dup|]; [|done].
    rewrite decide_False by done. set (i1 := set_manifest _ i).
    change (<[d := _]> (inv_manifest i)) with (inv_manifest i1).
    destruct (head_version i1) as [v|] eqn:Hv; [|done].
    set (i2 := match v_state v !! d with Some _ => i1 | None => put_head_state (<[d:=[]]> (v_state v)) v i1 end).
    assert (inv_manifest i2 = inv_manifest i1) as H2 by (subst i2; by destruct (v_state v !! d)).
    destruct (is_update orc (S n) i2 f d) as [upd|]; [|done].
    set (r := if upd then _ else _).
    assert (inv_manifest r.1 = inv_manifest i1) as H3.
    { subst r. destruct upd; [|done]. unfold delete_file. destruct (head_version i2); [simpl|done].
      by destruct (state_has _ _). }
    clearbody r. destruct r as [i3 []]; cbn [fst] in H3; try done. destruct dup; [by intros [= <-]|].
    destruct (head_version i3); [|done]. by intros [= <-]. }
  apply lists_append. by right.
Qed.
Lemma add_reader_ok E orc data exts m o o' :
  exts ≠ [] → m ≠ "" → add_reader E orc data exts m o = (o', SOk) →
  ob_trace o' = ob_trace o ++ write_file m data ∧ ext_rel (ob_inv o) (ob_inv o') ∧
  ∃ d, e_hash E (inv_alg (ob_inv o)) data = Some d ∧ lists (inv_manifest (ob_inv o')) m (to_lower d).
Proof.
  intros Hne Hm. unfold add_reader. destruct (checksums E _ data) as [cs|] eqn:Hcs; [|done].
  unfold on_inv. cbn [ob_inv emit set_upd ob_trace]. destruct (add_file orc exts m cs (ob_inv o)) as [i' st] eqn:Ha.
  intros [= <- ->]. cbn [ob_trace set_inv emit set_upd ob_inv]. split; [by rewrite <- app_assoc|].
  pose proof (ext_rel_add_file orc exts m cs (ob_inv o)) as Hx. rewrite Ha in Hx. split; [done|].
  unfold add_file in Ha. destruct (assoc (inv_alg (ob_inv o)) cs) as [d|] eqn:Has; [|done]. exists d. split.
  { rewrite <- Has. symmetry. eapply assoc_checksums; [done|]. apply elem_of_remove_dups, elem_of_app. right. by apply elem_of_list_singleton. }
  destruct exts as [|f fs]; [done|]. cbn [add_state_files] in Ha.
  destruct (add_state_file orc 0 m (to_lower d) f _) as [j1 []] eqn:E1; [|done..].
  pose proof (ext_rel_add_state_files orc 2 m (to_lower d) fs j1) as Hg. rewrite Ha in Hg. eapply ext_rel_lists; [exact Hg|].
  by eapply add_state_file_listed.
Qed.
Lemma add_reader_call E orc data files area o o' :
  ob_add_reader E orc data files area o = (o', SOk) →
  ∃ f mp, head files = Some f ∧ e_manifest_path E f area = Some mp ∧ let m := manifest_name (ob_inv o) mp in
  ob_trace o' = ob_trace o ++ write_file m data ∧ ext_rel (ob_inv o) (ob_inv o') ∧
  ∃ d, e_hash E (inv_alg (ob_inv o)) data = Some d ∧ lists (inv_manifest (ob_inv o')) m (to_lower d).
Proof.
  unfold ob_add_reader. destruct files as [|f fs]; [done|]. destruct (inv_writeable _); [|done].
  unfold build_names. destruct (state_paths E (f :: fs) area) as [ps|] eqn:Hp; [|done].
  destruct (e_manifest_path E f area) as [mp|] eqn:Hm; [|done]. intros H. exists f, mp. split; [done|]. split; [done|]. cbv zeta.
  apply (add_reader_ok E orc data ps _ o o'); [|apply manifest_name_nonempty|done].
  intros ->. cbn [state_paths] in Hp. repeat case_match; done.
Qed.

(** * Reading back *)
Lemma unpack_repack Z c b t data : codec_ok Z → b = z_br Z t → repack Z c b = Some data → unpack Z c data = Some t.
Proof.
  intros HZ ->. unfold repack, unpack. destruct (HZ t) as [H1 H2]. destruct (decide _); [by intros [= <-]|].
  destruct (decide _); rewrite H1; cbn; by intros [= <-].
Qed.
Lemma write_read_path Z E l J orc b o o' t :
  codec_ok Z → manifest_by E l → agreeing l J → str_mem slash (js_name J) = false → str_mem slash (inv_head (ob_inv o)) = false →
  b = z_br Z t → write_jsonl Z E l J orc b o = (o', SOk) →
  ∃ p data, read_target l J (ob_inv o) (inv_head (ob_inv o)) = Some p ∧ unpack Z (js_compress J) data = Some t ∧
    ob_trace o' = ob_trace o ++ write_file p data ∧ ext_rel (ob_inv o) (ob_inv o').
Proof.
  intros HZ HE Ha Hn Hh Hb. unfold write_jsonl. destruct (write_target l J (inv_head (ob_inv o))) as [files area|q|e] eqn:Ht; [| |done].
  - destruct (agreeing_read l J (ob_inv o) _ Ha _ Ht) as [p Hp]; [done|].
    pose proof (agreeing_target E l J (ob_inv o) HE Ha Hn Hh p Hp) as Hw. rewrite Ht in Hw. destruct Hw as (f & mp & -> & Hmp & ->).
    destruct (repack Z (js_compress J) b) as [data|] eqn:Hr; [|done]. intros H.
    apply add_reader_call in H as (f' & mp' & Hf & Hm & Htr & He & _). injection Hf as <-. rewrite Hmp in Hm. injection Hm as <-.
    exists (manifest_name (ob_inv o) mp), data. split; [done|]. split; [by eapply unpack_repack|]. done.
  - destruct (agreeing_read l J (ob_inv o) _ Ha _ Ht) as [p Hp]; [done|].
    pose proof (agreeing_target E l J (ob_inv o) HE Ha Hn Hh p Hp) as Hw. rewrite Ht in Hw. subst q.
    destruct (repack Z (js_compress J) b) as [data|] eqn:Hr; [|done]. intros H. apply (f_equal fst) in H. cbn [fst] in H. subst o'.
    exists p, data. split; [done|]. split; [by eapply unpack_repack|]. split; [done|apply ext_rel_refl].
Qed.
Lemma read_target_cdir l J i i' v : inv_contentdir i' = inv_contentdir i → read_target l J i' v = read_target l J i v.
Proof.
  intros H. unfold read_target, manifest_name_version. assert (content_dir i' = content_dir i) as -> by (unfold content_dir; by rewrite H). done.
Qed.
Lemma write_read Z E l J orc b o o' s t :
  codec_ok Z → manifest_by E l → agreeing l J → str_mem slash (js_name J) = false → str_mem slash (inv_head (ob_inv o)) = false →
  b = z_br Z t → write_jsonl Z E l J orc b o = (o', SOk) →
  read_jsonl Z l J (ob_inv o') (apply_evs (ob_trace o') s) (inv_head (ob_inv o')) = Some t.
Proof.
  intros HZ HE Ha Hn Hh Hb H. destruct (write_read_path Z E l J orc b o o' t HZ HE Ha Hn Hh Hb H) as (p & data & Hp & Hu & Ht & He).
  unfold read_jsonl. rewrite (er_head _ _ He), (read_target_cdir _ _ (ob_inv o)) by apply He. rewrite Hp, Ht, apply_evs_app, apply_write, lookup_insert.
  done.
Qed.
