(** Thumbnails: C72. *)
From Coq Require Import Ascii.
From stdpp Require Import base list strings gmap.
From Coq Require Import ZArith Lia.
From Verif Require Import GoStr PathModel InventoryModel ObjectModel InventorySpec ObjectSpec CrashSpec LoadModel AreaModel AreaSpec ValidateModel ValidateSpec PublishSpec
  JsonlModel JsonlSpec MetafileModel MigrateModel ThumbModel ThumbSpec ThumbProofs4 ThumbProofs5 Fixtures Fixtures2 Fixtures3 Fixtures5 Fixtures8 Fixtures10 Fixtures12 Fixtures16.

(** * C72: every file of the manifest with a thumbnail function gets one thumbnail, which is kept and reported *)

(** After a session every content that can be read, has a function and no thumbnail yet has a line: with the digest of the thumbnail that the
    function makes of the stored file, which lies in the folder of the new version and is listed in the manifest; or with an error, if the
    function fails.  Partial: storage in the versions with the type in lower case, function result from the stored file, no error and no
    panic in the hook. *)
Theorem C72_made_partial E P parse Z L W l T J dir s i old S idx s' i' o lines cs p ps g :
  hex_hash (e_hash E) → json_ok P (e_json E) parse → codec_ok Z → lines_ok W L → manifest_by E l → suffix_name (tc_ext T) → thumbs_in l J dir →
  str_mem slash (js_name J) = false →
  opened E P parse Z L W l T J dir s i old → tsession E Z L W l T J dir S idx s i s' i' o lines →
  inv_manifest (ob_inv o) !! cs = Some (p :: ps) → function_for S idx cs g → ts_opens S p = true →
  cs ∉ old.*1 → (∀ c r, (c, r) ∈ old → tr_digest r ≠ cs) →
  ∃ x res, s' !! p = Some x ∧ e_hash E (inv_alg i') x = Some cs ∧ (cs, res) ∈ lines ∧
    match tf_run g (file_ext p) x with
    | Some y => thumbnail_kept E dir s' i' g y res
    | None => tr_error res ≠ "" ∧ tr_id res = tf_id g
    end.
Proof. intros Hhex Hj HZ HL HE HT HJ Hn. by eapply made. Qed.
(** Over any history of sessions no content gets a second line, and the object is one of those of C50. *)
Theorem C72_once_partial E P parse Z L W l T J dir s i lines :
  hex_hash (e_hash E) → json_ok P (e_json E) parse → codec_ok Z → lines_ok W L → manifest_by E l → suffix_name (tc_ext T) → thumbs_in l J dir →
  str_mem slash (js_name J) = false → thumbed E P parse Z L W l T J dir s i lines → NoDup lines.*1 ∧ published E P parse s i.
Proof. intros Hhex Hj HZ HL HE HT HJ Hn Ht. destruct (thumbed_sided _ _ _ _ _ _ _ _ _ _ Hhex Hj HZ HL HE HT HJ Hn _ _ _ Ht) as (H1 & H2 & _). done. Qed.
(** The report of the object, whatever the map order: it has an entry for every line, entries for nothing else, and each entry without
    error names the digest of a stored file that hashes to it.  The entry under a source repeats its line, unless the source is itself a
    thumbnail. *)
Theorem C72_report_partial E P parse Z L W l T J dir s i lines i' w :
  hex_hash (e_hash E) → json_ok P (e_json E) parse → codec_ok Z → lines_ok W L → manifest_by E l → suffix_name (tc_ext T) → thumbs_in l J dir →
  str_mem slash (js_name J) = false → thumbed E P parse Z L W l T J dir s i lines → load_inventory (e_hash E) parse s "" = LInv i' [] → vorder_ok w →
  ∃ r, th_metadata Z L w l T J th_new i' s = Some r ∧
    (∀ c res, (c, res) ∈ lines → ∃ m, r !! c = Some m ∧ ((∀ c' res', (c', res') ∈ lines → tr_digest res' ≠ c) → repeats m c res)) ∧
    (∀ d m, r !! d = Some m → ∃ c res, (c, res) ∈ lines ∧ (d = c ∨ d = tr_digest res) ∧ repeats m c res) ∧
    (∀ d m, r !! d = Some m → tm_error m = "" → ∃ q y, lists (inv_manifest i') q (tm_digest m) ∧ s !! q = Some y ∧ e_hash E (inv_alg i') y = Some (tm_digest m)).
Proof. intros Hhex Hj HZ HL HE HT HJ Hn. by eapply thumbs_report. Qed.
(** Storage in the folder of the extension, one run of the hook: the inventory is unchanged, nothing changes outside the folder, and every
    content with a function that the extension does not report yet has its line and its thumbnail in the file that the line names. *)
Theorem C72_extension_partial Z L E l T J S w s idx orc orcs rnd o o' x' dn :
  suffix_name (tc_ext T) → js_type J = "extension" → clean_rel (js_folder J) → clean_rel (js_storage J) → str_mem slash (js_name J) = false → vorder_ok w →
  CrashSpec.plain_name (inv_head (ob_inv o)) → (∀ p d, lists (inv_manifest (ob_inv o)) p d → ¬ below (js_folder J) p) →
  th_metadata Z L w l T J th_new (ob_inv o) (apply_evs (ob_trace o) s) = Some dn →
  th_after Z L E l T J S w s (Some idx) orc orcs rnd o th_new = (o', x', SOk) →
  ob_inv o' = ob_inv o ∧ (∀ p, ¬ below (js_folder J) p → apply_evs (ob_trace o') s !! p = apply_evs (ob_trace o) s !! p) ∧
  ∃ lines, th_buf x' !! inv_head (ob_inv o) = Some lines ∧
    ∀ cs p ps x f, inv_manifest (ob_inv o) !! cs = Some (p :: ps) → dn !! cs = None → function_for S idx cs f → ts_opens S p = true →
      apply_evs (ob_trace o) s !! p = Some x →
      ∃ res, (cs, res) ∈ lines ∧ tr_id res = tf_id f ∧
        match tf_run f (file_ext p) x with
        | Some y => tr_error res = "" ∧ apply_evs (ob_trace o') s !! (js_folder J +:+ "/" +:+ tr_file res) = Some y
        | None => tr_error res ≠ ""
        end.
Proof. intros HT HJ Hf Hs Hn Hw. by eapply after_extension. Qed.

(** Two sessions; the second adds an image. *)
Definition two := runt2 spread jthumb "meta/xml/thumbnails" (tools tool) (tools tool2) (images ["A"; "XB"]) (images ["A"; "XB"; "C"; "D"])
  [SAdd "A" "a.png" "content" true; SAdd "XB" "b.png" "content" true; SAdd "C" "c.txt" "content" true] [SAdd "D" "d.png" "content" true].
Definition thumbs (i : inventory) (s : storage) : gmap string tmeta := default ∅ (th_metadata zc lt wd [areas2] spread jthumb th_new i s).
Lemma jthumb_in : thumbs_in [areas2] jthumb "meta/xml/thumbnails".
Proof. apply (thumbs_area areas2 "thumbnail" "gzip" "metadata" "extensions/NNNN-thumbnail" "meta/xml"); [done|done|by vm_compute|apply clean_relb_true; by vm_compute]. Qed.
Example C72_example : ∃ s1 i2 l1 s2 i3 i4 o2 l2,
  (hex_hash (e_hash aenv) ∧ json_ok (λ _, True) (e_json aenv) jparse ∧ codec_ok zc ∧ lines_ok barless lt ∧ manifest_by aenv [areas2] ∧ suffix_name (tc_ext spread) ∧
   thumbs_in [areas2] jthumb "meta/xml/thumbnails" ∧ str_mem slash (js_name jthumb) = false) ∧
  (opened aenv (λ _, True) jparse zc lt barless [areas2] spread jthumb "meta/xml/thumbnails" s1 i2 l1 ∧
   tsession aenv zc lt barless [areas2] spread jthumb "meta/xml/thumbnails" (tools tool2) (images ["A"; "XB"; "C"; "D"]) s1 i2 s2 i3 o2 l2 ∧
   inv_manifest (ob_inv o2) !! dig "D" = Some ["v2/content/data/d.png"] ∧ function_for (tools tool2) (images ["A"; "XB"; "C"; "D"]) (dig "D") tool2 ∧
   ts_opens (tools tool2) "v2/content/data/d.png" = true ∧ dig "D" ∉ l1.*1 ∧ (∀ c r, (c, r) ∈ l1 → tr_digest r ≠ dig "D")) ∧
  thumbed aenv (λ _, True) jparse zc lt barless [areas2] spread jthumb "meta/xml/thumbnails" s2 i3 (l1 ++ l2) ∧ load_inventory (e_hash aenv) jparse s2 "" = LInv i4 [] ∧
  vorder_ok wd ∧ (l1 ++ l2).*1 = [dig "A"; dig "XB"; dig "D"; dig "C"] ∧ s2 !! "v2/content/meta/xml/thumbnails/v2/1/0/00001.png" = Some "thumb.png:D" ∧
  tm_error <$> thumbs i4 s2 !! dig "D" = Some "" ∧ tm_error <$> thumbs i4 s2 !! dig "XB" = Some "cannot create thumbnail file".
Proof.
  assert (match two with
    | Some (s1, i2, l1, (s2, i3, i4, o2, l2)) =>
        bool_decide (inv_manifest (ob_inv o2) !! dig "D" = Some ["v2/content/data/d.png"]) && bool_decide (dig "D" ∉ l1.*1) &&
        bool_decide (Forall (λ p : string * tres, tr_digest p.2 ≠ dig "D") l1) && bool_decide ((l1 ++ l2).*1 = [dig "A"; dig "XB"; dig "D"; dig "C"]) &&
        bool_decide (s2 !! "v2/content/meta/xml/thumbnails/v2/1/0/00001.png" = Some "thumb.png:D") &&
        bool_decide (tm_error <$> thumbs i4 s2 !! dig "D" = Some "") && bool_decide (tm_error <$> thumbs i4 s2 !! dig "XB" = Some "cannot create thumbnail file")
    | None => false
    end = true) as H by (vm_compute; reflexivity).
  destruct two as [[[[s1 i2] l1] [[[[s2 i3] i4] o2] l2]]|] eqn:E; [|discriminate]. unfold two in E. destruct (runt2_true _ _ _ _ _ _ _ _ _ _ _ _ _ _ _ _ _ E) as (R1 & R2 & R3 & R4).
  rewrite !andb_true_iff, !bool_decide_eq_true in H. destruct H as [[[[[[Q1 Q2] Q3] Q4] Q5] Q6] Q7]. rewrite stdpp.list.Forall_forall in Q3.
  exists s1, i2, l1, s2, i3, i4, o2, l2.
  split. { split; [apply hexh_ok|]. split; [apply jjson_ok|]. split; [exact zc_ok|]. split; [exact lt_ok|]. split; [exact aenv_by|]. split; [by vm_compute|]. split; [exact jthumb_in|by vm_compute]. }
  split.
  { split; [exact R1|]. split; [exact R2|]. split; [exact Q1|]. split; [exists "fmt/11", "image/png"; split; [by vm_compute|left; by vm_compute]|]. split; [done|]. split; [exact Q2|].
    intros c r Hin. exact (Q3 _ Hin). }
  split; [exact R3|]. split; [exact R4|]. split; [exact wd_ok|]. split; [exact Q4|]. split; [exact Q5|]. split; [exact Q6|exact Q7].
Qed.

(** A new object at the hook, the default storage of the extension. *)
Definition at_hook : option object := match ob_start "2024-01-01T00:00:00Z" "msg" "me" "mailto:me" false (open_object fresh0) with
  | (o1, SOk) => sopsb aenv [SAdd "A" "a.png" "content" true; SAdd "XB" "b.png" "content" true] o1
  | _ => None
  end.
Definition hook (r : N) (o : object) := th_after zc lt aenv [areas2] spread jthumb_ext (tools tool) wd store0 (Some (images ["A"; "XB"])) dflt (λ _, dflt) (λ _, r) o th_new.
Definition hook_done (o : object) := th_metadata zc lt wd [areas2] spread jthumb_ext th_new (ob_inv o) (apply_evs (ob_trace o) store0).
Lemma plain_v1 : CrashSpec.plain_name "v1".
Proof. by vm_compute. Qed.
Example C72_extension_example : ∃ o o' x' lines,
  (suffix_name (tc_ext spread) ∧ js_type jthumb_ext = "extension" ∧ clean_rel (js_folder jthumb_ext) ∧ clean_rel (js_storage jthumb_ext) ∧
   str_mem slash (js_name jthumb_ext) = false ∧ vorder_ok wd ∧ CrashSpec.plain_name (inv_head (ob_inv o)) ∧
   (∀ p d, lists (inv_manifest (ob_inv o)) p d → ¬ below (js_folder jthumb_ext) p) ∧ hook_done o = Some ∅ ∧ hook 31 o = (o', x', SOk)) ∧
  th_buf x' !! "v1" = Some lines ∧ lines.*1 = [dig "A"; dig "XB"] ∧
  apply_evs (ob_trace o') store0 !! "extensions/NNNN-thumbnail/data/v1/1/f/00001.png" = Some "thumb.png:A".
Proof.
  assert (match at_hook with
    | Some o => match hook 31 o with
                | (o', x', SOk) => bool_decide (fst <$> default [] (th_buf x' !! "v1") = [dig "A"; dig "XB"]) &&
                    bool_decide (apply_evs (ob_trace o') store0 !! "extensions/NNNN-thumbnail/data/v1/1/f/00001.png" = Some "thumb.png:A") &&
                    bool_decide (inv_head (ob_inv o) = "v1") &&
                    forallb (λ e : string * string, negb (String.prefix (js_folder jthumb_ext +:+ "/") e.1)) (listed (inv_manifest (ob_inv o))) &&
                    match hook_done o with Some m => bool_decide (map_to_list m = []) | None => false end
                | _ => false
                end
    | None => false
    end = true) as H by (vm_compute; reflexivity).
  destruct at_hook as [o|]; [|discriminate]. destruct (hook 31 o) as [[o' x'] []] eqn:E2; [|discriminate..].
  rewrite !andb_true_iff, !bool_decide_eq_true in H. destruct H as [[[[Q1 Q2] Q3] Q4] Q5].
  exists o, o', x', (default [] (th_buf x' !! "v1")).
  assert (CrashSpec.plain_name (inv_head (ob_inv o))) as Hp by (rewrite Q3; exact plain_v1).
  assert (∀ p d, lists (inv_manifest (ob_inv o)) p d → ¬ below (js_folder jthumb_ext) p) as Hb.
  { intros p d Hl%listed_spec%elem_of_list_In [r ->]. rewrite forallb_forall in Q4. apply Q4 in Hl. cbn [fst] in Hl. apply negb_true_iff in Hl.
    rewrite str_app_assoc in Hl. by rewrite prefix_app in Hl. }
  assert (hook_done o = Some ∅) as Hd.
  { destruct (hook_done o) as [m|]; [|discriminate]. apply bool_decide_eq_true, map_to_list_empty_iff in Q5. by rewrite Q5. }
  split.
  - split; [by vm_compute|]. split; [done|]. split; [apply clean_relb_true; by vm_compute|]. split; [apply clean_relb_true; by vm_compute|]. split; [by vm_compute|]. split; [exact wd_ok|].
    split; [exact Hp|]. split; [exact Hb|]. split; [exact Hd|exact E2].
  - split; [destruct (th_buf x' !! "v1"); [done|discriminate]|]. split; [exact Q1|exact Q2].
Qed.

(** Without SingleDirectory, which is the default, a random number below 16 of the 64 has one hexadecimal digit: the hook panics. *)
Theorem C72_panic_refuted : ∃ o r f, (r < 64)%N ∧ function_for (tools tool) (images ["A"; "XB"]) (dig "A") f ∧ lists (inv_manifest (ob_inv o)) "v1/content/data/a.png" (dig "A") ∧
  tf_run f ".png" "A" ≠ None ∧ (hook r o).2 = SPanic.
Proof.
  assert (match at_hook with
    | Some o => bool_decide (inv_manifest (ob_inv o) !! dig "A" = Some ["v1/content/data/a.png"]) && match (hook 15 o).2 with SPanic => true | _ => false end
    | None => false
    end = true) as H by (vm_compute; reflexivity).
  destruct at_hook as [o|]; [|discriminate]. apply andb_prop in H as [H1 H2]. apply bool_decide_eq_true in H1.
  exists o, 15%N, tool. split; [lia|]. split; [exists "fmt/11", "image/png"; split; [by vm_compute|left; by vm_compute]|].
  split; [exists ["v1/content/data/a.png"]; split; [exact H1|left]|]. split; [done|]. destruct (hook 15 o) as [[? ?] []]; [discriminate..|reflexivity].
Qed.
(** The file that the report names for the source does not exist: the path of the area is put before it twice. *)
Theorem C72_file_refuted : ∃ s i lines i' r m,
  thumbed aenv (λ _, True) jparse zc lt barless [areas2] spread jthumb "meta/xml/thumbnails" s i lines ∧ load_inventory (e_hash aenv) jparse s "" = LInv i' [] ∧
  th_metadata zc lt wd [areas2] spread jthumb th_new i' s = Some r ∧ r !! dig "D" = Some m ∧ tm_error m = "" ∧
  ∀ before, s !! (before +:+ tm_file m) = None.
Proof.
  assert (match two with
    | Some (s1, i2, l1, (s2, i3, i4, o2, l2)) =>
        match th_metadata zc lt wd [areas2] spread jthumb th_new i4 s2 with
        | Some r => match r !! dig "D" with
                    | Some m => bool_decide (tm_error m = "") && forallb (λ e : string * string, negb (bool_decide (list_ascii_of_string (tm_file m) `suffix_of` list_ascii_of_string e.1))) (map_to_list s2)
                    | None => false
                    end
        | None => false
        end
    | None => false
    end = true) as H by (vm_compute; reflexivity).
  destruct two as [[[[s1 i2] l1] [[[[s2 i3] i4] o2] l2]]|] eqn:E; [|discriminate]. unfold two in E. destruct (runt2_true _ _ _ _ _ _ _ _ _ _ _ _ _ _ _ _ _ E) as (_ & _ & R3 & R4).
  destruct (th_metadata _ _ _ _ _ _ _ i4 s2) as [r|] eqn:Er; [|discriminate]. destruct (r !! dig "D") as [m|] eqn:Em; [|discriminate].
  apply andb_prop in H as [H1 H2]. apply bool_decide_eq_true in H1. exists s2, i3, (l1 ++ l2), i4, r, m. split; [exact R3|]. split; [exact R4|]. split; [exact Er|]. split; [exact Em|]. split; [exact H1|].
  intros b. destruct (s2 !! (b +:+ tm_file m)) as [x|] eqn:Ex; [|done]. apply elem_of_map_to_list, elem_of_list_In in Ex. rewrite forallb_forall in H2. apply H2 in Ex. cbn [fst] in Ex.
  apply negb_true_iff in Ex. apply bool_decide_eq_false in Ex. destruct Ex. rewrite list_ascii_app. by eexists.
Qed.
(** A failure is final: in a later session the function would work, but the content gets no thumbnail. *)
Theorem C72_failure_final_refuted : ∃ s i old s' i' o lines x,
  opened aenv (λ _, True) jparse zc lt barless [areas2] spread jthumb "meta/xml/thumbnails" s i old ∧
  tsession aenv zc lt barless [areas2] spread jthumb "meta/xml/thumbnails" (tools tool2) (images ["A"; "XB"; "C"; "D"]) s i s' i' o lines ∧
  inv_manifest (ob_inv o) !! dig "XB" = Some ["v1/content/data/b.png"] ∧ function_for (tools tool2) (images ["A"; "XB"; "C"; "D"]) (dig "XB") tool2 ∧
  s' !! "v1/content/data/b.png" = Some x ∧ is_Some (tf_run tool2 ".png" x) ∧ (∀ res, (dig "XB", res) ∈ old ++ lines → tr_error res ≠ "").
Proof.
  assert (match two with
    | Some (s1, i2, l1, (s2, i3, i4, o2, l2)) =>
        bool_decide (inv_manifest (ob_inv o2) !! dig "XB" = Some ["v1/content/data/b.png"]) && bool_decide (s2 !! "v1/content/data/b.png" = Some "XB") &&
        forallb (λ p : string * tres, negb (bool_decide (p.1 = dig "XB")) || negb (bool_decide (tr_error p.2 = ""))) (l1 ++ l2)
    | None => false
    end = true) as H by (vm_compute; reflexivity).
  destruct two as [[[[s1 i2] l1] [[[[s2 i3] i4] o2] l2]]|] eqn:E; [|discriminate]. unfold two in E. destruct (runt2_true _ _ _ _ _ _ _ _ _ _ _ _ _ _ _ _ _ E) as (R1 & R2 & _ & _).
  rewrite !andb_true_iff, !bool_decide_eq_true in H. destruct H as [[H1 H2] H3].
  exists s1, i2, l1, s2, i3, o2, l2, "XB". split; [exact R1|]. split; [exact R2|]. split; [exact H1|]. split; [exists "fmt/11", "image/png"; split; [by vm_compute|left; by vm_compute]|]. split; [exact H2|].
  split; [by eexists|]. intros res Hin%elem_of_list_In. rewrite forallb_forall in H3. apply H3 in Hin. cbn [fst snd] in Hin.
  rewrite bool_decide_true in Hin by done. cbn [negb orb] in Hin. apply negb_true_iff, bool_decide_eq_false in Hin. exact Hin.
Qed.
(** With the type written Area the thumbnails are stored but the side file is not found: they are made again with every session. *)
Definition twice := runt2 single jthumb_upper "meta/xml/metadata" (tools tool) (tools tool) (images ["A"]) (images ["A"]) [SAdd "A" "a.png" "content" true]
  [SAdd "D" "d.txt" "content" true].
Theorem C72_type_case_refuted : ∃ s i lines,
  thumbed aenv (λ _, True) jparse zc lt barless [areas2] single jthumb_upper "meta/xml/metadata" s i lines ∧ (∀ c res, (c, res) ∈ lines → tr_error res = "") ∧ ¬ NoDup lines.*1.
Proof.
  assert (match twice with
    | Some (s1, i2, l1, (s2, i3, i4, o2, l2)) => bool_decide (Forall (λ p : string * tres, tr_error p.2 = "") (l1 ++ l2)) && bool_decide ((l1 ++ l2).*1 = [dig "A"; dig "A"])
    | None => false
    end = true) as H by (vm_compute; reflexivity).
  destruct twice as [[[[s1 i2] l1] [[[[s2 i3] i4] o2] l2]]|] eqn:E; [|discriminate]. unfold twice in E. destruct (runt2_true _ _ _ _ _ _ _ _ _ _ _ _ _ _ _ _ _ E) as (_ & _ & R3 & _).
  apply andb_prop in H as [H1 H2]. apply bool_decide_eq_true in H1, H2. rewrite stdpp.list.Forall_forall in H1. exists s2, i3, (l1 ++ l2). split; [exact R3|]. split; [intros c res Hin; exact (H1 _ Hin)|].
  rewrite H2. clear. intros [H _]%stdpp.list.NoDup_cons. apply H. left.
Qed.

Print Assumptions C72_made_partial.
Print Assumptions C72_once_partial.
Print Assumptions C72_report_partial.
Print Assumptions C72_extension_partial.
Print Assumptions C72_example.
Print Assumptions C72_extension_example.
Print Assumptions C72_panic_refuted.
Print Assumptions C72_file_refuted.
Print Assumptions C72_failure_final_refuted.
Print Assumptions C72_type_case_refuted.
