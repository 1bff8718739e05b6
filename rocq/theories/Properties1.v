(** Properties C01 - C14: histories of calls on an object handle. *)
From Coq Require Import Ascii.
From stdpp Require Import base list strings gmap.
From Coq Require Import ZArith Lia.
From Verif Require Import GoStr PathModel InventoryModel InventorySpec ObjectModel ObjectSpec Fixtures
  InventoryProofs ObjectProofs LookupProofs AddProofs RunProofs ClaimsInventory ClaimsInventory2.

Lemma fresh0_contiguous : contiguous fresh0 0.
Proof.
  split; [done|]. intros ver. split.
  - intros [v Hv]. simpl in Hv. by rewrite lookup_empty in Hv.
  - intros (k & Hk & _). lia.
Qed.
Lemma contiguous_newest i n : contiguous i n → head_newest i.
Proof. intros H. apply head_newest_is. exists n. by apply contiguous_head_is. Qed.
Lemma inv1_newest : head_newest inv1.
Proof. destruct (contiguous_run xenv fresh0 0 (update [SAdd "x" "a" "" true; SAdd "y" "b/c" "" true]) fresh0_contiguous)
  as (m & _ & H). by eapply contiguous_newest. Qed.
Lemma inv2_newest : head_newest inv2.
Proof. apply (head_newest_run xenv inv1 (update [SAdd "z" "a" "" true; SAdd "w" "d" "" false]) inv1_newest). Qed.
Lemma inv3_newest : head_newest inv3.
Proof. apply (head_newest_run xenv inv2 (update [SDelete "b/c" "sy"]) inv2_newest). Qed.
Lemma inv3_started : head_newest (ob_inv (started inv3)).
Proof. apply (head_newest_run xenv inv3 [(dflt, OStart "2024-02-02" "next" "me" "mailto:me" false)] inv3_newest). Qed.

(** * C01 *)
Theorem C01_versions_immutable :
  ∀ E i ops ver v, head_newest i → inv_versions i !! ver = Some v →
    inv_versions (ob_inv (orun E ops (open_object i))) !! ver = Some v.
Proof. exact versions_immutable. Qed.
Example C01_example :
  head_newest inv2 ∧ (∃ v, inv_versions inv2 !! "v1" = Some v ∧ v_state v !! "sx" = Some ["a"]) ∧
  (∃ v, inv_versions inv3 !! "v1" = Some v ∧ v_state v !! "sx" = Some ["a"]) ∧ inv_head inv3 = "v3".
Proof. split; [apply inv2_newest|]. do 2 (split; [eexists; split; vm_compute; reflexivity|]). by vm_compute. Qed.
Print Assumptions C01_versions_immutable.

(** * C02 *)
Theorem C02_manifest_grows :
  ∀ E i ops d ps, inv_manifest i !! d = Some ps →
    ∃ ext, inv_manifest (ob_inv (orun E ops (open_object i))) !! d = Some (ps ++ ext).
Proof.
  intros E i ops d ps H. apply (grows_run E (inv_manifest i) ops (open_object i)); [|done].
  intros e qs He. exists []. by rewrite app_nil_r.
Qed.
Example C02_example :
  inv_manifest inv1 !! "sx" = Some ["v1/content/a"] ∧
  inv_manifest (after (update [SAdd "x" "q" "" false]) inv1) !! "sx" = Some (["v1/content/a"] ++ ["v2/content/q"]).
Proof. by vm_compute. Qed.
Print Assumptions C02_manifest_grows.

(** * C03 *)
Theorem C03_always_resolvable :
  ∀ E i ops,
    (∀ d ps, inv_manifest i !! d = Some ps → ps ≠ []) → resolvable i →
    let i' := ob_inv (orun E ops (open_object i)) in
    resolvable i' ∧
    ∀ orc ver, oracle_ok orc → is_Some (inv_versions i' !! ver) → ver ≠ "" → ver ≠ "latest" →
      ∃ calls, iterate_state_files orc i' ver = inl calls ∧
        ∀ p d, recorded i' ver p d →
          ∃ stored logical,
            (stored, logical, d) ∈ calls ∧ p ∈ logical ∧ stored ≠ [] ∧ inv_manifest i' !! d = Some stored.
Proof. exact always_resolvable. Qed.
(** From a fresh object. *)
Theorem C03_from_fresh_object :
  ∀ E id typ alg fixalgs ops, resolvable (ob_inv (orun E ops (open_object (new_inventory id typ alg fixalgs)))).
Proof.
  intros E id typ alg fixalgs ops. apply always_resolvable.
  - intros d ps H. simpl in H. by rewrite lookup_empty in H.
  - intros ver v d H. simpl in H. by rewrite lookup_empty in H.
Qed.
Example C03_example :
  iterate_state_files dflt inv3 "v1" = inl [(["v1/content/a"], ["a"], "sx"); (["v1/content/b/c"], ["b/c"], "sy")].
Proof. by vm_compute. Qed.
Print Assumptions C03_always_resolvable.
Print Assumptions C03_from_fresh_object.

(** * C04 *)
Theorem C04_new_version_is_copy :
  ∀ E i ops now msg un ua echo, head_newest i →
    let o := orun E ops (open_object i) in
    ∃ o', ob_start now msg un ua echo o = (o', SOk) ∧
      (∀ p d, occ (ob_inv o') p d = occ (ob_inv o) p d) ∧
      inv_versions (ob_inv o) !! inv_head (ob_inv o') = None ∧
      (∃ v, inv_versions (ob_inv o') !! inv_head (ob_inv o') = Some v ∧
            v_created v = now ∧ v_message v = msg ∧ v_uname v = un ∧ v_uaddr v = ua) ∧
      (∀ ver, ver ≠ inv_head (ob_inv o') → inv_versions (ob_inv o') !! ver = inv_versions (ob_inv o) !! ver) ∧
      inv_manifest (ob_inv o') = inv_manifest (ob_inv o) ∧
      inv_writeable (ob_inv o') = true ∧ ob_trace o' = ob_trace o.
Proof. exact start_copies. Qed.
Example C04_example :
  head_newest inv2 ∧ occ inv2 "a" "sz" = 1 ∧ occ (ob_inv (started inv2)) "a" "sz" = 1 ∧
  inv_head (ob_inv (started inv2)) = "v3".
Proof. split; [apply inv2_newest|]. by vm_compute. Qed.
Print Assumptions C04_new_version_is_copy.

(** * C05 *)
Theorem C05_numbering_contiguous :
  ∀ E i n ops, contiguous i n → ∃ m, (n <= m)%N ∧ contiguous (ob_inv (orun E ops (open_object i))) m.
Proof. exact contiguous_run. Qed.
Theorem C05_start_adds_one :
  ∀ n now msg un ua echo o,
    contiguous (ob_inv o) n → contiguous (ob_inv (ob_start now msg un ua echo o).1) (n + 1).
Proof. exact contiguous_start. Qed.
Theorem C05_fresh_object :
  ∀ E id typ alg fixalgs ops, ∃ m, contiguous (ob_inv (orun E ops (open_object (new_inventory id typ alg fixalgs)))) m.
Proof.
  intros. destruct (contiguous_run E (new_inventory id typ alg fixalgs) 0 ops) as (m & _ & H); [|eauto].
  split; [done|]. intros ver. split.
  - intros [v Hv]. simpl in Hv. by rewrite lookup_empty in Hv.
  - intros (k & Hk & _). lia.
Qed.
Example C05_example : version_name 0 12 = "v12" ∧ version_name 3 12 = "v0012" ∧ inv_head inv3 = version_name 0 3.
Proof. by vm_compute. Qed.
(** With padding the name gets longer than the agreed width when the numbers run out. *)
Theorem C05_padding_width_refuted :
  ∃ i, contiguous i 99 ∧ String.length (inv_head i) = 4 ∧
    String.length (inv_head (ob_inv (ob_start "t" "m" "u" "a" false (open_object i)).1)) = 5.
Proof.
  set (step := λ i, (new_version "t" "m" "u" "a" i).1).
  set (base := Inventory "id" "" "sha512" "" "" ∅ ∅ ∅ [] 2 false false).
  exists (Nat.iter 99 step base).
  assert (∀ n, contiguous (Nat.iter n step base) (N.of_nat n)) as H.
  { induction n as [|n IH].
    - split; [done|]. intros ver. split.
      + intros [v Hv]. simpl in Hv. by rewrite lookup_empty in Hv.
      + intros (k & Hk & _). lia.
    - rewrite Nat2N.inj_succ, <- N.add_1_r. apply contiguous_new, IH. }
  split; [apply (H 99)|]. by vm_compute.
Qed.
Print Assumptions C05_numbering_contiguous.
Print Assumptions C05_start_adds_one.
Print Assumptions C05_fresh_object.
Print Assumptions C05_padding_width_refuted.

(** * C06 *)
Theorem C06_delete_exact :
  ∀ f i v, inv_versions i !! inv_head i = Some v →
    ∃ i' v', delete_file f i = (i', SOk) ∧ inv_versions i' !! inv_head i' = Some v' ∧
      (∀ p d, lists (v_state v') p d ↔ lists (v_state v) p d ∧ p ≠ f) ∧
      (∀ p d, p ≠ f → times (v_state v') p d = times (v_state v) p d) ∧
      (∀ d, is_Some (v_state v' !! d) ↔ is_Some (v_state v !! d)) ∧
      (inv_modified i' = true ↔ inv_modified i = true ∨ ∃ d, lists (v_state v) f d) ∧
      (∀ ver, ver ≠ inv_head i → inv_versions i' !! ver = inv_versions i !! ver) ∧
      inv_manifest i' = inv_manifest i ∧ inv_head i' = inv_head i ∧ inv_fixity i' = inv_fixity i.
Proof. exact delete_file_spec. Qed.
(** The same through the object handle, where the caller passes the digest of the file. *)
Theorem C06_object_delete_exact :
  ∀ orc f d o,
    oracle_ok orc → head_newest (ob_inv o) → (inv_padding (ob_inv o) <= 0)%Z → inv_writeable (ob_inv o) = true →
    d ≠ "" → current (ob_inv o) f d → single (ob_inv o) f →
    ∃ o', ob_delete orc f d o = (o', SOk) ∧
      (∀ e, occ (ob_inv o') f e = 0) ∧
      (∀ p e, p ≠ f → occ (ob_inv o') p e = occ (ob_inv o) p e) ∧
      inv_modified (ob_inv o') = true ∧
      (∀ ver, ver ≠ inv_head (ob_inv o) → inv_versions (ob_inv o') !! ver = inv_versions (ob_inv o) !! ver) ∧
      inv_manifest (ob_inv o') = inv_manifest (ob_inv o).
Proof. exact ob_delete_exact. Qed.
Example C06_example :
  oracle_ok dflt ∧ head_newest (ob_inv (started inv2)) ∧ inv_writeable (ob_inv (started inv2)) = true ∧
  current (ob_inv (started inv2)) "b/c" "sy" ∧ single (ob_inv (started inv2)) "b/c" ∧
  absentb (ob_inv (ob_delete dflt "b/c" "sy" (started inv2)).1) "b/c" = true.
Proof.
  split; [apply dflt_ok|].
  split; [apply (head_newest_run xenv inv2 [(dflt, OStart "2024-02-02" "next" "me" "mailto:me" false)] inv2_newest)|].
  split; [by vm_compute|]. split; [apply currentb_true; by vm_compute|]. split; [apply (onlyb_single _ _ "sy"); by vm_compute|]. by vm_compute.
Qed.
Print Assumptions C06_delete_exact.
Print Assumptions C06_object_delete_exact.

(** * C07 *)
Theorem C07_rename_exact :
  ∀ orc a b d o,
    oracle_ok orc → head_newest (ob_inv o) → (inv_padding (ob_inv o) <= 0)%Z → inv_writeable (ob_inv o) = true →
    d ≠ "" → current (ob_inv o) a d → single (ob_inv o) a → a ≠ b → (∀ e, ¬ current (ob_inv o) b e) →
    ∃ o', ob_rename orc a b d o = (o', SOk) ∧
      (∀ e, occ (ob_inv o') b e = occ (ob_inv o) a e) ∧
      (∀ e, occ (ob_inv o') a e = 0) ∧
      (∀ p e, p ≠ a → p ≠ b → occ (ob_inv o') p e = occ (ob_inv o) p e) ∧
      inv_modified (ob_inv o') = true ∧
      (∀ ver, ver ≠ inv_head (ob_inv o) → inv_versions (ob_inv o') !! ver = inv_versions (ob_inv o) !! ver) ∧
      inv_manifest (ob_inv o') = inv_manifest (ob_inv o).
Proof. exact ob_rename_exact. Qed.
Example C07_example :
  current (ob_inv (started inv2)) "b/c" "sy" ∧ single (ob_inv (started inv2)) "b/c" ∧
  (∀ e, ¬ current (ob_inv (started inv2)) "e" e) ∧
  currentb (ob_inv (ob_rename dflt "b/c" "e" "sy" (started inv2)).1) "e" "sy" = true.
Proof.
  split; [apply currentb_true; by vm_compute|]. split; [apply (onlyb_single _ _ "sy"); by vm_compute|].
  split; [by apply absentb_true|]. by vm_compute.
Qed.
(** The second half of the property is false: renaming onto a path that is present merges two contents. *)
Theorem C07_rename_collision_refuted :
  ∃ o o' a b d1 d2, ob_rename dflt a b d1 o = (o', SOk) ∧ d1 ≠ d2 ∧ single (ob_inv o) a ∧ single (ob_inv o) b ∧
    current (ob_inv o) a d1 ∧ current (ob_inv o) b d2 ∧
    current (ob_inv o') b d1 ∧ current (ob_inv o') b d2.
Proof.
  exists (started inv2), (ob_rename dflt "a" "d" "sz" (started inv2)).1, "a", "d", "sz", "sw".
  split; [apply pair_status; by vm_compute|]. split; [done|]. split; [by apply (onlyb_single _ _ "sz")|].
  split; [by apply (onlyb_single _ _ "sw")|].
  repeat split; by apply currentb_true.
Qed.
Print Assumptions C07_rename_exact.
Print Assumptions C07_rename_collision_refuted.

(** * C08 *)
(** Missing: paths that are absent from the head but whose newest record has the same digest, see the next theorem. *)
Theorem C08_added_file_present_partial :
  ∀ E orc data path area dedup o np d,
    oracle_ok orc → addable E o data path area np d →
    (inv_padding (ob_inv o) <= 0)%Z ∨ (∀ ver e, ¬ recorded (ob_inv o) ver np e) →
    newest_single (ob_inv o) np →
    (newest_record (ob_inv o) np d → ∃ e, current (ob_inv o) np e) →
    ∃ o', ob_add E orc data path area dedup o = (o', SOk) ∧
      current (ob_inv o') np d ∧
      (∀ p e, p ≠ np → occ (ob_inv o') p e = occ (ob_inv o) p e).
Proof. exact add_present. Qed.
(** In the missing case the file is always lost although the call succeeds, with and without de-duplication. *)
Theorem C08_deleted_then_readded_is_lost :
  ∀ E orc data path area dedup o np d,
    oracle_ok orc → addable E o data path area np d → (inv_padding (ob_inv o) <= 0)%Z →
    newest_single (ob_inv o) np → newest_record (ob_inv o) np d → (∀ e, ¬ current (ob_inv o) np e) →
    ∃ o', ob_add E orc data path area dedup o = (o', SOk) ∧ ∀ e, ¬ current (ob_inv o') np e.
Proof. exact add_lost. Qed.
Lemma addable_x i data path d :
  head_newest (ob_inv (started i)) → inv_head (ob_inv (started i)) ≠ "" → inv_writeable (ob_inv (started i)) = true →
  inv_alg (ob_inv (started i)) = "sha512" → inv_fixalgs (ob_inv (started i)) = ["md5"] →
  d = "s" +:+ data → to_lower d = d → addable xenv (started i) data path "" path d.
Proof.
  intros Hn Hh Hw Ha Hf Hd Hl. constructor; auto; simpl; eauto.
  - rewrite Ha. by rewrite Hd.
  - by rewrite Hd.
  - rewrite Hf. intros a Hin. apply elem_of_list_singleton in Hin as ->. simpl. eauto.
Qed.
Example C08_example : (* a path never seen, and a changed path *)
  addable xenv (started inv3) "new" "n" "" "n" "snew" ∧ addable xenv (started inv3) "y2" "a" "" "a" "sy2" ∧
  currentb (ob_inv (ob_add xenv dflt "new" "n" "" true (started inv3)).1) "n" "snew" = true ∧
  currentb (ob_inv (ob_add xenv dflt "y2" "a" "" false (started inv3)).1) "a" "sy2" = true.
Proof.
  split; [apply addable_x; [apply inv3_started|by vm_compute..]|].
  split; [apply addable_x; [apply inv3_started|by vm_compute..]|]. by vm_compute.
Qed.
Theorem C08_added_file_present_refuted :
  ∃ E orc data path area dedup o o' np d,
    oracle_ok orc ∧ addable E o data path area np d ∧ ob_add E orc data path area dedup o = (o', SOk) ∧
    ∀ e, ¬ current (ob_inv o') np e.
Proof.
  exists xenv, dflt, "y", "b/c", "", true, (started inv3), (ob_add xenv dflt "y" "b/c" "" true (started inv3)).1, "b/c", "sy".
  split; [apply dflt_ok|]. split; [apply addable_x; [apply inv3_started|by vm_compute..]|]. split; [apply pair_status; by vm_compute|].
  by apply absentb_true.
Qed.
Print Assumptions C08_added_file_present_partial.
Print Assumptions C08_deleted_then_readded_is_lost.
Print Assumptions C08_added_file_present_refuted.

(** * C09 *)
(** Missing: histories with a de-duplicated add (or copy) over a path that currently has other content, and renames onto
    a present path. *)
Theorem C09_one_content_per_path_partial :
  ∀ E i ops,
    nonempty_hash E → head_newest i → (inv_padding i <= 0)%Z →
    (∀ ver v, inv_versions i !! ver = Some v → unique_paths (v_state v)) →
    guarded E (no_collision E) oracle_ok ops (open_object i) →
    ∀ ver v, inv_versions (ob_inv (orun E ops (open_object i))) !! ver = Some v → unique_paths (v_state v).
Proof. exact unique_run. Qed.
(** Histories of non-de-duplicated adds, deletions, echo deletions and version starts satisfy the guard. *)
Definition plain_call (orc : oracle) (op : sop) : Prop :=
  oracle_ok orc ∧ match op with SAdd _ _ _ false | SAddReader _ _ _ | SDelete _ _ => True | _ => False end.
Theorem C09_plain_histories :
  ∀ E i ops,
    nonempty_hash E → head_newest i → (inv_padding i <= 0)%Z →
    (∀ ver v, inv_versions i !! ver = Some v → unique_paths (v_state v)) →
    all_ops plain_call oracle_ok ops →
    ∀ ver v, inv_versions (ob_inv (orun E ops (open_object i))) !! ver = Some v → unique_paths (v_state v).
Proof.
  intros E i ops HE Hn Hp Hu Hall. apply unique_run; auto.
  pose proof (all_guarded E plain_call oracle_ok oracle_ok_shift ops (open_object i) Hall) as H. revert H.
  apply guarded_mono; [|done]. intros orc op o [Ho Hop]. split; [done|].
  by destruct op as [? ? ? []| | | |].
Qed.
Example C09_example :
  all_ops plain_call oracle_ok (update [SAdd "x" "a" "" false; SAdd "x2" "a" "" false; SDelete "a" "sx2"]) ∧
  uniqueb (default ∅ (head_state (after (update [SAdd "x" "a" "" false; SAdd "x2" "a" "" false]) fresh0))) = true.
Proof. split; [|by vm_compute]. repeat constructor; done. Qed.
Theorem C09_dedup_update_refuted :
  ∃ ops v d1 d2, d1 ≠ d2 ∧ let i := after ops fresh0 in
    inv_versions i !! inv_head i = Some v ∧ lists (v_state v) "a" d1 ∧ lists (v_state v) "a" d2.
Proof.
  exists (update [SAdd "x" "a" "" true; SAdd "y" "b" "" true] ++ update [SAdd "y" "a" "" true]).
  eexists _, "sx", "sy". split; [done|]. split; [vm_compute; reflexivity|].
  split; (eexists; split; [vm_compute; reflexivity|]); set_solver.
Qed.
Print Assumptions C09_one_content_per_path_partial.
Print Assumptions C09_plain_histories.
Print Assumptions C09_dedup_update_refuted.

(** * C10 *)
(** Missing: adding twice to the same content path in one version, and adding under several logical names at once. *)
Theorem C10_one_content_per_content_path_partial :
  ∀ E i ops, unique_paths (inv_manifest i) →
    guarded E (fresh_content_path E) (λ _, True) ops (open_object i) →
    unique_paths (inv_manifest (ob_inv (orun E ops (open_object i)))).
Proof. exact content_unique_run. Qed.
Example C10_example :
  guarded xenv (fresh_content_path xenv) (λ _, True)
    (update [SAdd "x" "a" "" true; SAdd "x" "b" "" true; SAdd "y" "c" "" false]) (open_object fresh0).
Proof.
  apply (guardedb_sound xenv (λ s o,
    match s with
    | SAdd _ p _ _ => man_freshb (ob_inv o) (manifest_name (ob_inv o) p)
    | SAddReader _ _ _ => false
    | _ => true
    end)).
  - intros orc s o _. destruct s; simpl; try done. intros H m Hm. injection Hm as <-. by apply man_freshb_true.
  - by apply (update_ok (λ _, True)).
  - by vm_compute.
Qed.
Theorem C10_same_path_twice_refuted :
  ∃ ops p d1 d2, d1 ≠ d2 ∧ lists (inv_manifest (after ops fresh0)) p d1 ∧ lists (inv_manifest (after ops fresh0)) p d2.
Proof.
  exists (update [SAdd "x" "a" "" false; SAdd "y" "a" "" false]), "v1/content/a", "sx", "sy".
  split; [done|]. split; (eexists; split; [vm_compute; reflexivity|]); set_solver.
Qed.
Theorem C10_several_names_refuted :
  ∃ ops p d, times (inv_manifest (after ops fresh0)) p d = 2.
Proof. exists (update [SAddReader "x" ["a"; "b"] ""]), "v1/content/a", "sx". by vm_compute. Qed.
Print Assumptions C10_one_content_per_content_path_partial.
Print Assumptions C10_same_path_twice_refuted.
Print Assumptions C10_several_names_refuted.

(** * C11 *)
(** With de-duplication.  Missing: without de-duplication, see the refutation. *)
Theorem C11_no_change_writes_nothing_partial :
  ∀ E i files now msg un ua echo h orc1 orc2 orc3,
    head_newest i → inv_head i ≠ "" → (inv_padding i <= 0)%Z →
    Forall (λ x : oracle * (string * string * string), oracle_ok x.1) files →
    Forall (λ x : oracle * (string * string * string), is_current E i x.2) files →
    ob_trace (orun E ([(orc1, OStart now msg un ua echo)] ++ (re_add <$> files) ++ [(orc2, OEnd h); (orc3, OClose)])
                (open_object i)) = [].
Proof. exact no_change_writes_nothing. Qed.
Example C11_example :
  head_newest inv3 ∧ inv_head inv3 ≠ "" ∧ is_current xenv inv3 ("z", "a", "") ∧ is_current xenv inv3 ("w", "d", "").
Proof.
  assert (∀ data p d, e_hash xenv (inv_alg inv3) data = Some d → d ≠ "" → currentb inv3 p d = true →
            onlyb inv3 p d = true → is_current xenv inv3 (data, p, "")) as H.
  { intros data p d H1 H2 H3 H4. exists p, d. split; [reflexivity|]. split; [by exists p|]. split; [exact H1|].
    split; [exact H2|]. split; [by apply currentb_true|by apply (onlyb_single _ _ d)]. }
  split; [apply inv3_newest|]. split; [by vm_compute|].
  split; [apply (H "z" "a" "sz")|apply (H "w" "d" "sw")]; by vm_compute.
Qed.
(** Without de-duplication a content file is written although nothing changed, and no inventory mentions it. *)
Theorem C11_without_dedup_refuted :
  ∃ i ops, is_current xenv i ("x", "a", "") ∧ ops = update [SAdd "x" "a" "" false] ∧
    ob_trace (orun xenv ops (open_object i)) = write_file "v2/content/a" "x".
Proof.
  exists (after (update [SAdd "x" "a" "" true]) (new_inventory "id" "" "sha512" [])), (update [SAdd "x" "a" "" false]).
  split; [|split; [done|by vm_compute]].
  exists "a", "sx". split; [reflexivity|]. split; [by exists "a"|]. split; [by vm_compute|]. split; [done|].
  split; [apply currentb_true|apply (onlyb_single _ _ "sx")]; by vm_compute.
Qed.
Print Assumptions C11_no_change_writes_nothing_partial.
Print Assumptions C11_without_dedup_refuted.

(** * C12 *)
(** Every padded inventory and every recorded path is a counterexample. *)
Theorem C12_padded_update_fails :
  ∀ E orc data path area dedup o np d,
    oracle_ok orc → addable E o data path area np d → (0 < inv_padding (ob_inv o))%Z →
    (∃ ver e, recorded (ob_inv o) ver np e) →
    ∃ o' msg, ob_add E orc data path area dedup o = (o', SErr msg).
Proof. exact padded_add_fails. Qed.
(** Padded objects: new paths work. Missing: paths that occur in some version. *)
Theorem C12_padded_new_path_partial :
  ∀ E orc data path area dedup o np d,
    oracle_ok orc → addable E o data path area np d → (∀ ver e, ¬ recorded (ob_inv o) ver np e) →
    ∃ o', ob_add E orc data path area dedup o = (o', SOk) ∧ current (ob_inv o') np d.
Proof.
  intros E orc data path area dedup o np d Ho Ha Hr.
  destruct (add_present E orc data path area dedup o np d) as (o' & H1 & H2 & _); eauto.
  - intros d1 d2 (ver & H)%newest_recorded. by apply Hr in H.
  - intros (ver & H)%newest_recorded. by apply Hr in H.
Qed.
Definition padded0 : inventory := Inventory "id" "" "sha512" "" "" ∅ ∅ ∅ ["md5"] 2 false false.
Definition padded1 : inventory := after (update [SAdd "x" "a" "" true]) padded0.
Lemma padded1_newest : head_newest padded1.
Proof.
  destruct (contiguous_run xenv padded0 0 (update [SAdd "x" "a" "" true])) as (m & _ & H); [|by eapply contiguous_newest].
  split; [done|]. intros ver. split; [intros [v Hv]; simpl in Hv; by rewrite lookup_empty in Hv|intros (k & Hk & _); lia].
Qed.
Lemma padded1_started : head_newest (ob_inv (started padded1)).
Proof. apply (head_newest_run xenv padded1 [(dflt, OStart "2024-02-02" "next" "me" "mailto:me" false)] padded1_newest). Qed.
Example C12_example :
  inv_head padded1 = "v001" ∧ addable xenv (started padded1) "y" "a" "" "a" "sy" ∧
  recorded (ob_inv (started padded1)) "v001" "a" "sx" ∧
  (ob_add xenv dflt "y" "a" "" true (started padded1)).2 = SErr "could not get checksum".
Proof.
  split; [done|]. split; [apply addable_x; [apply padded1_started|by vm_compute..]|].
  split; [|by vm_compute]. eexists. split; [vm_compute; reflexivity|]. eexists. split; [vm_compute; reflexivity|].
  set_solver.
Qed.
Print Assumptions C12_padded_update_fails.
Print Assumptions C12_padded_new_path_partial.

(** * C13 *)
Theorem C13_fixity_recorded :
  ∀ E orc data exts m o o',
    add_reader E orc data exts m o = (o', SOk) →
    (∀ alg, alg ∈ inv_fixalgs (ob_inv o) → alg ≠ inv_alg (ob_inv o) →
       ∃ fd, e_hash E alg data = Some fd ∧ fixity_lists (ob_inv o') alg m fd) ∧
    (∀ alg fd, fixity_times (ob_inv o) alg m fd <= 1 → fixity_times (ob_inv o') alg m fd <= 1) ∧
    (∀ alg p fd, p ≠ m → fixity_times (ob_inv o') alg p fd = fixity_times (ob_inv o) alg p fd) ∧
    (∀ alg p fd, fixity_lists (ob_inv o) alg p fd → fixity_lists (ob_inv o') alg p fd).
Proof. exact fixity_recorded. Qed.
Example C13_example :
  (add_reader xenv dflt "q" ["n"] "v3/content/n" (started inv2)).2 = SOk ∧
  inv_fixalgs (ob_inv (started inv2)) = ["md5"] ∧
  map_to_list <$> inv_fixity (ob_inv (add_reader xenv dflt "q" ["n"] "v3/content/n" (started inv2)).1) !! "md5"
    = Some [("mx", ["v1/content/a"]); ("mz", ["v2/content/a"]); ("mq", ["v3/content/n"]); ("my", ["v1/content/b/c"]);
            ("mw", ["v2/content/d"])].
Proof. by vm_compute. Qed.
Print Assumptions C13_fixity_recorded.

(** * C14 *)
(** With the base path of the default area as string prefix. Missing: see the refutations. *)
Theorem C14_echo_deletion_partial :
  ∀ E orc o b o',
    oracle_ok orc → e_state_path E "." "" = Some b → is_Some (inv_versions (ob_inv o) !! inv_head (ob_inv o)) →
    ob_echo o = true → inv_writeable (ob_inv o) = true → inv_modified (ob_inv o) = true →
    ob_end E orc (HDone []) o = (o', SOk) →
    ∀ p d, current (ob_inv o') p d ↔
      current (ob_inv o) p d ∧ (has_prefix (if decide (b = ".") then "" else b) p = true → p ∈ ob_upd o).
Proof. exact end_update_echo. Qed.
Definition echo_start : oracle * oop := (dflt, OStart "2024-01-01" "msg" "me" "mailto:me" true).
Definition echo_obj : object := orun xenv (echo_start :: simple [SAdd "v" "new" "" true; SAdd "z" "a" "" true]) (open_object inv2).
Example C14_example :
  ob_echo echo_obj = true ∧ inv_writeable (ob_inv echo_obj) = true ∧ inv_modified (ob_inv echo_obj) = true ∧
  (ob_end xenv dflt (HDone []) echo_obj).2 = SOk ∧
  currentb (ob_inv (ob_end xenv dflt (HDone []) echo_obj).1) "a" "sz" = true ∧
  absentb (ob_inv (ob_end xenv dflt (HDone []) echo_obj).1) "b/c" = true.
Proof. by vm_compute. Qed.
(** If the only change is that files vanished, nothing is deleted: EndUpdate returns before the echo deletion. *)
Theorem C14_only_deletions_refuted :
  ∃ ops, let o := orun xenv ops (open_object inv2) in
    ops = echo_start :: simple [SAdd "z" "a" "" true] ++ [(dflt, OEnd (HDone [])); (dflt, OClose)] ∧
    ob_echo o = true ∧ ob_upd o = ["a"] ∧ current (ob_inv o) "b/c" "sy".
Proof. eexists. split; [reflexivity|]. split; [by vm_compute|]. split; [by vm_compute|]. by apply currentb_true. Qed.
(** Two areas, content in data and meta in data2: the base path data also covers data2. *)
Definition aenv : env :=
  let f := λ p a, if decide (a = "meta") then Some ("data2/" +:+ p)
                  else if decide (p = ".") then Some "data" else Some ("data/" +:+ p) in
  Env xhash (λ i, "json " +:+ inv_head i) f f [].
Theorem C14_other_area_refuted :
  ∃ ops, let i0 := ob_inv (orun aenv (update [SAdd "x" "a" "content" true; SAdd "y" "m" "meta" true]) (open_object fresh0)) in
    let i := ob_inv (orun aenv ops (open_object i0)) in
    ops = [echo_start; (dflt, OBeginArea); (dflt, OSimple (SAdd "x2" "a" "content" true)); (dflt, OEndArea);
           (dflt, OBeginArea)] ∧
    current i0 "data2/m" "sy" ∧ ∀ e, ¬ current i "data2/m" e.
Proof. eexists. split; [reflexivity|]. split; [by apply currentb_true|by apply absentb_true]. Qed.
(** After EndArea the list of confirmed files is empty, so EndUpdate deletes what was just added. *)
Theorem C14_end_area_then_end_update_refuted :
  ∃ ops, let o := orun xenv ops (open_object inv2) in
    ops = [echo_start; (dflt, OBeginArea); (dflt, OSimple (SAdd "v" "new" "" true)); (dflt, OEndArea);
           (dflt, OEnd (HDone [])); (dflt, OClose)] ∧
    (∀ e, ¬ current (ob_inv o) "new" e) ∧ is_Some (inv_manifest (ob_inv o) !! "sv").
Proof. eexists. split; [reflexivity|]. split; [by apply absentb_true|]. by vm_compute; eauto. Qed.
Print Assumptions C14_echo_deletion_partial.
Print Assumptions C14_only_deletions_refuted.
Print Assumptions C14_other_area_refuted.
Print Assumptions C14_end_area_then_end_update_refuted.
