(** Theorems that were added because a wrong model had survived the mutation tests (C22, C27, C31, C33, C35, C38). *)
From Coq Require Import Ascii ZArith Lia.
From stdpp Require Import base list strings gmap.
From Verif Require Import GoStr PathModel InventoryModel InventorySpec ObjectModel CrashSpec LoadModel ValidateModel ValidateSpec CheckModel CheckSpec
  Fixtures2 Fixtures3 Properties3 TightProofs AreaModel AreaSpec Utf8Model LayoutModel LayoutSpec Properties4 TightProofs2.

(** * C27: metadata of versions *)

(** If an object is validated to the end, the warning W011 for version [k] in the inventory of [ver] is given exactly if the root
    inventory has another time, message, user name or user address for that version. *)
Theorem C27_metadata_exact hash decode w lx s fs b d ver v vb vd k tv tv2 :
  vorder_ok w → validate_object hash decode w lx s = VDone fs →
  s !! "inventory.json" = Some b → decode b = Some d → all_numbered d → distinct_numbers d →
  has_version d ver v → s !! (ver +:+ "/inventory.json") = Some vb → decode vb = Some vd →
  has_version d k tv → has_version vd k tv2 →
  Finding "W011" [ver; k] ∈ fs ↔ about_version tv ≠ about_version tv2.
Proof. intros Hw H. exact (validate_about hash decode w lx s fs Hw H b d ver v vb vd k tv tv2). Qed.
Definition other_user : doc :=
  mkdoc (man doc1) {["v1" := let v := mkver {["a78" := ["a"]]} in
    VDoc (vd_created v) (vd_message v) (vd_state v) (Some (UDoc false (Some (OStr "somebody else" false)) (vd_user v ≫= u_addr)))]} "v1".
Example C27_metadata_example :
  ∃ fs, validate_object hexh (toy_decode doc2 doc2 other_user) wd lx0 store2 = VDone fs ∧ Finding "W011" ["v1"; "v1"] ∈ fs ∧
    Finding "W011" ["v2"; "v1"] ∉ fs.
Proof.
  eexists. split; [vm_compute; reflexivity|]. split; [left|]. rewrite elem_of_list_singleton. discriminate.
Qed.
Print Assumptions C27_metadata_exact.

(** * C31: Pairtree paths *)

(** Every character of a path is visible ASCII, and neither a colon nor a dot. *)
Theorem C31_pairtree_characters c id p a : buildP c id = POk p → a ∈ list_ascii_of_string p →
  (33 <= N_of_ascii a <= 126)%N ∧ a ≠ ":"%char ∧ a ≠ "."%char.
Proof. exact (pairtree_chars c id p a). Qed.
Example C31_pairtree_characters_example : buildP (ConfP "" "" 2 "sha512") "a b:.." = POk "a^/20/b+/,,".
Proof. by vm_compute. Qed.
Print Assumptions C31_pairtree_characters.

(** * C33: parameters of layouts *)

(** The defaults of direct-clean: a parameter that is zero or empty gets its documented value, all others are kept. *)
Theorem C33_direct_clean_defaults hs c c' : newD hs c = Some c' →
  (cd_maxpath c = 0%N → cd_maxpath c' = 32000%N) ∧ (cd_maxpath c ≠ 0%N → cd_maxpath c' = cd_maxpath c) ∧
  (cd_maxseg c = 0%N → cd_maxseg c' = 127%N) ∧ (cd_maxseg c ≠ 0%N → cd_maxseg c' = cd_maxseg c) ∧
  (cd_alg c = "" → cd_alg c' = "sha512") ∧ (cd_alg c ≠ "" → cd_alg c' = cd_alg c) ∧
  (cd_folder c = "" → cd_folder c' = "fallback") ∧ (cd_folder c ≠ "" → cd_folder c' = cd_folder c) ∧
  cd_repl c' = cd_repl c ∧ cd_wrepl c' = cd_wrepl c ∧ cd_utf c' = cd_utf c ∧ cd_ntuples c' = cd_ntuples c ∧ cd_tsize c' = cd_tsize c ∧
  is_Some (hs (cd_alg c')).
Proof.
  unfold newD. match goal with |- match hs ?a with _ => _ end = _ → _ => destruct (hs a) eqn:E; [|done] end. intros [= <-].
  cbn [cd_maxpath cd_maxseg cd_alg cd_folder cd_repl cd_wrepl cd_utf cd_ntuples cd_tsize] in *. rewrite E.
  split_and!; try done; first [by intros -> |intros Hne; by rewrite (proj2 (N.eqb_neq _ _) Hne)|intros Hne; by rewrite decide_False].
Qed.
(** Constructing again changes nothing. *)
Theorem C33_direct_clean_fixed hs c c' : newD hs c = Some c' → newD hs c' = Some c'.
Proof.
  intros H. destruct (C33_direct_clean_defaults hs c c' H) as (P1 & P2 & S1 & S2 & A1 & A2 & F1 & F2 & _ & _ & _ & _ & _ & [x E]).
  assert (cd_maxpath c' ≠ 0%N) as Hp by (destruct (decide (cd_maxpath c = 0%N)) as [e|e]; [rewrite (P1 e)|rewrite (P2 e)]; done).
  assert (cd_maxseg c' ≠ 0%N) as Hs by (destruct (decide (cd_maxseg c = 0%N)) as [e|e]; [rewrite (S1 e)|rewrite (S2 e)]; done).
  assert (cd_alg c' ≠ "") as Ha by (destruct (decide (cd_alg c = "")) as [e|e]; [rewrite (A1 e)|rewrite (A2 e)]; done).
  assert (cd_folder c' ≠ "") as Hf by (destruct (decide (cd_folder c = "")) as [e|e]; [rewrite (F1 e)|rewrite (F2 e)]; done).
  unfold newD. rewrite (proj2 (N.eqb_neq _ _) Hp), (proj2 (N.eqb_neq _ _) Hs), !decide_False by done. cbn [cd_alg]. rewrite E. by destruct c'.
Qed.
Example C33_direct_clean_example : ∃ c, newD toy_hashes (ConfD 0 0 [95]%N [32]%N true "" "" 2 1 0 2) = Some c ∧ cd_maxseg c = 127%N.
Proof. eexists. by vm_compute. Qed.
(** The chain of layouts reports no error exactly if every layout has mapped the result of the one before. *)
Theorem C33_chain_exact hs ls id p : manager_path hs ls id = Some (p, false) ↔ mapped_through hs ls id p.
Proof. exact (manager_exact hs ls id p). Qed.
Definition narrow : layout := LayD (ConfD 5 127 [95]%N [32]%N true "sha512" "fallback" 0 0 0 0).
Example C33_chain_example : mapped_through toy_hashes [Lay6 ":"; Flat; narrow] "urn:x" "x" ∧ ¬ ∃ p, mapped_through toy_hashes [Flat; narrow] "long name" p.
Proof.
  split; [apply manager_exact; by vm_compute|]. intros [p Hp%manager_exact]. vm_compute in Hp. discriminate.
Qed.
Print Assumptions C33_direct_clean_defaults.
Print Assumptions C33_direct_clean_fixed.
Print Assumptions C33_chain_exact.

(** * C35: identifiers that are not valid UTF-8 *)

(** Runs of bytes that occur in no UTF-8 text, between valid texts: the identifier gets the path of the identifier in which every run is
    replaced once.  Missing for the full statement: broken sequences of bytes that occur in UTF-8 texts. *)
Theorem C35_invalid_bytes_partial h c l parts : Forall scalar l → Forall scalar (cd_repl c) → proper_parts parts →
  buildD h c (encode l +:+ spoiled parts) = buildD h c (encode (l ++ mended (cd_repl c) parts)).
Proof. exact (invalid_replaced h c l parts). Qed.
Example C35_invalid_bytes_example :
  let bad := String (ascii_of_N 255) (String (ascii_of_N 254) "") in
  let parts := [(bad, [98]%N); (bad, [99]%N)] in
  proper_parts parts ∧ buildD (λ _, "") (ConfD 500 127 [95]%N [32]%N true "sha512" "fallback" 2 1 0 2) (encode [97]%N +:+ spoiled parts) = POk "a_b_c".
Proof.
  cbv zeta. split; [|by vm_compute].
  assert (∀ l, l = [98]%N ∨ l = [99]%N → String (ascii_of_N 255) (String (ascii_of_N 254) "") ≠ "" ∧
    Forall never_utf8 (list_ascii_of_string (String (ascii_of_N 255) (String (ascii_of_N 254) ""))) ∧ l ≠ [] ∧ Forall scalar l) as H.
  { intros l Hl. split; [done|]. split; [|destruct Hl as [-> | ->]; (split; [done|]; apply Forall_singleton; left; by vm_compute)].
    repeat (apply Forall_cons; split); try apply Forall_nil; try done; right; right; by vm_compute. }
  unfold proper_parts. apply Forall_cons. split; [apply H; by left|]. apply Forall_cons. split; [apply H; by right|]. by apply Forall_nil.
Qed.
Print Assumptions C35_invalid_bytes_partial.

(** * C38: areas *)

(** Requests without an area: the area of the parameters, content if there is none. *)
Theorem C38_default_area params c area :
  (params !! "ext-NNNN-content-subpath-area" = None → requested (set_params params c) "" = "content") ∧
  (∀ a, params !! "ext-NNNN-content-subpath-area" = Some a → a ≠ "" → requested (set_params params c) "" = a) ∧
  (area ≠ "" → requested (set_params params c) area = area) ∧
  sp_paths (set_params params c) = sp_paths c.
Proof.
  unfold requested, set_params. split; [by intros ->|]. split; [|split; [by intros H; rewrite decide_False|done]].
  intros a -> Ha. cbn [sp_area default from_option id]. rewrite decide_True by done. by rewrite decide_False.
Qed.
Example C38_default_area_example :
  sub_state_path (set_params ∅ (SubPaths {["content" := "data"]} "")) "a/b" "" = Some "data/a/b" ∧
  sub_state_path (set_params {["ext-NNNN-content-subpath-area" := "m"]} (SubPaths {["content" := "data"; "m" := "meta"]} "")) "a" "" = Some "meta/a".
Proof. by vm_compute. Qed.
(** An area with an absolute folder: no path leaves the root. *)
Theorem C38_absolute_folder c area r path q : requested c area ≠ "full" → sp_paths c !! requested c area = Some ("/" +:+ r) →
  sub_state_path c path area = Some q → ∃ names, q = "/" +:+ join_slash names ∧ Forall CrashSpec.plain_name names.
Proof. exact (rooted_area c area r path q). Qed.
Example C38_absolute_folder_example : sub_state_path (SubPaths {["a" := "/data"]} "") "x/../../../y" "a" = Some "/y".
Proof. by vm_compute. Qed.
Print Assumptions C38_default_area.
Print Assumptions C38_absolute_folder.

(** * C22: content paths without directory *)

(** A content path without slash is accepted by the checks of the inventory, and makes the check of the files panic. *)
Definition short2 : doc :=
  Doc (dc_id doc2) (dc_type doc2) (dc_alg doc2) (dc_head doc2) (dc_contentdir doc2) (Some (<["a7a" := ["a"]]> (man doc2))) (dc_versions doc2)
    (dc_fixity doc2) (dc_values doc2) (dc_fixalgs doc2) (dc_padding doc2).
Theorem C22_short_path_refuted :
  ∃ decode s d dg p, s !! "inventory.json" = Some "root" ∧ decode "root" = Some d ∧ man_lists d dg p ∧ clean_rel p ∧ str_mem slash p = false ∧
    (∃ fs, validated wd lx0 d fs) ∧ validate_object hexh decode wd lx0 s = VPanic.
Proof.
  exists (toy_decode short2 short2 doc1), store2, short2, "a7a", "a". split; [by vm_compute|]. split; [by vm_compute|].
  split; [eexists _, _; split; [reflexivity|]; split; [by vm_compute|left]|]. split; [repeat constructor; by vm_compute|]. split; [done|].
  split; [eexists; unfold validated; vm_compute; reflexivity|by vm_compute].
Qed.
Print Assumptions C22_short_path_refuted.
