(** Inventories whose parts have the wrong JSON type. *)
From Coq Require Import Ascii.
From stdpp Require Import base list strings gmap.
From Coq Require Import ZArith Lia.
From Verif Require Import GoStr InventoryModel ObjectModel CrashSpec LoadModel ValidateModel ValidateSpec CheckModel CheckSpec AcceptSpec JsonModel JsonInvModel
  JsonTypeSpec JsonTypeProofs JsonTypeProofs2 JsonTypeProofs3 Fixtures Fixtures2 Fixtures3 Fixtures5 Fixtures6 Fixtures7.

(** * C52: wrong types in an inventory are reported *)

(** Full statement: an object with an inventory in which some part has another JSON type than the specification demands is not accepted.
    False, see below: the types of the content directory, the fixity block and the manifest are not looked at, and required parts of a version
    may be missing.  Proved: the code for each of the other parts of the root inventory, and that accepted objects have well-typed root and version
    inventories as far as these parts are concerned, if no member is written twice. *)
Theorem C52_flaws_reported_partial fits tm t0 hash w lx s text l c fs :
  vorder_ok w → s !! "inventory.json" = Some text → read text = Some (JObj l) → once_inventory l → flaw tm l c →
  validate_object hash (decode_text fits tm t0) w lx s = VDone fs → reported fs c.
Proof. intros Hw. exact (root_flaw fits tm t0 hash w lx s Hw text l c fs). Qed.
Theorem C52_type_rejected fits tm t0 hash w lx s text l j fs :
  s !! "inventory.json" = Some text → read text = Some (JObj l) → once "type" l → has "type" l j → ¬ is_str j →
  validate_object hash (decode_text fits tm t0) w lx s ≠ VDone fs.
Proof. exact (root_type fits tm t0 hash w lx s text l j fs). Qed.
Theorem C52_no_object_rejected fits tm t0 hash w lx s text fs :
  s !! "inventory.json" = Some text → (∀ l, read text ≠ Some (JObj l)) → validate_object hash (decode_text fits tm t0) w lx s ≠ VDone fs.
Proof. exact (root_no_object fits tm t0 hash w lx s text fs). Qed.
Theorem C52_accepted_root_partial fits tm t0 hash w lx s text l :
  vorder_ok w → s !! "inventory.json" = Some text → read text = Some (JObj l) → once_inventory l →
  only_warnings (validate_object hash (decode_text fits tm t0) w lx s) → typed_inventory tm l.
Proof. intros Hw. exact (accepted_root fits tm t0 hash w lx s Hw text l). Qed.
Theorem C52_accepted_version_partial fits tm t0 hash w lx s text l vs ver j vtext vl :
  vorder_ok w → s !! "inventory.json" = Some text → read text = Some (JObj l) → once_inventory l →
  has "versions" l (JObj vs) → (ver, j) ∈ vs →
  s !! (ver +:+ "/inventory.json") = Some vtext → read vtext = Some (JObj vl) → once_inventory vl →
  only_warnings (validate_object hash (decode_text fits tm t0) w lx s) → typed_inventory tm vl.
Proof. intros Hw. exact (accepted_version fits tm t0 hash w lx s Hw text l vs ver j vtext vl). Qed.

(** Names of members are compared ignoring case, except for the two that are looked up before the specification is known. *)
Theorem C52_names_ignore_case fits tm t0 name l1 k k' j l2 :
  spelled name k → spelled name k' → is_ascii name = true → k ∉ ["type"; "head"] → k' ∉ ["type"; "head"] →
  load_json fits tm t0 (JObj (l1 ++ (k, j) :: l2)) = load_json fits tm t0 (JObj (l1 ++ (k', j) :: l2)).
Proof. exact (load_spelling fits tm t0 name l1 k k' j l2). Qed.
Theorem C52_type_spelling_refuted : ∃ fits tm t0 l1 k k' j l2 fs d msg, spelled "type" k ∧ spelled "type" k' ∧
  load_json fits tm t0 (JObj (l1 ++ (k, j) :: l2)) = LDoc fs d ∧ load_json fits tm t0 (JObj (l1 ++ (k', j) :: l2)) = LFail msg.
Proof.
  exists fits0, tm0, zero_time, [("id", JStr "urn:x")], "type", "Type", (JStr "https://ocfl.io/1.1/spec/#inventory"), (drop 2 good_members).
  eexists _, _, _. split; [apply spelled_refl|]. split; [by apply field_spelled|]. split; vm_compute; reflexivity.
Qed.
Print Assumptions C52_flaws_reported_partial.
Print Assumptions C52_type_rejected.
Print Assumptions C52_no_object_rejected.
Print Assumptions C52_accepted_root_partial.
Print Assumptions C52_accepted_version_partial.
Print Assumptions C52_names_ignore_case.
Print Assumptions C52_type_spelling_refuted.

Lemma numbered_v1 : numbered "v1" 1.
Proof. split; [done|]. by exists 0. Qed.
(** A number as head, a text that is no time, and a number as the name of the user: three of the flaws. *)
Definition flawed (l : list (string * json)) (c : string) : Prop :=
  vorder_ok wd ∧ text_object (render (JObj l)) with_x !! "inventory.json" = Some (render (JObj l)) ∧
  read (render (JObj l)) = Some (JObj l) ∧ once_inventory l ∧ flaw tm0 l c ∧
  ∃ fs, validate_object hexh tdecode wd lx0 (text_object (render (JObj l)) with_x) = VDone fs ∧ reported fs c.
Example C52_flaws_example :
  flawed (put "head" (JNum "7") good_members) "E040" ∧
  flawed (inv_members manifest_x (JObj (put "created" (JStr "today") (v1_members state_x)))) "E049" ∧
  flawed (inv_members manifest_x (JObj (put "user" (JObj [("name", JNum "7")]) (v1_members state_x)))) "E054".
Proof.
  assert (∀ l c, read (render (JObj l)) = Some (JObj l) → once_inventoryb l = true → flaw tm0 l c →
    reportsb c (tval l with_x) = true → flawed l c) as H.
  { intros l c H1 H2 H3 H4. split; [exact wd_ok|]. split; [reflexivity|]. split; [exact H1|]. split; [by apply once_inventoryb_true|].
    split; [exact H3|]. exact (reportsb_true _ _ H4). }
  split; [|split].
  - apply H; [by vm_compute|by vm_compute| |by vm_compute].
    apply (flaw_head _ _ (JNum "7")); [|by intros [? ?]]. apply has_intro. vm_compute. set_solver.
  - apply H; [by vm_compute|by vm_compute| |by vm_compute].
    eapply (flaw_version _ _ [("v1", _)] "v1" 1); [apply has_intro; do 5 right; left|left|exact numbered_v1|].
    apply (flaw_created _ _ (JStr "today")); [apply has_intro; vm_compute; set_solver|]. by intros x [= <-].
  - apply H; [by vm_compute|by vm_compute| |by vm_compute].
    eapply (flaw_version _ _ [("v1", _)] "v1" 1); [apply has_intro; do 5 right; left|left|exact numbered_v1|].
    apply (flaw_name _ _ [("name", JNum "7")] (JNum "7")); [apply has_intro; vm_compute; set_solver|apply has_intro; set_solver|done|by intros [? ?]].
Qed.
Example C52_type_example :
  let l := put "type" (JBool true) good_members in
  text_object (render (JObj l)) with_x !! "inventory.json" = Some (render (JObj l)) ∧ read (render (JObj l)) = Some (JObj l) ∧
  once "type" l ∧ has "type" l (JBool true) ∧ ¬ is_str (JBool true).
Proof.
  split; [reflexivity|]. split; [by vm_compute|]. split; [apply onceb_true; by vm_compute|]. split; [|by intros [? ?]].
  apply has_intro. vm_compute. set_solver.
Qed.
Example C52_accepted_example :
  let text := render (JObj good_members) in let s := text_object text with_x in
  vorder_ok wd ∧ s !! "inventory.json" = Some text ∧ read text = Some (JObj good_members) ∧ once_inventory good_members ∧
  has "versions" good_members (JObj [("v1", JObj (v1_members state_x))]) ∧ s !! "v1/inventory.json" = Some text ∧
  only_warnings (validate_object hexh tdecode wd lx0 s) ∧ typed_inventory tm0 good_members.
Proof.
  assert (only_warnings (validate_object hexh tdecode wd lx0 (text_object (render (JObj good_members)) with_x))) as Hv by (apply warns_true; by vm_compute).
  assert (read (render (JObj good_members)) = Some (JObj good_members)) as Hr by (by vm_compute).
  assert (once_inventory good_members) as Ho by (apply once_inventoryb_true; by vm_compute).
  split; [exact wd_ok|]. split; [reflexivity|]. split; [exact Hr|]. split; [exact Ho|].
  split; [apply has_intro; unfold good_members, inv_members; set_solver|]. split; [reflexivity|]. split; [exact Hv|].
  eapply C52_accepted_root_partial; [exact wd_ok| |exact Hr|exact Ho|exact Hv]. reflexivity.
Qed.

Example C52_names_example : spelled "versions" "VerSions" ∧ spelled "versions" (String "v" (String "e" (String "r" (String "197" (String "191" "ions"))))) ∧
  is_ascii "versions" = true ∧ "VerSions" ∉ ["type"; "head"] ∧ String "v" (String "e" (String "r" (String "197" (String "191" "ions")))) ∉ ["type"; "head"] ∧
  ∃ fs d, load_json fits0 tm0 zero_time (JObj (take 5 good_members ++ ("VerSions", JObj [("v1", JObj (v1_members state_x))]) :: [])) = LDoc fs d ∧
    is_Some (vers d !! "v1").
Proof.
  split; [by apply field_spelled|]. split; [by apply field_spelled|]. split; [done|]. split; [apply (bool_decide_unpack _); by vm_compute|].
  split; [apply (bool_decide_unpack _); by vm_compute|]. eexists _, _. split; [vm_compute; reflexivity|]. vm_compute. by eexists.
Qed.

(** Objects that are accepted without an error although their inventory is not well-typed. *)
Definition accepted_text (l : list (string * json)) : Prop := ∃ fits tm t0 hash w lx s,
  vorder_ok w ∧ s !! "inventory.json" = Some (render (JObj l)) ∧ read (render (JObj l)) = Some (JObj l) ∧
  only_warnings (validate_object hash (decode_text fits tm t0) w lx s).
Lemma accepts l files : read (render (JObj l)) = Some (JObj l) → warns (tval l files) = true → accepted_text l.
Proof.
  intros H1 H2. exists fits0, tm0, zero_time, hexh, wd, lx0, (text_object (render (JObj l)) files). split; [exact wd_ok|].
  split; [unfold text_object; cbn [app list_to_map foldr fst snd]; by simplify_map_eq|].
  split; [exact H1|]. exact (warns_true _ H2).
Qed.
(** A content directory that is a number: the default name is used. *)
Theorem C52_content_directory_refuted : ∃ l j, accepted_text l ∧ once_inventory l ∧ has "contentDirectory" l j ∧ j ≠ JNull ∧ ¬ is_str j.
Proof.
  exists (put "contentDirectory" (JNum "7") good_members), (JNum "7"). split; [apply (accepts _ with_x); by vm_compute|].
  split; [apply once_inventoryb_true; by vm_compute|]. split; [apply has_intro; vm_compute; set_solver|]. split; [done|by intros [? ?]].
Qed.
(** A fixity block that is a number, or one in which the paths of a digest are a number. *)
Theorem C52_fixity_refuted :
  (∃ l j, accepted_text l ∧ once_inventory l ∧ has "fixity" l j ∧ ∀ m, j ≠ JObj m) ∧
  (∃ l alg m d j, accepted_text l ∧ once_inventory l ∧ has "fixity" l (JObj [(alg, JObj m)]) ∧ (d, j) ∈ m ∧ ∀ ps, j ≠ JArr ps).
Proof.
  split.
  - exists (put "fixity" (JNum "7") good_members), (JNum "7"). split; [apply (accepts _ with_x); by vm_compute|].
    split; [apply once_inventoryb_true; by vm_compute|]. split; [apply has_intro; vm_compute; set_solver|done].
  - exists (put "fixity" (JObj [("md5", JObj [("b78", JNum "7")])]) good_members), "md5", [("b78", JNum "7")], "b78", (JNum "7").
    split; [apply (accepts _ with_x); by vm_compute|]. split; [apply once_inventoryb_true; by vm_compute|].
    split; [apply has_intro; vm_compute; set_solver|]. split; [left|done].
Qed.
(** A manifest that is a number, in an object without content. *)
Theorem C52_manifest_refuted : ∃ l j, accepted_text l ∧ once_inventory l ∧ has "manifest" l j ∧ j ≠ JNull ∧ ∀ m, j ≠ JObj m.
Proof.
  exists (inv_members (JNum "7") (JObj (v1_members (JObj [])))), (JNum "7"). split; [apply (accepts _ []); by vm_compute|].
  split; [apply once_inventoryb_true; by vm_compute|]. split; [apply has_intro; vm_compute; set_solver|done].
Qed.
(** A version without a state; a user without a name. *)
Theorem C52_required_parts_refuted :
  (∃ l ms, accepted_text l ∧ once_inventory l ∧ has "versions" l (JObj [("v1", JObj ms)]) ∧ ∀ j, ¬ has "state" ms j) ∧
  (∃ l ms us, accepted_text l ∧ once_inventory l ∧ has "versions" l (JObj [("v1", JObj ms)]) ∧ has "user" ms (JObj us) ∧ ∀ j, ¬ has "name" us j).
Proof.
  split.
  - set (ms := [("created", JStr "2024-01-01T00:00:00Z"); ("message", JStr "m"); ("user", JObj [("address", JStr "mailto:me"); ("name", JStr "me")])]).
    exists (inv_members (JObj []) (JObj ms)), ms. split; [apply (accepts _ []); by vm_compute|].
    split; [apply once_inventoryb_true; by vm_compute|]. split; [apply has_intro; unfold inv_members; set_solver|].
    intros j (k & Hk & Hin). apply field_spelled in Hk; [|done]. unfold ms in Hin. rewrite !elem_of_cons in Hin.
    repeat destruct Hin as [[= -> ->]|Hin]; try (vm_compute in Hk; discriminate Hk). by apply elem_of_nil in Hin.
  - set (ms := put "user" (JObj []) (v1_members state_x)).
    exists (inv_members manifest_x (JObj ms)), ms, []. split; [apply (accepts _ with_x); by vm_compute|].
    split; [apply once_inventoryb_true; by vm_compute|]. split; [apply has_intro; unfold inv_members; set_solver|].
    split; [apply has_intro; vm_compute; set_solver|]. intros j (k & _ & Hin). by apply elem_of_nil in Hin.
Qed.
(** A member that is written twice: the wrong value is hidden by the right one. *)
Theorem C52_written_twice_refuted : ∃ l j c, accepted_text l ∧ ("id", j) ∈ l ∧ flaw tm0 l c ∧ ¬ is_str j.
Proof.
  exists (("id", JNum "7") :: good_members), (JNum "7"), "E036". split; [apply (accepts _ with_x); by vm_compute|]. split; [left|].
  split; [|by intros [? ?]]. apply (flaw_id _ _ (JNum "7")); [apply has_intro; left|by intros [? ?]].
Qed.
(** null as head or as a version is a nil pointer, and a version that is a number has no creation time: the program panics. *)
Theorem C52_null_refuted : ∃ fits tm t0 hash w lx files l l' l'',
  vorder_ok w ∧ has "head" l JNull ∧ has "versions" l' (JObj [("v1", JNull)]) ∧ has "versions" l'' (JObj [("v1", JNum "7")]) ∧
  load_text fits tm t0 (render (JObj l)) = LNil ∧ load_text fits tm t0 (render (JObj l')) = LNil ∧
  validate_object hash (decode_text fits tm t0) w lx (text_object (render (JObj l'')) files) = VPanic.
Proof.
  exists fits0, tm0, zero_time, hexh, wd, lx0, with_x, (put "head" JNull good_members), (put "versions" (JObj [("v1", JNull)]) good_members),
    (put "versions" (JObj [("v1", JNum "7")]) good_members).
  split; [exact wd_ok|]. split; [apply has_intro; vm_compute; set_solver|]. split; [apply has_intro; vm_compute; set_solver|].
  split; [apply has_intro; vm_compute; set_solver|]. split; [by vm_compute|]. split; by vm_compute.
Qed.
Print Assumptions C52_content_directory_refuted.
Print Assumptions C52_fixity_refuted.
Print Assumptions C52_manifest_refuted.
Print Assumptions C52_required_parts_refuted.
Print Assumptions C52_written_twice_refuted.
Print Assumptions C52_null_refuted.
