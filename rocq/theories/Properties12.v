(** Stored inventories: the JSON text that is written, and what is read from it. *)
From Coq Require Import Ascii.
From stdpp Require Import base list strings gmap.
From Coq Require Import ZArith Lia.
From Verif Require Import GoStr Utf8Model InventoryModel InventorySpec ObjectModel ObjectSpec CrashSpec LoadModel SessionSpec SessionProofs LoadProofs ValidateModel ValidateSpec
  CheckModel CheckSpec AcceptSpec AcceptProofs3 PublishSpec LayoutSpec JsonModel JsonSpec JsonProofs JsonInvModel JsonInvSpec JsonInvProofs JsonInvProofs2 JsonInvProofs3
  Fixtures Fixtures2 Fixtures3 Properties10 Fixtures5 Fixtures6.

(** * C51: an inventory that was written is read back unchanged *)

(** JSON values without numbers, nested at most 10000 deep: reading gives the value back, with invalid UTF-8 replaced. *)
Theorem C51_text_round_trip_partial j : numberless j → depth j ≤ N.to_nat 10000 → read (render j) = Some (repaired j).
Proof. exact (read_render j). Qed.
Theorem C51_valid_text_round_trip j : numberless j → depth j ≤ N.to_nat 10000 → json_utf8 j → read (render j) = Some j.
Proof. intros H1 H2 H3. rewrite read_render by done. by rewrite repaired_id. Qed.

Definition nested : json :=
  JObj [(umlaut, JArr [JStr quoted; JNull; JBool true; JArr []]); ("", JObj []); (feed, JObj [("<&>", JStr odd); ("x", JBool false)])].
Example C51_text_example : numberless nested ∧ depth nested ≤ N.to_nat 10000 ∧ json_utf8 nested ∧ read (render nested) = Some nested.
Proof.
  split; [by vm_compute|]. split; [apply Nat.leb_le; by vm_compute|]. split; [|by vm_compute].
  repeat split; apply utf8b_true; by vm_compute.
Qed.
(** A byte that is not UTF-8 does not come back. *)
Theorem C51_text_refuted : ∃ j, numberless j ∧ depth j = 0 ∧ read (render j) ≠ Some j.
Proof. exists (JStr (String "255" "")). split; [done|]. split; [done|]. vm_compute. intros H. discriminate H. Qed.
Print Assumptions C51_text_round_trip_partial.
Print Assumptions C51_valid_text_round_trip.
Print Assumptions C51_text_refuted.

(** Full statement: for every inventory.  False, see below.  Proved for inventories in which all strings are valid UTF-8 and times are printed
    as they are read (the validator), and in addition no path is empty and the version names fit the padding (the loader, which otherwise
    panics or computes a different padding).
    [fits], [tm] and [t0] stand for the number and time functions of the Go library, [w] is the order in which maps are visited. *)
Theorem C51_validator_reads_back_partial fits tm t0 i : utf8_inventory i → timely tm i → load_text fits tm t0 (inventory_text i) = LDoc [] (doc_of i).
Proof. exact (load_written_text fits tm t0 i). Qed.
Theorem C51_loader_reads_back_partial fits tm t0 w lx i : vorder_ok w → utf8_inventory i → timely tm i → named_inventory i → numbered_inventory i →
  ∃ i', parse_text fits tm t0 w lx (inventory_text i) = Some i' ∧ same_record i i'.
Proof. exact (parse_written fits tm t0 w lx i). Qed.
(** A file that was cut anywhere is not accepted, for every inventory. *)
Theorem C51_cut_text_rejected fits tm t0 i a b : inventory_text i = a +:+ b → b ≠ "" → ∃ msg, load_text fits tm t0 a = LFail msg.
Proof. exact (text_prefix fits tm t0 i a b). Qed.

Example C51_example : ∃ s i,
  tmade2 = Some (s, i) ∧ utf8_inventory i ∧ timely tm0 i ∧ named_inventory i ∧ numbered_inventory i ∧ vorder_ok wd ∧
  inv_head i = "v3" ∧ size (inv_manifest i) = 4.
Proof.
  pose proof tmade_checked as Hc. unfold tchecks in Hc. destruct tmade1 as [[s1 i1]|]; [|discriminate].
  destruct tmade2 as [[s i]|]; [|discriminate]. exists s, i. split; [reflexivity|].
  apply andb_prop in Hc as [[[[[[_ Hs]%andb_prop _]%andb_prop Hh]%andb_prop _]%andb_prop Hm]%andb_prop _].
  apply bool_decide_eq_true in Hh, Hm. destruct (storableb_true _ _ Hs) as (H1 & H2 & H3 & H4).
  split; [exact H1|]. split; [exact H2|]. split; [exact H3|]. split; [exact H4|]. split; [exact wd_ok|]. split; [exact Hh|exact Hm].
Qed.
(** The texts before and after the last character of a written inventory. *)
Example C51_cut_example : ∃ a b, inventory_text fresh0 = a +:+ b ∧ b ≠ "" ∧ a ≠ "" ∧ load_text fits0 tm0 zero_time (a +:+ b) ≠ LFail "cannot unmarshal json".
Proof.
  exists (substring 0 (String.length (inventory_text fresh0) - 1) (inventory_text fresh0)), "}".
  split; [by vm_compute|]. split; [done|]. split; [intros H; vm_compute in H; discriminate H|intros H; vm_compute in H; discriminate H].
Qed.
Print Assumptions C51_validator_reads_back_partial.
Print Assumptions C51_loader_reads_back_partial.
Print Assumptions C51_cut_text_rejected.

(** The written text meets what properties C17, C48 and C50 assume of the encoding. *)
Theorem C51_encoding_ok_partial fits tm t0 w lx : vorder_ok w → json_ok (storable tm) inventory_text (parse_text fits tm t0 w lx).
Proof. exact (text_json_ok fits tm t0 w lx). Qed.
(** C48 for objects stored as JSON. *)
Theorem C51_created_object_intact_partial E fits tm t0 w lx s s' i :
  hex_hash (e_hash E) → e_json E = inventory_text → vorder_ok w → str_mem slash (inv_alg i) = false → CrashSpec.plain_name (content_name i) →
  creation E (storable tm) s i s' → SessionSpec.accepted E (parse_text fits tm t0 w lx) s' →
  ∃ i' n, (1 <= n)%N ∧ SessionSpec.intact E (parse_text fits tm t0 w lx) s' i' n.
Proof. intros H1 H2 H3. apply creation_safe; [done|]. rewrite H2. by apply text_json_ok. Qed.
Theorem C51_sessions_intact_partial E fits tm t0 w lx s s' i n :
  hex_hash (e_hash E) → e_json E = inventory_text → vorder_ok w → SessionSpec.intact E (parse_text fits tm t0 w lx) s i n →
  sessions E (storable tm) (parse_text fits tm t0 w lx) s s' → SessionSpec.accepted E (parse_text fits tm t0 w lx) s' →
  collision E ∨ ∃ i' n', (n <= n')%N ∧ SessionSpec.intact E (parse_text fits tm t0 w lx) s' i' n'.
Proof. intros H1 H2 H3. apply sessions_safe; [done|]. rewrite H2. by apply text_json_ok. Qed.
(** C50 for objects stored as JSON: objects made by complete sessions, each publishing an inventory that can be stored, are accepted by the validator. *)
Theorem C51_published_valid_partial E fits tm t0 w w' lx lx' s i :
  hex_hash (e_hash E) → utf8_hash (e_hash E) → e_json E = inventory_text → vorder_ok w → vorder_ok w' →
  published E (storable tm) (parse_text fits tm t0 w lx) s i → proper_names i → apart (content_name i) →
  only_warnings (validate_object (e_hash E) (decode_text fits tm t0) w' lx' s).
Proof. intros H1 H2 H3 H4 H5 H6 H7 H8. exact (sound_accepted _ _ _ _ _ _ _ H5 (text_published_sound E fits tm t0 w lx s i H1 H2 H3 H4 H6 H7) H8). Qed.

Example C51_published_example : ∃ s i,
  hex_hash (e_hash tenv) ∧ utf8_hash (e_hash tenv) ∧ e_json tenv = inventory_text ∧ vorder_ok wd ∧ vorder_ok wr ∧
  published tenv (storable tm0) tparse s i ∧ proper_names i ∧ apart (content_name i) ∧ inv_head i = "v3" ∧ size (inv_manifest i) = 4 ∧ size s = 14 ∧
  only_warnings (validate_object (e_hash tenv) tdecode wr lx0 s).
Proof.
  pose proof tmade_checked as Hc. unfold tchecks in Hc. destruct tmade1 as [[s1 i1]|]; [|discriminate].
  destruct tmade2 as [[s i]|] eqn:E; [|discriminate]. exists s, i.
  apply andb_prop in Hc as [[[[[[_ _]%andb_prop Hn]%andb_prop Hh]%andb_prop Hcn]%andb_prop Hm]%andb_prop Hs].
  apply bool_decide_eq_true in Hh, Hcn, Hm, Hs. pose proof (tmade_published s i E) as Hp. clear E. pose proof (proper_namesb_true i Hn) as Hpn.
  assert (apart (content_name i)) as Ha by (rewrite Hcn; exact apart_content).
  split; [exact hexh_ok|]. split; [exact hexh_utf8|]. split; [reflexivity|]. split; [exact wd_ok|]. split; [exact wr_ok|]. split; [exact Hp|].
  split; [exact Hpn|]. split; [exact Ha|]. split; [exact Hh|]. split; [exact Hm|]. split; [exact Hs|].
  exact (C51_published_valid_partial tenv fits0 tm0 zero_time wd wr lx0 lx0 s i hexh_ok hexh_utf8 eq_refl wd_ok wr_ok Hp Hpn Ha).
Qed.
Print Assumptions C51_encoding_ok_partial.
Print Assumptions C51_created_object_intact_partial.
Print Assumptions C51_sessions_intact_partial.
Print Assumptions C51_published_valid_partial.

(** A file whose name is not valid UTF-8: every call succeeds, the loader accepts the stored inventory without complaint, and the inventory
    records a path at which nothing is stored, while the stored file is not recorded.  The validator then reports E092. *)
Definition bad_name : string := String "255" "".
Definition bad_made : option (storage * inventory) :=
  completeb inventory_text [("2024-01-01T00:00:00Z", [SAdd "x" bad_name "" true])] store0 fresh0.
Definition bad_checks : bool :=
  match bad_made with
  | Some (s, i) =>
      bool_decide (s !! ("v1/content/" +:+ bad_name) = Some "x") && bool_decide (s !! ("v1/content/" +:+ replaced bad_name) = None) &&
      match loadb tparse s with
      | Some i' => bool_decide (inv_manifest i' !! "a78" = Some ["v1/content/" +:+ replaced bad_name])
      | None => false
      end &&
      match validate_object hexh tdecode wd lx0 s with VDone fs => existsb (λ f, bool_decide (f_code f = "E092")) fs | _ => false end
  | None => false
  end.
Theorem C51_invalid_name_refuted : ∃ E fits tm t0 w lx s0 i0 s i i' p q d fs,
  hex_hash (e_hash E) ∧ utf8_hash (e_hash E) ∧ e_json E = inventory_text ∧ vorder_ok w ∧
  fresh i0 ∧ declared s0 ∧ supported E i0 ∧ complete E s0 i0 s i ∧
  s !! p = Some "x" ∧ load_inventory (e_hash E) (parse_text fits tm t0 w lx) s "" = LInv i' [] ∧
  lists (inv_manifest i') q d ∧ s !! q = None ∧ p ≠ q ∧
  validate_object (e_hash E) (decode_text fits tm t0) w lx s = VDone fs ∧ reported fs "E092".
Proof.
  assert (bad_checks = true) as Hc by (by vm_compute). unfold bad_checks in Hc. destruct bad_made as [[s i]|] eqn:E; [|discriminate].
  apply andb_prop in Hc as [[[H1 H2]%andb_prop H3]%andb_prop H4]. apply bool_decide_eq_true in H1, H2.
  destruct (loadb tparse s) as [i'|] eqn:El; [|discriminate]. apply bool_decide_eq_true in H3.
  destruct (validate_object hexh tdecode wd lx0 s) as [fs|fs msg|] eqn:Ev; [|discriminate..].
  exists tenv, fits0, tm0, zero_time, wd, lx0, store0, fresh0, s, i, i', ("v1/content/" +:+ bad_name), ("v1/content/" +:+ replaced bad_name), "a78", fs.
  split; [exact hexh_ok|]. split; [exact hexh_utf8|]. split; [reflexivity|]. split; [exact wd_ok|]. split; [exact fresh0_fresh|].
  split; [exact store0_declared|]. split; [apply supportedb_true; clear; by vm_compute|].
  split; [unfold bad_made in E; exact (completeb_true _ _ _ _ _ _ E)|]. split; [exact H1|]. split; [exact (loadb_true _ _ _ El)|].
  split; [eexists; split; [exact H3|by left]|]. split; [exact H2|]. split; [clear; intros H; vm_compute in H; discriminate H|].
  split; [exact Ev|]. apply existsb_exists in H4 as (f & Hf & Hb). apply bool_decide_eq_true in Hb.
  destruct f as [code args]. cbn [f_code] in Hb. subst code. exists args. by apply elem_of_list_In.
Qed.
Print Assumptions C51_invalid_name_refuted.
