(** Stored inventories: every JSON text of an inventory is read as RFC 8259 says. *)
From Coq Require Import Ascii.
From stdpp Require Import base list strings gmap relations.
From Coq Require Import ZArith Lia.
From Verif Require Import GoStr Utf8Model InventoryModel InventorySpec ValidateModel ValidateSpec CrashSpec PublishSpec LayoutSpec JsonModel JsonSpec JsonProofs JsonInvModel JsonInvSpec JsonInvProofs JsonInvProofs2
  JsonTextSpec JsonTextProofs JsonTextProofs2 JsonOrderProofs Fixtures3 Fixtures5 Fixtures6.
From Verif Require JsonTypeSpec JsonTypeProofs Fixtures7.

(** * C71: a JSON text is read as the value it stands for *)

(** The texts that are read, and their values: the JSON texts nested at most 10000 deep. *)
Theorem C71_read_exactly t j : read t = Some j ↔ document (spells True) t j ∧ depth j ≤ N.to_nat 10000.
Proof. split; [intros H; split; [by apply read_document|by apply (read_depth t)]|intros [H1 H2]; by apply (document_read True)]. Qed.
(** Texts whose strings are Unicode need no repair. *)
Theorem C71_unicode_read t j : document (spells False) t j → depth j ≤ N.to_nat 10000 → read t = Some j.
Proof. exact (document_read False t j). Qed.
(** Layout, escapes and the order of members do not matter. *)
Theorem C71_same_inventory fits tm t0 t t' j j' : document (spells True) t j → document (spells True) t' j' → reordered j j' → depth j ≤ N.to_nat 10000 →
  load_text fits tm t0 t = load_text fits tm t0 t'.
Proof. exact (text_reordered True True fits tm t0 t t' j j'). Qed.
(** What is written is a JSON text; an inventory that was laid out, escaped and ordered differently is still the same inventory. *)
Theorem C71_written_text i : utf8_inventory i → document (spells True) (inventory_text i) (inventory_json i).
Proof. exact (written_document i). Qed.
Theorem C71_edited_inventory fits tm t0 w lx i t j : vorder_ok w → utf8_inventory i → timely tm i → named_inventory i → numbered_inventory i →
  document (spells True) t j → reordered (inventory_json i) j →
  load_text fits tm t0 t = LDoc [] (doc_of i) ∧ ∃ i', parse_text fits tm t0 w lx t = Some i' ∧ same_record i i'.
Proof.
  intros Hw Hu Ht Hn Hv Hd Hr. pose proof (written_reordered True fits tm t0 i t j Hu Hd Hr) as E. split; [rewrite E; by apply load_written_text|].
  rewrite (parse_same fits tm t0 w lx _ _ E). by apply parse_written.
Qed.
(** Everything else is refused. *)
Theorem C71_other_text_refused fits tm t0 t : (∀ j, ¬ document (spells True) t j) → load_text fits tm t0 t = LFail "cannot unmarshal json".
Proof. intros H. unfold load_text. destruct (read t) as [j|] eqn:E; [|done]. by destruct (H j (read_document t j E)). Qed.

(** An inventory, and the same inventory with members in a different order, escapes, and white space. *)
Definition grin : string := bytes [240; 159; 152; 128]%N.
Definition plain_inventory : inventory :=
  Inventory "urn:x" "https://ocfl.io/1.1/spec/#inventory" "sha512" "v1" "" {["a78" := ["v1/content/b/" +:+ grin]]}
    {["v1" := Version "2024-01-01T00:00:00Z" "m" "n" "a" {["a78" := ["b/" +:+ grin]]}]} ∅ [] 0 false false.
Definition edited_text : string := " { ""type"":""https:\/\/ocfl.io\/1.1\/spec\/#inventory"",
  ""id"" : ""urn:x"",	""digestAlgorithm"": ""sha512"" , ""head"":""v1"",
 ""manifest"":{""a78"":[""v1\/content\/b\/\uD83D\ude00""]}, ""versions"": { ""v1"" : {""message"":""m"",""created"":""2024-01-01T00:00:00Z"",
  ""state"":{ ""a78"" : [ ""b/" +:+ grin +:+ """ ] }, ""user"":{""address"":""a"",""name"":""n""}}} }
".
Definition edited_json : json := default JNull (read edited_text).
Lemma edited_reordered : reordered (inventory_json plain_inventory) edited_json.
Proof.
  assert (inventory_json plain_inventory = ltac:(let v := eval vm_compute in (inventory_json plain_inventory) in exact v)) as -> by (vm_compute; reflexivity).
  assert (edited_json = ltac:(let v := eval vm_compute in edited_json in exact v)) as -> by (vm_compute; reflexivity).
  eapply rtc_l; [apply (swapped_here [] "id" _ "type"); apply ascii_apart; vm_compute; reflexivity|]. cbn [app].
  eapply rtc_l; [|apply rtc_refl].
  match goal with |- swapped (JObj [?a; ?b; ?c; ?d; ?e; ("versions", ?f)]) _ => apply (swapped_member [a; b; c; d; e] "versions" f _ []) end.
  match goal with |- swapped (JObj [("v1", ?f)]) _ => apply (swapped_member [] "v1" f _ []) end.
  apply (swapped_here [] "created" _ "message"); apply ascii_apart; vm_compute; reflexivity.
Qed.
Example C71_edited_example :
  edited_text ≠ inventory_text plain_inventory ∧ vorder_ok wd ∧ storable tm0 plain_inventory ∧ document (spells True) edited_text edited_json ∧
  reordered (inventory_json plain_inventory) edited_json ∧ edited_json ≠ inventory_json plain_inventory ∧
  load_text fits0 tm0 zero_time edited_text = LDoc [] (doc_of plain_inventory).
Proof.
  split; [intros H; vm_compute in H; discriminate H|]. split; [exact wd_ok|]. assert (storable tm0 plain_inventory) as Hs by (apply storableb_true; vm_compute; reflexivity).
  assert (document (spells True) edited_text edited_json) as Hd by (apply read_document; vm_compute; reflexivity).
  split; [exact Hs|]. split; [exact Hd|]. split; [exact edited_reordered|]. split; [intros H; vm_compute in H; discriminate H|].
  destruct Hs as (H1 & H2 & H3 & H4). exact (proj1 (C71_edited_inventory fits0 tm0 zero_time wd lx0 plain_inventory edited_text edited_json wd_ok H1 H2 H3 H4 Hd edited_reordered)).
Qed.
(** Values of a few texts: a number, escapes, a surrogate pair; and texts that are refused. *)
Definition text_of (s : string) : string := dq +:+ s +:+ dq.
Example C71_values_example :
  read " [ -0.50e+2 , 7,null] " = Some (JArr [JNum "-0.50e+2"; JNum "7"; JNull]) ∧
  read (text_of "\/\b\u00e4\uD83D\ude00") = Some (JStr (bytes [47; 8; 195; 164; 240; 159; 152; 128]%N)) ∧
  read (text_of "\ud800x") = Some (JStr (bytes [239; 191; 189; 120]%N)) ∧
  Forall (λ t, read t = None) ["01"; "1."; "[1,]"; "{}x"; "tru"; "[1}"; text_of "\x"; text_of "\u12g4"; "'a'"; ""; "+1"; ".5"; "1e"; "{""a""}"; "{""a"":1,}"].
Proof.
  split; [vm_compute; reflexivity|]. split; [vm_compute; reflexivity|]. split; [vm_compute; reflexivity|].
  repeat (apply Forall_cons; split; [vm_compute; reflexivity|]). apply Forall_nil. exact I.
Qed.
Example C71_other_text_example : ∀ j, ¬ document (spells True) "[1,]" j.
Proof.
  intros j H. assert (read "[1,]" = Some j) as E; [|vm_compute in E; discriminate E]. apply C71_read_exactly. split; [exact H|]. apply document_depth in H. etrans; [exact H|]. apply Nat.leb_le. vm_compute. reflexivity.
Qed.

(** The limit on nesting is needed: RFC 8259 allows readers to have one. *)
Theorem C71_deep_text_refuted : ∃ t j, document (spells False) t j ∧ read t = None.
Proof.
  exists (nest_text (N.to_nat 10000)), (nest (N.to_nat 10000)). split; [|apply nest_refused; lia].
  rewrite <- (str_app_nil_r (nest_text (N.to_nat 10000))). apply (Document _ "" (nest_text (N.to_nat 10000))); [constructor|apply nest_jtext|constructor].
Qed.
(** Members whose names differ only in case must not change places: the last one counts. *)
Theorem C71_case_order_refuted : ∃ fits tm t0 k j k' j' l, k ≠ k' ∧
  load_json fits tm t0 (JObj ((k, j) :: (k', j') :: l)) ≠ load_json fits tm t0 (JObj ((k', j') :: (k, j) :: l)).
Proof.
  exists fits0, tm0, zero_time, "id", (JStr "urn:x"), "ID", (JStr "urn:y"), [("type", JStr "https://ocfl.io/1.1/spec/#inventory")]. split; [done|].
  intros H. apply (f_equal (λ r, match r with LDoc _ d => dc_id d | _ => "" end)) in H. vm_compute in H. discriminate H.
Qed.
(** Names that are not Unicode are told apart by their texts but not by their values: two paths become one. *)
Theorem C71_surrogates_refuted : ∃ s s', s ≠ s' ∧ read (text_of s) = read (text_of s') ∧ is_Some (read (text_of s)).
Proof. exists "v1/content/\ud800", "v1/content/\udc00". split; [done|]. split; [by vm_compute|]. eexists. by vm_compute. Qed.
(** A string member that is null is as good as absent, also after one that is not. *)
Theorem C52_null_absent fits tm t0 name k l1 l2 : name ∈ ["id"; "digestAlgorithm"; "contentDirectory"] → JsonTypeSpec.spelled name k →
  load_json fits tm t0 (JObj (l1 ++ (k, JNull) :: l2)) = load_json fits tm t0 (JObj (l1 ++ l2)).
Proof. exact (null_absent fits tm t0 name k l1 l2). Qed.
Example C52_null_example : ∃ fs d, load_json fits0 tm0 zero_time (JObj (Fixtures7.good_members ++ [("id", JNull)])) = LDoc fs d ∧ dc_id d = "urn:x".
Proof. pose proof (C52_null_absent fits0 tm0 zero_time "id" "id" Fixtures7.good_members [] ltac:(left) (JsonTypeProofs.spelled_refl _)) as ->. eexists _, _. vm_compute. split; reflexivity. Qed.
(** A number anywhere in the value. *)
Inductive number_in (lit : string) : json → Prop :=
| number_itself : number_in lit (JNum lit)
| number_element l j : j ∈ l → number_in lit j → number_in lit (JArr l)
| number_member l k j : (k, j) ∈ l → number_in lit j → number_in lit (JObj l).
(** A number that is out of range, also in a member that is not used, makes the whole inventory unreadable. *)
Theorem C52_number_refused fits tm t0 text j lit :
  read text = Some j → number_in lit j → fits lit = false → load_text fits tm t0 text = LFail "cannot unmarshal json".
Proof.
  intros Hr Hn Hf. unfold load_text. rewrite Hr. unfold load_json.
  assert (all_fit fits j = false) as ->; [|done]. clear Hr. induction Hn as [|l j Hj _ IH|l k j Hj _ IH]; cbn [all_fit].
  - exact Hf.
  - apply not_true_iff_false. intros H. rewrite forallb_forall in H. rewrite (H j) in IH; [done|by apply elem_of_list_In].
  - apply not_true_iff_false. intros H. rewrite forallb_forall in H. specialize (H (k, j)). cbn [snd] in H. rewrite H in IH; [done|by apply elem_of_list_In].
Qed.
Example C52_number_example : ∃ j, read "{""a"": [1, {""b"": 1e999}]}" = Some j ∧ number_in "1e999" j.
Proof.
  eexists. split; [by vm_compute|]. eapply number_member; [left|]. eapply number_element; [right; left|]. eapply number_member; [left|]. constructor.
Qed.
Print Assumptions C71_read_exactly.
Print Assumptions C71_unicode_read.
Print Assumptions C71_same_inventory.
Print Assumptions C71_written_text.
Print Assumptions C71_edited_inventory.
Print Assumptions C71_other_text_refused.
Print Assumptions C71_deep_text_refuted.
Print Assumptions C71_case_order_refuted.
Print Assumptions C71_surrogates_refuted.
Print Assumptions C52_null_absent.
Print Assumptions C52_null_example.
Print Assumptions C52_number_refused.
