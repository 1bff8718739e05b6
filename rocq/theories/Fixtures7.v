(** Objects with hand-written inventories. *)
From Coq Require Import Ascii.
From stdpp Require Import base list strings gmap.
From Coq Require Import ZArith Lia.
From Verif Require Import GoStr InventoryModel ObjectModel CrashSpec LoadModel ValidateModel ValidateSpec CheckModel AcceptSpec JsonModel JsonInvModel JsonTypeSpec JsonTypeProofs
  Fixtures Fixtures2 Fixtures3 Fixtures5 Fixtures6.

(** Executable forms of the vocabulary. *)
Definition onceb (name : string) (l : list (string * json)) : bool := (length (List.filter (λ p : string * json, field name p.1) l) <=? 1).
Lemma onceb_true name l : is_ascii name = true → onceb name l = true → once name l.
Proof.
  intros Ha H l1 k j l2 -> Hk j' (k' & Hk' & Hin). unfold onceb in H. apply Nat.leb_le in H. rewrite List.filter_app, app_length in H. cbn [List.filter fst] in H.
  apply field_spelled in Hk, Hk'; [|done..]. rewrite Hk in H. cbn [length] in H. apply elem_of_app in Hin as [Hin|Hin];
    (assert (In (k', j') (List.filter (λ p : string * json, field name p.1) l1) ∨ In (k', j') (List.filter (λ p : string * json, field name p.1) l2)) as [Hf|Hf]
      by (rewrite !filter_In; apply elem_of_list_In in Hin; cbn [fst]; tauto);
     destruct (List.filter _ l1) eqn:E1; destruct (List.filter _ l2) eqn:E2; cbn [length] in H; try lia; by destruct Hf).
Qed.
Definition once_userb (us : list (string * json)) : bool := onceb "name" us && onceb "address" us.
Definition once_versionb (ms : list (string * json)) : bool :=
  onceb "created" ms && onceb "message" ms && onceb "user" ms && onceb "state" ms &&
  forallb (λ p : string * json, match p.2 with JObj us => once_userb us && bool_decide (NoDup us.*1) | _ => true end) ms.
Definition once_inventoryb (l : list (string * json)) : bool :=
  forallb (λ n, onceb n l) ["id"; "type"; "digestAlgorithm"; "head"; "manifest"; "versions"] &&
  forallb (λ p : string * json, match p.2 with
    | JObj vs => negb (field "versions" p.1) || bool_decide (NoDup vs.*1) && forallb (λ q : string * json, match q.2 with JObj ms => once_versionb ms | _ => true end) vs
    | _ => true end) l.
Lemma once_versionb_true ms : once_versionb ms = true → once_version ms.
Proof.
  intros [[[[H1 H2]%andb_prop H3]%andb_prop H4]%andb_prop H5]%andb_prop. rewrite forallb_forall in H5.
  split; [by apply onceb_true|]. split; [by apply onceb_true|]. split; [by apply onceb_true|]. split; [by apply onceb_true|]. split.
  - intros us (k & _ & Hin). apply elem_of_list_In, H5 in Hin. cbn [snd] in Hin. apply andb_prop in Hin as [[A B]%andb_prop _].
    split; by apply onceb_true.
  - intros us (k & _ & Hin). apply elem_of_list_In, H5 in Hin. cbn [snd] in Hin. apply andb_prop in Hin as [_ A]. by apply bool_decide_eq_true in A.
Qed.
Lemma once_inventoryb_true l : once_inventoryb l = true → once_inventory l.
Proof.
  intros [H1 H2]%andb_prop. rewrite forallb_forall in H1, H2.
  assert (∀ n, is_ascii n = true → In n ["id"; "type"; "digestAlgorithm"; "head"; "manifest"; "versions"] → once n l) as Hn.
  { intros n Ha Hin. by apply onceb_true, H1. }
  split; [apply Hn; simpl; tauto|]. split; [apply Hn; simpl; tauto|]. split; [apply Hn; simpl; tauto|]. split; [apply Hn; simpl; tauto|].
  split; [apply Hn; simpl; tauto|]. split; [apply Hn; simpl; tauto|].
  intros vs (k & Hk & Hin). apply elem_of_list_In, H2 in Hin. cbn [snd fst] in Hin. apply field_spelled in Hk; [|done]. rewrite Hk in Hin. cbn [negb orb] in Hin.
  apply andb_prop in Hin as [A B]. apply bool_decide_eq_true in A. split; [done|]. intros ver ms Hv. rewrite forallb_forall in B.
  apply elem_of_list_In, B in Hv. by apply once_versionb_true.
Qed.
Lemma has_intro name l j : (name, j) ∈ l → has name l j.
Proof. intros H. exists name. split; [apply spelled_refl|done]. Qed.

(** An object with one version, whose two copies of the inventory have this text. *)
Definition text_object (text : string) (files : list (string * string)) : storage :=
  let dg := default "" (hexh "sha512" text) in
  list_to_map ([("0=ocfl_object_1.1", "ocfl_object_1.1"); ("inventory.json", text); ("inventory.json.sha512", dg +:+ " inventory.json");
    ("v1/inventory.json", text); ("v1/inventory.json.sha512", dg +:+ " inventory.json")] ++ files).
Definition v1_members (state : json) : list (string * json) :=
  [("created", JStr "2024-01-01T00:00:00Z"); ("message", JStr "m"); ("state", state);
   ("user", JObj [("address", JStr "mailto:me"); ("name", JStr "me")])].
Definition state_x : json := JObj [("a78", JArr [JStr "a"])].
Definition manifest_x : json := JObj [("a78", JArr [JStr "v1/content/a"])].
Definition inv_members (manifest : json) (version : json) : list (string * json) :=
  [("id", JStr "urn:x"); ("type", JStr "https://ocfl.io/1.1/spec/#inventory"); ("digestAlgorithm", JStr "sha512"); ("head", JStr "v1");
   ("manifest", manifest); ("versions", JObj [("v1", version)])].
Definition good_members : list (string * json) := inv_members manifest_x (JObj (v1_members state_x)).
Definition with_x : list (string * string) := [("v1/content/a", "x")].
(** Members that replace one of the same name. *)
Definition put (name : string) (j : json) (l : list (string * json)) : list (string * json) :=
  List.filter (λ p : string * json, negb (bool_decide (p.1 = name))) l ++ [(name, j)].
Definition tval (l : list (string * json)) (files : list (string * string)) : verdict :=
  validate_object hexh tdecode wd lx0 (text_object (render (JObj l)) files).
Definition warns (v : verdict) : bool := match v with VDone fs => forallb (λ f, bool_decide (str_head (f_code f) = Some "W"%char)) fs | _ => false end.
Lemma warns_true v : warns v = true → only_warnings v.
Proof.
  destruct v as [fs| |]; [|done..]. intros H. exists fs. split; [done|]. intros f Hf. cbn [warns] in H. rewrite forallb_forall in H.
  apply elem_of_list_In, H, bool_decide_eq_true in Hf. destruct (f_code f) as [|c r] eqn:E; [done|]. injection Hf as ->. exists r. by rewrite E.
Qed.
Definition reportsb (c : string) (v : verdict) : bool := match v with VDone fs => existsb (λ f, bool_decide (f_code f = c)) fs | _ => false end.
Lemma reportsb_true c v : reportsb c v = true → ∃ fs, v = VDone fs ∧ reported fs c.
Proof.
  destruct v as [fs| |]; [|done..]. intros H. exists fs. split; [done|]. apply existsb_exists in H as (f & Hf & Hb). apply bool_decide_eq_true in Hb.
  destruct f as [code args]. cbn [f_code] in Hb. subst code. exists args. by apply elem_of_list_In.
Qed.
