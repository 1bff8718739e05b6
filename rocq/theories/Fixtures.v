(** Concrete environment and objects used in the examples and in the counterexamples. *)
From Coq Require Import Ascii.
From stdpp Require Import base list strings gmap.
From Coq Require Import ZArith.
From Verif Require Import GoStr PathModel InventoryModel InventorySpec ObjectModel ObjectSpec.

(** Digests are tagged copies of the data; paths are not changed by extensions. *)
Definition xhash (alg data : string) : option string :=
  if decide (alg = "sha512") then Some ("s" +:+ data)
  else if decide (alg = "md5") then Some ("m" +:+ data) else None.
Definition xenv : env :=
  Env xhash (λ i, "json " +:+ inv_head i) (λ p _, Some p) (λ p _, Some p) [("initial/config.json", "{}")].

Definition dflt : oracle := default_oracle.
Definition simple (l : list sop) : list (oracle * oop) := (λ s, (dflt, OSimple s)) <$> l.
(** One complete update. *)
Definition update (l : list sop) : list (oracle * oop) :=
  [(dflt, OStart "2024-01-01" "msg" "me" "mailto:me" false)] ++ simple l ++ [(dflt, OEnd (HDone [])); (dflt, OClose)].
Definition fresh0 : inventory := new_inventory "id:1" "https://ocfl.io/1.1/spec/#inventory" "sha512" ["md5"].
Definition after (ops : list (oracle * oop)) (i : inventory) : inventory := ob_inv (orun xenv ops (open_object i)).

(** Version 1 has a and b/c; version 2 changes a, adds d; version 3 deletes b/c. *)
Definition inv1 : inventory := after (update [SAdd "x" "a" "" true; SAdd "y" "b/c" "" true]) fresh0.
Definition inv2 : inventory := after (update [SAdd "z" "a" "" true; SAdd "w" "d" "" false]) inv1.
Definition inv3 : inventory := after (update [SDelete "b/c" "sy"]) inv2.

(** A handle on the object with the given inventory, update started. *)
Definition started (i : inventory) : object :=
  orun xenv [(dflt, OStart "2024-02-02" "next" "me" "mailto:me" false)] (open_object i).

Lemma dflt_ok : oracle_ok dflt.
Proof. split; done. Qed.

(** Executable versions of the vocabulary, for computing with examples. *)
Definition currentb (i : inventory) (p d : string) : bool :=
  match inv_versions i !! inv_head i with
  | Some v => match v_state v !! d with Some ps => bool_decide (p ∈ ps) | None => false end
  | None => false
  end.
Lemma currentb_true i p d : currentb i p d = true → current i p d.
Proof.
  unfold currentb, current, recorded, lists. destruct (inv_versions i !! inv_head i) as [v|]; [|done].
  destruct (v_state v !! d) as [ps|] eqn:E; [|done]. intros H. apply bool_decide_eq_true in H. eauto.
Qed.
Lemma currentb_false i p d : currentb i p d = false → ¬ current i p d.
Proof.
  unfold currentb, current, recorded, lists. intros H (v & Hv & ps & Hps & Hp). rewrite Hv, Hps in H.
  by apply bool_decide_eq_false in H.
Qed.
(** No digest lists the path. *)
Definition absentb (i : inventory) (p : string) : bool :=
  match inv_versions i !! inv_head i with
  | Some v => forallb (λ x : string * list string, bool_decide (p ∉ x.2)) (map_to_list (v_state v))
  | None => true
  end.
Lemma absentb_true i p : absentb i p = true → ∀ d, ¬ current i p d.
Proof.
  unfold absentb. intros H d (v & Hv & ps & Hps & Hp). rewrite Hv in H.
  rewrite forallb_forall in H. specialize (H (d, ps)). simpl in H.
  assert (bool_decide (p ∉ ps) = true) as Hb.
  { apply H. apply elem_of_list_In. by apply elem_of_map_to_list. }
  by apply bool_decide_eq_true in Hb.
Qed.
Definition uniqueb (s : smap) : bool :=
  bool_decide (NoDup (flat_map snd (map_to_list s))).
Definition onlyb (i : inventory) (p d : string) : bool :=
  match inv_versions i !! inv_head i with
  | Some v => forallb (λ x : string * list string, bool_decide (p ∈ x.2 → x.1 = d)) (map_to_list (v_state v))
  | None => true
  end.
Lemma onlyb_true i p d : onlyb i p d = true → ∀ e, current i p e → e = d.
Proof.
  unfold onlyb. intros H e (v & Hv & ps & Hps & Hp). rewrite Hv in H.
  rewrite forallb_forall in H. specialize (H (e, ps)). simpl in H.
  assert (bool_decide (p ∈ ps → e = d) = true) as Hb.
  { apply H. apply elem_of_list_In. by apply elem_of_map_to_list. }
  apply bool_decide_eq_true in Hb. auto.
Qed.
Lemma onlyb_single i p d : onlyb i p d = true → single i p.
Proof. intros H d1 d2 H1 H2. by rewrite (onlyb_true i p d H d1), (onlyb_true i p d H d2). Qed.

Lemma pair_status (r : object * status) st : r.2 = st → r = (r.1, st).
Proof. by destruct r; simpl; intros ->. Qed.

(** Guarded histories without hooks, computed. *)
Fixpoint guardedb (E : env) (g : sop → object → bool) (ops : list (oracle * oop)) (o : object) : bool :=
  match ops with
  | [] => true
  | (orc, op) :: ops' =>
      (match op with
       | OSimple s => g s o
       | OEnd (HDone []) => true
       | OEnd _ => false
       | _ => true
       end) &&
      match ostep E orc op o with
      | (_, SPanic) => true
      | (o', _) => guardedb E g ops' o'
      end
  end.
Lemma guardedb_sound E g (G : oracle → sop → object → Prop) (G0 : oracle → Prop) ops o :
  (∀ orc s o, G0 orc → g s o = true → G orc s o) → Forall (λ p : oracle * oop, G0 p.1) ops →
  guardedb E g ops o = true → guarded E G G0 ops o.
Proof.
  intros Hg H0. revert o. induction H0 as [|[orc op] ops Ho H0 IH]; intros o H; [done|].
  simpl in H. apply andb_prop in H as [H1 H2]. simpl. split.
  - destruct op as [s|now msg un ua echo|h| | |]; simpl; auto.
    destruct h as [[|]|]; try done. simpl. split; [done|].
    destruct (if ob_echo o then _ else _) as [o1 [| |]]; simpl; try done. split; [done|].
    by destruct (store_inventory E true false o1) as [o3 [| |]].
  - destruct (ostep E orc op o) as [o' [| |]]; auto.
Qed.
Lemma update_ok (G0 : oracle → Prop) l : G0 dflt → Forall (λ p : oracle * oop, G0 p.1) (update l).
Proof.
  intros H. unfold update. apply Forall_app. split; [by repeat constructor|]. apply Forall_app.
  split; [|by repeat constructor]. unfold simple. apply Forall_fmap, Forall_true. done.
Qed.
Definition man_freshb (i : inventory) (m : string) : bool :=
  forallb (λ x : string * list string, bool_decide (m ∉ x.2)) (map_to_list (inv_manifest i)).
Lemma man_freshb_true i m : man_freshb i m = true → man_fresh i m.
Proof.
  intros H d (ps & Hps & Hp). unfold man_freshb in H. rewrite forallb_forall in H. specialize (H (d, ps)). simpl in H.
  assert (bool_decide (m ∉ ps) = true) as Hb by (apply H, elem_of_list_In; by apply elem_of_map_to_list).
  by apply bool_decide_eq_true in Hb.
Qed.
