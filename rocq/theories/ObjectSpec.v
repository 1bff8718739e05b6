(** Vocabulary in which the properties of object handles are stated. *)
From Coq Require Import Ascii.
From stdpp Require Import base list strings gmap.
From Coq Require Import ZArith.
From Verif Require Import GoStr PathModel InventoryModel InventorySpec ObjectModel.

(** [guarded E G ops o]: in the history [ops] from handle [o] every working-version call [op] with map orders [orc] in
    handle state [o'] satisfies [G orc op o'], also the calls made by extension hooks, and every call that loops over a
    map on its own satisfies [G0 orc]. *)
Section guarded.
  Context (E : env) (G : oracle → sop → object → Prop) (G0 : oracle → Prop).

  Definition after_ok (r : object * status) (k : object → Prop) : Prop :=
    match r with (o, SOk) => k o | _ => True end.
  Fixpoint guarded_sops (ops : list hcall) (o : object) : Prop :=
    match ops with
    | [] => True
    | HCall orc op :: ops' => G orc op o ∧ after_ok (sop_step E orc op o) (guarded_sops ops')
    | HTry orc op :: ops' =>
        G orc op o ∧
        match sop_step E orc op o with
        | (_, SPanic) => True
        | (o', _) => guarded_sops ops' o'
        end
    | HFail _ :: _ => True
    end.
  Fixpoint guarded_end (orc : oracle) (h : hooks) (o : object) : Prop :=
    let after := match h with HDone a => a | HMore a _ _ _ => a end in
    G0 orc ∧
    after_ok (if ob_echo o then ob_echo_delete E orc o else (o, SOk)) (λ o1,
      guarded_sops after o1 ∧
      after_ok (sops_run E after o1) (λ o2,
      after_ok (store_inventory E true false o2) (λ o3,
        match h with
        | HDone _ => True
        | HMore _ now auto rest =>
            after_ok (ob_start now "automated version" "gocfl" "https://github.com/je4/gocfl" false o3) (λ o4,
              guarded_sops auto o4 ∧
              after_ok (sops_run E auto o4) (guarded_end (shift_oracle orc) rest))
        end))).
  Definition guarded_op (orc : oracle) (op : oop) (o : object) : Prop :=
    match op with
    | OSimple s => G orc s o
    | OEnd h => guarded_end orc h o
    | OEndArea => G0 orc
    | _ => True
    end.
  Fixpoint guarded (ops : list (oracle * oop)) (o : object) : Prop :=
    match ops with
    | [] => True
    | (orc, op) :: ops' =>
        guarded_op orc op o ∧
        match ostep E orc op o with
        | (_, SPanic) => True
        | (o', _) => guarded ops' o'
        end
    end.

End guarded.

(** [all_ops G G0 ops]: the same for a guard on the calls alone. *)
Section static_guard.
  Context (G : oracle → sop → Prop) (G0 : oracle → Prop).
  Definition all_hcall (c : hcall) : Prop :=
    match c with HCall orc op | HTry orc op => G orc op | HFail _ => True end.
  Fixpoint all_hooks (h : hooks) : Prop :=
    match h with
    | HDone a => Forall all_hcall a
    | HMore a _ b rest => Forall all_hcall a ∧ Forall all_hcall b ∧ all_hooks rest
    end.
  Definition all_op (orc : oracle) (op : oop) : Prop :=
    match op with
    | OSimple s => G orc s
    | OEnd h => G0 orc ∧ all_hooks h
    | OEndArea => G0 orc
    | _ => True
    end.
  Definition all_ops (ops : list (oracle * oop)) : Prop := Forall (λ p, all_op p.1 p.2) ops.
End static_guard.

(** Premises shared by the theorems about adding one file: everything that is needed for the call to succeed. *)
Record addable (E : env) (o : object) (data path area np d : string) : Prop := Addable {
  ad_head : head_newest (ob_inv o);
  ad_started : inv_head (ob_inv o) ≠ "";
  ad_write : inv_writeable (ob_inv o) = true;
  ad_state : e_state_path E path area = Some np;
  ad_man : is_Some (e_manifest_path E path area);
  ad_hash : e_hash E (inv_alg (ob_inv o)) data = Some d;
  ad_ne : d ≠ "";
  ad_low : to_lower d = d;
  ad_fix : ∀ a, a ∈ inv_fixalgs (ob_inv o) → is_Some (e_hash E a data)
}.

(** Digests are never empty. *)
Definition nonempty_hash (E : env) : Prop := ∀ alg data d, e_hash E alg data = Some d → d ≠ "".

(** The guard: a de-duplicated add or a copy does not target a path that currently has other content, and a rename does
    not target a path that is present. *)
Definition no_collision (E : env) (orc : oracle) (op : sop) (o : object) : Prop :=
  oracle_ok orc ∧
  match op with
  | SAdd data path area true =>
      ∀ np d e, e_state_path E path area = Some np → e_hash E (inv_alg (ob_inv o)) data = Some d →
        current (ob_inv o) np e → e = d
  | SRename a b _ => a = b ∨ ∀ e, ¬ current (ob_inv o) b e
  | SCopy b d => ∀ e, current (ob_inv o) b e → e = d
  | _ => True
  end.

(** No digest has content path [m]. *)
Definition man_fresh (i : inventory) (m : string) : Prop := ∀ d, ¬ lists (inv_manifest i) m d.
(** The guard: added content goes to a content path that is not recorded yet, one logical path at a time. *)
Definition fresh_content_path (E : env) (orc : oracle) (op : sop) (o : object) : Prop :=
  match op with
  | SAdd _ path area _ => ∀ m, e_manifest_path E path area = Some m → man_fresh (ob_inv o) (manifest_name (ob_inv o) m)
  | SAddReader _ files area =>
      ∃ f, files = [f] ∧
        ∀ m, e_manifest_path E f area = Some m → man_fresh (ob_inv o) (manifest_name (ob_inv o) m)
  | _ => True
  end.

(** Adding a file (data, path, area) with de-duplication. *)
Definition re_add (x : oracle * (string * string * string)) : oracle * oop :=
  (x.1, OSimple (SAdd x.2.1.1 x.2.1.2 x.2.2 true)).

(** The file is current: its logical path has exactly the digest of the data. *)
Definition is_current (E : env) (i : inventory) (f : string * string * string) : Prop :=
  let '(data, path, area) := f in
  ∃ np d, e_state_path E path area = Some np ∧ is_Some (e_manifest_path E path area) ∧
    e_hash E (inv_alg i) data = Some d ∧ d ≠ "" ∧ current i np d ∧ single i np.

(** The fixity block of [alg] lists content path [p] under [fd]. *)
Definition fixity_lists (i : inventory) (alg p fd : string) : Prop :=
  ∃ blk, inv_fixity i !! alg = Some blk ∧ lists blk p fd.
Definition fixity_times (i : inventory) (alg p fd : string) : nat :=
  times (default ∅ (inv_fixity i !! alg)) p fd.

