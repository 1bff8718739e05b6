(** A general induction principle for histories: invariants of the whole handle (inventory, echo flag, confirmed files,
    storage trace), where every working-version call satisfies a guard in the state in which it is made. *)
From Coq Require Import Ascii.
From stdpp Require Import base list strings gmap.
From Coq Require Import ZArith Lia.
From Verif Require Import GoStr PathModel InventoryModel InventorySpec InventoryProofs ObjectModel ObjectSpec ObjectProofs.

Section guarded_proofs.
  Context (E : env) (G : oracle → sop → object → Prop) (G0 : oracle → Prop).
  Notation guarded_sops := (guarded_sops E G).
  Notation guarded_end := (guarded_end E G G0).
  Notation guarded_op := (guarded_op E G G0).
  Notation guarded := (guarded E G G0).
  Context (P : object → Prop).
  Context (Hsop : ∀ orc op o, G orc op o → P o → P (sop_step E orc op o).1).
  Context (Hstart : ∀ now msg un ua e o, P o → P (ob_start now msg un ua e o).1).
  Context (Hecho : ∀ orc o, G0 orc → ob_echo o = true → P o → P (ob_echo_delete E orc o).1).
  Context (Hver : ∀ o, inv_modified (ob_inv o) = true → P o → P (store_inventory E true false o).1).
  Context (Hclose : ∀ o, inv_modified (ob_inv o) = true → P o →
    P (andThen (store_inventory E false true o) (store_extensions E)).1).
  Context (Hupd : ∀ o, P o → P (set_upd [] o)).

  Lemma guarded_sops_run ops o : guarded_sops ops o → P o → P (sops_run E ops o).1.
  Proof.
    revert o; induction ops as [|[orc op|orc op|msg] ops IH]; intros o Hg Ho; simpl in *; [done| | |done];
      destruct Hg as [Hg1 Hg2]; pose proof (Hsop orc op o Hg1 Ho);
      destruct (sop_step E orc op o) as [o' [| |]]; simpl in *; auto.
  Qed.
  Lemma guarded_end_run orc h o : guarded_end orc h o → P o → P (ob_end E orc h o).1.
  Proof.
    revert orc o; induction h as [a|a now auto rest IH]; intros orc o Hg Ho; rewrite ob_end_unfold;
      (destruct (inv_writeable (ob_inv o)); [simpl|done]);
      (destruct (inv_modified (ob_inv o)) eqn:Hm; [simpl|done]);
      simpl in Hg; destruct Hg as [Hg0 Hg].
    - assert (P (if ob_echo o then ob_echo_delete E orc o else (o, SOk)).1) as H1
        by (destruct (ob_echo o) eqn:He; [by apply Hecho|done]).
      pose proof (end_pre_modified E orc a o Hm) as Hm2.
      destruct (if ob_echo o then _ else _) as [o1 [| |]]; simpl in *; try done.
      destruct Hg as [Hg1 Hg2]. pose proof (guarded_sops_run a o1 Hg1 H1) as H2.
      destruct (sops_run E a o1) as [o2 [| |]]; simpl in *; try done.
      pose proof (Hver o2 Hm2 H2) as H3. destruct (store_inventory E true false o2) as [o3 [| |]]; simpl in *; done.
    - assert (P (if ob_echo o then ob_echo_delete E orc o else (o, SOk)).1) as H1
        by (destruct (ob_echo o) eqn:He; [by apply Hecho|done]).
      pose proof (end_pre_modified E orc a o Hm) as Hm2.
      destruct (if ob_echo o then _ else _) as [o1 [| |]]; simpl in *; try done.
      destruct Hg as [Hg1 Hg2]. pose proof (guarded_sops_run a o1 Hg1 H1) as H2.
      destruct (sops_run E a o1) as [o2 [| |]]; simpl in *; try done.
      pose proof (Hver o2 Hm2 H2) as H3. destruct (store_inventory E true false o2) as [o3 [| |]]; simpl in *; try done.
      pose proof (Hstart now "automated version" "gocfl" "https://github.com/je4/gocfl" false o3 H3) as H4.
      destruct (ob_start _ _ _ _ _ o3) as [o4 [| |]]; simpl in *; try done.
      destruct Hg2 as [Hg3 Hg4]. pose proof (guarded_sops_run auto o4 Hg3 H4) as H5.
      destruct (sops_run E auto o4) as [o5 [| |]]; simpl in *; try done. by apply IH.
  Qed.
  Lemma guarded_step orc op o : guarded_op orc op o → P o → P (ostep E orc op o).1.
  Proof.
    destruct op as [s|now msg un ua echo|h| | |]; simpl; intros Hg Ho; auto.
    - by apply guarded_end_run.
    - unfold ob_end_area.
      assert (P (if ob_echo o then ob_echo_delete E orc o else (o, SOk)).1) as H1
        by (destruct (ob_echo o) eqn:He; [by apply Hecho|done]).
      destruct (if ob_echo o then _ else _) as [o1 [| |]]; simpl in *; auto.
    - unfold ob_close. destruct (inv_writeable (ob_inv o)); [simpl|done].
      destruct (inv_modified (ob_inv o)) eqn:Hm; [simpl|done].
      rewrite clean_ob by done. simpl. auto.
  Qed.
  Lemma guarded_run ops o : guarded ops o → P o → P (orun E ops o).
  Proof.
    revert o; induction ops as [|[orc op] ops IH]; intros o Hg Ho; [done|]. destruct Hg as [Hg1 Hg2]. simpl.
    pose proof (guarded_step orc op o Hg1 Ho). destruct (ostep E orc op o) as [o' [| |]]; simpl in *; auto.
  Qed.

  (** The same for histories without Close. *)
  Lemma guarded_step_noclose orc op o : op ≠ OClose → guarded_op orc op o → P o → P (ostep E orc op o).1.
  Proof.
    destruct op as [s|now msg un ua echo|h| | |]; simpl; intros Hne Hg Ho; auto; [|..|done].
    - by apply guarded_end_run.
    - unfold ob_end_area.
      assert (P (if ob_echo o then ob_echo_delete E orc o else (o, SOk)).1) as H1
        by (destruct (ob_echo o) eqn:He; [by apply Hecho|done]).
      destruct (if ob_echo o then _ else _) as [o1 [| |]]; simpl in *; auto.
  Qed.
  Lemma guarded_run_noclose ops o :
    Forall (λ p : oracle * oop, p.2 ≠ OClose) ops → guarded ops o → P o → P (orun E ops o).
  Proof.
    intros Hn. revert o; induction Hn as [|[orc op] ops Hne Hn IH]; intros o Hg Ho; [done|].
    destruct Hg as [Hg1 Hg2]. simpl.
    pose proof (guarded_step_noclose orc op o Hne Hg1 Ho).
    destruct (ostep E orc op o) as [o' [| |]]; simpl in *; auto.
  Qed.
End guarded_proofs.

(** A guard on the calls alone. *)
Section static.
  Context (E : env) (G : oracle → sop → Prop) (G0 : oracle → Prop).
  Notation all_hooks := (all_hooks G).
  Notation all_op := (all_op G G0).
  Notation all_ops := (all_ops G G0).
  Context (Hshift : ∀ orc, G0 orc → G0 (shift_oracle orc)).

  Lemma all_guarded_sops ops o : Forall (all_hcall G) ops → guarded_sops E (λ orc op _, G orc op) ops o.
  Proof.
    revert o; induction ops as [|[orc op|orc op|msg] ops IH]; intros o H; [done| | |done];
      inversion H; subst; simpl; (split; [done|]);
    destruct (sop_step E orc op o) as [o' [| |]]; simpl; auto.
  Qed.
  Lemma all_guarded_end orc h o : G0 orc → all_hooks h → guarded_end E (λ orc op _, G orc op) G0 orc h o.
  Proof.
    revert orc o; induction h as [a|a now auto rest IH]; intros orc o H0 H; simpl; (split; [done|]).
    - destruct (if ob_echo o then _ else _) as [o1 [| |]]; simpl; auto. split; [by apply all_guarded_sops|].
      destruct (sops_run E a o1) as [o2 [| |]]; simpl; auto.
      destruct (store_inventory E true false o2) as [o3 [| |]]; simpl; auto.
    - destruct H as (Ha & Hb & Hr).
      destruct (if ob_echo o then _ else _) as [o1 [| |]]; simpl; auto. split; [by apply all_guarded_sops|].
      destruct (sops_run E a o1) as [o2 [| |]]; simpl; auto.
      destruct (store_inventory E true false o2) as [o3 [| |]]; simpl; auto.
      destruct (ob_start _ _ _ _ _ o3) as [o4 [| |]]; simpl; auto. split; [by apply all_guarded_sops|].
      destruct (sops_run E auto o4) as [o5 [| |]]; simpl; auto.
  Qed.
  Lemma all_guarded ops o : all_ops ops → guarded E (λ orc op _, G orc op) G0 ops o.
  Proof.
    revert o; induction ops as [|[orc op] ops IH]; intros o H; [done|]. inversion H as [|? ? H1 H2]; subst. simpl. split.
    - destruct op as [s|now msg un ua echo|h| | |]; simpl in *; auto. destruct H1. by apply all_guarded_end.
    - destruct (ostep E orc op o) as [o' [| |]]; simpl; auto.
  Qed.
End static.

Lemma guarded_mono E (G G' : oracle → sop → object → Prop) (G0 G0' : oracle → Prop) ops o :
  (∀ orc op o, G orc op o → G' orc op o) → (∀ orc, G0 orc → G0' orc) →
  guarded E G G0 ops o → guarded E G' G0' ops o.
Proof.
  intros HG HG0.
  assert (∀ l x, guarded_sops E G l x → guarded_sops E G' l x) as Hs.
  { induction l as [|[orc op|orc op|msg] l IH]; intros x; [done| | |done]; simpl; intros [H1 H2]; (split; [auto|]);
    destruct (sop_step E orc op x) as [x' [| |]]; simpl in *; auto. }
  assert (∀ h orc x, guarded_end E G G0 orc h x → guarded_end E G' G0' orc h x) as He.
  { induction h as [a|a now auto rest IH]; intros orc x; simpl; intros [H0 H]; (split; [auto|]);
      (destruct (if ob_echo x then _ else _) as [o1 [| |]]; simpl in *; auto);
      destruct H as [H1 H2]; (split; [auto|]);
      (destruct (sops_run E a o1) as [o2 [| |]]; simpl in *; auto);
      (destruct (store_inventory E true false o2) as [o3 [| |]]; simpl in *; auto).
    destruct (ob_start _ _ _ _ _ o3) as [o4 [| |]]; simpl in *; auto.
    destruct H2 as [H2 H3]. split; [auto|]. destruct (sops_run E auto o4) as [o5 [| |]]; simpl in *; auto. }
  revert o; induction ops as [|[orc op] ops IH]; intros o; [done|]. simpl. intros [H1 H2]. split.
  - destruct op; simpl in *; auto.
  - destruct (ostep E orc op o) as [o' [| |]]; auto.
Qed.
