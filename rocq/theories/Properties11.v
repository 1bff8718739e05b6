(** What the writer writes is accepted by the validator. *)
From Coq Require Import Ascii.
From stdpp Require Import base list strings gmap.
From Coq Require Import ZArith Lia.
From Verif Require Import GoStr InventoryModel InventorySpec ObjectModel ObjectSpec CrashSpec LoadModel ValidateModel ValidateSpec CheckModel CheckSpec
  AcceptSpec AcceptProofs3 PublishSpec PublishProofs5 Fixtures Fixtures2 Fixtures3 Properties10 Fixtures5.

(** * C50: objects made by complete update sessions are accepted *)

(** Full statement: every object that is created and updated with calls that report no error is valid.  False, see below.
    Proved: the object is accepted (only warnings are reported, for every iteration order) if
    - every session loads the stored root inventory, makes one or more updates and closes the handle; every update is started, changes
      something and is ended without error (adds, deletes, renames, copies, echo deletion, calls that fail without panic, further
      versions made by extension hooks are all covered),
    - new content goes to clean content paths that are not in use, the digest algorithms are supported,
    - the logical paths have no empty, dot or dot-dot element and none is a directory in front of another one,
    - the object was created with unpadded version names, and the content directory is a plain name that is not the beginning of the
      name of an inventory file.
    [decode] is what the validator reads from the stored bytes, [parse] what the loader reads. *)
Theorem C50_published_valid_partial E P parse decode w lx s i :
  hex_hash (e_hash E) → json_ok P (e_json E) parse → (∀ i, decode (e_json E i) = Some (doc_of i)) →
  published E P parse s i → proper_names i → apart (content_name i) → vorder_ok w →
  only_warnings (validate_object (e_hash E) decode w lx s).
Proof. intros H1 H2 H3 H4 H5 H6 H7. eapply sound_accepted; [done|by eapply published_sound|done]. Qed.
Example C50_example : ∃ s i,
  hex_hash (e_hash jenv) ∧ json_ok (λ _, True) (e_json jenv) jparse ∧ (∀ i, jdecode (e_json jenv i) = Some (doc_of i)) ∧
  published jenv (λ _, True) jparse s i ∧ proper_names i ∧ apart (content_name i) ∧ vorder_ok wd ∧
  inv_head i = "v3" ∧ size (inv_manifest i) = 4 ∧ size s = 14 ∧ only_warnings (validate_object (e_hash jenv) jdecode wd lx0 s).
Proof.
  pose proof made2_checked as Hc. unfold made_checks in Hc. destruct made2 as [[s i]|] eqn:E; [|discriminate]. exists s, i.
  apply andb_prop in Hc as [[[[Hn Hh]%andb_prop Hcn]%andb_prop Hm]%andb_prop Hs]. apply bool_decide_eq_true in Hh, Hcn, Hm, Hs.
  pose proof (made2_published s i E) as Hp. clear E. pose proof (proper_namesb_true i Hn) as Hpn.
  assert (apart (content_name i)) as Ha by (rewrite Hcn; exact apart_content).
  split; [exact hexh_ok|]. split; [exact jjson_ok|]. split; [exact jdecode_ok|]. split; [exact Hp|]. split; [exact Hpn|]. split; [exact Ha|].
  split; [exact wd_ok|]. split; [exact Hh|]. split; [exact Hm|]. split; [exact Hs|].
  exact (C50_published_valid_partial jenv (λ _, True) jparse jdecode wd lx0 s i hexh_ok jjson_ok jdecode_ok Hp Hpn Ha wd_ok).
Qed.
Print Assumptions C50_published_valid_partial.

(** All assumptions on digests and JSON. *)
Definition faithful (E : env) (parse : string → option inventory) (decode : string → option doc) : Prop :=
  hex_hash (e_hash E) ∧ json_ok (λ _, True) (e_json E) parse ∧ ∀ i, decode (e_json E i) = Some (doc_of i).
Lemma jenv_faithful : faithful jenv jparse jdecode.
Proof. split; [exact hexh_ok|]. split; [exact jjson_ok|exact jdecode_ok]. Qed.
(** A new object on which every call succeeds; [ops] ends with Close. *)
Definition created_by (E : env) (ops : list (oracle * oop)) (s' : storage) : Prop :=
  ∃ s i o, fresh i ∧ declared s ∧ supported E i ∧ succeeds E ops (open_object i) o ∧ s' = apply_evs (ob_trace o) s.
Lemma tried_created ops v : ∀ o, tried jjson jdecode ops store0 fresh0 = Some (o, v) →
  created_by jenv ops (apply_evs (ob_trace o) store0) ∧ validate_object (e_hash jenv) jdecode wd lx0 (apply_evs (ob_trace o) store0) = v.
Proof.
  intros o [H1 H2]%tried_true. split; [|exact H2]. exists store0, fresh0, o. split; [exact fresh0_fresh|]. split; [exact store0_declared|].
  split; [apply supportedb_true; by vm_compute|]. split; [exact H1|done].
Qed.
Lemma tried_verdict ops s i v : snd <$> tried jjson jdecode ops s i = Some v → ∃ o, tried jjson jdecode ops s i = Some (o, v).
Proof. destruct (tried jjson jdecode ops s i) as [[o v']|]; [|done]. simpl. intros [= <-]. by exists o. Qed.

(** A rename to a path below another file: accepted, and then the object is invalid. *)
Theorem C50_rename_refuted :
  ∃ E parse decode w lx ops s' fs, faithful E parse decode ∧ vorder_ok w ∧ created_by E ops s' ∧
    ops = begin_up "2024-01-01" :: simple [SAdd "x" "a" "" true; SAdd "y" "b" "" true; SRename "b" "a/b" "a79"] ++ [end_up; finish] ∧
    validate_object (e_hash E) decode w lx s' = VDone fs ∧ reported fs "E095".
Proof.
  destruct (tried_verdict (begin_up "2024-01-01" :: simple [SAdd "x" "a" "" true; SAdd "y" "b" "" true; SRename "b" "a/b" "a79"] ++ [end_up; finish])
    store0 fresh0 _ ltac:(vm_compute; reflexivity)) as [o Ho]. apply tried_created in Ho as [H1 H2].
  eexists jenv, jparse, jdecode, wd, lx0, _, _, _. split; [exact jenv_faithful|]. split; [exact wd_ok|]. split; [exact H1|]. split; [reflexivity|].
  split; [exact H2|]. eexists. left.
Qed.
Print Assumptions C50_rename_refuted.

(** A rename to the empty path: accepted, and then validation panics. *)
Theorem C50_empty_path_refuted :
  ∃ E parse decode w lx ops s', faithful E parse decode ∧ vorder_ok w ∧ created_by E ops s' ∧
    ops = begin_up "2024-01-01" :: simple [SAdd "x" "a" "" true; SRename "a" "" "a78"] ++ [end_up; finish] ∧
    validate_object (e_hash E) decode w lx s' = VPanic.
Proof.
  destruct (tried_verdict (begin_up "2024-01-01" :: simple [SAdd "x" "a" "" true; SRename "a" "" "a78"] ++ [end_up; finish])
    store0 fresh0 _ ltac:(vm_compute; reflexivity)) as [o Ho]. apply tried_created in Ho as [H1 H2].
  eexists jenv, jparse, jdecode, wd, lx0, _, _. split; [exact jenv_faithful|]. split; [exact wd_ok|]. split; [exact H1|]. split; [reflexivity|].
  exact H2.
Qed.
Print Assumptions C50_empty_path_refuted.

(** The same path twice in one version with different content: the object is corrupt. *)
Theorem C50_same_path_refuted :
  ∃ E parse decode w lx ops s' fs, faithful E parse decode ∧ vorder_ok w ∧ created_by E ops s' ∧
    ops = begin_up "2024-01-01" :: simple [SAdd "x" "a" "" true; SAdd "y" "a" "" true] ++ [end_up; finish] ∧
    validate_object (e_hash E) decode w lx s' = VDone fs ∧ reported fs "E092".
Proof.
  destruct (tried_verdict (begin_up "2024-01-01" :: simple [SAdd "x" "a" "" true; SAdd "y" "a" "" true] ++ [end_up; finish])
    store0 fresh0 _ ltac:(vm_compute; reflexivity)) as [o Ho]. apply tried_created in Ho as [H1 H2].
  eexists jenv, jparse, jdecode, wd, lx0, _, _, _. split; [exact jenv_faithful|]. split; [exact wd_ok|]. split; [exact H1|]. split; [reflexivity|].
  split; [exact H2|]. eexists. left.
Qed.
Print Assumptions C50_same_path_refuted.

(** StartUpdate without EndUpdate before Close: the root inventory has a version that is not stored, and validation panics. *)
Theorem C50_open_update_refuted :
  ∃ E parse decode w lx ops s', faithful E parse decode ∧ vorder_ok w ∧ created_by E ops s' ∧
    ops = begin_up "2024-01-01" :: simple [SAdd "x" "a" "" true] ++ [end_up; begin_up "2024-02-02"; finish] ∧
    validate_object (e_hash E) decode w lx s' = VPanic.
Proof.
  destruct (tried_verdict (begin_up "2024-01-01" :: simple [SAdd "x" "a" "" true] ++ [end_up; begin_up "2024-02-02"; finish])
    store0 fresh0 _ ltac:(vm_compute; reflexivity)) as [o Ho]. apply tried_created in Ho as [H1 H2].
  eexists jenv, jparse, jdecode, wd, lx0, _, _. split; [exact jenv_faithful|]. split; [exact wd_ok|]. split; [exact H1|]. split; [reflexivity|].
  exact H2.
Qed.
Print Assumptions C50_open_update_refuted.

(** A file added between EndUpdate and Close is not refused: the version inventory does not know it. *)
Theorem C50_late_add_refuted :
  ∃ E parse decode w lx ops s' fs, faithful E parse decode ∧ vorder_ok w ∧ created_by E ops s' ∧
    ops = begin_up "2024-01-01" :: simple [SAdd "x" "a" "" true] ++ end_up :: simple [SAdd "y" "b" "" true] ++ [finish] ∧
    validate_object (e_hash E) decode w lx s' = VDone fs ∧ reported fs "E064" ∧ reported fs "E066" ∧ reported fs "E023".
Proof.
  destruct (tried_verdict (begin_up "2024-01-01" :: simple [SAdd "x" "a" "" true] ++ end_up :: simple [SAdd "y" "b" "" true] ++ [finish])
    store0 fresh0 _ ltac:(vm_compute; reflexivity)) as [o Ho]. apply tried_created in Ho as [H1 H2].
  eexists jenv, jparse, jdecode, wd, lx0, _, _, _. split; [exact jenv_faithful|]. split; [exact wd_ok|]. split; [exact H1|]. split; [reflexivity|].
  split; [exact H2|]. split; [eexists; left|]. split; [eexists; right; left|]. eexists. right. right. left.
Qed.
Print Assumptions C50_late_add_refuted.

(** An update without changes followed by one with changes on the same handle: the second version number is used up but the version
    is never stored; validation of the published object panics.  The object before was made by a complete session. *)
Lemma made1_published : ∃ s i, made1 = Some (s, i) ∧ published jenv (λ _, True) jparse s i ∧ loadb jparse s = Some i.
Proof.
  assert (match made1 with Some (s, i) => bool_decide (loadb jparse s = Some i) | None => false end = true) as H by (by vm_compute).
  destruct made1 as [[s i]|] eqn:E; [|discriminate]. apply bool_decide_eq_true in H. exists s, i. split; [done|]. split; [|exact H].
  eapply published_first; [exact fresh0_fresh|exact store0_declared|apply supportedb_true; clear; by vm_compute| |exact I].
  unfold made1 in E. exact (completeb_true _ _ _ _ _ _ E).
Qed.
Definition skip_ops : list (oracle * oop) :=
  begin_up "2024-02-02" :: end_up :: begin_up "2024-03-03" :: simple [SAdd "z" "q" "" true] ++ [end_up; finish].
Theorem C50_empty_update_refuted :
  ∃ E parse decode w lx s i o, faithful E parse decode ∧ vorder_ok w ∧ published E (λ _, True) parse s i ∧ load_inventory (e_hash E) parse s "" = LInv i [] ∧
    succeeds E skip_ops (open_object i) o ∧ validate_object (e_hash E) decode w lx (apply_evs (ob_trace o) s) = VPanic.
Proof.
  destruct made1_published as (s & i & E1 & Hp & Hl).
  assert (match made1 with Some (s, i) => match tried jjson jdecode skip_ops s i with Some (_, VPanic) => true | _ => false end | None => false end = true) as H
    by (clear; by vm_compute).
  rewrite E1 in H. clear E1. destruct (tried jjson jdecode skip_ops s i) as [[o v]|] eqn:Et; [|discriminate]. apply tried_true in Et as [H1 H2].
  exists jenv, jparse, jdecode, wd, lx0, s, i, o. split; [exact jenv_faithful|]. split; [exact wd_ok|]. split; [exact Hp|].
  split; [exact (loadb_true _ _ _ Hl)|]. split; [exact H1|]. change (e_hash jenv) with hexh. rewrite H2. destruct v; [discriminate..|reflexivity].
Qed.
Print Assumptions C50_empty_update_refuted.
