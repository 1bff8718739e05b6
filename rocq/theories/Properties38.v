(** Objects whose inventory cannot be read at the moment. *)
From Coq Require Import Ascii.
From stdpp Require Import base list strings gmap.
From Coq Require Import ZArith Lia.
From Verif Require Import GoStr InventoryModel InventorySpec ObjectModel ObjectSpec LoadModel CrashSpec CrashProofs PathProofs ValidateModel ValidateSpec
  CheckModel CheckSpec AcceptSpec AcceptProofs AcceptProofs2 ForeignModel UnreadModel UnreadProofs
  Fixtures Fixtures2 Fixtures3 Fixtures4 Fixtures5 Properties14 Properties34 Properties37.

(** * C82: a failed read of the inventory does no harm *)

(** The driver answers from the storage [s], but the files in [bad] cannot be read. *)
Definition answers (s : storage) (bad : string → Prop) (r : driver) : Prop :=
  ∀ p, (bad p ∧ r p = Failed) ∨ (¬ bad p ∧ r p = match s !! p with Some b => Bytes b | None => Missing end).
(** The files in the object root and directly in the folders of the root: declarations, inventories, digest files. *)
Definition administrative (p : string) : Prop :=
  str_mem slash p = false ∨ ∃ a b, p = a +:+ "/" +:+ b ∧ str_mem slash a = false ∧ str_mem slash b = false.
(** The calls that add files, and the histories in which every addition looks for duplicates first. *)
Definition addition (op : sop) : Prop := match op with SAdd _ _ _ _ | SAddReader _ _ _ => True | _ => False end.
Definition deduplicates (op : sop) : Prop := match op with SAdd _ _ _ d => d = true | SAddReader _ _ _ => False | _ => True end.

(** Full statement: if the inventory of an object cannot be read, loading the object reports an error, or at least no session on the object that
    one gets changes a file of it.  Both are false; see below.  Proved: whatever is called on it, and wherever a session stops, every file is as
    before or empty, and only files in the content directories of versions are touched; no inventory is. *)
Theorem C82_kept_partial E parse typ r o ops s s' p :
  (∀ x, e_hash E "" x = None) → r "inventory.json" = Failed → load_handle (e_hash E) parse typ r = inl o → clean_names E ops →
  crash s (ob_trace (orun E ops o)) s' →
  (s' !! p = s !! p ∨ s' !! p = Some "" ∧ ∃ k rest, (1 <= k)%N ∧ p = version_name 0 k +:+ "/content/" +:+ rest) ∧
  (administrative p → s' !! p = s !! p).
Proof.
  intros HE Hr Hl Hcl Hcr. apply (unread_blank _ _ _ _ _ Hr) in Hl as ->.
  pose proof (blank_truncates E HE typ ops Hcl) as HT.
  assert (s' !! p = s !! p ∨ s' !! p = Some "" ∧ ∃ k rest, (1 <= k)%N ∧ p = version_name 0 k +:+ "/content/" +:+ rest) as H.
  { destruct (decide (Exists (λ e, ev_path e = p) (ob_trace (orun E ops (open_object (blank typ)))))) as [Hex|Hex].
    - apply Exists_exists in Hex as (e & He & <-). rewrite Forall_forall in HT. destruct (HT e He) as (q & k & rest & -> & Hk & ->). cbn [ev_path].
      destruct (creates_crash _ _ _ (version_name 0 k +:+ "/content/" +:+ rest) Hcr) as [H|H]; [|by left|].
      + apply Forall_forall. intros e2 He2. destruct (HT e2 He2) as (q2 & _ & _ & -> & _). by exists q2.
      + right. split; [done|]. exists k, rest. split; [lia|done].
    - left. eapply crash_other; [done|]. apply Forall_forall. intros e He Heq. apply Hex, Exists_exists. eauto. }
  split; [exact H|]. intros Ha. destruct H as [H|[_ (k & rest & _ & Hp)]]; [exact H|exfalso].
  pose proof (version_name_plain 0 k) as (_ & _ & _ & Hv). change ("/content/" +:+ rest) with ("/" +:+ ("content/" +:+ rest)) in Hp.
  destruct Ha as [Ha|(a & b & -> & Ha & Hb)].
  - rewrite Hp, str_mem_app in Ha. apply orb_false_elim in Ha as [_ Ha]. done.
  - destruct (folder_inj _ _ _ _ Ha Hv Hp) as [_ ->]. done.
Qed.
(** No call that adds a file succeeds, at no point of any session. *)
Theorem C82_told_partial E parse typ r o ops orc op :
  (∀ x, e_hash E "" x = None) → r "inventory.json" = Failed → load_handle (e_hash E) parse typ r = inl o → addition op →
  (ostep E orc (OSimple op) (orun E ops o)).2 ≠ SOk.
Proof.
  intros HE Hr Hl Hop. apply (unread_blank _ _ _ _ _ Hr) in Hl as ->.
  apply adds_fail; [done|by apply blank_stays|by destruct op].
Qed.
(** If every addition looks for duplicates first, nothing is written at all. *)
Theorem C82_dedup_partial E parse typ r o ops s s' :
  (∀ x, e_hash E "" x = None) → r "inventory.json" = Failed → load_handle (e_hash E) parse typ r = inl o → all_ops (λ _, deduplicates) (λ _, True) ops →
  crash s (ob_trace (orun E ops o)) s' → s' = s.
Proof.
  intros HE Hr Hl Hops Hcr. apply (unread_blank _ _ _ _ _ Hr) in Hl as ->.
  rewrite (blank_quiet E HE typ ops) in Hcr by exact Hops. by inversion Hcr.
Qed.
(** A driver that can read the inventory and its digest file gives the loader what the storage holds, so the theorems about loading apply. *)
Theorem C82_readable hash parse typ s r :
  answers s (λ p, p ≠ "inventory.json" ∧ ∀ alg, p ≠ "inventory.json." +:+ alg) r → load_from hash parse typ r "" = load_inventory hash parse s "".
Proof.
  intros Ha.
  assert (r "inventory.json" = match s !! "inventory.json" with Some b => Bytes b | None => Missing end) as H1.
  { destruct (Ha "inventory.json") as [[[H _] _]|[_ H]]; [done|exact H]. }
  assert (∀ alg, r ("inventory.json." +:+ alg) = match s !! ("inventory.json." +:+ alg) with Some b => Bytes b | None => Missing end) as H2.
  { intros alg. destruct (Ha ("inventory.json." +:+ alg)) as [[[_ H] _]|[_ H]]; [by destruct (H alg)|exact H]. }
  unfold load_from, load_inventory. cbv zeta. change ("" +:+ "inventory.json") with "inventory.json". rewrite H1.
  destruct (s !! "inventory.json") as [b|]; [|done]. destruct (parse b) as [i|]; [|done].
  change ("inventory.json" +:+ "." +:+ inv_alg i) with ("inventory.json." +:+ inv_alg i). rewrite H2. by destruct (s !! _).
Qed.

(** A handle comes only from an inventory that was read, or from a failed read: not from a missing inventory and not from other bytes. *)
Theorem C82_loaded hash parse typ r o : load_handle hash parse typ r = inl o →
  r "inventory.json" = Failed ∨ ∃ b i, r "inventory.json" = Bytes b ∧ parse b = Some i ∧ o = open_object i.
Proof.
  unfold load_handle, load_from. cbv zeta. change ("" +:+ "inventory.json") with "inventory.json". destruct (r "inventory.json") as [b| |]; [|done|by left].
  destruct (parse b) as [i|] eqn:Hp; [|done]. intros H. right. exists b, i. split; [done|]. split; [done|]. revert H.
  destruct (r ("inventory.json" +:+ "." +:+ inv_alg i)) as [t| |]; [|by intros [= <-]..].
  destruct (sidecar_parse t) as [d|]; [|by intros [= <-]]. destruct (hash (inv_alg i) b) as [d'|]; [|done]. by destruct (decide _); intros [= <-].
Qed.
(** If only the digest file cannot be read, the loader returns the same inventory and reports a code, whatever the digest file holds. *)
Theorem C82_digest_file hash parse typ s r i codes :
  load_inventory hash parse s "" = LInv i codes → answers s (λ p, p = "inventory.json." +:+ inv_alg i) r →
  ∃ codes', load_from hash parse typ r "" = LInv i codes' ∧ codes' ≠ [].
Proof.
  intros Hl Ha. unfold load_from, load_inventory in *. cbv zeta in *. change ("" +:+ "inventory.json") with "inventory.json" in *.
  assert (r "inventory.json" = match s !! "inventory.json" with Some b => Bytes b | None => Missing end) as ->.
  { destruct (Ha "inventory.json") as [[H _]|[_ H]]; [discriminate H|exact H]. }
  destruct (s !! "inventory.json") as [b|]; [|done]. destruct (parse b) as [j|]; [|done].
  change ("inventory.json" +:+ "." +:+ inv_alg j) with ("inventory.json." +:+ inv_alg j) in *.
  assert (i = j) as ->.
  { destruct (s !! _) as [t|]; [|by injection Hl]. destruct (sidecar_parse t) as [d|]; [|by injection Hl]. destruct (hash (inv_alg j) b) as [d'|]; [|done].
    by destruct (decide _); injection Hl. }
  destruct (Ha ("inventory.json." +:+ inv_alg j)) as [[_ ->]|[H _]]; [|done]. by eexists.
Qed.

(** ** A concrete object: the valid object of another program that C81 updates, while its inventory cannot be read *)

Definition failing : driver := λ p, if decide (p = "inventory.json") then Failed else match other !! p with Some b => Bytes b | None => Missing end.
Lemma failing_ok : answers other (λ p, p = "inventory.json") failing.
Proof. intros p. unfold failing. destruct (decide _) as [->|H]; [by left|by right]. Qed.
Definition session82 (dedup : bool) : list (oracle * oop) := update [SAdd "new" "a" "" dedup; SAdd "more" "b" "" dedup; SDelete "a" "x"].
Definition handle82 : object := open_object (blank "https://ocfl.io/1.1/spec/#inventory").
Lemma handle82_ok : load_handle hexh (parse_of xdec wd lx0) "https://ocfl.io/1.1/spec/#inventory" failing = inl handle82.
Proof. reflexivity. Qed.
Lemma hexh_blank x : hexh "" x = None.
Proof. reflexivity. Qed.
Lemma plain_rel c : plain_name c → clean_rel c.
Proof. intros H. unfold clean_rel. assert (split_slash c = [c]) as -> by (unfold split_slash; apply split_on_no_sep; apply H). apply Forall_singleton. exact H. Qed.
Lemma session82_clean b : clean_names jenv (session82 b).
Proof.
  assert (clean_rel "a" ∧ clean_rel "b") as [Ha Hb] by (split; apply plain_rel; repeat split; done).
  unfold clean_names, all_ops, session82, update, simple. repeat constructor; cbn; intros m [= <-]; done.
Qed.
(** The hypotheses hold, the content of version 1 and the inventory are there, and the session with look-ups leaves all as it is. *)
Example C82_example :
  sound_object hexh xdec other other_doc "content" ∧ answers other (λ p, p = "inventory.json") failing ∧ (∀ x, e_hash jenv "" x = None) ∧
  load_handle hexh (parse_of xdec wd lx0) "https://ocfl.io/1.1/spec/#inventory" failing = inl handle82 ∧ clean_names jenv (session82 false) ∧
  all_ops (λ _, deduplicates) (λ _, True) (session82 true) ∧ apply_evs (ob_trace (orun jenv (session82 true) handle82)) other = other ∧
  ob_trace (orun jenv (session82 false) handle82) = [ECreate "v1/content/a"; ECreate "v1/content/b"] ∧
  (ostep jenv dflt (OSimple (SAdd "new" "a" "" true)) (orun jenv (session82 true) handle82)).2 = SErr "cannot create digest".
Proof.
  split; [exact other_sound|]. split; [exact failing_ok|]. split; [exact hexh_blank|]. split; [exact handle82_ok|]. split; [apply session82_clean|].
  assert (all_ops (λ _, deduplicates) (λ _, True) (session82 true)) as Hd by (unfold all_ops, session82, update, simple; repeat constructor).
  split; [exact Hd|]. split; [|split; vm_compute; reflexivity].
  apply (C82_dedup_partial jenv (parse_of xdec wd lx0) "https://ocfl.io/1.1/spec/#inventory" failing handle82 (session82 true) other); [exact hexh_blank|reflexivity|exact handle82_ok|exact Hd|].
  apply crash_all.
Qed.
Example C82_readable_example : ∃ r i, answers other (λ p, p ≠ "inventory.json" ∧ ∀ alg, p ≠ "inventory.json." +:+ alg) r ∧ r "v1/content/a" = Failed ∧
  load_from hexh (parse_of xdec wd lx0) "https://ocfl.io/1.1/spec/#inventory" r "" = LInv i [] ∧ inv_head i = "v2".
Proof.
  set (r := λ p : string, if bool_decide (p = "inventory.json") || bool_decide (String.substring 0 15 p = "inventory.json.")
                 then match other !! p with Some b => Bytes b | None => Missing end else Failed).
  assert (answers other (λ p, p ≠ "inventory.json" ∧ ∀ alg, p ≠ "inventory.json." +:+ alg) r) as Hr.
  { intros p. unfold r. destruct (bool_decide (p = "inventory.json")) eqn:H1; cbn [orb].
    - right. apply bool_decide_eq_true in H1. split; [by intros [? _]|done].
    - apply bool_decide_eq_false in H1. destruct (bool_decide (String.substring 0 15 p = "inventory.json.")) eqn:H2.
      + right. apply bool_decide_eq_true in H2. split; [|done]. intros [_ H].
        do 15 (destruct p as [|? p]; [cbn in H2; discriminate H2|]). cbn in H2. injection H2. intros. subst. by apply (H p).
      + left. apply bool_decide_eq_false in H2. split; [|done]. split; [done|]. intros alg ->. apply H2. by destruct alg. }
  assert (match load_from hexh (parse_of xdec wd lx0) "https://ocfl.io/1.1/spec/#inventory" r "" with LInv i [] => bool_decide (inv_head i = "v2") | _ => false end = true)
    as H by (vm_compute; reflexivity).
  destruct (load_from _ _ _ r "") as [|i [|]] eqn:El; [discriminate H| |discriminate H]. exists r, i. split; [exact Hr|]. split; [reflexivity|].
  split; [exact El|]. by apply bool_decide_eq_true in H.
Qed.

Example C82_digest_file_example : ∃ r i, load_inventory hexh (parse_of xdec wd lx0) other "" = LInv i [] ∧
  answers other (λ p, p = "inventory.json." +:+ inv_alg i) r ∧ (∃ o, load_handle hexh (parse_of xdec wd lx0) "https://ocfl.io/1.1/spec/#inventory" r = inl o ∧ inv_head (ob_inv o) = "v2") ∧
  ∃ codes, load_from hexh (parse_of xdec wd lx0) "https://ocfl.io/1.1/spec/#inventory" r "" = LInv i codes ∧ codes ≠ [].
Proof.
  set (r := λ p : string, if decide (p = "inventory.json.sha512") then Failed else match other !! p with Some b => Bytes b | None => Missing end).
  assert (match load_inventory hexh (parse_of xdec wd lx0) other "" with LInv i [] => bool_decide (inv_alg i = "sha512") | _ => false end = true) as H by (vm_compute; reflexivity).
  assert (match load_handle hexh (parse_of xdec wd lx0) "https://ocfl.io/1.1/spec/#inventory" r with inl o => bool_decide (inv_head (ob_inv o) = "v2") | _ => false end = true) as H2 by (vm_compute; reflexivity).
  destruct (load_inventory hexh (parse_of xdec wd lx0) other "") as [|i [|]] eqn:El; [discriminate H| |discriminate H]. apply bool_decide_eq_true in H. exists r, i.
  assert (answers other (λ p, p = "inventory.json." +:+ inv_alg i) r) as Ha.
  { intros p. rewrite H. change ("inventory.json." +:+ "sha512") with "inventory.json.sha512". unfold r. destruct (decide _) as [->|Hp]; [by left|by right]. }
  split; [reflexivity|]. split; [exact Ha|]. split.
  - destruct (load_handle _ _ _ r) as [o|]; [|discriminate H2]. exists o. split; [reflexivity|]. by apply bool_decide_eq_true in H2.
  - exact (C82_digest_file _ _ _ _ _ _ _ El Ha).
Qed.
(** Refuted: the load of an object that is valid succeeds while its inventory cannot be read, and the handle stands for an object without
    identifier and versions. *)
Theorem C82_load_refuted : ∃ s d r typ o,
  sound_object hexh xdec s d "content" ∧ answers s (λ p, p = "inventory.json") r ∧ load_handle hexh (parse_of xdec wd lx0) typ r = inl o ∧
  inv_id (ob_inv o) = "" ∧ inv_versions (ob_inv o) = ∅ ∧ inv_id (ob_inv o) ≠ dc_id d.
Proof.
  exists other, other_doc, failing, "https://ocfl.io/1.1/spec/#inventory", handle82. split; [exact other_sound|]. split; [exact failing_ok|].
  split; [exact handle82_ok|]. split; [reflexivity|]. split; [reflexivity|]. intros H. vm_compute in H. discriminate H.
Qed.
(** Refuted: an update without de-duplication empties a content file of the first version, and the object is not valid any more. *)
Theorem C82_refuted : ∃ s d r typ o ops s',
  sound_object hexh xdec s d "content" ∧ only_warnings (validate_object hexh xdec wd lx0 s) ∧ answers s (λ p, p = "inventory.json") r ∧
  load_handle hexh (parse_of xdec wd lx0) typ r = inl o ∧ clean_names jenv ops ∧ s' = apply_evs (ob_trace (orun jenv ops o)) s ∧
  s !! "v1/content/a" = Some "x" ∧ s' !! "v1/content/a" = Some "" ∧ ¬ only_warnings (validate_object hexh xdec wd lx0 s').
Proof.
  exists other, other_doc, failing, "https://ocfl.io/1.1/spec/#inventory", handle82, (session82 false), (apply_evs (ob_trace (orun jenv (session82 false) handle82)) other).
  split; [exact other_sound|]. split; [apply all_warnings_true; by vm_compute|]. split; [exact failing_ok|]. split; [exact handle82_ok|].
  split; [apply session82_clean|]. split; [reflexivity|]. split; [vm_compute; reflexivity|]. split; [vm_compute; reflexivity|].
  assert (match validate_object hexh xdec wd lx0 (apply_evs (ob_trace (orun jenv (session82 false) handle82)) other) with
          | VDone fs => existsb (λ f, bool_decide (str_head (f_code f) = Some "E"%char)) fs | _ => true end = true) as H by (vm_compute; reflexivity).
  intros (fs & Hv & Hw). rewrite Hv in H. apply existsb_exists in H as (f & Hf & Hc). apply bool_decide_eq_true in Hc.
  destruct (Hw f) as [r Hr]; [by apply elem_of_list_In|]. rewrite Hr in Hc. discriminate Hc.
Qed.
Print Assumptions C82_kept_partial.
Print Assumptions C82_told_partial.
Print Assumptions C82_dedup_partial.
Print Assumptions C82_readable.
Print Assumptions C82_loaded.
Print Assumptions C82_digest_file.
Print Assumptions C82_digest_file_example.
Print Assumptions C82_example.
Print Assumptions C82_readable_example.
Print Assumptions C82_load_refuted.
Print Assumptions C82_refuted.
