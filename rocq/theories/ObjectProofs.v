(** Induction principles for histories of calls on an object handle, and the history properties. *)
From Coq Require Import Ascii.
From stdpp Require Import base list strings gmap.
From Coq Require Import ZArith Lia.
From Verif Require Import GoStr PathModel InventoryModel InventorySpec InventoryProofs ObjectModel.

Lemma path_clean_nonempty s : path_clean s ≠ "".
Proof. unfold path_clean. case_bool_decide; [done|]. destruct (decide _); done. Qed.
Lemma manifest_name_nonempty i s : manifest_name i s ≠ "".
Proof. apply path_clean_nonempty. Qed.

Lemma clean_modified orc i : inv_modified i = true → clean orc i = (i, SOk).
Proof. unfold clean. by intros ->. Qed.

(** ** Invariants of the inventory of a handle

    [P i e] for the inventory [i] and echo flag [e] of the handle.  An invariant needs to be closed under a new version,
    the working-version calls of a writeable inventory, and echo deletion when echo is on. *)
Section invariant.
  Context (E : env) (P : inventory → bool → Prop).
  Context (Hnew : ∀ i e e' now msg un ua, P i e → P (new_version now msg un ua i).1 e').
  Context (Hadd : ∀ i e orc fs m cs, m ≠ "" → inv_writeable i = true → P i e → P (add_file orc fs m cs i).1 e).
  Context (Hcopy : ∀ i e f d, inv_writeable i = true → P i e → P (copy_file f d i).1 e).
  Context (Hdel : ∀ i e f, inv_writeable i = true → P i e → P (delete_file f i).1 e).
  Context (Hren : ∀ i e a b, inv_writeable i = true → P i e → P (rename_file a b i).1 e).
  Context (Hecho : ∀ i orc ex p, P i true → P (echo_delete orc ex p i).1 true).

  Definition PO (o : object) : Prop := P (ob_inv o) (ob_echo o).

  Lemma PO_on_inv f o : (∀ i e, P i e → P (f i).1 e) → PO o → PO (on_inv f o).1.
  Proof.
    unfold PO, on_inv. intros H Ho. specialize (H _ _ Ho). by destruct (f (ob_inv o)).
  Qed.
  Lemma PO_add_reader orc data exts m o :
    m ≠ "" → inv_writeable (ob_inv o) = true → PO o → PO (add_reader E orc data exts m o).1.
  Proof.
    unfold PO, add_reader. intros Hm Hw Ho. destruct (checksums _ _ _) as [cs|]; [|done].
    unfold on_inv. simpl. specialize (Hadd (ob_inv o) (ob_echo o) orc exts m cs Hm Hw Ho).
    by destruct (add_file orc exts m cs (ob_inv o)).
  Qed.
  Lemma build_names_nonempty i files area ps m : build_names E i files area = Some (ps, m) → m ≠ "".
  Proof.
    unfold build_names. destruct files as [|f fs]; [done|].
    destruct (state_paths E (f :: fs) area); [|done]. destruct (e_manifest_path E f area); [|done].
    intros H. injection H as _ <-. apply manifest_name_nonempty.
  Qed.
  Lemma PO_sop orc op o : PO o → PO (sop_step E orc op o).1.
  Proof.
    intros Ho. destruct op as [data path area dedup|data files area|f d|a b d|a d]; simpl.
    - unfold ob_add. destruct (inv_writeable (ob_inv o)) eqn:Hw; [|done].
      destruct (build_names _ _ _ _) as [[ps m]|] eqn:Hb; [|done].
      apply build_names_nonempty in Hb.
      destruct (e_state_path E path area) as [np|]; [|done].
      destruct dedup; [|by apply PO_add_reader].
      destruct (e_hash E _ data) as [d|]; [|done].
      destruct (already_exists _ _ _ _ _) as [[]|]; [done| |done].
      destruct (get_duplicates _ _); [by apply PO_add_reader|].
      unfold on_inv, PO. simpl. pose proof (Hcopy (ob_inv o) (ob_echo o) np d Hw Ho).
      by destruct (copy_file np d (ob_inv o)).
    - unfold ob_add_reader. destruct files as [|f fs]; [done|].
      destruct (inv_writeable (ob_inv o)) eqn:Hw; [|done].
      destruct (build_names _ _ _ _) as [[ps m]|] eqn:Hb; [|done].
      apply build_names_nonempty in Hb. by apply PO_add_reader.
    - unfold ob_delete. destruct (inv_writeable (ob_inv o)) eqn:Hw; [|done].
      destruct (already_exists _ _ _ _ _) as [[]|]; [|done|done].
      unfold on_inv, PO. simpl. pose proof (Hdel (ob_inv o) (ob_echo o) f Hw Ho).
      by destruct (delete_file f (ob_inv o)).
    - unfold ob_rename. destruct (inv_writeable (ob_inv o)) eqn:Hw; [|done].
      destruct (already_exists _ _ _ _ _) as [[]|]; [|done|done].
      unfold on_inv, PO. simpl. pose proof (Hren (ob_inv o) (ob_echo o) a b Hw Ho).
      by destruct (rename_file a b (ob_inv o)).
    - unfold ob_copy. destruct (inv_writeable (ob_inv o)) eqn:Hw; [|done].
      unfold on_inv, PO. simpl. pose proof (Hcopy (ob_inv o) (ob_echo o) a d Hw Ho).
      by destruct (copy_file a d (ob_inv o)).
  Qed.
  Lemma PO_andThen r k : PO r.1 → (∀ o, PO o → PO (k o).1) → PO (andThen r k).1.
  Proof. destruct r as [o [| |]]; simpl; auto. Qed.
  Lemma PO_sops ops o : PO o → PO (sops_run E ops o).1.
  Proof.
    revert o; induction ops as [|[orc op|orc op|msg] ops IH]; intros o Ho; [done| | |done]; simpl.
    - apply PO_andThen; [by apply PO_sop|done].
    - pose proof (PO_sop orc op o Ho). destruct (sop_step E orc op o) as [o' [| |]]; simpl in *; auto.
  Qed.
  Lemma PO_echo orc o : ob_echo o = true → PO o → PO (ob_echo_delete E orc o).1.
  Proof.
    intros He Ho. unfold ob_echo_delete. destruct (e_state_path E "." "") as [b|]; [|done].
    unfold on_inv, PO. simpl. unfold PO in Ho. rewrite He in Ho.
    pose proof (Hecho (ob_inv o) orc (ob_upd o) (if decide (b = ".") then "" else b) Ho) as H.
    destruct (echo_delete _ _ _ _). simpl in *. by rewrite He.
  Qed.
  Lemma PO_start now msg un ua e o : PO o → PO (ob_start now msg un ua e o).1.
  Proof.
    intros Ho. unfold ob_start, on_inv, PO. simpl. unfold PO in Ho.
    pose proof (Hnew (ob_inv o) (ob_echo o) e now msg un ua Ho). by destruct (new_version _ _ _ _ _).
  Qed.
  Lemma PO_store a b o : PO o → PO (store_inventory E a b o).1.
  Proof.
    unfold store_inventory. destruct (inv_writeable _); [|done]. by destruct (e_hash _ _ _).
  Qed.
End invariant.

(** [modified] never goes back to false by calls on the working version. *)
Lemma sop_modified E orc op o :
  inv_modified (ob_inv o) = true → inv_modified (ob_inv (sop_step E orc op o).1) = true.
Proof.
  apply (PO_sop E (λ i _, inv_modified i = true)).
  - intros i e orc' fs m cs _ _. apply er_mod, ext_rel_add_file.
  - intros i e f d _. apply er_mod, ext_rel_copy.
  - intros i e f _. apply er_mod, ext_rel_delete.
  - intros i e a b _. apply er_mod, ext_rel_rename.
Qed.
Lemma sops_modified E ops o :
  inv_modified (ob_inv o) = true → inv_modified (ob_inv (sops_run E ops o).1) = true.
Proof.
  revert o; induction ops as [|[orc op|orc op|msg] ops IH]; intros o Ho; [done| | |done]; simpl;
  pose proof (sop_modified E orc op o Ho); unfold andThen;
  destruct (sop_step E orc op o) as [o' [| |]]; simpl in *; auto.
Qed.
Lemma echo_modified E orc o :
  inv_modified (ob_inv o) = true → inv_modified (ob_inv (ob_echo_delete E orc o).1) = true.
Proof.
  intros H. unfold ob_echo_delete. destruct (e_state_path _ _ _) as [b|]; [|done].
  unfold on_inv. pose proof (er_mod _ _ (ext_rel_echo orc (ob_upd o) (if decide (b = ".") then "" else b) (ob_inv o)) H).
  by destruct (echo_delete _ _ _ _).
Qed.
Lemma clean_ob orc o : inv_modified (ob_inv o) = true → on_inv (clean orc) o = (o, SOk).
Proof. intros H. unfold on_inv. rewrite clean_modified by done. by destruct o. Qed.

(** The part of EndUpdate up to the Clean call keeps the object modified. *)
Lemma end_pre_modified E orc ops o :
  inv_modified (ob_inv o) = true →
  inv_modified (ob_inv (andThen (if ob_echo o then ob_echo_delete E orc o else (o, SOk)) (sops_run E ops)).1) = true.
Proof.
  intros H. assert (inv_modified (ob_inv (if ob_echo o then ob_echo_delete E orc o else (o, SOk)).1) = true) as H1.
  { destruct (ob_echo o); [by apply echo_modified|done]. }
  destruct (if ob_echo o then _ else _) as [o1 [| |]]; simpl in *; try done. by apply sops_modified.
Qed.

Lemma andThen_assoc r k1 k2 : andThen r (λ o, andThen (k1 o) k2) = andThen (andThen r k1) k2.
Proof. by destruct r as [o [| |]]. Qed.

(** EndUpdate with the no-op Clean removed: what it really does. *)
Lemma ob_end_unfold E orc h o :
  ob_end E orc h o =
  if negb (inv_writeable (ob_inv o)) then (o, SOk)
  else if negb (inv_modified (ob_inv o)) then (o, SOk)
  else
    andThen (if ob_echo o then ob_echo_delete E orc o else (o, SOk)) (λ o1,
    andThen (sops_run E match h with HDone a => a | HMore a _ _ _ => a end o1) (λ o2,
    andThen (store_inventory E true false o2) (λ o4,
    match h with
    | HDone _ => (o4, SOk)
    | HMore _ now auto rest =>
        andThen (ob_start now "automated version" "gocfl" "https://github.com/je4/gocfl" false o4) (λ o5,
        andThen (sops_run E auto o5) (λ o6,
        ob_end E (shift_oracle orc) rest o6))
    end))).
Proof.
  assert (∀ (k : object → object * status) ops,
    inv_modified (ob_inv o) = true →
    andThen (if ob_echo o then ob_echo_delete E orc o else (o, SOk)) (λ o1,
    andThen (sops_run E ops o1) (λ o2, andThen (on_inv (clean orc) o2) k)) =
    andThen (if ob_echo o then ob_echo_delete E orc o else (o, SOk)) (λ o1,
    andThen (sops_run E ops o1) k)) as Hc.
  { intros k ops Hm. pose proof (end_pre_modified E orc ops o Hm) as H.
    destruct (if ob_echo o then _ else _) as [o1 [| |]]; simpl in *; try done.
    destruct (sops_run E ops o1) as [o2 [| |]]; simpl in *; try done.
    by rewrite clean_ob. }
  destruct h as [a|a now auto rest]; simpl;
    destruct (inv_writeable (ob_inv o)); simpl; try done;
    destruct (inv_modified (ob_inv o)) eqn:Hm; simpl; try done; by apply Hc.
Qed.

Section invariant2.
  Context (E : env) (P : inventory → bool → Prop).
  Context (Hnew : ∀ i e e' now msg un ua, P i e → P (new_version now msg un ua i).1 e').
  Context (Hadd : ∀ i e orc fs m cs, m ≠ "" → inv_writeable i = true → P i e → P (add_file orc fs m cs i).1 e).
  Context (Hcopy : ∀ i e f d, inv_writeable i = true → P i e → P (copy_file f d i).1 e).
  Context (Hdel : ∀ i e f, inv_writeable i = true → P i e → P (delete_file f i).1 e).
  Context (Hren : ∀ i e a b, inv_writeable i = true → P i e → P (rename_file a b i).1 e).
  Context (Hecho : ∀ i orc ex p, P i true → P (echo_delete orc ex p i).1 true).
  Notation PO := (PO P).

  Lemma PO_end orc h o : PO o → PO (ob_end E orc h o).1.
  Proof.
    revert orc o; induction h as [a|a now auto rest IH]; intros orc o Ho; rewrite ob_end_unfold;
      (destruct (inv_writeable (ob_inv o)); [simpl|done]);
      (destruct (inv_modified (ob_inv o)); [simpl|done]);
      (apply PO_andThen; [destruct (ob_echo o) eqn:He; [by apply PO_echo|done]|]); intros o1 Ho1;
      (apply PO_andThen; [by apply PO_sops|]); intros o2 Ho2;
      (apply PO_andThen; [by apply PO_store|]); intros o3 Ho3; [done|].
    apply PO_andThen; [by apply PO_start|]. intros o4 Ho4.
    apply PO_andThen; [by apply PO_sops|]. intros o5 Ho5. by apply IH.
  Qed.
  Lemma PO_step orc op o : PO o → PO (ostep E orc op o).1.
  Proof.
    intros Ho. destruct op as [s|now msg un ua echo|h| | |]; simpl.
    - by apply PO_sop.
    - by apply PO_start.
    - by apply PO_end.
    - done.
    - unfold ob_end_area. apply PO_andThen; [destruct (ob_echo o) eqn:He; [by apply PO_echo|done]|].
      by intros o1 Ho1.
    - unfold ob_close. destruct (inv_writeable (ob_inv o)); [simpl|done].
      destruct (inv_modified (ob_inv o)) eqn:Hm; [simpl|done].
      rewrite clean_ob by done. simpl. apply PO_andThen; [by apply PO_store|]. by intros o1 Ho1.
  Qed.
  Lemma PO_run ops o : PO o → PO (orun E ops o).
  Proof.
    revert o; induction ops as [|[orc op] ops IH]; intros o Ho; [done|]. simpl.
    pose proof (PO_step orc op o Ho). destruct (ostep E orc op o) as [o' [| |]]; simpl in *; auto.
  Qed.
End invariant2.

(** ** C01: recorded versions never change *)

Definition head_is (i : inventory) (n : N) : Prop :=
  inv_head i = (if decide (n = 0%N) then "" else version_name (inv_padding i) n) ∧
  (n ≠ 0%N → is_Some (inv_versions i !! inv_head i)) ∧
  ∀ ver, is_Some (inv_versions i !! ver) → ∃ k, (1 <= k <= n)%N ∧ ver = version_name (inv_padding i) k.

Lemma head_newest_is i : head_newest i ↔ ∃ n, head_is i n.
Proof.
  unfold head_newest, head_is. split.
  - intros (n & H0 & H1 & H2). exists n. destruct (decide (n = 0%N)) as [E|E].
    + repeat split; auto. intros ?. done.
    + destruct (H1 E). auto.
  - intros (n & H0 & H1 & H2). exists n. destruct (decide (n = 0%N)) as [E|E].
    + repeat split; auto; done.
    + repeat split; auto; try done.
Qed.

Lemma ext_rel_is_some i i' ver : ext_rel i i' → is_Some (inv_versions i' !! ver) ↔ is_Some (inv_versions i !! ver).
Proof.
  intros H. destruct (decide (ver = inv_head i)) as [->|Hne].
  - destruct (inv_versions i !! inv_head i) as [v|] eqn:Hv.
    + destruct (er_headv _ _ H v Hv) as [s ->]. split; eauto.
    + by rewrite (er_none _ _ H).
  - by rewrite (er_vers _ _ H).
Qed.
Lemma ext_rel_head_is i i' n : ext_rel i i' → head_is i n → head_is i' n.
Proof.
  intros H (H1 & H2 & H3). unfold head_is. rewrite (er_head _ _ H), (er_pad _ _ H).
  repeat split; [done| |].
  - intros Hn. rewrite ext_rel_is_some by done. auto.
  - intros ver Hv. rewrite ext_rel_is_some in Hv by done. auto.
Qed.

(** What NewVersion does on such an inventory: it always succeeds. *)
Lemma new_version_spec i n now msg un ua :
  head_is i n →
  let h := version_name (inv_padding i) (n + 1) in
  ∃ s, new_version now msg un ua i =
       (set_writeable true (set_versions (<[h := Version now msg un ua s]> (inv_versions i)) (set_head h i)), SOk)
     ∧ inv_versions i !! h = None
     ∧ (n = 0%N → s = ∅)
     ∧ (n ≠ 0%N → ∃ old, inv_versions i !! inv_head i = Some old ∧ s = v_state old).
Proof.
  intros (H1 & H2 & H3) h. unfold new_version. rewrite (next_head_name i n H1). fold h.
  assert (inv_versions i !! h = None) as Hh.
  { destruct (inv_versions i !! h) eqn:Hh; [|done].
    destruct (H3 h ltac:(eauto)) as (k & Hk & Hk'). apply version_name_inj in Hk'. lia. }
  destruct (decide (n = 0%N)) as [->|Hn].
  - rewrite decide_True by done. exists ∅. repeat split; [|done]. simpl. done.
  - rewrite decide_False by (rewrite H1; apply version_name_nonempty).
    destruct (H2 Hn) as [old Hold].
    assert (h ≠ inv_head i) by congruence.
    simpl. rewrite lookup_insert_ne by done. rewrite Hold. exists (v_state old).
    split; [|split; [done|split; [done|eauto]]].
    f_equal. unfold set_writeable, set_versions, set_head, set_state. simpl. by rewrite insert_insert.
Qed.

Lemma new_version_head_is i n now msg un ua :
  head_is i n → head_is (new_version now msg un ua i).1 (n + 1).
Proof.
  intros H. destruct (new_version_spec i n now msg un ua H) as (s & -> & Hn & _).
  destruct H as (H1 & H2 & H3). unfold head_is. simpl.
  rewrite decide_False by lia. split; [done|]. split.
  - intros _. rewrite lookup_insert. eauto.
  - intros ver. destruct (decide (ver = version_name (inv_padding i) (n + 1))) as [->|Hne].
    + intros _. exists (n + 1)%N. split; [lia|done].
    + rewrite lookup_insert_ne by done. intros Hv. destruct (H3 ver Hv) as (k & Hk & ->).
      exists k. split; [lia|done].
Qed.

Definition inv01 (i0 : inventory) (n0 : N) (i : inventory) (e : bool) : Prop :=
  ∃ m, head_is i m ∧ (n0 <= m)%N ∧ inv_padding i = inv_padding i0 ∧
       (inv_writeable i = true → n0 < m)%N ∧ (e = true → inv_writeable i = true) ∧
       ∀ ver v, inv_versions i0 !! ver = Some v → inv_versions i !! ver = Some v.

Lemma inv01_ext i0 n0 i i' e :
  head_is i0 n0 → inv_writeable i = true → ext_rel i i' → inv01 i0 n0 i e → inv01 i0 n0 i' e.
Proof.
  intros H0 Hw H (m & Hm & Hle & Hp & Hwr & He & Hv). exists m.
  rewrite (er_wr _ _ H), (er_pad _ _ H). repeat split; auto; try apply (ext_rel_head_is i i'); auto.
  intros ver v Hi. rewrite (er_vers _ _ H); [auto|].
  intros ->. destruct H0 as (_ & _ & H3). destruct (H3 (inv_head i) ltac:(eauto)) as (k & Hk & Hk').
  specialize (Hwr Hw). destruct Hm as [Hm _]. rewrite decide_False in Hm by lia.
  rewrite Hm, Hp in Hk'. apply version_name_inj in Hk'. lia.
Qed.

Lemma inv01_run E i0 n0 ops o :
  head_is i0 n0 → inv01 i0 n0 (ob_inv o) (ob_echo o) →
  inv01 i0 n0 (ob_inv (orun E ops o)) (ob_echo (orun E ops o)).
Proof.
  intros H0. apply (PO_run E (inv01 i0 n0)).
  - intros i e e' now msg un ua (m & Hm & Hle & Hp & Hwr & He & Hv).
    pose proof (new_version_head_is i m now msg un ua Hm) as Hh.
    destruct (new_version_spec i m now msg un ua Hm) as (s & Heq & Hn & _).
    rewrite Heq in *. simpl in *. exists (m + 1)%N. repeat split; auto; try lia; try apply Hh.
    simpl. intros ver v Hi. rewrite lookup_insert_ne; auto.
    intros <-. apply Hv in Hi. congruence.
  - intros i e orc fs m cs _ Hw. apply inv01_ext; auto. apply ext_rel_add_file.
  - intros i e f d Hw. apply inv01_ext; auto. apply ext_rel_copy.
  - intros i e f Hw. apply inv01_ext; auto. apply ext_rel_delete.
  - intros i e a b Hw. apply inv01_ext; auto. apply ext_rel_rename.
  - intros i orc ex p H. assert (inv_writeable i = true) as Hw by (destruct H as (? & ?); tauto).
    revert H. apply inv01_ext; auto. apply ext_rel_echo.
Qed.

Lemma head_is_open i n : head_is i n → head_is (ob_inv (open_object i)) n.
Proof. done. Qed.

Lemma versions_immutable E i ops ver v :
  head_newest i → inv_versions i !! ver = Some v →
  inv_versions (ob_inv (orun E ops (open_object i))) !! ver = Some v.
Proof.
  intros Hn Hv. apply head_newest_is in Hn as [n Hn].
  destruct (inv01_run E i n ops (open_object i)) as (m & _ & _ & _ & _ & _ & H); auto.
  exists n. repeat split; try apply Hn; auto; try lia; done.
Qed.

(** ** C02: the manifest only grows *)

Definition grows (m m' : smap) : Prop := ∀ d ps, m !! d = Some ps → ∃ ext, m' !! d = Some (ps ++ ext).

Lemma grows_run E m0 ops o :
  grows m0 (inv_manifest (ob_inv o)) → grows m0 (inv_manifest (ob_inv (orun E ops o))).
Proof.
  assert (∀ i i', ext_rel i i' → grows m0 (inv_manifest i) → grows m0 (inv_manifest i')) as H.
  { intros i i' H Hg d ps Hd. destruct (Hg d ps Hd) as [e He].
    destruct (er_man _ _ H _ _ He) as [e' He']. exists (e ++ e'). by rewrite app_assoc. }
  apply (PO_run E (λ i _, grows m0 (inv_manifest i))).
  - intros i _ _ now msg un ua. unfold new_version. destruct (next_head i); [|done].
    destruct (decide _); [done|]. simpl. by destruct (_ !! inv_head i).
  - intros i e orc fs m cs _ _. apply H, ext_rel_add_file.
  - intros i e f d _. apply H, ext_rel_copy.
  - intros i e f _. apply H, ext_rel_delete.
  - intros i e a b _. apply H, ext_rel_rename.
  - intros i orc ex p. apply H, ext_rel_echo.
Qed.
