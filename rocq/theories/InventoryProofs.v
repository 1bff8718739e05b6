(** Proofs about the inventory model. *)
From Coq Require Import Ascii.
From stdpp Require Import base list strings gmap.
From Coq Require Import ZArith Lia.
From Verif Require Import GoStr InventoryModel InventorySpec.

(** * Version names *)

Lemma trim_left_zeros k c s cut :
  str_mem "0" cut = true → str_mem c cut = false →
  trim_left (str_repeat "0" k +:+ String c s) cut = String c s.
Proof.
  intros H0 Hc. induction k as [|k IH].
  - change (str_repeat "0" 0 +:+ String c s) with (String c s). simpl. by rewrite Hc.
  - change (str_repeat "0" (S k) +:+ String c s) with (String "0" (str_repeat "0" k +:+ String c s)).
    simpl. by rewrite H0.
Qed.

Lemma lower_digit c : (48 <= N_of_ascii c <= 57)%N → lower_ascii c = c.
Proof.
  intros H. unfold lower_ascii.
  replace ((65 <=? N_of_ascii c) && (N_of_ascii c <=? 90))%N with false; [done|].
  symmetry. apply andb_false_iff. left. apply N.leb_gt. lia.
Qed.
Lemma to_lower_app a b : to_lower (a +:+ b) = to_lower a +:+ to_lower b.
Proof. induction a as [|c a IH]; [done|]. rewrite str_app_cons. simpl. rewrite IH. done. Qed.
Lemma to_lower_zeros k : to_lower (str_repeat "0" k) = str_repeat "0" k.
Proof. induction k as [|k IH]; [done|]. simpl. by rewrite IH. Qed.

(** All characters of a decimal are digits. *)
Definition all_digits (s : string) : Prop :=
  Forall (λ c, 48 <= N_of_ascii c <= 57)%N (list_ascii_of_string s).
Lemma string_of_uint_digits d : all_digits (DecimalString.NilEmpty.string_of_uint d).
Proof.
  unfold all_digits. induction d; simpl; constructor; try done; vm_compute; split; congruence.
Qed.
Lemma dec_of_N_digits n : all_digits (dec_of_N n).
Proof.
  unfold dec_of_N, DecimalString.NilZero.string_of_uint.
  destruct (N.to_uint n) eqn:E; try apply string_of_uint_digits.
  constructor; [|constructor]. vm_compute. split; congruence.
Qed.
Lemma to_lower_digits s : all_digits s → to_lower s = s.
Proof.
  unfold all_digits. induction s as [|c s IH]; simpl; [done|]. intros H.
  inversion H; subst. rewrite lower_digit by done. by rewrite IH.
Qed.

(** The number read back from a version name, by both ways the code uses. *)
Lemma vname_atoi pad n :
  (1 <= n)%N → atoi (trim_left (to_lower (version_name pad n)) "v0") = Some (Z.of_N n).
Proof.
  intros Hn. destruct (dec_of_N_digit n) as (c & s & E & Hc & H0).
  specialize (H0 ltac:(lia)).
  assert (str_mem c "v0" = false) as Hm.
  { simpl. destruct (decide (c = "v"%char)) as [->|_].
    - exfalso. vm_compute in Hc. destruct Hc as [_ Hc]. by apply Hc.
    - by destruct (decide (c = "0"%char)). }
  assert (to_lower (dec_of_N n) = dec_of_N n) as Hlow by apply to_lower_digits, dec_of_N_digits.
  rewrite <- atoi_dec_of_N. unfold version_name. destruct (decide (pad <= 0)%Z).
  - change ("v" +:+ dec_of_N n) with (String "v" (dec_of_N n)).
    simpl to_lower. rewrite Hlow.
    change (trim_left (String (lower_ascii "v") (dec_of_N n)) "v0") with (trim_left (dec_of_N n) "v0").
    rewrite E. cbn [trim_left]. by rewrite Hm.
  - rewrite !to_lower_app, to_lower_zeros, Hlow, E.
    change (to_lower "v0" +:+ ?x) with (String "v" (String "0" x)).
    simpl trim_left. by rewrite trim_left_zeros.
Qed.

Lemma vname_vnum pad n : vnum (version_name pad n) = Some n.
Proof.
  unfold version_name. destruct (decide (pad <= 0)%Z).
  - change ("v" +:+ dec_of_N n) with (String "v" (dec_of_N n)). simpl. apply N_of_dec_of_N.
  - change ("v0" +:+ ?x) with (String "v" (String "0" x)). unfold vnum.
    apply N_of_dec_0, N_of_dec_zeros, N_of_dec_of_N.
Qed.

Lemma version_name_inj pad n m : version_name pad n = version_name pad m → n = m.
Proof. intros H. pose proof (vname_vnum pad n) as E. rewrite H, vname_vnum in E. by injection E. Qed.
Lemma version_name_nonempty pad n : version_name pad n ≠ "".
Proof. intros H. pose proof (vname_vnum pad n) as E. rewrite H in E. discriminate. Qed.

Lemma dec_pad_pos w n : dec_pad w (Z.of_N n) = str_repeat "0" (w - String.length (dec_of_N n)) +:+ dec_of_N n.
Proof. destruct n; reflexivity. Qed.

Lemma next_head_name i n :
  inv_head i = (if decide (n = 0%N) then "" else version_name (inv_padding i) n) →
  next_head i = Some (version_name (inv_padding i) (n + 1)).
Proof.
  intros Hh. unfold next_head. destruct (decide (n = 0%N)) as [->|Hn].
  - rewrite Hh. rewrite decide_True by done. unfold version_name.
    destruct (decide (inv_padding i <= 0)%Z); [done|].
    do 2 f_equal.
  - rewrite Hh. rewrite decide_False by apply version_name_nonempty.
    rewrite vname_atoi by lia.
    replace (Z.of_N n + 1)%Z with (Z.of_N (n + 1)) by lia.
    unfold version_name.
    destruct (decide (inv_padding i <= 0)%Z).
    + f_equal. change ("v" +:+ ?x) with (String "v" x). f_equal. by rewrite dec_of_Z_pos.
    + by rewrite dec_pad_pos.
Qed.

(** * The calls that work on the head version only *)

(** What such a call may change. *)
Record ext_rel (i i' : inventory) : Prop := ExtRel {
  er_id : inv_id i' = inv_id i;
  er_type : inv_type i' = inv_type i;
  er_alg : inv_alg i' = inv_alg i;
  er_head : inv_head i' = inv_head i;
  er_cdir : inv_contentdir i' = inv_contentdir i;
  er_fixalgs : inv_fixalgs i' = inv_fixalgs i;
  er_pad : inv_padding i' = inv_padding i;
  er_wr : inv_writeable i' = inv_writeable i;
  er_mod : inv_modified i = true → inv_modified i' = true;
  er_vers : ∀ ver, ver ≠ inv_head i → inv_versions i' !! ver = inv_versions i !! ver;
  er_headv : ∀ v, inv_versions i !! inv_head i = Some v →
      ∃ s, inv_versions i' !! inv_head i = Some (set_state s v);
  er_none : inv_versions i !! inv_head i = None → inv_versions i' !! inv_head i = None;
  er_man : ∀ d ps, inv_manifest i !! d = Some ps → ∃ ext, inv_manifest i' !! d = Some (ps ++ ext);
  er_fix : ∀ alg blk d ps, inv_fixity i !! alg = Some blk → blk !! d = Some ps →
      ∃ blk' ext, inv_fixity i' !! alg = Some blk' ∧ blk' !! d = Some (ps ++ ext)
}.

Lemma set_state_id v : set_state (v_state v) v = v.
Proof. by destruct v. Qed.
Lemma set_state_set_state s t v : set_state s (set_state t v) = set_state s v.
Proof. done. Qed.

Global Instance ext_rel_refl : Reflexive ext_rel.
Proof.
  intros i. split; try done.
  - intros v Hv. exists (v_state v). by rewrite set_state_id.
  - intros d ps H. exists []. by rewrite app_nil_r.
  - intros alg blk d ps H1 H2. exists blk, []. by rewrite app_nil_r.
Qed.
Global Instance ext_rel_trans : Transitive ext_rel.
Proof.
  intros i j k H1 H2. destruct H1, H2. split; try congruence; try auto.
  - intros ver Hv. rewrite er_vers1 by congruence. auto.
  - intros v Hv. destruct (er_headv0 v Hv) as [s Hs].
    rewrite <- er_head0 in Hs. destruct (er_headv1 _ Hs) as [t Ht].
    exists t. rewrite <- er_head0, Ht. done.
  - intros Hn. apply er_none0 in Hn. rewrite <- er_head0 in Hn |- *. by apply er_none1.
  - intros d ps Hd. destruct (er_man0 d ps Hd) as [e He]. destruct (er_man1 _ _ He) as [e' He'].
    exists (e ++ e'). by rewrite app_assoc.
  - intros alg blk d ps Ha Hd. destruct (er_fix0 alg blk d ps Ha Hd) as (b & e & Hb & He).
    destruct (er_fix1 alg b d _ Hb He) as (b' & e' & Hb' & He').
    exists b', (e ++ e'). by rewrite app_assoc.
Qed.

Lemma ext_rel_modified i : ext_rel i (set_modified true i).
Proof.
  split; try done.
  - intros v Hv. exists (v_state v). by rewrite set_state_id.
  - intros d ps H. exists []. by rewrite app_nil_r.
  - intros alg blk d ps H1 H2. exists blk, []. by rewrite app_nil_r.
Qed.
Lemma ext_rel_put i v s : head_version i = Some v → ext_rel i (put_head_state s v i).
Proof.
  intros Hv. unfold put_head_state, head_version in *. split; try done; simpl.
  - intros ver Hne. by rewrite lookup_insert_ne.
  - intros w Hw. rewrite Hv in Hw. injection Hw as <-. exists s. by rewrite lookup_insert.
  - intros Hn. congruence.
  - intros d ps H. exists []. by rewrite app_nil_r.
  - intros alg blk d ps H1 H2. exists blk, []. by rewrite app_nil_r.
Qed.
Lemma ext_rel_manifest i d p :
  ext_rel i (set_manifest (<[d := default [] (inv_manifest i !! d) ++ [p]]> (inv_manifest i)) i).
Proof.
  split; try done; simpl.
  - intros v Hv. exists (v_state v). by rewrite set_state_id.
  - intros d' ps H. destruct (decide (d = d')) as [->|Hne].
    + rewrite lookup_insert, H. simpl. by exists [p].
    + rewrite lookup_insert_ne by done. exists []. by rewrite app_nil_r.
  - intros alg blk d' ps H1 H2. exists blk, []. by rewrite app_nil_r.
Qed.

Lemma ext_rel_delete f i : ext_rel i (delete_file f i).1.
Proof.
  unfold delete_file. destruct (head_version i) as [v|] eqn:Hv; [|done]. simpl.
  destruct (state_has f (v_state v)).
  - etransitivity; [by apply ext_rel_put|apply ext_rel_modified].
  - by apply ext_rel_put.
Qed.
Lemma ext_rel_rename a b i : ext_rel i (rename_file a b i).1.
Proof.
  unfold rename_file. destruct (head_version i) as [v|] eqn:Hv; [|done]. simpl.
  destruct (state_has a (v_state v)).
  - etransitivity; [by apply ext_rel_put|apply ext_rel_modified].
  - by apply ext_rel_put.
Qed.
Lemma ext_rel_copy a d i : ext_rel i (copy_file a d i).1.
Proof.
  unfold copy_file. destruct (inv_manifest i !! d); [|done].
  destruct (head_version i) as [v|] eqn:Hv; [|done].
  destruct (decide _); [done|]. simpl.
  etransitivity; [by apply ext_rel_put|apply ext_rel_modified].
Qed.
Lemma ext_rel_delete_all fs i : ext_rel i (delete_all fs i).1.
Proof.
  revert i; induction fs as [|f fs IH]; intros i; [done|]. simpl.
  pose proof (ext_rel_delete f i) as H.
  destruct (delete_file f i) as [i' [| |]]; simpl in *; try done.
  etransitivity; [exact H|apply IH].
Qed.
Lemma ext_rel_echo orc ex p i : ext_rel i (echo_delete orc ex p i).1.
Proof.
  unfold echo_delete. destruct (head_version i); [|done]. apply ext_rel_delete_all.
Qed.
Lemma ext_rel_add_fixity alg fd p i : ext_rel i (add_fixity alg fd p i).
Proof.
  unfold add_fixity.
  set (blk := default ∅ (inv_fixity i !! alg)). set (ps := default [] (blk !! fd)).
  assert (∀ e, ext_rel i (set_fixity (<[alg := <[fd := ps ++ e]> blk]> (inv_fixity i)) i)) as H.
  { intros e. split; try done; simpl.
    - intros v Hv. exists (v_state v). by rewrite set_state_id.
    - intros d ps' Hd. exists []. by rewrite app_nil_r.
    - intros alg' blk' d ps' H1 H2. destruct (decide (alg = alg')) as [->|Hne].
      + rewrite lookup_insert. subst blk ps. rewrite H1. simpl. exists (<[fd := default [] (blk' !! fd) ++ e]> blk').
        destruct (decide (fd = d)) as [->|Hd].
        * exists e. split; [done|]. by rewrite lookup_insert, H2.
        * exists []. split; [done|]. by rewrite lookup_insert_ne, app_nil_r.
      + exists blk', []. by rewrite lookup_insert_ne, app_nil_r. }
  destruct (decide (p ∈ ps)).
  - specialize (H []). by rewrite app_nil_r in H.
  - etransitivity; [apply (H [p])|apply ext_rel_modified].
Qed.
Lemma ext_rel_add_fixities p cs i : ext_rel i (add_fixities p cs i).
Proof.
  revert i; induction cs as [|[alg fd] cs IH]; intros i; [done|]. simpl.
  etransitivity; [|apply IH]. destruct (decide _); [done|]. apply ext_rel_add_fixity.
Qed.
Lemma ext_rel_add_state_file orc n m d f i : ext_rel i (add_state_file orc n m d f i).1.
Proof.
  unfold add_state_file. destruct (already_exists orc n i f d) as [dup|e]; [|done].
  set (i1 := if decide (m = "") then i else _).
  assert (ext_rel i i1) as H1.
  { subst i1. destruct (decide _); [done|]. apply ext_rel_manifest. }
  destruct (head_version i1) as [v|] eqn:Hv; [|done].
  set (i2 := match v_state v !! d with Some _ => i1 | None => _ end).
  assert (ext_rel i i2) as H2.
  { subst i2. destruct (v_state v !! d); [done|].
    etransitivity; [exact H1|by apply ext_rel_put]. }
  destruct (is_update orc (S n) i2 f d) as [upd|e]; [|done].
  set (r := if upd then _ else _).
  assert (ext_rel i r.1) as H3.
  { subst r. destruct upd; [|done].
    pose proof (ext_rel_delete f i2) as Hd.
    destruct (delete_file f i2) as [i' [| |]]; simpl in *; try (by etransitivity).
    etransitivity; [exact H2|]. etransitivity; [exact Hd|apply ext_rel_modified]. }
  destruct r as [i3 [| |]]; simpl in *; try done.
  destruct dup; [done|]. destruct (head_version i3) as [w|] eqn:Hw; [|done]. simpl.
  etransitivity; [exact H3|]. etransitivity; [by apply ext_rel_put|apply ext_rel_modified].
Qed.
Lemma ext_rel_add_state_files orc n m d fs i : ext_rel i (add_state_files orc n m d fs i).1.
Proof.
  revert n i; induction fs as [|f fs IH]; intros n i; [done|]. simpl.
  pose proof (ext_rel_add_state_file orc n m d f i) as H.
  destruct (add_state_file orc n m d f i) as [i' [| |]]; simpl in *; try done.
  etransitivity; [exact H|apply IH].
Qed.
Lemma ext_rel_add_file orc fs m cs i : ext_rel i (add_file orc fs m cs i).1.
Proof.
  unfold add_file. destruct (assoc _ cs) as [d|]; [|done].
  etransitivity; [apply ext_rel_add_fixities|apply ext_rel_add_state_files].
Qed.
