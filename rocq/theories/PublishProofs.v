(** Proofs about complete update sessions: every state between two calls keeps the stored object in order. *)
From Coq Require Import Ascii.
From stdpp Require Import base list strings gmap.
From Coq Require Import ZArith Lia.
From Verif Require Import GoStr PathModel InventoryModel ObjectModel InventorySpec InventoryProofs ObjectSpec ObjectProofs LookupProofs AddProofs
  CrashSpec LoadModel PathProofs CrashProofs LoadProofs SessionProofs PublishSpec.

(** * The working version after one call *)

(** The digests of the working version. *)
Definition key (i : inventory) (e : string) : Prop := ∃ v, head_version i = Some v ∧ is_Some (v_state v !! e).
Lemma key_put i v s e : head_version i = Some v → key (put_head_state s v i) e ↔ is_Some (s !! e).
Proof.
  intros Hv. unfold key. rewrite (head_version_put _ _ _ Hv). split.
  - by intros (? & [= <-] & H).
  - intros H. eexists. by split.
Qed.
Lemma key_head i v e : head_version i = Some v → key i e ↔ is_Some (v_state v !! e).
Proof. intros Hv. unfold key. rewrite Hv. split; [by intros (? & [= <-] & H)|eauto]. Qed.
Lemma key_same i i' e : inv_head i' = inv_head i → inv_versions i' = inv_versions i → key i' e ↔ key i e.
Proof. intros Hh Hv. unfold key, head_version. by rewrite Hh, Hv. Qed.

Lemma delete_key f i e : key (delete_file f i).1 e ↔ key i e.
Proof.
  unfold delete_file. destruct (head_version i) as [v|] eqn:Hv; [|done]. cbn [fst].
  assert (key (put_head_state ((λ fs : list string, filter (λ g, g ≠ f) fs) <$> v_state v) v i) e ↔ key i e) as H.
  { rewrite (key_put _ _ _ _ Hv), (key_head _ _ _ Hv), lookup_fmap. by rewrite fmap_is_Some. }
  destruct (state_has _ _); [|done]. rewrite <- H. by apply key_same.
Qed.
Lemma rename_key a b i e : key (rename_file a b i).1 e ↔ key i e.
Proof.
  unfold rename_file. destruct (head_version i) as [v|] eqn:Hv; [|done]. cbn [fst].
  assert (key (put_head_state (map (λ g, if decide (g = a) then b else g) <$> v_state v) v i) e ↔ key i e) as H.
  { rewrite (key_put _ _ _ _ Hv), (key_head _ _ _ Hv), lookup_fmap. by rewrite fmap_is_Some. }
  destruct (state_has _ _); [|done]. rewrite <- H. by apply key_same.
Qed.
Lemma is_Some_insert (m : smap) d ps e : is_Some (<[d := ps]> m !! e) ↔ is_Some (m !! e) ∨ e = d.
Proof.
  destruct (decide (e = d)) as [-> |].
  - rewrite lookup_insert. split; [by right|by eexists].
  - rewrite lookup_insert_ne by done. tauto.
Qed.
Lemma copy_key a d i e : key (copy_file a d i).1 e → key i e ∨ (e = d ∧ is_Some (inv_manifest i !! d)).
Proof.
  unfold copy_file. destruct (inv_manifest i !! d) eqn:Hd; [|by left]. destruct (head_version i) as [v|] eqn:Hv; [|by left].
  cbv zeta. destruct (decide _); cbn [fst]; [by left|]. intros H.
  apply (key_same (put_head_state (<[d:=default [] (v_state v !! d) ++ [a]]> (v_state v)) v i)) in H; [|done|done].
  apply (key_put _ _ _ _ Hv) in H. rewrite (key_head _ _ _ Hv). apply is_Some_insert in H as [H| ->]; [by left|right; split; [done|by eexists]].
Qed.
Lemma copy_key_mono a d i e : key i e → key (copy_file a d i).1 e.
Proof.
  unfold copy_file. destruct (inv_manifest i !! d) eqn:Hd; [|done]. destruct (head_version i) as [v|] eqn:Hv; [|done].
  cbv zeta. destruct (decide _); cbn [fst]; [done|]. intros H.
  apply (key_same (put_head_state (<[d:=default [] (v_state v !! d) ++ [a]]> (v_state v)) v i)); [done|done|].
  apply (key_put _ _ _ _ Hv). apply is_Some_insert. left. by apply (key_head _ _ _ Hv).
Qed.
Lemma delete_all_key fs i e : key (delete_all fs i).1 e ↔ key i e.
Proof.
  revert i; induction fs as [|f fs IH]; intros i; [done|]. simpl. pose proof (delete_key f i e) as H.
  destruct (delete_file f i) as [i' []]; cbn [fst] in *; [by rewrite IH|done..].
Qed.
Lemma echo_key orc ex p i e : key (echo_delete orc ex p i).1 e ↔ key i e.
Proof. unfold echo_delete. destruct (head_version i); [|done]. apply delete_all_key. Qed.

Lemma exists_total orc n i f d m : oracle_ok orc → head_is i m → (inv_padding i <= 0)%Z → d ≠ "" →
  (∃ b, already_exists orc n i f d = inl b) ∧ ∃ b, is_update orc n i f d = inl b.
Proof.
  intros Ho Hh Hp Hd. unfold already_exists, is_update. rewrite !decide_False by done.
  destruct (last_digest_unpadded orc n i f m Ho Hh Hp) as [[-> _]|(e & -> & _)]; eauto.
Qed.
Lemma delete_ok f i v : head_version i = Some v → ∃ i', delete_file f i = (i', SOk) ∧ is_Some (head_version i') ∧
  inv_manifest i' = inv_manifest i ∧ inv_fixity i' = inv_fixity i.
Proof.
  intros Hv. destruct (delete_file_spec f i v Hv) as (i' & v' & E & Hv' & _ & _ & _ & _ & _ & Hm & _ & Hf).
  exists i'. split; [done|]. split; [by eexists|]. done.
Qed.
Lemma state_file_spec orc n mp d f i m :
  oracle_ok orc → head_is i m → m ≠ 0%N → (inv_padding i <= 0)%Z → d ≠ "" → mp ≠ "" →
  ∃ i', add_state_file orc n mp d f i = (i', SOk) ∧ inv_manifest i' = <[d := default [] (inv_manifest i !! d) ++ [mp]]> (inv_manifest i) ∧
    inv_fixity i' = inv_fixity i ∧ ∀ e, key i' e ↔ key i e ∨ e = d.
Proof.
  intros Ho Hh Hm Hp Hd Hmp. unfold add_state_file.
  destruct (proj1 (exists_total orc n i f d m Ho Hh Hp Hd)) as [dup ->]. rewrite decide_False by done.
  set (man := <[d := _]> (inv_manifest i)). set (i1 := set_manifest man i).
  destruct (proj1 (proj2 Hh) Hm) as [v Hv]. change (head_version i1) with (head_version i). change (inv_versions i !! inv_head i) with (head_version i) in Hv.
  rewrite Hv. set (i2 := match v_state v !! d with Some _ => i1 | None => _ end).
  assert (head_version i1 = Some v) as Hv1 by done.
  assert (ext_rel i i2) as He.
  { etransitivity; [apply (ext_rel_manifest i d mp)|]. fold man. fold i1. subst i2. destruct (v_state v !! d); [done|]. by apply ext_rel_put. }
  assert (∀ e, key i2 e ↔ key i e ∨ e = d) as Hk.
  { intros e. subst i2. destruct (v_state v !! d) eqn:Ed.
    - rewrite (key_same i i1) by done. split; [by left|]. intros [H| ->]; [done|]. apply (key_head _ _ _ Hv). by eexists.
    - rewrite (key_put _ _ _ _ Hv1), is_Some_insert, (key_head _ _ _ Hv). done. }
  assert (inv_manifest i2 = man ∧ inv_fixity i2 = inv_fixity i) as [Hman Hfix] by (subst i2; by destruct (v_state v !! d)).
  assert (is_Some (head_version i2)) as [v2 Hv2].
  { subst i2. destruct (v_state v !! d); [by eexists|]. rewrite (head_version_put _ _ _ Hv1). by eexists. }
  clearbody i2.
  destruct (proj2 (exists_total orc (S n) i2 f d m Ho (ext_rel_head_is _ _ _ He Hh) ltac:(by rewrite (er_pad _ _ He)) Hd)) as [upd ->].
  assert (∃ i3 v3, (if upd then match delete_file f i2 with (i', SOk) => (set_modified true i', SOk) | r => r end else (i2, SOk)) = (i3, SOk) ∧
    head_version i3 = Some v3 ∧ inv_manifest i3 = man ∧ inv_fixity i3 = inv_fixity i ∧ ∀ e, key i3 e ↔ key i e ∨ e = d) as (i3 & v3 & -> & Hv3 & Hman3 & Hfix3 & Hk3).
  { destruct upd; [|exists i2, v2; done]. destruct (delete_ok f i2 v2 Hv2) as (i' & E & [v' Hv'] & Hm' & Hf'). rewrite E.
    exists (set_modified true i'), v'. split; [done|]. split; [done|]. split; [by rewrite <- Hman, <- Hm'|]. split; [by rewrite <- Hfix, <- Hf'|].
    intros e. rewrite (key_same i' (set_modified true i')) by done. pose proof (delete_key f i2 e) as H. rewrite E in H. cbn [fst] in H. by rewrite H, Hk. }
  destruct dup; [by exists i3|]. rewrite Hv3. eexists. split; [reflexivity|]. split; [done|]. split; [done|]. intros e.
  rewrite (key_same (put_head_state (<[d:=default [] (v_state v3 !! d) ++ [f]]> (v_state v3)) v3 i3)) by done.
  rewrite (key_put _ _ _ _ Hv3), is_Some_insert, <- (key_head _ _ _ Hv3), Hk3. tauto.
Qed.
Lemma state_files_spec orc n mp d f fs i m :
  oracle_ok orc → head_is i m → m ≠ 0%N → (inv_padding i <= 0)%Z → d ≠ "" → mp ≠ "" →
  ∃ i' ps, add_state_files orc n mp d (f :: fs) i = (i', SOk) ∧
    inv_manifest i' = <[d := default [] (inv_manifest i !! d) ++ mp :: ps]> (inv_manifest i) ∧ Forall (eq mp) ps ∧
    inv_fixity i' = inv_fixity i ∧ ∀ e, key i' e ↔ key i e ∨ e = d.
Proof.
  intros Ho Hh Hm Hp Hd Hmp. revert n f i Hh Hp; induction fs as [|g fs IH]; intros n f i Hh Hp; simpl.
  - destruct (state_file_spec orc n mp d f i m Ho Hh Hm Hp Hd Hmp) as (i' & -> & Hman & Hfix & Hk). exists i', []. auto.
  - destruct (state_file_spec orc n mp d f i m Ho Hh Hm Hp Hd Hmp) as (i1 & E & Hman & Hfix & Hk).
    pose proof (ext_rel_add_state_file orc n mp d f i) as He. rewrite E in *. cbn [fst] in He.
    destruct (IH (S (S n)) g i1 (ext_rel_head_is _ _ _ He Hh) ltac:(by rewrite (er_pad _ _ He))) as (i' & ps & E' & Hman' & Hps & Hfix' & Hk').
    simpl in E'. exists i', (mp :: ps). split; [exact E'|]. split; [|split; [by constructor|split; [congruence|]]].
    + rewrite Hman', Hman, lookup_insert, insert_insert. f_equal. simpl. by rewrite <- app_assoc.
    + intros e. rewrite Hk', Hk. tauto.
Qed.

(** * Fixity blocks *)
Definition fix_entry (i : inventory) (alg fd p : string) : Prop := ∃ blk ps, inv_fixity i !! alg = Some blk ∧ blk !! fd = Some ps ∧ p ∈ ps.
Definition fix_full (i : inventory) : Prop := ∀ alg blk fd ps, inv_fixity i !! alg = Some blk → blk !! fd = Some ps → ps ≠ [].
Lemma add_fixity_entry alg fd mp i a e p :
  fix_entry (add_fixity alg fd mp i) a e p → fix_entry i a e p ∨ (a = alg ∧ e = fd ∧ p = mp).
Proof.
  unfold add_fixity. set (blk := default ∅ (inv_fixity i !! alg)). set (ps := default [] (blk !! fd)).
  assert (∀ ps', (∀ q, q ∈ ps' → q ∈ ps ∨ q = mp) → fix_entry (set_fixity (<[alg := <[fd := ps']> blk]> (inv_fixity i)) i) a e p →
    fix_entry i a e p ∨ (a = alg ∧ e = fd ∧ p = mp)) as H.
  { intros ps' Hps (b & qs & Hb & Hq & Hp). cbn [inv_fixity set_fixity] in Hb. apply lookup_insert_Some in Hb as [[<- <-]|[Hne Hb]]; [|left; by exists b, qs].
    apply lookup_insert_Some in Hq as [[<- <-]|[Hne Hq]].
    - apply Hps in Hp as [Hp| ->]; [|by right]. left. subst ps blk. destruct (inv_fixity i !! alg) as [b|] eqn:Eb; simpl in Hp.
      + destruct (b !! fd) as [l|] eqn:El; simpl in Hp; [by exists b, l|by apply elem_of_nil in Hp].
      + unfold default in Hp. simpl in Hp. rewrite lookup_empty in Hp. by apply elem_of_nil in Hp.
    - left. subst blk. destruct (inv_fixity i !! alg) as [b|] eqn:Eb; [by exists b, qs|simpl in Hq; by rewrite lookup_empty in Hq]. }
  destruct (decide (mp ∈ ps)); intros Hx.
  - apply (H ps); [by left|done].
  - apply (H (ps ++ [mp])); [|done]. intros q [Hq|Hq%elem_of_list_singleton]%elem_of_app; [by left|by right].
Qed.
Lemma add_fixity_mono alg fd mp i a e p : fix_entry i a e p → fix_entry (add_fixity alg fd mp i) a e p.
Proof.
  intros (b & qs & Hb & Hq & Hp). unfold add_fixity. set (blk := default ∅ (inv_fixity i !! alg)). set (ps := default [] (blk !! fd)).
  assert (∀ ps', (∀ q, q ∈ ps → q ∈ ps') → fix_entry (set_fixity (<[alg := <[fd := ps']> blk]> (inv_fixity i)) i) a e p) as H.
  { intros ps' Hps. unfold fix_entry. cbn [inv_fixity set_fixity]. destruct (decide (a = alg)) as [-> |].
    - rewrite lookup_insert. exists (<[fd := ps']> blk). destruct (decide (e = fd)) as [-> |].
      + exists ps'. split; [done|]. split; [apply lookup_insert|]. apply Hps. subst ps blk. rewrite Hb. simpl. by rewrite Hq.
      + exists qs. split; [done|]. rewrite lookup_insert_ne by done. subst blk. by rewrite Hb.
    - rewrite lookup_insert_ne by done. by exists b, qs. }
  destruct (decide (mp ∈ ps)); [by apply H|]. apply (H (ps ++ [mp])). intros q Hq'. apply elem_of_app. by left.
Qed.
Lemma add_fixity_full alg fd mp i : fix_full i → fix_full (add_fixity alg fd mp i).
Proof.
  intros Hf. unfold add_fixity. set (blk := default ∅ (inv_fixity i !! alg)). set (ps := default [] (blk !! fd)).
  assert (∀ ps', ps' ≠ [] → fix_full (set_fixity (<[alg := <[fd := ps']> blk]> (inv_fixity i)) i)) as H.
  { intros ps' Hps a b e qs Hb Hq. cbn [inv_fixity set_fixity] in Hb. apply lookup_insert_Some in Hb as [[<- <-]|[Hne Hb]]; [|by eapply Hf].
    apply lookup_insert_Some in Hq as [[<- <-]|[Hne Hq]]; [done|]. subst blk. destruct (inv_fixity i !! alg) as [b|] eqn:Eb; [by eapply Hf|simpl in Hq; by rewrite lookup_empty in Hq]. }
  destruct (decide (mp ∈ ps)) as [Hin|]; [apply H; intros E0; rewrite E0 in Hin; by apply elem_of_nil in Hin|]. apply (H (ps ++ [mp])). by destruct ps.
Qed.
Lemma add_fixity_algs alg fd mp i a : is_Some (inv_fixity (add_fixity alg fd mp i) !! a) → is_Some (inv_fixity i !! a) ∨ a = alg.
Proof.
  unfold add_fixity. destruct (decide _); cbn [inv_fixity set_fixity set_modified];
    (destruct (decide (a = alg)) as [-> |]; [by right|]; rewrite lookup_insert_ne by done; by left).
Qed.
Lemma fixities_spec mp cs i :
  (∀ a e p, fix_entry (add_fixities mp cs i) a e p → fix_entry i a e p ∨ ((a, e) ∈ cs ∧ p = mp)) ∧
  (∀ a e p, fix_entry i a e p → fix_entry (add_fixities mp cs i) a e p) ∧
  (fix_full i → fix_full (add_fixities mp cs i)) ∧
  (∀ a, is_Some (inv_fixity (add_fixities mp cs i) !! a) → is_Some (inv_fixity i !! a) ∨ ∃ e, (a, e) ∈ cs).
Proof.
  revert i; induction cs as [|[alg fd] cs IH]; intros i; cbn [add_fixities].
  - split; [by left|]. split; [done|]. split; [done|by left].
  - set (i1 := if decide (alg = inv_alg i) then i else add_fixity alg fd mp i). destruct (IH i1) as (H1 & H2 & H3 & H4).
    assert ((∀ a e p, fix_entry i1 a e p → fix_entry i a e p ∨ (a = alg ∧ e = fd ∧ p = mp)) ∧ (∀ a e p, fix_entry i a e p → fix_entry i1 a e p) ∧
      (fix_full i → fix_full i1) ∧ (∀ a, is_Some (inv_fixity i1 !! a) → is_Some (inv_fixity i !! a) ∨ a = alg)) as (G1 & G2 & G3 & G4).
    { subst i1. destruct (decide _); [split; [by left|]; split; [done|]; split; [done|by left]|].
      split; [intros *; apply add_fixity_entry|]. split; [intros *; apply add_fixity_mono|]. split; [apply add_fixity_full|intros *; apply add_fixity_algs]. }
    split; [|split; [|split]].
    + intros a e p [H|[H ->]]%H1; [|right; split; [by right|done]]. apply G1 in H as [H|(-> & -> & ->)]; [by left|right; split; [by left|done]].
    + intros a e p H. by apply H2, G2.
    + intros H. by apply H3, G3.
    + intros a [H|[e H]]%H4; [|right; exists e; by right]. apply G4 in H as [H| ->]; [by left|right; exists fd; by left].
Qed.
Lemma checksums_entry E algs data cs a e : checksums E algs data = Some cs → (a, e) ∈ cs → a ∈ algs ∧ e_hash E a data = Some e.
Proof.
  revert cs; induction algs as [|b algs IH]; intros cs; simpl; [intros [= <-] H; by apply elem_of_nil in H|].
  destruct (e_hash E b data) as [h|] eqn:Eh; [|done]. destruct (checksums E algs data) as [r|] eqn:Er; [|done].
  intros [= <-] [[= -> ->]|H]%elem_of_cons; [split; [by left|done]|]. destruct (IH r eq_refl H) as [Ha He]. split; [by right|done].
Qed.
Lemma checksums_total E algs data : (∀ a, a ∈ algs → ∃ h, e_hash E a data = Some h) → ∃ cs, checksums E algs data = Some cs.
Proof.
  induction algs as [|b algs IH]; intros H; [by eexists|]. simpl. destruct (H b ltac:(by left)) as [h ->].
  destruct IH as [cs ->]; [|by eexists]. intros a Ha. apply H. by right.
Qed.
