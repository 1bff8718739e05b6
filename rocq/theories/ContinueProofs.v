(** Proofs about complete sessions on objects of any origin: the session as seen with the inventories that are already stored. *)
From Coq Require Import Ascii.
From stdpp Require Import base list strings gmap.
From Coq Require Import ZArith Lia.
From Verif Require Import GoStr PathModel InventoryModel ObjectModel InventorySpec InventoryProofs ObjectSpec ObjectProofs LookupProofs AddProofs
  CrashSpec LoadModel PathProofs CrashProofs LoadProofs SessionProofs PublishSpec PublishProofs PublishProofs2 PublishProofs3 PublishProofs4 InheritProofs.

(** * Identifier and type do not change *)
Section named.
  Context (a b : string).
  Definition named (i : inventory) (e : bool) : Prop := inv_id i = a ∧ inv_type i = b.
  Lemma named_ext i i' e : ext_rel i i' → named i e → named i' e.
  Proof. intros He [H1 H2]. split; [by rewrite (er_id _ _ He)|by rewrite (er_type _ _ He)]. Qed.
  Lemma named_new i e e' now msg un ua : named i e → named (new_version now msg un ua i).1 e'.
  Proof. intros H. unfold new_version. destruct (next_head i); [|done]. destruct (decide _); [done|]. by destruct (_ !! _). Qed.
  Lemma named_start now msg un ua e o : PO named o → PO named (ob_start now msg un ua e o).1.
  Proof. apply PO_start. intros. by eapply named_new. Qed.
  Lemma named_step E orc op o : PO named o → PO named (ostep E orc op o).1.
  Proof.
    apply PO_step.
    - intros. by eapply named_new.
    - intros i e orc' fs m cs _ _. apply named_ext, ext_rel_add_file.
    - intros i e f d _. apply named_ext, ext_rel_copy.
    - intros i e f _. apply named_ext, ext_rel_delete.
    - intros i e x y _. apply named_ext, ext_rel_rename.
    - intros i orc' ex p. apply named_ext, ext_rel_echo.
  Qed.
  Lemma named_calls E o o' : calls E o o' → PO named o → PO named o'.
  Proof.
    induction 1 as [|orc op o o1 st o2 _ _ Hs _ _ IH]; [done|]. intros H. apply IH. pose proof (named_step E orc op o H) as H1. by rewrite Hs in H1.
  Qed.
  Lemma named_update E o o' : update E o o' → PO named o → PO named o'.
  Proof.
    intros [nw msg un ua echo orc h ? o1 o2 o3 Hst Hc Hm Hg He] H. pose proof (named_start nw msg un ua echo _ H) as H1. rewrite Hst in H1.
    pose proof (named_calls _ _ _ Hc H1) as H2. pose proof (named_step E orc (OEnd h) o2 H2) as H3. cbn [ostep] in H3. by rewrite He in H3.
  Qed.
  Lemma named_updates E o o' : updates E o o' → PO named o → PO named o'.
  Proof. induction 1 as [o o' H|o o1 o' H _ IH]; intros Ho; [by eapply named_update|]. apply IH. by eapply named_update. Qed.
End named.
Lemma complete_named E s i s' i' : complete E s i s' i' → inv_id i' = inv_id i ∧ inv_type i' = inv_type i.
Proof.
  intros [o1 orc o2 Hu Hc _ ->].
  assert (PO (named (inv_id i) (inv_type i)) o1) as H1 by (eapply named_updates; [exact Hu|done]).
  pose proof (named_step _ _ E orc OClose o1 H1) as H2. cbn [ostep] in H2. rewrite Hc in H2. exact H2.
Qed.

(** * The encoder that knows the stored inventories *)
Definition swap (E : env) (s : storage) : env :=
  Env (e_hash E) (λ j, match s !! (inv_head j +:+ "/inventory.json") with Some b => b | None => e_json E j end)
    (e_state_path E) (e_manifest_path E) (e_ext_files E).
Lemma swap_json E s j : s !! (inv_head j +:+ "/inventory.json") = None → e_json (swap E s) j = e_json E j.
Proof. intros H. unfold swap. cbn [e_json]. by rewrite H. Qed.
Lemma swap_store E s x y o : s !! (inv_head (ob_inv o) +:+ "/inventory.json") = None → store_inventory (swap E s) x y o = store_inventory E x y o.
Proof. intros H. unfold store_inventory. by rewrite (swap_json _ _ _ H). Qed.
Lemma swap_checksums E s l data : checksums (swap E s) l data = checksums E l data.
Proof. induction l as [|a l IH]; [done|]. cbn [checksums]. by rewrite IH. Qed.
Lemma swap_paths E s fs area : state_paths (swap E s) fs area = state_paths E fs area.
Proof. induction fs as [|f fs IH]; [done|]. cbn [state_paths]. by rewrite IH. Qed.
Lemma swap_names E s i fs area : build_names (swap E s) i fs area = build_names E i fs area.
Proof. unfold build_names. destruct fs; [done|]. by rewrite swap_paths. Qed.
Lemma swap_reader E s orc data fs m o : add_reader (swap E s) orc data fs m o = add_reader E orc data fs m o.
Proof. unfold add_reader. by rewrite swap_checksums. Qed.
Lemma swap_sop E s orc op o : sop_step (swap E s) orc op o = sop_step E orc op o.
Proof.
  destruct op as [data path area dedup|data files area|f d|a b d|a d]; cbn [sop_step]; try done.
  - unfold ob_add. rewrite swap_names. destruct (inv_writeable _); [|done]. destruct (build_names _ _ _ _) as [[ps m]|]; [|done].
    cbn [e_state_path swap e_hash]. destruct (e_state_path E path area) as [np|]; [|done]. by rewrite swap_reader.
  - unfold ob_add_reader. rewrite swap_names. destruct files; [done|]. destruct (inv_writeable _); [|done]. destruct (build_names _ _ _ _) as [[ps m]|]; [|done].
    apply swap_reader.
Qed.
Lemma swap_sops E s ops o : sops_run (swap E s) ops o = sops_run E ops o.
Proof.
  revert o; induction ops as [|[orc op|orc op|msg] ops IH]; intros o; cbn [sops_run]; [done|..|done]; rewrite swap_sop.
  - destruct (sop_step E orc op o) as [o' []]; cbn [andThen]; [apply IH|done..].
  - destruct (sop_step E orc op o) as [o' []]; [apply IH|apply IH|done].
Qed.
Lemma swap_echo E s orc o : ob_echo_delete (swap E s) orc o = ob_echo_delete E orc o.
Proof. reflexivity. Qed.
Lemma swap_proper E s orc op o : proper E orc op o → proper (swap E s) orc op o.
Proof. exact (λ H, H). Qed.
Lemma swap_guarded E s ops o : guarded_sops E (proper E) ops o → guarded_sops (swap E s) (proper (swap E s)) ops o.
Proof.
  revert o; induction ops as [|[orc op|orc op|msg] ops IH]; intros o; cbn [guarded_sops]; [done|..|done]; rewrite swap_sop; intros [H1 H2]; (split; [by apply swap_proper|]).
  - destruct (sop_step E orc op o) as [o' []]; cbn [after_ok] in *; [by apply IH|done..].
  - destruct (sop_step E orc op o) as [o' []]; [by apply IH|by apply IH|done].
Qed.
Lemma swap_calls E s o o' : calls E o o' → calls (swap E s) o o'.
Proof.
  induction 1 as [|orc op o o1 st o2 Hin Hg Hs Hst _ IH]; [constructor|]. apply (calls_more _ orc op o o1 st o2); try done.
  - destruct op; done.
  - destruct op; try done. cbn [ostep] in *. by rewrite swap_sop.
Qed.

Section session.
  Context (E : env) (s : storage) (Hhex : hex_hash (e_hash E)) (i : inventory) (n0 : N) (fam0 : N → inventory).
  Notation E' := (swap E s).
  Context (Hk0 : kept E' s i n0 n0 fam0).

  Lemma not_stored k : (n0 < k)%N → s !! (version_name (inv_padding i) k +:+ "/inventory.json") = None.
  Proof using Hk0.
    intros Hk. destruct (s !! _) as [x|] eqn:Ex; [|done]. exfalso. change (s !! vfile i k "inventory.json" = Some x) in Ex.
    destruct (kp_files _ _ _ _ _ _ Hk0 _ _ Ex) as [H|[H|[H|[(l & Hl & [H|H])|(l & r & Hl & H)]]]].
    - pose proof (vfile_slash i k "inventory.json") as Hs. rewrite !elem_of_cons, elem_of_nil in H.
      destruct H as [H|[H|[H|[H|[]]]]]; rewrite H in Hs; try done.
      by rewrite (sidecar_slash i (kp_alg _ _ _ _ _ _ Hk0)) in Hs.
    - revert H. apply vfile_not_below. right. left.
    - revert H. apply vfile_not_below. left.
    - apply vfile_inj in H. lia.
    - apply vfile_inj in H. lia.
    - symmetry in H. revert H. by apply cpath_vfile.
  Qed.
  Lemma head_not_stored n o : working E' s n o → holds s i n0 n o → s !! (inv_head (ob_inv o) +:+ "/inventory.json") = None.
  Proof using Hk0.
    intros ([fam Hk] & _ & _) (Hn & Hi & _). rewrite (proj1 (g_contig _ _ _ _ (kp_good _ _ _ _ _ _ Hk))), decide_False by lia.
    rewrite (ih_pad _ _ _ _ Hi). apply not_stored. lia.
  Qed.
  Lemma settled_not_stored n o : settled E' s n o → holds s i n0 n o → (n0 < n)%N → s !! (inv_head (ob_inv o) +:+ "/inventory.json") = None.
  Proof using Hk0.
    intros ((fam & Hk & _) & _) (Hn & Hi & _) Hlt. rewrite (proj1 (g_contig _ _ _ _ (kp_good _ _ _ _ _ _ Hk))), decide_False by lia.
    rewrite (ih_pad _ _ _ _ Hi). by apply not_stored.
  Qed.

  Lemma end_swap n orc h o o' : ob_end E orc h o = (o', SOk) → guarded_end E (proper E) (λ _, True) orc h o → working E' s n o →
    inv_modified (ob_inv o) = true → holds s i n0 n o →
    guarded_end E' (proper E') (λ _, True) orc h o ∧ ob_end E' orc h o = (o', SOk) ∧ ∃ n', settled E' s n' o' ∧ holds s i n0 n' o' ∧ (n < n')%N.
  Proof using Hhex Hk0.
    revert n orc o; induction h as [a|a nw auto rest IH]; intros n orc o; rewrite !ob_end_unfold; intros He Hg Hwk Hm Hh;
      (pose proof Hwk as (_ & _ & Hw); rewrite Hw, Hm in He |- *; cbn [negb] in He |- *; cbn [guarded_end] in Hg |- *; destruct Hg as [_ Hg];
       rewrite (swap_echo E s);
       assert (∃ o1, (if ob_echo o then ob_echo_delete E orc o else (o, SOk)) = (o1, SOk) ∧ working E' s n o1 ∧ inv_modified (ob_inv o1) = true ∧ holds s i n0 n o1)
         as (o1 & E1 & W1 & M1 & Hh1);
       [destruct (ob_echo o); [|by exists o]; pose proof (echo_working E' s n orc o Hwk) as HW; pose proof (echo_modified E orc o Hm) as HM;
        pose proof (echo_holds E' s i n0 fam0 Hk0 n orc o Hwk Hh) as HH; rewrite (swap_echo E s) in HW, HH;
        destruct (ob_echo_delete E orc o) as [o1 []]; cbn [andThen] in He; [by exists o1|done|done]|];
       rewrite E1 in He, Hg |- *; cbn [andThen after_ok] in He, Hg |- *; destruct Hg as [Hga Hg];
       pose proof (swap_guarded E s _ _ Hga) as Hga';
       pose proof (sops_working E' s Hhex n _ o1 Hga' W1) as W2; pose proof (sops_modified E a o1 M1) as M2;
       pose proof (sops_holds E' s Hhex i n0 fam0 Hk0 n _ o1 Hga' W1 Hh1) as Hh2;
       rewrite (swap_sops E s) in W2, Hh2; rewrite (swap_sops E s);
       destruct (sops_run E a o1) as [o2 []]; cbn [andThen after_ok fst] in He, Hg, W2, M2, Hh2 |- *; [|done..];
       rewrite (swap_store E s true false o2 (head_not_stored n o2 W2 Hh2));
       destruct (store_inventory E true false o2) as [o3 []] eqn:Est; cbn [andThen after_ok] in He, Hg |- *; [|done..];
       pose proof Est as Est'; rewrite <- (swap_store E s true false o2 (head_not_stored n o2 W2 Hh2)) in Est';
       pose proof (store_settled E' s n o2 o3 Est' W2 M2) as S3; pose proof (store_holds E' s i n0 fam0 Hk0 n o2 o3 Est' W2 Hh2) as Hh3).
    - injection He as <-. split; [done|]. split; [done|]. exists (n + 1)%N. split; [done|]. split; [done|lia].
    - destruct (ob_start nw _ _ _ false o3) as [o4 []] eqn:E4; cbn [andThen after_ok] in He, Hg |- *; [|done..]. destruct Hg as [Hgb Hg].
      destruct (start_working E' s _ _ _ _ _ _ _ _ E4 (settled_base E' s _ _ S3)) as [W4 _].
      pose proof (start_holds E' s i n0 fam0 Hk0 _ _ _ _ _ _ _ _ E4 (settled_base E' s _ _ S3) Hh3) as Hh4.
      assert (inv_modified (ob_inv o4) = true) as M4.
      { destruct S3 as (_ & _ & _ & M3 & _). unfold ob_start, on_inv in E4. cbn [ob_inv set_echo] in E4.
        destruct (new_version _ _ _ _ (ob_inv o3)) as [i4 st] eqn:Ei. injection E4 as <- ->. cbn [ob_inv set_inv].
        unfold new_version in Ei. destruct (next_head _); [|done]. destruct (decide _); [by injection Ei as <-|]. destruct (_ !! _); [|done]. by injection Ei as <-. }
      pose proof (swap_guarded E s _ _ Hgb) as Hgb'.
      pose proof (sops_working E' s Hhex _ _ o4 Hgb' W4) as W5. pose proof (sops_modified E auto o4 M4) as M5.
      pose proof (sops_holds E' s Hhex i n0 fam0 Hk0 _ _ o4 Hgb' W4 Hh4) as Hh5. rewrite (swap_sops E s) in W5, Hh5 |- *.
      destruct (sops_run E auto o4) as [o5 []]; cbn [andThen after_ok fst] in He, Hg, W5, M5, Hh5 |- *; [|done..].
      destruct (IH (n + 1)%N _ _ He Hg W5 M5 Hh5) as (G1 & G2 & n' & G3 & G4 & G5). split; [done|]. split; [done|]. exists n'. split; [done|]. split; [done|lia].
  Qed.
  Lemma update_swap n o o' : update E o o' → base E' s n o → holds s i n0 n o →
    update E' o o' ∧ ∃ n', settled E' s n' o' ∧ holds s i n0 n' o' ∧ (n < n')%N.
  Proof using Hhex Hk0.
    intros [nw msg un ua echo orc h ? o1 o2 o3 Hst Hc Hm Hg He] Hb Hh. destruct (start_working E' s _ _ _ _ _ _ _ _ Hst Hb) as [W1 _].
    pose proof (start_holds E' s i n0 fam0 Hk0 _ _ _ _ _ _ _ _ Hst Hb Hh) as H1. pose proof (swap_calls _ s _ _ Hc) as Hc'.
    pose proof (calls_working E' s Hhex _ _ _ Hc' W1) as W2. pose proof (calls_holds E' s Hhex i n0 fam0 Hk0 _ _ _ Hc' W1 H1) as H2.
    destruct (end_swap _ _ _ _ _ He Hg W2 Hm H2) as (G1 & G2 & G3). split; [|done]. by econstructor.
  Qed.
  Lemma updates_swap n o o' : updates E o o' → base E' s n o → holds s i n0 n o →
    updates E' o o' ∧ ∃ n', settled E' s n' o' ∧ holds s i n0 n' o' ∧ (n < n')%N.
  Proof using Hhex Hk0.
    intros H; revert n; induction H as [o o' H|o o1 o' H _ IH]; intros n Hb Hh; destruct (update_swap _ _ _ H Hb Hh) as (U1 & n1 & H1 & Hh1 & L1).
    - split; [by constructor|]. by exists n1.
    - destruct (IH n1 (settled_base _ _ _ _ H1) Hh1) as (U2 & n2 & H2 & Hh2 & L2). split; [by econstructor|]. exists n2. split; [done|]. split; [done|lia].
  Qed.
  Lemma complete_swap s' i' : supported E i → complete E s i s' i' → complete E' s i s' i' ∧ ∃ n, (n0 < n)%N ∧ is_Some (inv_versions i' !! version_name (inv_padding i) n).
  Proof using Hhex Hk0.
    intros Hs [o1 orc o2 Hu Hc -> ->]. destruct (updates_swap n0 (open_object i) o1 Hu) as (U & n' & S' & Hh & Hl).
    { split; [|done]. exists fam0. unfold now, open_object. cbn [ob_trace ob_inv apply_evs foldl]. eapply kept_same; [apply same_flags|done]. }
    { split; [lia|]. unfold now, open_object. cbn [ob_trace ob_inv apply_evs foldl]. split; [|done]. split; try done. intros d ps Hd. exists []. by rewrite app_nil_r. }
    pose proof S' as ((fam' & Hk' & Hf) & Hs' & Hw & Hm & Hn'). split.
    - econstructor; [exact U| |done|done]. instantiate (1 := orc). rewrite <- Hc. unfold ob_close. rewrite Hw, Hm. cbn [negb]. rewrite clean_ob by done. cbn [andThen].
      by rewrite (swap_store E s false true o1 (settled_not_stored _ _ S' Hh Hl)).
    - exists n'. split; [done|]. destruct (close_spec E orc o1 o2 Hw Hm Hc) as (dg & _ & -> & _).
      rewrite <- (ih_pad _ _ _ _ (proj1 (proj2 Hh))). apply (proj2 (g_contig _ _ _ _ (kp_good _ _ _ _ _ _ Hk'))). exists n'. split; [lia|done].
  Qed.
End session.
