(** Every crash point of every history of sessions leaves an object whose published inventory, if the loader accepts it,
    describes the stored content. *)
From Coq Require Import Ascii.
From stdpp Require Import base list strings gmap.
From Coq Require Import ZArith Lia.
From Verif Require Import GoStr PathModel InventoryModel InventorySpec InventoryProofs ObjectModel ObjectSpec ObjectProofs
  RunProofs ClaimsInventory2 LoadModel CrashSpec PathProofs CrashProofs LoadProofs SessionSpec.

Lemma orun_snoc E ops orc op o :
  orun E (ops ++ [(orc, op)]) o = orun E ops o ∨ orun E (ops ++ [(orc, op)]) o = (ostep E orc op (orun E ops o)).1.
Proof.
  revert o; induction ops as [|[orc' op'] ops IH]; intros o; simpl.
  - right. by destruct (ostep E orc op o) as [o' [| |]].
  - destruct (ostep E orc' op' o) as [o' [| |]]; auto.
Qed.

Fixpoint panics (E : env) (ops : list (oracle * oop)) (o : object) : bool :=
  match ops with
  | [] => false
  | (orc, op) :: ops' =>
      match ostep E orc op o with
      | (_, SPanic) => true
      | (o', _) => panics E ops' o'
      end
  end.
Lemma orun_snoc_ok E ops orc op o :
  panics E ops o = false → orun E (ops ++ [(orc, op)]) o = (ostep E orc op (orun E ops o)).1.
Proof.
  revert o; induction ops as [|[orc' op'] ops IH]; intros o; simpl.
  - intros _. by destruct (ostep E orc op o) as [o' [| |]].
  - destruct (ostep E orc' op' o) as [o' [| |]]; auto. done.
Qed.

Lemma head_is_number i n : head_is i n → head_number i n.
Proof. intros H. split; [apply head_newest_is; eauto|]. apply H. Qed.
Lemma head_number_same i i' n : same_record i i' → head_number i n → head_number i' n.
Proof.
  intros Hs [H1 H2]. unfold head_number, head_newest in *. rewrite (sr_head _ _ Hs), (sr_pad _ _ Hs), (sr_vers _ _ Hs). done.
Qed.

(** Content paths are not among the other files an update writes. *)
Lemma content_apart pad k c p :
  below (version_name pad k +:+ "/" +:+ c) p →
  str_mem slash p = true ∧ ¬ below "extensions" p ∧
  ∀ pad' k' q, str_mem slash q = false → p ≠ version_name pad' k' +:+ "/" +:+ q.
Proof.
  intros [r ->]. split; [|split].
  - rewrite !str_mem_app. by rewrite orb_true_r.
  - intros Hb. apply (below_inj "extensions" (version_name pad k)) in Hb; [|done|apply version_name_no_slash|].
    + revert Hb. unfold version_name. destruct (decide _); done.
    + exists (c +:+ "/" +:+ r). by rewrite <- !str_app_assoc.
  - intros pad' k' q Hq E.
    assert (version_name pad k = version_name pad' k') as Hv.
    { apply (below_inj _ _ ((version_name pad k +:+ "/" +:+ c) +:+ "/" +:+ r)); try apply version_name_no_slash.
      - exists (c +:+ "/" +:+ r). by rewrite <- !str_app_assoc.
      - rewrite E. by exists q. }
    rewrite Hv in E. rewrite <- !str_app_assoc in E. apply str_app_inv_l in E. apply (str_app_inv_l "/") in E. subst q.
    rewrite !str_mem_app in Hq. apply orb_false_elim in Hq as [_ Hq]. done.
Qed.

Definition any : string → Prop := λ _, True.

(** The working inventory describes what has been written so far. *)
Definition dinv (E : env) (i0 : inventory) (n0 : N) (s : storage) (o : object) : Prop :=
  sess i0 n0 any o ∧ describes (e_hash E) (ob_inv o) (apply_evs (ob_trace o) s) ∧
  ∃ m, head_is (ob_inv o) m ∧ content_paths_upto (ob_inv o) m.

Lemma describes_frame hash i s s' :
  (∀ d p, lists (inv_manifest i) p d → s' !! p = s !! p) → describes hash i s → describes hash i s'.
Proof. intros H Hd d p Hl. destruct (Hd d p Hl) as (data & H1 & H2). exists data. by rewrite (H d p Hl). Qed.

Lemma head_is_inj i n m : head_is i n → head_is i m → n = m.
Proof.
  intros [H1 _] [H2 _]. rewrite H1 in H2. revert H2.
  repeat case_decide; subst; intros E; auto; try by (exfalso; eapply version_name_nonempty; eauto).
  by apply version_name_inj in E.
Qed.

Lemma dinv_effect E op i0 n0 s o o' :
  hex_hash (e_hash E) → plain_name (content_name i0) → clean_target E op → fresh_target E op o →
  effect E op o o' → dinv E i0 n0 s o → dinv E i0 n0 s o'.
Proof.
  intros Hh Hc Hcl Hfr Hef (Hs & Hd & m & Hm & Hp). pose proof Hef as [H1 H2 H3].
  split; [by eapply sess_effect|]. pose proof (ext_rel_head_is _ _ _ H1 Hm) as Hm'.
  assert (content_name (ob_inv o') = content_name (ob_inv o)) as Hcn by (unfold content_name; by rewrite (er_cdir _ _ H1)).
  destruct H3 as [[Ht Hman]|(f & area & mp & data & Hw & Hop & Hmp & H3)].
  - split.
    + unfold describes. rewrite Hman, Ht, (er_alg _ _ H1). exact Hd.
    + exists m. split; [done|]. unfold content_paths_upto. rewrite Hman, Hcn, (er_pad _ _ H1). exact Hp.
  - assert (clean_rel mp ∧ ∀ d, ¬ lists (inv_manifest (ob_inv o)) (manifest_name (ob_inv o) mp) d) as [Hrel Hfresh].
    { destruct op as [? path a ?|? [|g gs] a|? ?|? ? ?|? ?]; simpl in *; try done; injection Hop as -> ->; auto. }
    set (nm := manifest_name (ob_inv o) mp) in *.
    assert (∀ l, Forall (λ e, ev_path e = nm) l → ∀ d p, lists (inv_manifest (ob_inv o)) p d →
      apply_evs (ob_trace o ++ l) s !! p = apply_evs (ob_trace o) s !! p) as Hframe.
    { intros l Hl d p Hlp. rewrite apply_evs_app. apply apply_evs_other. eapply Forall_impl; [exact Hl|].
      intros e He Hep. rewrite He in Hep. subst p. by apply Hfresh in Hlp. }
    destruct H3 as [[Ht Hman]|[Ht Hman]].
    + split.
      * unfold describes. rewrite Hman, (er_alg _ _ H1), Ht. eapply describes_frame; [|exact Hd].
        intros d p. apply Hframe. by repeat constructor.
      * exists m. split; [done|]. unfold content_paths_upto. rewrite Hman, Hcn, (er_pad _ _ H1). exact Hp.
    + split.
      * intros d p Hl. rewrite (er_alg _ _ H1), Ht. destruct (Hman p d Hl) as [Hl'|(-> & d' & Hd' & ->)].
        -- destruct (Hd d p Hl') as (dat & Hx & Hy). exists dat. split; [|done]. rewrite <- Hx.
           eapply Hframe; [|exact Hl']. by repeat constructor.
        -- exists data. split.
           ++ rewrite apply_evs_app. change [ECreate nm; EAppend nm data] with (write_file nm data).
              by rewrite apply_write, lookup_insert.
           ++ destruct (Hh _ _ _ Hd') as [_ ->]. done.
      * exists m. split; [done|]. intros d p Hl. rewrite Hcn, (er_pad _ _ H1).
        destruct (Hman p d Hl) as [Hl'|(-> & _)]; [by apply (Hp d)|].
        destruct Hs as ((m' & Hm2 & _ & Hwr) & Hpad & Hcd & _). rewrite (head_is_inj _ _ _ Hm2 Hm) in *.
        specialize (Hwr Hw). exists m. split; [lia|].
        destruct Hm as [Hhead _]. rewrite decide_False in Hhead by lia.
        unfold nm. rewrite manifest_name_clean; [|rewrite Hhead; apply version_name_plain| |done].
        -- rewrite Hhead. exists mp. by rewrite <- !str_app_assoc.
        -- unfold content_name in *. by rewrite Hcd.
Qed.

Lemma dinv_start E i0 n0 s now msg un ua e o : dinv E i0 n0 s o → dinv E i0 n0 s (ob_start now msg un ua e o).1.
Proof.
  intros (Hs & Hd & m & Hm & Hp). split; [by apply sess_start|].
  unfold ob_start, on_inv. simpl. pose proof (new_version_head_is (ob_inv o) m now msg un ua Hm) as Hn.
  destruct (new_version_spec (ob_inv o) m now msg un ua Hm) as (st & Heq & _). rewrite Heq in Hn |- *. simpl in *.
  split; [exact Hd|]. exists (m + 1)%N. split; [done|]. intros d p Hl. destruct (Hp d p Hl) as (k & Hk & Hb).
  exists k. split; [lia|done].
Qed.

Lemma dinv_files E i0 n0 s l o :
  Forall (λ e, (∃ pad k q, str_mem slash q = false ∧ ev_path e = version_name pad k +:+ "/" +:+ q) ∨
               str_mem slash (ev_path e) = false ∨ below "extensions" (ev_path e)) l →
  dinv E i0 n0 s o → dinv E i0 n0 s (emit l o).
Proof.
  intros Hl (Hs & Hd & m & Hm & Hp).
  split; [|split; [|by exists m]].
  - destruct Hs as (H1 & H2 & H3 & H4 & H5 & H6). repeat (split; [done|]). apply Forall_true. done.
  - simpl. eapply describes_frame; [|exact Hd]. intros d p Hlp. rewrite apply_evs_app. apply apply_evs_other.
    eapply Forall_impl; [exact Hl|]. intros e He <-. destruct (Hp d _ Hlp) as (k & _ & Hb).
    destruct (content_apart _ _ _ _ Hb) as (C1 & C2 & C3).
    destruct He as [(pad & k' & q & Hq & E')|[He|He]]; [by eapply C3|congruence|done].
Qed.
Lemma dinv_store_version E i0 n0 s o :
  str_mem slash (inv_alg i0) = false → dinv E i0 n0 s o → dinv E i0 n0 s (store_inventory E true false o).1.
Proof.
  intros Ha Ho. unfold store_inventory. destruct (inv_writeable (ob_inv o)) eqn:Hw; [|done].
  destruct (e_hash E _ _) as [d|]; [|done]. simpl. apply dinv_files; [|done].
  destruct Ho as (Hs & _). destruct (sess_head _ _ _ _ Hs Hw) as (k & _ & Hh). destruct Hs as (_ & _ & _ & Halg & _).
  rewrite Hh, Halg. unfold write_file. simpl. repeat (apply Forall_cons; split); [..|constructor]; simpl; left.
  1,2: by exists (inv_padding i0), k, "inventory.json".
  1,2: by exists (inv_padding i0), k, (sidecar_name (inv_alg i0)).
Qed.

Lemma dinv_run E i0 n0 s ops o :
  hex_hash (e_hash E) → plain_name (content_name i0) → str_mem slash (inv_alg i0) = false →
  Forall (λ x : oracle * oop, x.2 ≠ OClose) ops →
  guarded E (λ _ op o, clean_target E op ∧ fresh_target E op o) (λ _, True) ops o →
  dinv E i0 n0 s o → dinv E i0 n0 s (orun E ops o).
Proof.
  intros Hh Hc Ha Hn Hg Ho.
  eapply (guarded_run_noclose E (λ _ op o, clean_target E op ∧ fresh_target E op o) (λ _, True)); [..|done|done|done].
  - intros orc op x [H1 H2] Hx. eapply dinv_effect; [done..|apply sop_effect|done].
  - intros. by apply dinv_start.
  - intros orc x _ _ Hx. eapply (dinv_effect E (SDelete "" "")); [done..|apply echo_effect|done].
  - intros x _ Hx. by apply dinv_store_version.
  - done.
Qed.

(** The same history seen as one that only writes into new version folders. *)
Lemma sess_run_guarded E i0 n0 ops o :
  plain_name (content_name i0) → Forall (λ x : oracle * oop, x.2 ≠ OClose) ops →
  guarded E (λ _ op o, clean_target E op ∧ fresh_target E op o) (λ _, True) ops o →
  sess i0 n0 (in_new_version i0 n0) o → sess i0 n0 (in_new_version i0 n0) (orun E ops o).
Proof.
  intros Hc Hn Hg Hs.
  eapply (guarded_run_noclose E (λ _ op o, clean_target E op ∧ fresh_target E op o) (λ _, True)); [..|done|done|done].
  - intros orc op x [Hg1 _] Hx. eapply sess_effect; [done..|apply sop_effect|done].
  - intros. by apply sess_start.
  - intros orc x _ _ Hx. eapply (sess_effect E (SDelete "" "")); [done..|apply echo_effect|done].
  - intros x _ Hx. by apply sess_store_version.
  - done.
Qed.

Lemma load_same hash parse s s' i c :
  load_inventory hash parse s "" = LInv i c → pair_at s' (inv_alg i) = pair_at s (inv_alg i) →
  load_inventory hash parse s' "" = LInv i c.
Proof.
  unfold load_inventory, pair_at. rewrite str_app_nil_l. intros H [= H1 H2]. rewrite H1.
  destruct (s !! "inventory.json") as [b|]; [|done]. destruct (parse b) as [j|]; [|done].
  change ("inventory.json" +:+ "." +:+ inv_alg j) with (sidecar_name (inv_alg j)) in *.
  assert (inv_alg j = inv_alg i) as Ha.
  { destruct (s !! _) as [t|]; [|by injection H as ->]. destruct (sidecar_parse t); [|by injection H as ->].
    destruct (hash _ _); [|done]. destruct (decide _); by injection H as ->. }
  rewrite Ha in *. by rewrite H2.
Qed.

Lemma untouched i n s l s' p k :
  Forall (λ e, in_new_version i n (ev_path e)) l → crash s l s' →
  (k <= n)%N → below (version_name (inv_padding i) k) p → s' !! p = s !! p.
Proof.
  intros Hl Hcr Hk Hb. eapply crash_other; [done|]. eapply Forall_impl; [exact Hl|]. intros e (k' & Hk' & Hb') <-.
  pose proof (below_inj _ _ _ (version_name_no_slash _ _) (version_name_no_slash _ _) Hb Hb') as E.
  apply version_name_inj in E. lia.
Qed.

Lemma session_safe E P parse s s' i n :
  hex_hash (e_hash E) → json_ok P (e_json E) parse → intact E parse s i n → session E P parse s s' → accepted E parse s' →
  collision E ∨ ∃ i' n', (n <= n')%N ∧ intact E parse s' i' n'.
Proof.
  intros Hh Hj [Hload Hdesc Hhead Hcd Hpaths Halg] [i0 ops orc Hl Hno Hg HP Hcr] [i1 Hl1].
  rewrite Hload in Hl. injection Hl as <-.
  pose proof (head_number_is _ _ Hhead) as Hh0.
  pose proof (sess_run_guarded E i n ops (open_object i) Hcd Hno Hg (sess_open i n _ Hh0)) as Hsess.
  assert (dinv E i n s (open_object i)) as Hd0.
  { split; [by apply sess_open|]. split; [exact Hdesc|]. exists n. split; [exact Hh0|exact Hpaths]. }
  pose proof (dinv_run E i n s ops (open_object i) Hh Hcd Halg Hno Hg Hd0) as (_ & Hdesc' & m & Hm & Hpaths').
  set (o := orun E ops (open_object i)) in *.
  pose proof Hsess as ((m' & Hm2 & Hle & _) & Hpad & Hcdir & Halg' & _ & Htr).
  pose proof (head_is_inj _ _ _ Hm2 Hm) as ->.
  (* a crash before Close *)
  assert (∀ s2, crash s (ob_trace o) s2 → intact E parse s2 i n) as Hbefore.
  { intros s2 Hc2. assert (∀ p, str_mem slash p = false → s2 !! p = s !! p) as Hroot.
    { intros p Hp. eapply crash_other; [done|]. eapply Forall_impl; [exact Htr|]. intros e (k & _ & Hb) <-.
      by eapply not_below in Hb. }
    split; try done.
    - eapply load_same; [done|]. unfold pair_at. by rewrite !Hroot.
    - eapply describes_frame; [|done]. intros d p Hlp. destruct (Hpaths d p Hlp) as (k & Hk & Hb).
      eapply untouched; [done|done| |by eapply below_sub]. lia. }
  destruct (orun_snoc E ops orc OClose (open_object i)) as [Heq|Heq]; rewrite Heq in Hcr; fold o in Hcr.
  { right. exists i, n. split; [lia|auto]. }
  simpl in Hcr. destruct (ob_close E orc o) as [o' st] eqn:Hcl. simpl in Hcr.
  destruct (inv_writeable (ob_inv o)) eqn:Hw; [|unfold ob_close in Hcl; rewrite Hw in Hcl; injection Hcl as <- <-;
    right; exists i, n; split; [lia|auto]].
  destruct (inv_modified (ob_inv o)) eqn:Hmo; [|unfold ob_close in Hcl; rewrite Hw, Hmo in Hcl; injection Hcl as <- <-;
    right; exists i, n; split; [lia|auto]].
  destruct (e_hash E (inv_alg (ob_inv o)) (e_json E (ob_inv o))) as [dj|] eqn:Hdj.
  2: { assert (o' = o) as ->.
       { unfold ob_close in Hcl. rewrite Hw, Hmo in Hcl. simpl in Hcl. rewrite clean_ob in Hcl by done. simpl in Hcl.
         unfold store_inventory in Hcl. rewrite Hw, Hdj in Hcl. simpl in Hcl. by injection Hcl. }
       right; exists i, n; split; [lia|auto]. }
  assert (st = SOk) as ->.
  { unfold ob_close in Hcl. rewrite Hw, Hmo in Hcl. simpl in Hcl. rewrite clean_ob in Hcl by done. simpl in Hcl.
    unfold store_inventory in Hcl. rewrite Hw, Hdj in Hcl. simpl in Hcl. by injection Hcl. }
  destruct (close_spec E orc o o' Hw Hmo Hcl) as (d & Hd & Hi & Ht).
  rewrite Ht in Hcr. apply crash_app in Hcr as [Hcr|Hcr]; [right; exists i, n; split; [lia|auto]|].
  set (s1 := apply_evs (ob_trace o) s) in *.
  pose proof (Hbefore s1 (crash_all _ _)) as Hs1.
  (* effects of Close leave content alone *)
  assert (Forall (λ e, str_mem slash (ev_path e) = false ∨ below "extensions" (ev_path e))
    ((write_file "inventory.json" (e_json E (ob_inv o)) ++
      write_file (sidecar_name (inv_alg (ob_inv o))) (sidecar_text d)) ++ ext_events E)) as Hev.
  { apply Forall_app. split.
    { rewrite Halg'. unfold write_file. simpl. repeat (apply Forall_cons; split); [..|constructor]; simpl; left; done. }
    eapply Forall_impl; [apply ext_events_below|]. auto. }
  assert (∀ j k0, content_paths_upto j k0 → describes (e_hash E) j s1 → describes (e_hash E) j s') as Hkeep.
  { intros j k0 Hj1 Hj2. eapply describes_frame; [|exact Hj2]. intros dd p Hlp. eapply crash_other; [exact Hcr|].
    eapply Forall_impl; [exact Hev|]. intros e He <-. destruct (Hj1 dd _ Hlp) as (k & _ & Hb).
    destruct (content_apart _ _ _ _ Hb) as (C1 & C2 & _). destruct He as [He|He]; [congruence|done]. }
  assert (str_mem slash (inv_alg (ob_inv o)) = false) as Hna by (by rewrite Halg').
  destruct (crash_close E P parse orc o o' s1 s' i i1 Hh Hj Hna Hw Hmo Hcl (HP eq_refl) (it_load _ _ _ _ _ Hs1) (eq_sym Halg') _ Ht Hcr Hl1)
    as [Hpair|[(d2 & Hpair & Hd2)|(old & Hold & Hne & Heqh & [dd Hdd])]].
  - right. exists i, n. split; [lia|]. split; try done.
    + eapply load_same; [apply (it_load _ _ _ _ _ Hs1)|done].
    + eapply Hkeep; [exact Hpaths|]. apply (it_describes _ _ _ _ _ Hs1).
  - right. exists i1, m. split; [done|].
    destruct (load_parts _ _ _ _ Hl1) as (b & t & e & P1 & P2 & _). injection Hpair as Hp1 Hp2. rewrite Hp1 in P1.
    injection P1 as <-. destruct (jo_decode _ _ _ Hj (ob_inv o) (HP eq_refl)) as (i' & Hp & Hs). rewrite P2 in Hp. injection Hp as <-.
    split.
    + done.
    + unfold describes. rewrite (sr_man _ _ Hs), (sr_alg _ _ Hs). eapply Hkeep; [exact Hpaths'|exact Hdesc'].
    + eapply head_number_same; [done|]. by apply head_is_number.
    + unfold content_name. rewrite (sr_cdir _ _ Hs), Hcdir. exact Hcd.
    + unfold content_paths_upto, content_name. rewrite (sr_man _ _ Hs), (sr_cdir _ _ Hs), (sr_pad _ _ Hs). exact Hpaths'.
    + rewrite (sr_alg _ _ Hs). exact Hna.
  - left. exists (inv_alg i), old, (e_json E (ob_inv o)), dd. rewrite <- Heqh. done.
Qed.

Lemma sessions_safe E P parse s s' i n :
  hex_hash (e_hash E) → json_ok P (e_json E) parse → intact E parse s i n → sessions E P parse s s' → accepted E parse s' →
  collision E ∨ ∃ i' n', (n <= n')%N ∧ intact E parse s' i' n'.
Proof.
  intros Hh Hj Hi H. induction H as [|s1 s2 H IH Hs]; intros Hacc; [right; exists i, n; split; [lia|done]|].
  assert (accepted E parse s1) as Ha1 by (destruct Hs as [i1 ? ? Hl]; by exists i1).
  destruct (IH Ha1) as [?|(i1 & n1 & Hle & Hi1)]; [by left|].
  destruct (session_safe E P parse s1 s2 i1 n1 Hh Hj Hi1 Hs Hacc) as [?|(i2 & n2 & Hle2 & Hi2)]; [by left|].
  right. exists i2, n2. split; [lia|done].
Qed.

(** The first session of a new object: nothing is published yet. *)
Lemma crash_close_first E P parse orc o o' s s' i1 :
  hex_hash (e_hash E) → json_ok P (e_json E) parse → str_mem slash (inv_alg (ob_inv o)) = false →
  inv_writeable (ob_inv o) = true → inv_modified (ob_inv o) = true → ob_close E orc o = (o', SOk) →
  s !! "inventory.json" = None → s !! sidecar_name (inv_alg (ob_inv o)) = None →
  ∀ l, ob_trace o' = ob_trace o ++ l → crash s l s' →
  load_inventory (e_hash E) parse s' "" = LInv i1 [] →
  s' !! "inventory.json" = Some (e_json E (ob_inv o)).
Proof.
  intros Hh Hj Hna Hw Hm Hc Hn1 Hn2 l Ht Hcr Hl1.
  destruct (close_spec E orc o o' Hw Hm Hc) as (d & Hd & Hi & Ht'). rewrite Ht in Ht'. apply app_inv_head in Ht'. subst l.
  set (j := e_json E (ob_inv o)) in *. set (sc := sidecar_name (inv_alg (ob_inv o))) in *.
  assert (sc ≠ "inventory.json") as Hne by apply sidecar_name_ne.
  rewrite <- app_assoc in Hcr. apply crash_write in Hcr as [->|[(a & c & Hac & ->)|Hcr]].
  - destruct (load_parts _ _ _ _ Hl1) as (b & t & e & H1 & _). congruence.
  - destruct (decide (c = "")) as [->|Hcne].
    + rewrite str_app_nil_r in Hac. subst a. by rewrite lookup_insert.
    + exfalso. destruct (load_parts _ _ _ _ Hl1) as (b & t & e & H1 & H2 & _). rewrite lookup_insert in H1.
      injection H1 as <-. by rewrite (jo_prefix _ _ _ Hj (ob_inv o) a c Hac Hcne) in H2.
  - apply crash_write in Hcr as [->|[(a & c & Hac & ->)|Hcr]].
    + by rewrite lookup_insert.
    + rewrite lookup_insert_ne by done. by rewrite lookup_insert.
    + rewrite (crash_other _ _ _ _ Hcr) by (by apply ext_apart). rewrite lookup_insert_ne by done. by rewrite lookup_insert.
Qed.

Lemma creation_safe E P parse s s' i :
  hex_hash (e_hash E) → json_ok P (e_json E) parse → str_mem slash (inv_alg i) = false → plain_name (content_name i) →
  creation E P s i s' → accepted E parse s' → ∃ i' n, (1 <= n)%N ∧ intact E parse s' i' n.
Proof.
  intros Hh Hj Halg Hcd [ops orc Hfresh Hnone Hno Hg HP Hcr] [i1 Hl1].
  destruct Hfresh as (Fh & Fv & Fm).
  assert (head_is i 0) as Hh0.
  { split; [by rewrite decide_True|]. split; [done|]. intros ver [v Hv]. rewrite Fv in Hv. done. }
  pose proof (sess_run_guarded E i 0 ops (open_object i) Hcd Hno Hg (sess_open i 0 _ Hh0)) as Hsess.
  assert (∀ p d, ¬ lists (inv_manifest i) p d) as Hempty by (intros p d (ps & Hps & _); by rewrite Fm in Hps).
  assert (dinv E i 0 s (open_object i)) as Hd0.
  { split; [by apply sess_open|]. split; [intros d p Hl; by apply Hempty in Hl|].
    exists 0%N. split; [exact Hh0|]. intros d p Hl. by apply Hempty in Hl. }
  pose proof (dinv_run E i 0 s ops (open_object i) Hh Hcd Halg Hno Hg Hd0) as (_ & Hdesc' & m & Hm & Hpaths').
  set (o := orun E ops (open_object i)) in *.
  pose proof Hsess as ((m' & Hm2 & Hle & Hwm) & Hpad & Hcdir & Halg' & _ & Htr).
  pose proof (head_is_inj _ _ _ Hm2 Hm) as ->.
  assert (∀ s2, crash s (ob_trace o) s2 → ∀ p, str_mem slash p = false → s2 !! p = s !! p) as Hroot.
  { intros s2 Hc2 p Hp. eapply crash_other; [done|]. eapply Forall_impl; [exact Htr|]. intros e (k & _ & Hb) <-.
    by eapply not_below in Hb. }
  assert (¬ crash s (ob_trace o) s') as Hbefore.
  { intros Hc2. destruct (load_parts _ _ _ _ Hl1) as (b & t & e & H1 & _). rewrite (Hroot s' Hc2) in H1 by done.
    by rewrite (Hnone "inventory.json") in H1. }
  destruct (orun_snoc E ops orc OClose (open_object i)) as [Heq|Heq]; rewrite Heq in Hcr; fold o in Hcr; [done|].
  simpl in Hcr. destruct (ob_close E orc o) as [o' st] eqn:Hcl. simpl in Hcr.
  destruct (inv_writeable (ob_inv o)) eqn:Hw;
    [|unfold ob_close in Hcl; rewrite Hw in Hcl; injection Hcl as <- <-; done].
  destruct (inv_modified (ob_inv o)) eqn:Hmo;
    [|unfold ob_close in Hcl; rewrite Hw, Hmo in Hcl; injection Hcl as <- <-; done].
  destruct (e_hash E (inv_alg (ob_inv o)) (e_json E (ob_inv o))) as [dj|] eqn:Hdj.
  2: { assert (o' = o) as ->; [|done].
       unfold ob_close in Hcl. rewrite Hw, Hmo in Hcl. simpl in Hcl. rewrite clean_ob in Hcl by done. simpl in Hcl.
       unfold store_inventory in Hcl. rewrite Hw, Hdj in Hcl. simpl in Hcl. by injection Hcl. }
  assert (st = SOk) as ->.
  { unfold ob_close in Hcl. rewrite Hw, Hmo in Hcl. simpl in Hcl. rewrite clean_ob in Hcl by done. simpl in Hcl.
    unfold store_inventory in Hcl. rewrite Hw, Hdj in Hcl. simpl in Hcl. by injection Hcl. }
  destruct (close_spec E orc o o' Hw Hmo Hcl) as (d & Hd & Hi & Ht).
  rewrite Ht in Hcr. apply crash_app in Hcr as [Hcr|Hcr]; [done|].
  set (s1 := apply_evs (ob_trace o) s) in *.
  assert (Forall (λ e, str_mem slash (ev_path e) = false ∨ below "extensions" (ev_path e))
    ((write_file "inventory.json" (e_json E (ob_inv o)) ++
      write_file (sidecar_name (inv_alg (ob_inv o))) (sidecar_text d)) ++ ext_events E)) as Hev.
  { apply Forall_app. split.
    { rewrite Halg'. unfold write_file. simpl. repeat (apply Forall_cons; split); [..|constructor]; simpl; left; done. }
    eapply Forall_impl; [apply ext_events_below|]. auto. }
  assert (str_mem slash (inv_alg (ob_inv o)) = false) as Hna by (by rewrite Halg').
  assert (s1 !! "inventory.json" = None) as N1 by (unfold s1; rewrite (Hroot _ (crash_all _ _)) by done; by apply Hnone).
  assert (s1 !! sidecar_name (inv_alg (ob_inv o)) = None) as N2.
  { unfold s1. rewrite (Hroot _ (crash_all _ _)) by done. by apply Hnone. }
  pose proof (crash_close_first E P parse orc o o' s1 s' i1 Hh Hj Hna Hw Hmo Hcl N1 N2 _ Ht Hcr Hl1) as Hnew.
  exists i1, m. split; [specialize (Hwm eq_refl); lia|].
  destruct (load_parts _ _ _ _ Hl1) as (b & t & e & P1 & P2 & _). rewrite Hnew in P1.
  injection P1 as <-. destruct (jo_decode _ _ _ Hj (ob_inv o) (HP eq_refl)) as (i' & Hp & Hs). rewrite P2 in Hp. injection Hp as <-.
  split.
  + done.
  + unfold describes. rewrite (sr_man _ _ Hs), (sr_alg _ _ Hs). eapply describes_frame; [|exact Hdesc'].
    intros dd p Hlp. eapply crash_other; [exact Hcr|].
    eapply Forall_impl; [exact Hev|]. intros e' He <-. destruct (Hpaths' dd _ Hlp) as (k & _ & Hb).
    destruct (content_apart _ _ _ _ Hb) as (C1 & C2 & _). destruct He as [He|He]; [congruence|done].
  + eapply head_number_same; [done|]. by apply head_is_number.
  + unfold content_name. rewrite (sr_cdir _ _ Hs), Hcdir. exact Hcd.
  + unfold content_paths_upto, content_name. rewrite (sr_man _ _ Hs), (sr_cdir _ _ Hs), (sr_pad _ _ Hs). exact Hpaths'.
  + rewrite (sr_alg _ _ Hs). exact Hna.
Qed.
