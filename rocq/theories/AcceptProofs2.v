(** The validator reports nothing but warnings for a sound object. *)
From Coq Require Import Ascii ZArith Lia.
From stdpp Require Import base list strings gmap sorting.
From Verif Require Import GoStr InventoryModel InventorySpec InventoryProofs ObjectModel CrashSpec LoadModel PathProofs LoadProofs
  ValidateModel ValidateSpec ValidateProofs ValidateProofs2 ValidateProofs3
  ValidateProofs4 CheckModel CheckSpec EqualProofs CheckProofs CheckProofs2 AcceptSpec AcceptProofs.

(** * Finalize keeps an inventory sound *)
Section finalize.
  Context (w : vorder) (lx : lexicon) (Hw : vorder_ok w).
  Implicit Types d : doc.
  Let fin d := (finalize w lx false d).1.

  Lemma fin_has_version d ver v1 : has_version (fin d) ver v1 ↔ ∃ v, has_version d ver v ∧ v1 = (fin_version ver v).2.
  Proof using.
    rewrite has_version_vers. destruct (finalize_fields w lx d) as (_ & _ & _ & _ & _ & _ & _ & Hv). unfold fin. rewrite Hv.
    rewrite map_lookup_imap. setoid_rewrite has_version_vers. destruct (vers d !! ver) as [v|]; simpl; [|naive_solver].
    split; [intros [= <-]; by exists v|]. intros (v' & [= <-] & ->). done.
  Qed.
  Lemma fin_names d ver : (∃ v, has_version (fin d) ver v) ↔ ∃ v, has_version d ver v.
  Proof using. setoid_rewrite fin_has_version. naive_solver. Qed.
  Lemma fin_manifest d : dc_manifest (fin d) = Some (man d).
  Proof using. unfold fin, finalize. cbn [negb andb]. destruct (check_doc _ _ _). done. Qed.
  Lemma fin_man_lists d dg p : man_lists (fin d) dg p ↔ man_lists d dg p.
  Proof using. rewrite !man_lists_man. destruct (finalize_fields w lx d) as (_ & _ & _ & _ & _ & Hm & _). unfold fin. by rewrite Hm. Qed.
  Lemma fin_state_lists d ver dg p : state_lists (fin d) ver dg p → state_lists d ver dg p.
  Proof using.
    intros (v1 & st & e & ps & (v & Hv & ->)%fin_has_version & Hs & Hl & Hp).
    destruct (fin_version_state ver v) as [E|[E1 E2]].
    - rewrite E in Hs. by exists v, st, e, ps.
    - rewrite E2 in Hs. injection Hs as <- <-. by rewrite lookup_empty in Hl.
  Qed.
  Lemma fin_sound d : sound_doc d → sound_doc (fin d).
  Proof using.
    intros Hd. destruct (finalize_fields w lx d) as (E1 & E2 & E3 & E4 & E5 & E6 & E7 & E8). fold (fin d) in *. constructor.
    - rewrite E1. apply Hd.
    - rewrite E2. apply Hd.
    - rewrite E3. apply Hd.
    - rewrite E5. apply Hd.
    - rewrite fin_manifest. split; [done|]. unfold fin, finalize. cbn [negb andb]. destruct (check_doc _ _ _). done.
    - destruct (sd_names _ Hd) as [H1 H2]. split.
      + intros ver v (v' & Hv & _)%fin_has_version. by eapply H1.
      + destruct H2 as [H2|[len H2]]; [left|right; exists len]; intros ver v (v' & Hv & _)%fin_has_version; by eapply H2.
    - destruct (sd_upto _ Hd) as (n & Hn & H1 & H2 & H3). exists n. split; [done|]. split; [|split].
      + intros k Hk. destruct (H1 k Hk) as (ver & v & Hv & Hnum). exists ver, (fin_version ver v).2. split; [|done].
        apply fin_has_version. by exists v.
      + intros ver v (v' & Hv & _)%fin_has_version. by eapply H2.
      + intros ver1 v1 ver2 v2 k (v' & Hv & _)%fin_has_version (v'' & Hv' & _)%fin_has_version. by eapply H3.
    - rewrite E4. destruct (sd_head _ Hd) as [H1 (v & n & Hv & Hn & Hmax)]. split; [done|].
      exists (fin_version (os_val (dc_head d)) v).2, n. split; [apply fin_has_version; by exists v|]. split; [done|].
      intros ver' v' n' (v'' & Hv'' & _)%fin_has_version. by eapply Hmax.
    - intros ver v1 (v & Hv & ->)%fin_has_version. destruct (sd_version _ Hd ver v Hv) as [Hc Hm Hu Hs].
      unfold fin_version. destruct (version_value ver); [|by constructor]. cbn [snd]. constructor; cbn [vd_created vd_message vd_user vd_state].
      + done.
      + intros x [= <-]. unfold fine in Hm. destruct (vd_message v); simpl; [by apply Hm|done].
      + intros u [= <-]. unfold fin_user. cbn [u_err u_name u_addr].
        destruct (vd_user v) as [u|]; simpl; [|split; [done|]; split; intros x [= <-]; done].
        destruct (Hu u eq_refl) as (H1 & H2 & H3). split; [done|]. split; intros x [= <-].
        * unfold fine in H2. destruct (u_name u); simpl; [by apply H2|done].
        * unfold fine in H3. destruct (u_addr u); simpl; [by apply H3|done].
      + intros st e [= E]. destruct (vd_state v) as [[st' e']|]; simpl in E; [|by injection E].
        assert (e' = e) as <- by congruence. by eapply Hs.
    - intros ver v1 st e dg (v & Hv & ->)%fin_has_version Hs Hg. rewrite fin_manifest. exists (man d). split; [done|].
      destruct (fin_version_state ver v) as [E|[_ E]]; rewrite E in Hs.
      + destruct (sd_states _ Hd ver v st e dg Hv Hs Hg) as (m & Hm & Hx). unfold man. by rewrite Hm.
      + injection Hs as <- <-. rewrite lookup_empty in Hg. by destruct Hg.
    - intros m dg Hm Hg. rewrite fin_manifest in Hm. injection Hm as <-. destruct (sound_man d Hd) as (m & Hm & E). rewrite E in Hg.
      destruct (sd_used _ Hd m dg Hm Hg) as (ver & v & st & e & Hv & Hs & Hx). exists ver, (fin_version ver v).2, st, e.
      split; [apply fin_has_version; by exists v|]. split; [|done]. destruct (fin_version_state ver v) as [E'|[E' _]]; [by rewrite E'|].
      by rewrite E' in Hs.
    - intros dg p Hl. exact (sd_man_paths _ Hd _ _ (proj1 (fin_man_lists _ _ _) Hl)).
    - intros alg dg p Hl. unfold fix_lists in Hl. rewrite E7 in Hl. exact (sd_fix_paths _ Hd _ _ _ Hl).
    - intros ver dg p Hl%fin_state_lists. exact (sd_state_paths _ Hd _ _ _ Hl).
    - intros ver dg dg' p q H1%fin_state_lists H2%fin_state_lists. exact (sd_dirs _ Hd _ _ _ _ _ H1 H2).
    - rewrite E7. apply Hd.
  Qed.
  Lemma twice_sound d : sound_doc d → sound_doc (twice w lx d).
  Proof using. intros H. by apply fin_sound, fin_sound. Qed.
  Lemma twice_has_version d ver v2 : has_version (twice w lx d) ver v2 ↔
    ∃ v, has_version d ver v ∧ v2 = (fin_version ver (fin_version ver v).2).2.
  Proof using. unfold twice. fold (fin d). fold (fin (fin d)). rewrite fin_has_version. setoid_rewrite fin_has_version. naive_solver. Qed.
  Lemma twice_values d ver n v : has_version d ver v → numbered ver n → dc_values (twice w lx d) !! ver = Some (Z.of_N n).
  Proof using.
    intros Hv Hn. assert (∀ d0, dc_values (fin d0) = fin_values (vers d0)) as E.
    { intros d0. unfold fin, finalize. cbn [negb andb]. destruct (check_doc _ _ _). done. }
    unfold twice. fold (fin d). fold (fin (fin d)). rewrite E. unfold fin_values. rewrite map_lookup_imap.
    assert (has_version (fin d) ver (fin_version ver v).2) as H%has_version_vers by (apply fin_has_version; by exists v).
    rewrite H. simpl. by apply numbered_value.
  Qed.
End finalize.

(** * Version names in order *)
Lemma strings_sorted w n d : vorder_ok w → all_numbered d → distinct_numbers d →
  ∃ ns, Forall2 numbered (version_strings w n d) ns ∧ StronglySorted N.le ns ∧ NoDup ns.
Proof.
  intros Hw Hn Hd. unfold version_strings, sorted_names.
  destruct (nums_numbered ((vo w n (vers d)).*1)) as (ps & E1 & E & Hps).
  { intros s Hs. apply elem_of_list_fmap in Hs as ([y vy] & -> & Hi). apply vo_in in Hi; [|done].
    apply has_version_vers in Hi. by eapply Hn. }
  rewrite E1. exists (merge_sort N.le ps.*1). split; [|split].
  - apply Forall2_fmap_l, Forall_Forall2_diag, Forall_forall. intros j Hj. cbn beta.
    rewrite merge_sort_Permutation in Hj. destruct (last_with_in _ _ Hj) as (s & Hs & Hin').
    cut (numbered (default "" (last_with j ps)) j); [done|]. rewrite Hs. by apply Hps.
  - apply StronglySorted_merge_sort; apply _.
  - rewrite merge_sort_Permutation. apply NoDup_fmap_2_strong.
    + intros [n1 s1] [n2 s2] H1 H2 [= E']. cbn in E'. subst n2. f_equal.
      assert (∀ k s, (k, s) ∈ ps → ∃ v, has_version d s v) as Hv.
      { intros k s Hin. assert (s ∈ ps.*2) as Hs by (apply elem_of_list_fmap; by exists (k, s)). rewrite E in Hs.
        apply elem_of_list_fmap in Hs as ([y vy] & -> & Hi). apply vo_in in Hi; [|done]. exists vy. by apply has_version_vers. }
      destruct (Hv _ _ H1) as [v1 Hv1], (Hv _ _ H2) as [v2 Hv2]. eapply Hd; [exact Hv1|exact Hv2|by apply Hps|by apply Hps].
    + apply (NoDup_fmap_1 snd). rewrite E. rewrite (Hw n _ (vers d)). apply NoDup_fst_map_to_list.
Qed.
Lemma forall2_in {A B} (R : A → B → Prop) l k a : Forall2 R l k → a ∈ l → ∃ b, b ∈ k ∧ R a b.
Proof.
  induction 1 as [|a' b' l k Hab Hlk IH]; [by intros ?%elem_of_nil|]. intros [->|Ha]%elem_of_cons; [exists b'; split; [by left|done]|].
  destruct (IH Ha) as (b & Hb & HR). exists b. split; [by right|done].
Qed.
Lemma forall2_nodup {A B} (R : A → B → Prop) l k : (∀ a b b', R a b → R a b' → b = b') → Forall2 R l k → NoDup k → NoDup l.
Proof.
  intros Hf. induction 1 as [|a b l k Hab Hlk IH]; [constructor|]. intros [Hn Hk]%NoDup_cons. apply NoDup_cons. split; [|auto].
  intros Ha. apply Hn. destruct (forall2_in _ _ _ _ Hlk Ha) as (b' & Hb' & HR). by rewrite (Hf _ _ _ Hab HR).
Qed.
Lemma strings_nodup w n d : vorder_ok w → all_numbered d → distinct_numbers d → NoDup (version_strings w n d).
Proof.
  intros Hw Hn Hd. destruct (strings_sorted w n d Hw Hn Hd) as (ns & H & _ & Hnd). eapply forall2_nodup; [|exact H|exact Hnd].
  intros a b b'. apply numbered_fun.
Qed.

(** * Names *)
Lemma str_repeat_slash k : str_mem slash (str_repeat "0" k) = false.
Proof. induction k as [|k IH]; [done|]. exact IH. Qed.
Lemma digits_no_slash s : digits_only s = true → str_mem slash s = false.
Proof.
  induction s as [|c s IH]; [done|]. simpl. intros [H1 H2]%andb_true_iff. destruct (decide (slash = c)) as [<-|]; [done|auto].
Qed.
Lemma numbered_no_slash ver n : numbered ver n → str_mem slash ver = false.
Proof.
  intros (_ & k & ->). rewrite !str_mem_app, str_repeat_slash, (digits_no_slash _ (dec_digits n)). done.
Qed.
Lemma folder_inj a b x y : str_mem slash a = false → str_mem slash b = false → a +:+ "/" +:+ x = b +:+ "/" +:+ y → a = b ∧ x = y.
Proof.
  intros Ha Hb E. assert (a = b) as ->.
  { eapply (below_inj a b (a +:+ "/" +:+ x)); [done|done|by exists x|by exists y]. }
  split; [done|]. apply str_app_inv_l in E. by injection E.
Qed.
Lemma no_slash_folder p a x : str_mem slash p = false → p ≠ a +:+ "/" +:+ x.
Proof. intros H ->. rewrite !str_mem_app in H. simpl in H. by rewrite orb_true_r in H. Qed.
Lemma split_folder a x : str_mem slash a = false → split_slash (a +:+ "/" +:+ x) = a :: split_slash x.
Proof. intros H. unfold split_slash. change ("/" +:+ x) with (String slash x). by rewrite split_on_app. Qed.
Lemma split_on_ne ch x : split_on ch x ≠ [].
Proof. destruct x as [|c x]; [done|]. simpl. destruct (decide _); [done|]. by destruct (split_on _ _). Qed.
Lemma split_ne x : split_slash x ≠ [].
Proof. unfold split_slash. destruct x as [|c x]; [done|]. simpl. destruct (decide _); [done|]. by destruct (split_on _ _). Qed.
