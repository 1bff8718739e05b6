(** What AlreadyExists, IsUpdate and the head-version calls do, in terms of InventorySpec. *)
From Coq Require Import Ascii.
From stdpp Require Import base list strings gmap.
From Coq Require Import ZArith Lia.
From Verif Require Import GoStr PathModel InventoryModel InventorySpec InventoryProofs ObjectModel ObjectProofs.

Lemma first_with_Some f l d : first_with f l = Some d → ∃ fs, (d, fs) ∈ l ∧ f ∈ fs.
Proof.
  induction l as [|[d' fs'] l IH]; simpl; [done|].
  destruct (decide (f ∈ fs')).
  - intros H; injection H as <-. exists fs'. split; [by left|done].
  - intros H. destruct (IH H) as (fs & ? & ?). exists fs. split; [by right|done].
Qed.
Lemma first_with_None f l : first_with f l = None → ∀ d fs, (d, fs) ∈ l → f ∉ fs.
Proof.
  induction l as [|[d' fs'] l IH]; simpl; [intros _ d fs H; by apply elem_of_nil in H|].
  destruct (decide (f ∈ fs')); [done|]. intros H d fs Hin.
  apply elem_of_cons in Hin as [Heq|Hin]; [congruence|eauto].
Qed.

Section css.
  Context (orc : oracle) (Horc : oracle_ok orc) (n : nat) (i : inventory) (f : string).
  Definition css := map_imap (λ ver v, first_with f (o_state orc n ver (v_state v))) (inv_versions i).
  Lemma css_Some ver d : css !! ver = Some d → recorded i ver f d.
  Proof.
    unfold css. rewrite map_lookup_imap. destruct (inv_versions i !! ver) as [v|] eqn:Hv; simpl; [|done].
    intros H. apply first_with_Some in H as (fs & Hin & Hf).
    destruct Horc as [Ho _]. rewrite Ho in Hin. apply elem_of_map_to_list in Hin.
    exists v. split; [done|]. by exists fs.
  Qed.
  Lemma css_None ver d : css !! ver = None → ¬ recorded i ver f d.
  Proof.
    unfold css. rewrite map_lookup_imap. intros H (v & Hv & fs & Hd & Hf).
    rewrite Hv in H. simpl in H. eapply first_with_None in H; [apply H, Hf|].
    destruct Horc as [Ho _]. rewrite Ho. by apply elem_of_map_to_list.
  Qed.
  Lemma css_recorded ver d : recorded i ver f d → ∃ d', css !! ver = Some d'.
  Proof. intros H. destruct (css !! ver) as [d'|] eqn:E; [eauto|]. by eapply css_None in E. Qed.
End css.

Lemma nums_names pad l :
  Forall (λ s, ∃ k, (1 <= k)%N ∧ s = version_name pad k) l →
  ∃ ns, nums l = Some ns ∧ ns.*2 = l ∧ Forall (λ p, p.2 = version_name pad p.1 ∧ 1 <= p.1)%N ns.
Proof.
  induction 1 as [|s l (k & Hk & ->) Hl IH]; simpl; [by exists []|].
  destruct IH as (ns & -> & <- & Hall). rewrite vname_vnum.
  exists ((k, version_name pad k) :: ns). split; [done|]. split; [done|]. by constructor.
Qed.
Lemma max_num_in ns : ns ≠ [] → ∃ p, p ∈ ns ∧ max_num ns = p.1.
Proof.
  induction ns as [|p ns IH]; [done|]. intros _. simpl.
  destruct ns as [|q ns].
  - exists p. split; [by left|]. simpl. lia.
  - destruct IH as (r & Hr & Hm); [done|]. rewrite Hm.
    destruct (N.max_spec p.1 r.1) as [[_ ->]|[_ ->]].
    + exists r. split; [by right|done].
    + exists p. split; [by left|done].
Qed.
Lemma max_num_ge ns p : p ∈ ns → (p.1 <= max_num ns)%N.
Proof.
  induction ns as [|q ns IH]; intros H; [by apply elem_of_nil in H|]. simpl.
  apply elem_of_cons in H as [->|H]; [lia|]. specialize (IH H). lia.
Qed.

Lemma vstr_name pad n : (pad <= 0)%Z → vstr n = version_name pad n.
Proof. intros H. unfold version_name. by rewrite decide_True. Qed.

(** Names of an object with padding never have the unpadded form. *)
Lemma vstr_not_padded pad n k : (0 < pad)%Z → (1 <= n)%N → vstr n ≠ version_name pad k.
Proof.
  intros Hp Hn H. unfold version_name in H. rewrite decide_False in H by lia.
  change ("v0" +:+ ?x) with (String "v" (String "0" x)) in H. unfold vstr in H.
  injection H as H. destruct (dec_of_N_digit n) as (c & s & E & _ & H0).
  specialize (H0 ltac:(lia)). rewrite E in H. congruence.
Qed.

(** The lookup loop of AlreadyExists / IsUpdate. *)
Lemma last_digest_shape orc n i f m :
  oracle_ok orc → head_is i m →
  (last_digest orc n i f = inl None ∧ ∀ ver d, ¬ recorded i ver f d) ∨
  (∃ k d0, (1 <= k)%N ∧ recorded i (version_name (inv_padding i) k) f d0 ∧
     (∀ k' d', recorded i (version_name (inv_padding i) k') f d' → (k' <= k)%N) ∧
     last_digest orc n i f =
       match css orc n i f !! vstr k with
       | None => inr "could not get checksum"
       | Some d => inl (Some d)
       end).
Proof.
  intros Ho (_ & _ & Hnames). unfold last_digest. fold (css orc n i f).
  destruct (map_to_list (css orc n i f)) as [|x l] eqn:El.
  - left. split; [done|]. intros ver d. apply css_None with orc n; [done|].
    apply map_to_list_empty_iff in El. rewrite El. apply lookup_empty.
  - right. rewrite <- El.
    destruct (nums_names (inv_padding i) ((map_to_list (css orc n i f)).*1)) as (ns & Hns & Hk & Hall).
    { apply Forall_forall. intros s Hs. apply elem_of_list_fmap in Hs as ([s' d] & -> & Hin).
      apply elem_of_map_to_list in Hin. apply css_Some in Hin as (v & Hv & _); [|done].
      destruct (Hnames s' ltac:(eauto)) as (k & Hk & ->). exists k. split; [lia|done]. }
    rewrite Hns. destruct (max_num_in ns) as (p & Hp & Hm).
    { intros ->. simpl in Hk. rewrite El in Hk. done. }
    rewrite Forall_forall in Hall. pose proof (Hall p Hp) as (Hp2 & Hp1).
    assert (p.2 ∈ (map_to_list (css orc n i f)).*1) as Hin.
    { rewrite <- Hk. apply elem_of_list_fmap. eauto. }
    apply elem_of_list_fmap in Hin as ([s d] & Hs & Hin). simpl in Hs.
    apply elem_of_map_to_list in Hin. rewrite <- Hs, Hp2 in Hin.
    apply css_Some in Hin; [|done].
    exists p.1, d. rewrite Hm. repeat split; auto.
    intros k' d' Hr. apply (css_recorded orc Ho n) in Hr as (d'' & Hr).
    assert (version_name (inv_padding i) k' ∈ ns.*2) as Hin'.
    { rewrite Hk. apply elem_of_list_fmap. exists (version_name (inv_padding i) k', d'').
      split; [done|]. by apply elem_of_map_to_list. }
    apply elem_of_list_fmap in Hin' as (q & Hq & Hqin).
    pose proof (Hall q Hqin) as (Hq2 & _). rewrite Hq2 in Hq. apply version_name_inj in Hq as ->.
    rewrite <- Hm. by apply max_num_ge.
Qed.

Lemma last_digest_unpadded orc n i f m :
  oracle_ok orc → head_is i m → (inv_padding i <= 0)%Z →
  (last_digest orc n i f = inl None ∧ ∀ ver d, ¬ recorded i ver f d) ∨
  (∃ d, last_digest orc n i f = inl (Some d) ∧ newest_record i f d).
Proof.
  intros Ho Hh Hp. destruct (last_digest_shape orc n i f m Ho Hh) as [H|(k & d0 & Hk & Hr & Hmax & Heq)]; [by left|].
  right. rewrite (vstr_name (inv_padding i)) in Heq by done.
  destruct (css_recorded orc Ho n i f _ _ Hr) as (d & Hd). rewrite Hd in Heq.
  exists d. split; [done|]. exists k. split; [|done]. by eapply css_Some.
Qed.

Lemma last_digest_good orc n i f m :
  oracle_ok orc → head_is i m → ((inv_padding i <= 0)%Z ∨ ∀ ver d, ¬ recorded i ver f d) →
  (last_digest orc n i f = inl None ∧ ∀ ver d, ¬ recorded i ver f d) ∨
  (∃ d, last_digest orc n i f = inl (Some d) ∧ newest_record i f d).
Proof.
  intros Ho Hh [Hp|Hn]; [by eapply last_digest_unpadded|].
  destruct (last_digest_shape orc n i f m Ho Hh) as [H|(k & d0 & Hk & Hr & Hmax & Heq)]; [by left|].
  by apply Hn in Hr.
Qed.

(** With padding the lookup fails for every path that occurs anywhere. *)
Lemma last_digest_padded orc n i f m :
  oracle_ok orc → head_is i m → (0 < inv_padding i)%Z →
  (last_digest orc n i f = inl None ∧ ∀ ver d, ¬ recorded i ver f d) ∨
  (last_digest orc n i f = inr "could not get checksum" ∧ ∃ ver d, recorded i ver f d).
Proof.
  intros Ho Hh Hp. destruct (last_digest_shape orc n i f m Ho Hh) as [H|(k & d0 & Hk & Hr & Hmax & Heq)]; [by left|].
  right. split; [|eauto]. rewrite Heq. destruct (css orc n i f !! vstr k) as [d|] eqn:E; [|done].
  apply css_Some in E as (v & Hv & _); [|done]. destruct Hh as (_ & _ & Hn).
  destruct (Hn (vstr k) ltac:(eauto)) as (k' & _ & Hk'). by apply vstr_not_padded in Hk'.
Qed.

(** A path listed in the head: the newest record is in the head. *)
Lemma newest_current i f d m :
  head_is i m → (∃ d', current i f d') → newest_record i f d → current i f d.
Proof.
  intros (Hh & _ & Hn) (d' & Hc) (k & Hr & Hmax). unfold current in *.
  assert (m ≠ 0%N) as Hm.
  { intros ->. destruct Hc as (v & Hv & _). destruct (Hn (inv_head i) ltac:(eauto)) as (k' & ? & _). lia. }
  rewrite decide_False in Hh by done. rewrite Hh in Hc. apply Hmax in Hc as Hle.
  destruct Hr as (v & Hv & Hl). destruct (Hn _ ltac:(eauto)) as (k' & Hk' & Hk'').
  apply version_name_inj in Hk''. assert (k = m) as -> by lia. rewrite Hh. by exists v.
Qed.
Lemma current_newest i f d m : head_is i m → current i f d → newest_record i f d.
Proof.
  intros (Hh & _ & Hn) Hc. unfold current in Hc.
  assert (m ≠ 0%N) as Hm.
  { intros ->. destruct Hc as (v & Hv & _). destruct (Hn (inv_head i) ltac:(eauto)) as (k' & ? & _). lia. }
  rewrite decide_False in Hh by done. rewrite Hh in Hc. exists m. split; [done|].
  intros k' d' (v & Hv & _). destruct (Hn _ ltac:(eauto)) as (k & ? & Hk). apply version_name_inj in Hk. lia.
Qed.

(** ** Head state calls *)

Lemma current_state i p d : current i p d ↔ ∃ v, head_version i = Some v ∧ lists (v_state v) p d.
Proof. done. Qed.

Lemma current_put i v s p d :
  head_version i = Some v → current (put_head_state s v i) p d ↔ lists s p d.
Proof.
  intros Hv. unfold current, recorded, put_head_state. simpl. rewrite lookup_insert. split.
  - intros (w & Hw & Hl). by injection Hw as <-.
  - intros Hl. eexists. split; [done|]. done.
Qed.
Lemma head_version_put i v s : head_version i = Some v → head_version (put_head_state s v i) = Some (set_state s v).
Proof. intros Hv. unfold head_version, put_head_state. simpl. by rewrite lookup_insert. Qed.

Lemma lists_filter s f p d :
  lists ((λ fs : list string, filter (λ g, g ≠ f) fs) <$> s) p d ↔ lists s p d ∧ p ≠ f.
Proof.
  unfold lists. rewrite lookup_fmap. split.
  - intros (ps & Hs & Hp). destruct (s !! d) as [qs|] eqn:E; [|done]. simpl in Hs. injection Hs as <-.
    apply elem_of_list_filter in Hp as [Hp1 Hp2]. eauto.
  - intros ((ps & Hs & Hp) & Hne). rewrite Hs. simpl. eexists. split; [done|].
    by apply elem_of_list_filter.
Qed.

Lemma state_has_spec f s : state_has f s = true ↔ ∃ d, lists s f d.
Proof.
  unfold state_has. rewrite existsb_exists. split.
  - intros ([d ps] & Hin & Hb). apply bool_decide_eq_true in Hb. exists d, ps. split; [|done].
    apply elem_of_list_In in Hin. by apply elem_of_map_to_list in Hin.
  - intros (d & ps & Hs & Hp). exists (d, ps). split.
    + apply elem_of_list_In. by apply elem_of_map_to_list.
    + by apply bool_decide_eq_true.
Qed.

Lemma delete_file_current f i i' p d :
  delete_file f i = (i', SOk) → current i' p d ↔ current i p d ∧ p ≠ f.
Proof.
  unfold delete_file. destruct (head_version i) as [v|] eqn:Hv; [|done].
  intros H. injection H as <-.
  transitivity (current (put_head_state ((λ fs : list string, filter (λ g, g ≠ f) fs) <$> v_state v) v i) p d).
  { by destruct (state_has f (v_state v)). }
  rewrite current_put by done. rewrite lists_filter. rewrite current_state. naive_solver.
Qed.

Lemma times_filter s f p d :
  p ≠ f → times ((λ fs : list string, filter (λ g, g ≠ f) fs) <$> s) p d = times s p d.
Proof.
  intros Hne. unfold times. rewrite lookup_fmap. destruct (s !! d) as [ps|]; [|done]. simpl. clear d.
  induction ps as [|q ps IH]; [done|].
  rewrite filter_cons. destruct (decide (q ≠ f)) as [Hq|Hq].
  - rewrite !filter_cons. destruct (decide (q = p)); simpl; auto.
  - rewrite (filter_cons _ q ps). destruct (decide (q = p)) as [->|]; [|done].
    exfalso. apply Hq. done.
Qed.

Lemma delete_file_spec f i v :
  head_version i = Some v →
  ∃ i' v', delete_file f i = (i', SOk) ∧ head_version i' = Some v' ∧
    (∀ p d, lists (v_state v') p d ↔ lists (v_state v) p d ∧ p ≠ f) ∧
    (∀ p d, p ≠ f → times (v_state v') p d = times (v_state v) p d) ∧
    (∀ d, is_Some (v_state v' !! d) ↔ is_Some (v_state v !! d)) ∧
    (inv_modified i' = true ↔ inv_modified i = true ∨ ∃ d, lists (v_state v) f d) ∧
    (∀ ver, ver ≠ inv_head i → inv_versions i' !! ver = inv_versions i !! ver) ∧
    inv_manifest i' = inv_manifest i ∧ inv_head i' = inv_head i ∧ inv_fixity i' = inv_fixity i.
Proof.
  intros Hv. unfold delete_file. rewrite Hv.
  set (s := (λ fs : list string, filter (λ g, g ≠ f) fs) <$> v_state v).
  set (i' := put_head_state s v i).
  exists (if state_has f (v_state v) then set_modified true i' else i'), (set_state s v).
  split; [done|].
  assert (head_version (if state_has f (v_state v) then set_modified true i' else i') = Some (set_state s v)) as H1.
  { pose proof (head_version_put i v s Hv). by destruct (state_has f (v_state v)). }
  split; [done|]. split; [intros p d; apply lists_filter|]. split; [intros p d; by apply times_filter|].
  split. { intros d. simpl. subst s. rewrite lookup_fmap. by rewrite fmap_is_Some. }
  split.
  { rewrite <- state_has_spec. destruct (state_has f (v_state v)); simpl; [naive_solver|]. naive_solver. }
  split. { intros ver Hne. destruct (state_has f (v_state v)); simpl; by rewrite lookup_insert_ne. }
  by destruct (state_has f (v_state v)).
Qed.

(** Renaming. *)
Definition ren (a b g : string) : string := if decide (g = a) then b else g.
Lemma lists_rename s a b p d :
  lists (map (ren a b) <$> s) p d ↔ (p = b ∧ lists s a d) ∨ (p ≠ a ∧ lists s p d) .
Proof.
  unfold lists. rewrite lookup_fmap. split.
  - intros (ps & Hs & Hp). destruct (s !! d) as [qs|] eqn:E; [|done]. simpl in Hs. injection Hs as <-.
    apply elem_of_list_In, in_map_iff in Hp as (q & Hq & Hin). apply elem_of_list_In in Hin.
    unfold ren in Hq. destruct (decide (q = a)) as [->|]; subst; [left|right]; eauto.
  - intros [(-> & ps & Hs & Hp)|(Hne & ps & Hs & Hp)]; rewrite Hs; simpl; eexists; (split; [done|]);
      apply elem_of_list_In, in_map_iff; eexists; (split; [|by apply elem_of_list_In]); unfold ren.
    + by rewrite decide_True.
    + by rewrite decide_False.
Qed.

Lemma rename_file_spec a b i v :
  head_version i = Some v →
  ∃ i' v', rename_file a b i = (i', SOk) ∧ head_version i' = Some v' ∧
    (∀ p d, lists (v_state v') p d ↔ (p = b ∧ lists (v_state v) a d) ∨ (p ≠ a ∧ lists (v_state v) p d)) ∧
    (∀ d, length <$> (v_state v' !! d) = length <$> (v_state v !! d)) ∧
    (inv_modified i' = true ↔ inv_modified i = true ∨ ∃ d, lists (v_state v) a d) ∧
    (∀ ver, ver ≠ inv_head i → inv_versions i' !! ver = inv_versions i !! ver) ∧
    inv_manifest i' = inv_manifest i ∧ inv_head i' = inv_head i ∧ inv_fixity i' = inv_fixity i.
Proof.
  intros Hv. unfold rename_file. rewrite Hv.
  set (s := map (λ g, if decide (g = a) then b else g) <$> v_state v).
  set (i' := put_head_state s v i).
  exists (if state_has a (v_state v) then set_modified true i' else i'), (set_state s v).
  split; [done|].
  assert (head_version (if state_has a (v_state v) then set_modified true i' else i') = Some (set_state s v)) as H1.
  { pose proof (head_version_put i v s Hv). by destruct (state_has a (v_state v)). }
  split; [done|]. split; [intros p d; apply lists_rename|].
  split. { intros d. simpl. subst s. rewrite lookup_fmap. destruct (v_state v !! d); simpl; [|done]. by rewrite map_length. }
  split.
  { rewrite <- state_has_spec. destruct (state_has a (v_state v)); simpl; [naive_solver|]. naive_solver. }
  split. { intros ver Hne. destruct (state_has a (v_state v)); simpl; by rewrite lookup_insert_ne. }
  by destruct (state_has a (v_state v)).
Qed.

(** CopyFile. *)
Lemma lists_append s d p q e :
  lists (<[d := default [] (s !! d) ++ [p]]> s) q e ↔ lists s q e ∨ (q = p ∧ e = d).
Proof.
  unfold lists. destruct (decide (d = e)) as [->|Hne].
  - rewrite lookup_insert. split.
    + intros (ps & Hps & Hq). injection Hps as <-. apply elem_of_app in Hq as [Hq|Hq].
      * left. destruct (s !! e); simpl in *; [eauto|by apply elem_of_nil in Hq].
      * right. by apply elem_of_list_singleton in Hq.
    + intros [(ps & Hps & Hq)|[-> _]]; eexists; (split; [done|]); apply elem_of_app.
      * left. by rewrite Hps.
      * right. by apply elem_of_list_singleton.
  - rewrite lookup_insert_ne by done. naive_solver.
Qed.

Lemma copy_file_spec f d i i' :
  copy_file f d i = (i', SOk) →
  (∀ q e, current i' q e ↔ current i q e ∨ (q = f ∧ e = d)) ∧ inv_manifest i' = inv_manifest i ∧
  (inv_modified i' = true ↔ inv_modified i = true ∨ ¬ current i f d).
Proof.
  unfold copy_file. destruct (inv_manifest i !! d); [|done].
  destruct (head_version i) as [v|] eqn:Hv; [|done].
  assert (f ∈ default [] (v_state v !! d) ↔ current i f d) as Hcur.
  { rewrite current_state. unfold lists. split.
    - intros Hin. exists v. split; [done|]. destruct (v_state v !! d); simpl in *; [eauto|by apply elem_of_nil in Hin].
    - intros (w & Hw & ps & Hps & Hp). rewrite Hv in Hw. injection Hw as <-. by rewrite Hps. }
  destruct (decide (f ∈ default [] (v_state v !! d))) as [Hin|Hin]; intros H; injection H as <-.
  - split; [|naive_solver]. intros q e. apply Hcur in Hin. naive_solver.
  - split; [|split; [done|naive_solver]]. intros q e.
    transitivity (current (put_head_state (<[d:=default [] (v_state v !! d) ++ [f]]> (v_state v)) v i) q e); [done|].
    rewrite current_put by done. rewrite lists_append, current_state. naive_solver.
Qed.

(** echoDelete. *)
Lemma delete_all_spec fs i v :
  head_version i = Some v →
  ∃ i' v', delete_all fs i = (i', SOk) ∧ head_version i' = Some v' ∧
    (∀ p d, lists (v_state v') p d ↔ lists (v_state v) p d ∧ p ∉ fs) ∧
    (inv_modified i' = true ↔ inv_modified i = true ∨ ∃ p d, p ∈ fs ∧ lists (v_state v) p d).
Proof.
  revert i v; induction fs as [|f fs IH]; intros i v Hv.
  - exists i, v. split; [done|]. split; [done|]. split.
    + intros p d. split; [|tauto]. intros. split; [done|]. intros Hc; by apply elem_of_nil in Hc.
    + split; [by left|]. intros [?|(p & d & Hp & _)]; [done|by apply elem_of_nil in Hp].
  - destruct (delete_file_spec f i v Hv) as (i1 & v1 & H1 & Hv1 & Hl & _ & _ & Hm & _).
    destruct (IH i1 v1 Hv1) as (i2 & v2 & H2 & Hv2 & Hl2 & Hm2).
    exists i2, v2. simpl. rewrite H1. split; [done|]. split; [done|]. split.
    + intros p d. rewrite Hl2, Hl, elem_of_cons. naive_solver.
    + rewrite Hm2, Hm. setoid_rewrite elem_of_cons. setoid_rewrite Hl. split.
      * intros [[?|[d ?]]|(p & d & Hp & Hpd & Hne)]; [by left|right..]; eauto 10.
      * intros [?|(p & d & [->|Hp] & Hpd)]; [by do 2 left|left; right; eauto|].
        destruct (decide (p = f)) as [->|Hne]; [left; right; eauto|right; eauto 10].
Qed.

Lemma echo_delete_spec orc ex pre i v :
  oracle_ok orc → head_version i = Some v →
  ∃ i' v', echo_delete orc ex pre i = (i', SOk) ∧ head_version i' = Some v' ∧
    (∀ p d, lists (v_state v') p d ↔ lists (v_state v) p d ∧ (has_prefix pre p = true → p ∈ ex)) ∧
    (inv_modified i' = true ↔
       inv_modified i = true ∨ ∃ p d, lists (v_state v) p d ∧ has_prefix pre p = true ∧ p ∉ ex).
Proof.
  intros [Ho _] Hv. unfold echo_delete. rewrite Hv.
  set (fs := filter _ _).
  destruct (delete_all_spec fs i v Hv) as (i' & v' & H1 & H2 & H3 & H4).
  assert (∀ p, p ∈ fs ↔ has_prefix pre p = true ∧ p ∉ ex ∧ ∃ d, lists (v_state v) p d) as Hfs.
  { intros p. unfold fs. rewrite elem_of_list_filter.
    assert (p ∈ flat_map snd (o_state orc 0 (inv_head i) (v_state v)) ↔
            ∃ x, In x (o_state orc 0 (inv_head i) (v_state v)) ∧ In p x.2) as ->
      by (rewrite elem_of_list_In; apply in_flat_map). split.
    - intros ((Hp & Hx) & [d ps] & Hin & Hps). split; [done|]. split; [done|]. exists d, ps.
      apply elem_of_list_In in Hin, Hps. rewrite Ho in Hin. by apply elem_of_map_to_list in Hin.
    - intros (Hp & Hx & d & ps & Hs & Hin). split; [done|]. exists (d, ps).
      split; [|by apply elem_of_list_In]. apply elem_of_list_In. rewrite Ho. by apply elem_of_map_to_list. }
  exists i', v'. split; [done|]. split; [done|]. split.
  - intros p d. rewrite H3, Hfs. split.
    + intros (Hl & Hn). split; [done|]. intros Hp. destruct (decide (p ∈ ex)); [done|]. naive_solver.
    + intros (Hl & Hn). split; [done|]. intros (Hp & Hx & _). auto.
  - rewrite H4. setoid_rewrite Hfs. split; (intros [?|H]; [by left|right]); naive_solver.
Qed.
