(** Proofs about descriptive metadata: sessions, histories, the folder of the extension. *)
From Coq Require Import Ascii.
From stdpp Require Import base list strings gmap sorting.
From Coq Require Import ZArith Lia.
From Verif Require Import GoStr PathModel PathProofs InventoryModel ObjectModel InventorySpec InventoryProofs ObjectSpec ObjectProofs CrashSpec CrashProofs RunProofs LoadModel LoadProofs
  SessionProofs AreaModel AreaSpec AreaProofs ValidateModel ValidateSpec ValidateProofs3 PublishSpec PublishProofs PublishProofs2 PublishProofs3 PublishProofs4 PublishProofs5 InheritProofs
  IngestProofs6 JsonlModel JsonlSpec JsonlProofs JsonlProofs2 MetafileModel MetafileSpec MetafileProofs.

(** A complete session leaves the content directories of the old versions alone. *)
Lemma complete_frame E s i n fam s' i' : hex_hash (e_hash E) → kept E s i n n fam → supported E i → complete E s i s' i' →
  ∀ k r, (1 <= k <= n)%N → s' !! cpath i k r = s !! cpath i k r.
Proof.
  intros Hhex Hk0 Hs [o1 orc o2 Hu Hc -> ->].
  destruct (updates_holds E s Hhex i n fam Hk0 n (open_object i) o1 Hu) as (n' & ((fam' & Hk' & Hf) & Hs' & Hw & Hm & Hn') & Hn & Hi & Hfr).
  { split; [|done]. exists fam. unfold now, open_object. cbn [ob_trace ob_inv apply_evs foldl]. eapply kept_same; [apply same_flags|done]. }
  { split; [lia|]. unfold now, open_object. cbn [ob_trace ob_inv apply_evs foldl]. split; [|done]. split; try done. intros d ps Hd. exists []. by rewrite app_nil_r. }
  destruct (close_spec E orc o1 o2 Hw Hm Hc) as (dg & Hd & Hi2 & Ht).
  intros k r Hk. rewrite Ht, apply_evs_app. fold (now s o1). rewrite <- Hfr by done.
  rewrite apply_evs_app, apply_evs_other.
  - rewrite apply_evs_app, !apply_write. apply lookup_two; apply (slash_ne _ _ (cpath_slash _ _ _)); [done|].
    apply sidecar_slash, (kp_alg _ _ _ _ _ _ Hk').
  - eapply Forall_impl; [apply ext_events_below|]. intros e Hb He. cbv beta in Hb. rewrite He in Hb.
    by apply (cpath_not_below _ _ _ "extensions") in Hb; [|left].
Qed.

Section session.
  Context (W : sources) (E : env) (l : list subpaths) (M : mstore) (q : string).
  Context (Hhex : hex_hash (e_hash E)) (HE : manifest_by E l) (HM : matching l M q).

  Lemma dsession_result s i n fam s' i' given :
    kept E s i n n fam → supported E i → dsession W E l M q s i s' i' given →
    complete E s i s' i' ∧
    (∀ k, is_Some (inv_versions i' !! version_name (inv_padding i) k) → (n < k)%N → given = None ∨ k ≠ (n + 1)%N → s' !! place i' (version_name (inv_padding i) k) q = None) ∧
    (∀ t, given = Some t → s' !! cpath i (n + 1) q = Some t ∧ ∃ d, lists (inv_manifest i') (cpath i (n + 1) q) d).
  Proof using Hhex HE HM.
    intros Hk Hsup [now msg un ua echo u orc0 orc h orc3 o1 o2 x o3 o4 o5 Hst Hbef Hgiven Horc Hcalls Hmod Hg Hend Hclose -> -> Hnone].
    assert (base E s n (open_object i)) as Hbase.
    { split; [|done]. exists fam. unfold PublishProofs2.now, open_object. cbn [ob_trace ob_inv apply_evs foldl]. eapply kept_same; [apply same_flags|done]. }
    destruct (start_working E s n _ _ _ _ _ _ _ Hst Hbase) as [W1 Ht1].
    assert (inv_id (ob_inv o1) = inv_id i ∧ inv_padding (ob_inv o1) = inv_padding i ∧ inv_contentdir (ob_inv o1) = inv_contentdir i ∧
            inv_manifest (ob_inv o1) = inv_manifest i ∧ inv_head (ob_inv o1) = version_name (inv_padding i) (n + 1)) as (Hid & Hpad & Hcd & Hman & Hh1).
    { unfold ob_start, on_inv in Hst. cbn [ob_inv set_echo open_object] in Hst.
      match type of Hst with context [new_version now msg un ua ?y] => set (i0 := y) in * end.
      pose proof (contiguous_is _ _ (g_contig _ _ _ _ (kp_good _ _ _ _ _ _ Hk))) as Hhead. assert (head_is i0 n) as Hhead0 by exact Hhead.
      destruct (new_version_spec i0 n now msg un ua Hhead0) as (stt & Heq & _). rewrite Heq in Hst. by injection Hst as <-. }
    assert (content_name (ob_inv o1) = content_name i) as Hcn by (unfold content_name; by rewrite Hcd).
    assert (∀ k r, cpath (ob_inv o1) k r = cpath i k r) as Hcp by (intros; by apply cpath_same).
    destruct (matching_write E l M q HE HM) as (f & area & Hwt & Hmp). pose proof (matching_clean _ _ _ HM) as Hq.
    assert (manifest_name (ob_inv o1) q = cpath i (n + 1) q) as Hname.
    { rewrite manifest_name_clean; [|rewrite Hh1; apply version_name_plain|rewrite Hcn; apply (kp_cdir _ _ _ _ _ _ Hk)|done]. by rewrite Hh1, Hcn. }
    assert (∀ data, proper E orc0 (SAddReader data [f] area) o1) as Hprop.
    { intros data. split; [done|]. split; intros m Hm; rewrite Hmp in Hm; injection Hm as <-; [done|]. intros d Hl. rewrite Hname, Hman in Hl.
      destruct (g_paths _ _ _ _ (kp_good _ _ _ _ _ _ Hk) _ _ Hl) as (k & r & Hkk & _ & Hcp'). apply cpath_inj in Hcp'. lia. }
    unfold mf_before in Hbef. cbn [mf_source mf_new] in Hbef. rewrite Hid in Hbef.
    assert ((given = None ∧ o2 = o1) ∨ ∃ t, given = Some t ∧ ob_add_reader E orc0 t [f] area o1 = (o2, SOk)) as Hcase.
    { destruct (decide (u_path u = "")); [left; by injection Hbef as <- _|]. cbn [mf_stored] in Hbef.
      destruct (mf_fetch W (inv_id i) u) as [t|]; [|done]. right. exists t. split; [done|]. rewrite Hwt in Hbef.
      destruct (ob_add_reader E orc0 t [f] area o1) as [o' []]; [by injection Hbef as <- _|done..]. }
    assert (calls E o1 o3) as Hcalls1.
    { destruct Hcase as [[_ ->]|(t & _ & Hadd)]; [done|]. eapply (calls_more E orc0 (OSimple (SAddReader t [f] area))); [done|apply Hprop|exact Hadd|done|done]. }
    pose proof (calls_working E s Hhex _ _ _ Hcalls1 W1) as W3. destruct (end_settled E s Hhex n orc h o3 o4 Hend Hg W3 Hmod) as [n4 S4].
    split; [|split].
    - econstructor; [|exact Hclose|done|done]. apply updates_one. by econstructor.
    - intros k Hkk Hlt Hor. apply Hnone; [done| |].
      + destruct (inv_versions i !! _) as [y|] eqn:Ey; [|done]. exfalso.
        destruct (proj1 (proj2 (g_contig _ _ _ _ (kp_good _ _ _ _ _ _ Hk)) (version_name (inv_padding i) k))) as (j & Hj & Eq); [by exists y|].
        apply version_name_inj in Eq. lia.
      + destruct Hor as [? |Hne]; [by left|]. right. rewrite Hh1. intros Eq%version_name_inj. done.
    - intros t ->. destruct Hcase as [[? _]|(t' & [= <-] & Hadd)]; [done|].
      apply add_reader_call in Hadd as (f' & mp & Hf & Hm & Htr & Hext & d & _ & Hd). injection Hf as <-. rewrite Hmp in Hm. injection Hm as <-. rewrite Hname in Htr, Hd.
      assert (has s (cpath i (n + 1) q) (to_lower d) t o2) as H2.
      { split; [|done]. by rewrite Htr, apply_evs_app, apply_write, lookup_insert. }
      pose proof (calls_has E s _ _ _ o2 o3 Hcalls H2) as H3. pose proof (end_has E s Hhex _ _ _ n orc h o3 o4 Hend Hg W3 Hmod H3) as H4.
      destruct (close_has E s _ _ _ n4 orc3 o4 o5 Hclose S4 H4) as [H5 H6]. split; [done|]. by exists (to_lower d).
  Qed.
End session.

Section history.
  Context (W : sources) (E : env) (P : inventory → Prop) (parse : string → option inventory) (l : list subpaths) (M : mstore) (q : string).
  Context (Hhex : hex_hash (e_hash E)) (Hj : json_ok P (e_json E) parse) (HE : manifest_by E l) (HM : matching l M q).

  Lemma newest_step s i n fam s' i' n' fam' old given :
    kept E s i n n fam → supported E i → closed E s' i' n' fam' → inherits s i s' i' → dsession W E l M q s i s' i' given →
    newest (λ k, s !! cpath i k q) n old → newest (λ k, s' !! cpath i' k q) n' (match given with Some t => Some t | None => old end).
  Proof using Hhex HE HM.
    intros Hk Hs Hcl Hih Hd Hn. destruct (dsession_result W E l M q Hhex HE HM s i n fam s' i' given Hk Hs Hd) as (Hc & Hnone & Hsome).
    pose proof (complete_frame E s i n fam s' i' Hhex Hk Hs Hc) as Hfr.
    assert (∀ k r, cpath i' k r = cpath i k r) as Hcp by (intros; apply cpath_same; apply Hih).
    pose proof (g_contig _ _ _ _ (kp_good _ _ _ _ _ _ (cl_kept _ _ _ _ _ Hcl))) as [_ Hv'].
    pose proof (g_contig _ _ _ _ (kp_good _ _ _ _ _ _ Hk)) as [_ Hv].
    assert (n <= n')%N as Hle.
    { destruct (decide (n = 0%N)) as [->|Hne]; [lia|]. destruct (proj2 (Hv (version_name (inv_padding i) n))) as [y Hy]; [exists n; split; [lia|done]|].
      apply (ih_vers _ _ _ _ Hih) in Hy. destruct (proj1 (Hv' (version_name (inv_padding i) n))) as (j & Hjn & Eq); [by exists y|].
      rewrite (ih_pad _ _ _ _ Hih) in Eq. apply version_name_inj in Eq. lia. }
    assert (∀ k, (n < k <= n')%N → given = None ∨ k ≠ (n + 1)%N → s' !! cpath i' k q = None) as Hnew.
    { intros k Hkk Hor. assert (is_Some (inv_versions i' !! version_name (inv_padding i) k)) as Hin.
      { rewrite <- (ih_pad _ _ _ _ Hih). apply Hv'. exists k. split; [lia|done]. }
      pose proof (Hnone k Hin (proj1 Hkk) Hor) as H. unfold place in H. unfold cpath. by rewrite (ih_pad _ _ _ _ Hih). }
    destruct given as [t|].
    - destruct (Hsome t eq_refl) as [Ht [d Hld]].
      destruct (g_paths _ _ _ _ (kp_good _ _ _ _ _ _ (cl_kept _ _ _ _ _ Hcl)) _ _ Hld) as (k & r & Hkk & _ & Eq).
      rewrite Hcp in Eq. apply cpath_inj in Eq. subst k. exists (n + 1)%N. split; [done|]. split; [by rewrite Hcp|].
      intros j Hjj. apply Hnew; [lia|]. right. lia.
    - destruct old as [t|].
      + destruct Hn as (k & Hkk & Hf & Hjn). exists k. split; [lia|]. split; [by rewrite Hcp, Hfr|]. intros j Hjj.
        destruct (decide (j <= n)%N); [rewrite Hcp, Hfr by lia; apply Hjn; lia|apply Hnew; [lia|by left]].
      + intros j Hjj. destruct (decide (j <= n)%N); [rewrite Hcp, Hfr by lia; apply Hn; lia|apply Hnew; [lia|by left]].
  Qed.

  Lemma newest_same (s : storage) i i' n latest : same_record i i' → newest (λ k, s !! cpath i k q) n latest → newest (λ k, s !! cpath i' k q) n latest.
  Proof using.
    intros Hr. assert (∀ k, cpath i' k q = cpath i k q) as Hcp by (intros; apply cpath_same; apply Hr).
    destruct latest as [t|]; cbn [newest].
    - intros (k & H1 & H2 & H3). exists k. rewrite Hcp. split; [done|]. split; [done|]. intros j Hjj. rewrite Hcp. by apply H3.
    - intros H j Hjj. rewrite Hcp. by apply H.
  Qed.

  Lemma described_newest s i latest : described W E P parse l M q s i latest →
    published E P parse s i ∧ ∀ n fam, closed E s i n fam → newest (λ k, s !! cpath i k q) n latest.
  Proof using Hhex Hj HE HM.
    induction 1 as [s i s' i' given Hf Hd Hs Hsess HP|s i0 i s' i' old given Hi (Hpub & Hnew) Hl Hs Hsess HP].
    - pose proof (fresh_kept E s i Hf Hd) as Hk. destruct (dsession_result W E l M q Hhex HE HM s i _ _ s' i' given Hk Hs Hsess) as (Hc & _).
      split; [by eapply published_first|]. intros n fam Hcl.
      pose proof (newest_step s i 0 _ s' i' n fam None given Hk Hs Hcl) as H. destruct given as [t|]; (eapply H; [by eapply complete_inherits|done|]); intros j Hjj; lia.
    - destruct (loaded_kept E P parse s i0 i Hhex Hj Hpub Hl) as (n & fam & Hcl & Hk).
      destruct (dsession_result W E l M q Hhex HE HM s i _ _ s' i' given Hk Hs Hsess) as (Hc & _).
      split; [by eapply published_next|]. intros n' fam' Hcl'. eapply newest_step; [exact Hk|done|done|by eapply complete_inherits|done|].
      eapply newest_same; [by eapply loaded_same|]. by eapply Hnew.
  Qed.

  Lemma described_metadata {A} (dec : string → option A) s i latest i' w u : described W E P parse l M q s i latest →
    load_inventory (e_hash E) parse s "" = LInv i' [] → vorder_ok w →
    mf_metadata dec l M w (mf_new u) i' s = match latest with
                                            | Some t => match dec t with Some a => MfOk a | None => MfErr end
                                            | None => MfErr
                                            end.
  Proof using Hhex Hj HE HM.
    intros Hd Hl Hw. destruct (described_newest s i latest Hd) as (Hpub & Hnew).
    destruct (loaded_kept E P parse s i i' Hhex Hj Hpub Hl) as (n & fam & Hcl & Hk).
    pose proof (newest_same _ _ _ _ _ (loaded_same _ _ _ _ _ _ Hhex Hj Hpub Hl) (Hnew n fam Hcl)) as Hn.
    pose proof (cl_some _ _ _ _ _ Hcl) as Hn1.
    pose proof (g_contig _ _ _ _ (kp_good _ _ _ _ _ _ Hk)) as [_ Hv].
    unfold mf_metadata. rewrite (names_in_order (inv_versions i') (inv_padding i') (N.to_nat n) w 0 Hw (kp_pad _ _ _ _ _ _ Hk)) by (by rewrite N2Nat.id).
    assert (mf_search ∅ (mf_read l M i' s) (rev (version_name (inv_padding i') <$> upto (N.to_nat n))) = latest) as Hsearch.
    { apply search_newest. rewrite N2Nat.id.
      assert (∀ k, mf_read l M i' s (version_name (inv_padding i') k) = s !! cpath i' k q) as Hrd.
      { intros k. unfold mf_read. rewrite (matching_read l M q); [done|done|apply version_name_plain|apply (kp_cdir _ _ _ _ _ _ Hk)]. }
      destruct latest as [t|]; cbn [newest] in *.
      - destruct Hn as (k & H1 & H2 & H3). exists k. rewrite Hrd. split; [done|]. split; [done|]. intros j Hjj. rewrite Hrd. by apply H3.
      - intros j Hjj. rewrite Hrd. by apply Hn. }
    cbn [mf_info mf_new]. destruct (rev _) as [|v vs] eqn:Er.
    - exfalso. apply (f_equal length) in Er. rewrite rev_length, fmap_length in Er. unfold upto in Er. rewrite fmap_length, seq_length in Er. cbn in Er. lia.
    - by rewrite Hsearch.
  Qed.
End history.

(** * The folder of the extension *)

(** Close writes the configuration files of the extensions and nothing else there. *)
Definition root_or_config (E : env) (i0 : inventory) (p : string) : Prop :=
  p = "inventory.json" ∨ p = sidecar_name (inv_alg i0) ∨ ∃ f b, (f, b) ∈ e_ext_files E ∧ p = "extensions/" +:+ f.
Lemma sess_close_config E i0 n0 (Q : string → Prop) o :
  (∀ p, root_or_config E i0 p → Q p) → sess i0 n0 Q o →
  sess i0 n0 Q (andThen (store_inventory E false true o) (store_extensions E)).1.
Proof.
  intros HQ Hs. unfold store_inventory. destruct (inv_writeable (ob_inv o)) eqn:Hw; [|done].
  destruct (e_hash E _ _) as [d|]; [|done]. simpl.
  destruct Hs as (H1 & Hp & Hcd & Ha & He & Ht). repeat (split; [done|]). simpl. rewrite Ha.
  apply Forall_app. split.
  - apply Forall_app. split; [done|]. repeat constructor; simpl; apply HQ; unfold root_or_config; auto.
  - apply Forall_forall. intros e He'. apply elem_of_list_In, in_flat_map in He' as ([f b] & Hf & Hin). simpl in Hin.
    apply HQ. right. right. exists f, b. split; [by apply elem_of_list_In|]. by destruct Hin as [<-|[<-|[]]].
Qed.
Lemma configs_only E i n ops s s' p :
  head_number i n → CrashSpec.plain_name (content_name i) → clean_names E ops → crash s (ob_trace (orun E ops (open_object i))) s' → s' !! p ≠ s !! p →
  p = "inventory.json" ∨ p = sidecar_name (inv_alg i) ∨ (∃ f b, (f, b) ∈ e_ext_files E ∧ p = "extensions/" +:+ f) ∨
  ∃ k, (n < k)%N ∧ CrashSpec.below (version_name (inv_padding i) k) p.
Proof.
  intros Hn Hc Hcl Hcr Hp. apply head_number_is in Hn.
  set (Q := λ q, root_or_config E i q ∨ in_new_version i n q).
  assert (sess i n Q (orun E ops (open_object i))) as Hs.
  { eapply (guarded_run E (λ _ op _, clean_target E op) (λ _, True)); [..|by apply all_guarded|by apply sess_open].
    - intros orc op x Hg Hx. eapply sess_effect; [done|by right|done|apply sop_effect|done].
    - intros. by apply sess_start.
    - intros orc x _ _ Hx. eapply (sess_effect E (SDelete "" "")); [done|by right|done|apply echo_effect|done].
    - intros x _ Hx. apply sess_store_version; [by right|done].
    - intros x _ Hx. apply sess_close_config; [by left|done].
    - done. }
  destruct Hs as (_ & _ & _ & _ & _ & Ht).
  destruct (decide (Exists (λ e, ev_path e = p) (ob_trace (orun E ops (open_object i))))) as [Hex|Hex].
  - apply Exists_exists in Hex as (e & He & <-). rewrite Forall_forall in Ht. destruct (Ht e He) as [[?|[?|?]]|?]; auto.
  - exfalso. apply Hp. eapply crash_other; [done|]. apply Forall_forall. intros e He Heq. apply Hex, Exists_exists. eauto.
Qed.

Lemma clean_append a b : clean_rel a → clean_rel b → clean_rel (a +:+ "/" +:+ b).
Proof. apply clean_rel_app. Qed.
Lemma folder_clean ext : clean_rel ext → clean_rel ("extensions/" +:+ ext).
Proof. intros H. exact (clean_append "extensions" ext ltac:(repeat constructor; discriminate) H). Qed.
Lemma in_folder_write E l M p : in_folder E M p → mf_write_target l M = JFile p.
Proof.
  intros [name storage ext H1 H2 H3 _]. unfold mf_write_target. cbn [ms_type ms_name ms_storage ms_folder]. change (to_lower "extension") with "extension".
  rewrite (decide_False (P := "extension" = "area")), (decide_False (P := "extension" = "path")), decide_True by done.
  rewrite (join_two storage name), (trim_clean (storage +:+ "/" +:+ name)) by (try done; by apply clean_append). rewrite join_two; [f_equal; by rewrite !str_app_assoc| |by apply clean_append].
  by apply folder_clean.
Qed.
Lemma in_folder_read E l M p i v : in_folder E M p → mf_read_target l M i v = Some p.
Proof.
  intros [name storage ext H1 H2 H3 _]. unfold mf_read_target. cbn [ms_type ms_name ms_storage ms_folder].
  rewrite (decide_False (P := "extension" = "area")), (decide_False (P := "extension" = "path")), decide_True by done.
  rewrite trim_clean by (by apply clean_append). rewrite join_two; [f_equal; by rewrite !str_app_assoc| |by apply clean_append].
  by apply folder_clean.
Qed.
Lemma in_folder_other E M p i n : in_folder E M p → str_mem slash (inv_alg i) = false → ¬ root_or_config E i p ∧ ¬ in_new_version i n p.
Proof.
  intros [name storage ext H1 H2 H3 Hall] Ha. split.
  - intros [H|[H|(f & b & Hf & H)]]; [done| |].
    + revert H. by apply slash_ne, sidecar_slash.
    + apply str_app_inv_l in H. rewrite Forall_forall in Hall. apply Hall in Hf. by cbn in Hf.
  - intros (k & _ & Hb). assert (below "extensions" ("extensions/" +:+ ext +:+ "/" +:+ storage +:+ "/" +:+ name)) as Hb' by (by eexists).
    pose proof (below_inj _ "extensions" _ (proj2 (proj2 (proj2 (version_name_plain (inv_padding i) k)))) eq_refl Hb Hb') as Eq.
    unfold version_name in Eq. destruct (decide _) in Eq; by cbn in Eq.
Qed.

(** What is stored in the folder of the extension is reported, whatever the versions. *)
Lemma folder_metadata {A} (dec : string → option A) E l M p w u i s : in_folder E M p → vorder_ok w →
  inv_versions i ≠ ∅ → (∀ v, is_Some (inv_versions i !! v) → ∃ k, numbered v k) →
  mf_metadata dec l M w (mf_new u) i s = match s !! p with
                                         | Some t => match dec t with Some a => MfOk a | None => MfErr end
                                         | None => MfErr
                                         end.
Proof.
  intros HM Hw Hne Hnum. unfold mf_metadata.
  assert (sorted_names ((vo w 0 (inv_versions i)).*1) ≠ []) as Hs.
  { pose proof (Hw 0 _ (inv_versions i)) as Hp. destruct (nums_numbered (vo w 0 (inv_versions i)).*1) as (ps & E1 & E2 & _).
    { intros v ([v' y] & -> & Hv)%elem_of_list_fmap. rewrite Hp in Hv. apply elem_of_map_to_list in Hv. apply Hnum. by exists y. }
    unfold sorted_names. rewrite E1. intros H%fmap_nil_inv. assert (ps.*1 = []) as Hps.
    { apply Permutation_nil_r. by rewrite <- H, merge_sort_Permutation. }
    apply fmap_nil_inv in Hps as ->. cbn in E2. symmetry in E2. apply fmap_nil_inv in E2. rewrite E2 in Hp. symmetry in Hp. apply Permutation_nil_r in Hp. by apply map_to_list_empty_iff in Hp. }
  assert (∀ vs, vs ≠ [] → mf_search ∅ (mf_read l M i s) vs = s !! p) as Hr.
  { intros vs. induction vs as [|v vs IH]; intros Hvs; [done|]. cbn [mf_search]. rewrite lookup_empty. unfold mf_read at 1. rewrite (in_folder_read E l M p) by done.
    destruct (s !! p) eqn:Ep; [done|]. destruct vs; [done|by apply IH]. }
  cbn [mf_info mf_new]. destruct (rev _) as [|v vs] eqn:Er.
  - exfalso. apply Hs. apply (f_equal (@rev _)) in Er. by rewrite rev_involutive in Er.
  - by rewrite Hr.
Qed.

Section folder.
  Context (E : env) (i : inventory) (n : N) (s : storage) (p t : string).
  Context (Hc : CrashSpec.plain_name (content_name i)) (Hroot : ¬ root_or_config E i p) (Hnew : ¬ in_new_version i n p).
  Definition keeps (o : object) : Prop := sess i n (λ _, True) o ∧ apply_evs (ob_trace o) s !! p = Some t.

  Lemma keeps_effect op o o' : clean_target E op → effect E op o o' → keeps o → keeps o'.
  Proof using Hc Hroot Hnew.
    intros Hcl He [Hs Ht]. split; [by eapply sess_effect|]. destruct He as [H1 H2 H3].
    destruct H3 as [[H3 _]|(f & area & mp & data & Hwr & Hop & Hmp & H3)]; [by rewrite H3|].
    assert (clean_rel mp) as Hrel.
    { destruct op as [? path a ?|? [|g gs] a|? ?|? ? ?|? ?]; simpl in *; try done; injection Hop as -> ->; auto. }
    destruct (sess_manifest_name _ _ _ _ _ Hs Hwr Hc Hrel) as (k & Hk & Hname).
    assert (p ≠ manifest_name (ob_inv o) mp) as Hne.
    { intros ->. apply Hnew. exists k. split; [done|]. rewrite Hname. by eexists. }
    destruct H3 as [[H3 _]|[H3 _]]; rewrite H3, apply_evs_app, apply_evs_other; try done; repeat constructor; cbn; congruence.
  Qed.
  Lemma keeps_run ops o : clean_names E ops → keeps o → keeps (orun E ops o).
  Proof using Hc Hroot Hnew.
    intros Hcl Ho. eapply (guarded_run E (λ _ op _, clean_target E op) (λ _, True)); [..|by apply all_guarded|done].
    - intros orc op x Hg Hx. eapply keeps_effect; [done|apply sop_effect|done].
    - intros now msg un ua e x [H1 H2]. split; [by apply sess_start|]. unfold ob_start, on_inv. destruct (new_version _ _ _ _ _) as [? []]; exact H2.
    - intros orc x _ _ Hx. eapply (keeps_effect (SDelete "" "")); [done|apply echo_effect|done].
    - intros x _ [H1 H2]. split; [by apply sess_store_version|]. unfold store_inventory. destruct (inv_writeable (ob_inv x)) eqn:Hw; [|done].
      destruct (e_hash E _ _) as [d|]; [|done]. destruct (sess_head _ _ _ _ H1 Hw) as (k & Hk & Hh). simpl. rewrite apply_evs_app, apply_evs_other; [done|].
      repeat constructor; simpl; intros Heq; apply Hnew; exists k; (split; [done|]); rewrite <- Heq, Hh; by eexists.
    - intros x _ [H1 H2]. split; [by apply (sess_close E)|]. unfold store_inventory. destruct (inv_writeable (ob_inv x)) eqn:Hw; [|done].
      destruct (e_hash E _ _) as [d|]; [|done]. simpl. destruct H1 as (_ & _ & _ & Ha & _). rewrite Ha. rewrite apply_evs_app, apply_evs_other.
      + rewrite apply_evs_app, apply_evs_other; [done|]. repeat constructor; simpl; intros <-; apply Hroot; unfold root_or_config; auto.
      + apply Forall_forall. intros e He'. apply elem_of_list_In, in_flat_map in He' as ([f b] & Hf & Hin). simpl in Hin.
        intros Heq. apply Hroot. right. right. exists f, b. split; [by apply elem_of_list_In|]. by destruct Hin as [<-|[<-|[]]].
    - done.
  Qed.
End folder.

Lemma folder_session W E l M p i n now msg un ua echo u orc0 o1 o2 x ops s :
  in_folder E M p → head_number i n → CrashSpec.plain_name (content_name i) → str_mem slash (inv_alg i) = false →
  ob_start now msg un ua echo (open_object i) = (o1, SOk) → mf_before W E l M orc0 o1 (mf_new (Some u)) = (o2, x, SOk) → u_path u ≠ "" → clean_names E ops →
  ∃ t, mf_fetch W (inv_id i) u = Some t ∧ apply_evs (ob_trace (orun E ops o2)) s !! p = Some t.
Proof.
  intros HM Hn Hc Ha Hst Hb Hu Hcl. apply head_number_is in Hn. pose proof (sess_start i n (λ _, True) now msg un ua echo _ (sess_open i n _ Hn)) as H1.
  rewrite Hst in H1. cbn [fst] in H1. assert (inv_id (ob_inv o1) = inv_id i) as Hid.
  { unfold ob_start, on_inv in Hst. cbn [ob_inv set_echo open_object] in Hst.
    match type of Hst with context [new_version now msg un ua ?y] => set (i0 := y) in * end.
    assert (head_is i0 n) as Hhead0 by exact Hn.
    destruct (new_version_spec i0 n now msg un ua Hhead0) as (stt & Heq & _). rewrite Heq in Hst. by injection Hst as <-. }
  unfold mf_before in Hb. cbn [mf_source mf_new mf_stored] in Hb. rewrite decide_False, Hid in Hb by done.
  destruct (mf_fetch W (inv_id i) u) as [t|]; [|done]. rewrite (in_folder_write E l M p HM) in Hb. injection Hb as <- _.
  exists t. split; [done|]. destruct (in_folder_other E M p i n HM Ha) as [Hr Hv].
  apply (keeps_run E i n s p t Hc Hr Hv); [done|]. split.
  - destruct H1 as (A & B & C & D & F & _). repeat (split; [done|]). by apply Forall_forall.
  - unfold emit. cbn [ob_trace]. by rewrite apply_evs_app, apply_write, lookup_insert.
Qed.
Lemma folder_stays E M p i n ops s s' :
  in_folder E M p → head_number i n → CrashSpec.plain_name (content_name i) → str_mem slash (inv_alg i) = false → clean_names E ops →
  crash s (ob_trace (orun E ops (open_object i))) s' → s' !! p = s !! p.
Proof.
  intros HM Hn Hc Ha Hcl Hcr. destruct (in_folder_other E M p i n HM Ha) as [Hr Hv].
  destruct (decide (s' !! p = s !! p)) as [|Hne]; [done|exfalso].
  destruct (configs_only E i n ops s s' p Hn Hc Hcl Hcr Hne) as [?|[?|[?|?]]]; [apply Hr; by left|apply Hr; right; by left|apply Hr; by right; right|by apply Hv].
Qed.
