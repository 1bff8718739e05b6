(** Where an update writes, and what every crash point leaves behind. *)
From Coq Require Import Ascii.
From stdpp Require Import base list strings gmap.
From Coq Require Import ZArith Lia.
From Verif Require Import GoStr PathModel InventoryModel InventorySpec InventoryProofs ObjectModel ObjectSpec ObjectProofs
  LookupProofs AddProofs RunProofs ClaimsInventory ClaimsInventory2 CrashSpec PathProofs.

(** * Crash states *)

Lemma apply_ev_other e s p : ev_path e ≠ p → apply_ev e s !! p = s !! p.
Proof. destruct e; simpl; intros H; by rewrite lookup_insert_ne. Qed.
Lemma apply_evs_app l1 l2 s : apply_evs (l1 ++ l2) s = apply_evs l2 (apply_evs l1 s).
Proof. unfold apply_evs. apply foldl_app. Qed.
Lemma apply_evs_other l s p : Forall (λ e, ev_path e ≠ p) l → apply_evs l s !! p = s !! p.
Proof.
  revert s; induction l as [|e l IH]; intros s H; [done|]. inversion H; subst. simpl.
  etransitivity; [apply IH; done|]. by apply apply_ev_other.
Qed.
Lemma crash_other s l s' p : crash s l s' → Forall (λ e, ev_path e ≠ p) l → s' !! p = s !! p.
Proof.
  induction 1 as [| |s e l s' H IH]; intros Hl; [done|..]; inversion Hl; subst.
  - by apply apply_ev_other.
  - rewrite IH by done. by apply apply_ev_other.
Qed.
(** Executing everything is one of the crash states. *)
Lemma crash_all s l : crash s l (apply_evs l s).
Proof. revert s; induction l as [|e l IH]; intros s; [constructor|]. apply crash_step, IH. Qed.
Lemma crash_app s l1 l2 s' : crash s (l1 ++ l2) s' → crash s l1 s' ∨ crash (apply_evs l1 s) l2 s'.
Proof.
  revert s; induction l1 as [|e l1 IH]; intros s H; [by right|]. inversion H as [| |? ? ? ? H3]; subst.
  - left. constructor.
  - left. constructor.
  - destruct (IH _ H3) as [H4|H4]; [left; by constructor|by right].
Qed.
Lemma crash_prefix s l1 l2 s' : crash s l1 s' → crash s (l1 ++ l2) s'.
Proof. induction 1; simpl; by constructor. Qed.

(** * Effects of one call *)

Definition op_target (op : sop) : option (string * string) :=
  match op with
  | SAdd _ path area _ => Some (path, area)
  | SAddReader _ (f :: _) area => Some (f, area)
  | _ => None
  end.

(** What a working-version call may do to the handle: [l] are its storage effects. *)
Record effect (E : env) (op : sop) (o o' : object) : Prop := Effect {
  ef_ext : ext_rel (ob_inv o) (ob_inv o');
  ef_echo : ob_echo o' = ob_echo o;
  ef_trace :
    (ob_trace o' = ob_trace o ∧ inv_manifest (ob_inv o') = inv_manifest (ob_inv o)) ∨
    ∃ f area mp data, let m := manifest_name (ob_inv o) mp in
      inv_writeable (ob_inv o) = true ∧ op_target op = Some (f, area) ∧ e_manifest_path E f area = Some mp ∧
      ((ob_trace o' = ob_trace o ++ [ECreate m] ∧ inv_manifest (ob_inv o') = inv_manifest (ob_inv o)) ∨
       (ob_trace o' = ob_trace o ++ [ECreate m; EAppend m data] ∧
        ∀ p d, lists (inv_manifest (ob_inv o')) p d →
          lists (inv_manifest (ob_inv o)) p d ∨
          p = m ∧ ∃ d', e_hash E (inv_alg (ob_inv o)) data = Some d' ∧ d = to_lower d'))
}.

Lemma add_state_files_lists orc n m d fs i :
  m ≠ "" → ∀ p e, lists (inv_manifest (add_state_files orc n m d fs i).1) p e →
  lists (inv_manifest i) p e ∨ p = m ∧ e = d.
Proof.
  intros Hm. revert n i; induction fs as [|f fs IH]; intros n i p e; [by left|]. simpl.
  pose proof (add_state_file_manifest orc n m d f i Hm) as Hx.
  destruct (add_state_file orc n m d f i) as [i' st]. simpl in *.
  assert (∀ q e, lists (inv_manifest i') q e → lists (inv_manifest i) q e ∨ q = m ∧ e = d) as H1.
  { intros q e'. destruct Hx as [->| ->]; [by left|]. rewrite lists_append. tauto. }
  destruct st; simpl; [|apply H1|apply H1].
  intros H. apply IH in H as [H|H]; auto.
Qed.

Lemma add_reader_effect E orc data exts mp f area op o :
  inv_writeable (ob_inv o) = true → op_target op = Some (f, area) → e_manifest_path E f area = Some mp →
  effect E op o (add_reader E orc data exts (manifest_name (ob_inv o) mp) o).1.
Proof.
  intros Hw Ht Hmp. pose proof (manifest_name_nonempty (ob_inv o) mp) as Hm. unfold add_reader.
  destruct (checksums E _ data) as [cs|] eqn:Hcs.
  - unfold on_inv. simpl.
    pose proof (ext_rel_add_file orc exts (manifest_name (ob_inv o) mp) cs (ob_inv o)) as Hx.
    destruct (add_file orc exts _ cs (ob_inv o)) as [i' st] eqn:Hadd. simpl in *.
    split; [done|done|]. right. exists f, area, mp, data. simpl. repeat split; auto. right.
    split; [by rewrite <- app_assoc|].
    intros p d Hl. unfold add_file in Hadd.
    destruct (assoc (inv_alg (ob_inv o)) cs) as [d'|] eqn:Ha; [|injection Hadd as <- <-; by left].
    pose proof (add_state_files_lists orc 0 _ (to_lower d') exts (add_fixities (manifest_name (ob_inv o) mp) cs (ob_inv o)) Hm p d) as H.
    rewrite Hadd in H. simpl in H. apply H in Hl.
    destruct (add_fixities_frame (manifest_name (ob_inv o) mp) cs (ob_inv o)) as (_ & F2 & _). rewrite F2 in Hl.
    destruct Hl as [Hl|[-> ->]]; [by left|right]. split; [done|]. exists d'. split; [|done].
    rewrite <- Ha. symmetry. eapply assoc_checksums; [done|]. apply elem_of_remove_dups, elem_of_app. right.
    by apply elem_of_list_singleton.
  - split; [reflexivity|done|]. right. exists f, area, mp, data. simpl. repeat split; auto.
Qed.

Lemma effect_quiet E op o o' :
  ext_rel (ob_inv o) (ob_inv o') → ob_echo o' = ob_echo o → ob_trace o' = ob_trace o →
  inv_manifest (ob_inv o') = inv_manifest (ob_inv o) → effect E op o o'.
Proof. intros. split; auto. Qed.
Lemma effect_set_upd E op u o o' : effect E op (set_upd u o) o' → effect E op o o'.
Proof. intros [H1 H2 H3]. by split. Qed.

Lemma copy_manifest f d j : inv_manifest (copy_file f d j).1 = inv_manifest j.
Proof.
  unfold copy_file. destruct (inv_manifest j !! d); [|done]. destruct (head_version j); [|done]. by destruct (decide _).
Qed.
Lemma delete_manifest f j : inv_manifest (delete_file f j).1 = inv_manifest j.
Proof. unfold delete_file. destruct (head_version j); [simpl|done]. by destruct (state_has _ _). Qed.
Lemma rename_manifest a b j : inv_manifest (rename_file a b j).1 = inv_manifest j.
Proof. unfold rename_file. destruct (head_version j); [simpl|done]. by destruct (state_has _ _). Qed.
Lemma echo_manifest orc ex p j : inv_manifest (echo_delete orc ex p j).1 = inv_manifest j.
Proof.
  unfold echo_delete. destruct (head_version j); [|done]. set (fs := filter _ _). clearbody fs.
  revert j; induction fs as [|f fs IH]; intros j; [done|]. simpl. pose proof (delete_manifest f j) as H.
  destruct (delete_file f j) as [j' [| |]]; simpl in *; [by rewrite IH|done|done].
Qed.

Lemma on_inv_effect E op f o :
  ext_rel (ob_inv o) (f (ob_inv o)).1 → inv_manifest (f (ob_inv o)).1 = inv_manifest (ob_inv o) →
  effect E op o (on_inv f o).1.
Proof.
  intros H1 H2. unfold on_inv. destruct (f (ob_inv o)) as [i' st]. simpl in *. by apply effect_quiet.
Qed.
Lemma effect_refl E op o : effect E op o o.
Proof. by apply effect_quiet. Qed.

Lemma sop_effect E orc op o : effect E op o (sop_step E orc op o).1.
Proof.
  destruct op as [data path area dedup|data files area|f d|a b d|a d]; simpl.
  - unfold ob_add. destruct (inv_writeable (ob_inv o)) eqn:Hw; [|apply effect_refl].
    destruct (build_names E (ob_inv o) [path] area) as [[ps m]|] eqn:Hb; [|apply effect_refl].
    destruct (e_state_path E path area) as [np|] eqn:Hnp; [|apply effect_refl].
    unfold build_names in Hb. destruct (state_paths E [path] area); [|done].
    destruct (e_manifest_path E path area) as [mp|] eqn:Hmp; [|done]. injection Hb as _ <-.
    assert (∀ orc, effect E (SAdd data path area dedup) o
      (add_reader E orc data ps (manifest_name (ob_inv o) mp) (set_upd (ob_upd o ++ [np]) o)).1) as Hr.
    { intros orc'. apply (effect_set_upd E _ (ob_upd o ++ [np])).
      change (ob_inv o) with (ob_inv (set_upd (ob_upd o ++ [np]) o)) at 1. by eapply add_reader_effect. }
    destruct dedup; [|apply Hr].
    destruct (e_hash E _ data) as [d|]; [|by apply effect_quiet].
    destruct (already_exists _ _ _ _ _) as [[]|]; [by apply effect_quiet| |by apply effect_quiet].
    destruct (get_duplicates _ _); [apply Hr|].
    apply (effect_set_upd E _ (ob_upd o ++ [np])). apply on_inv_effect; [apply ext_rel_copy|apply copy_manifest].
  - unfold ob_add_reader. destruct files as [|f fs]; [apply effect_refl|].
    destruct (inv_writeable (ob_inv o)) eqn:Hw; [|apply effect_refl].
    destruct (build_names E (ob_inv o) (f :: fs) area) as [[ps m]|] eqn:Hb; [|apply effect_refl].
    unfold build_names in Hb. destruct (state_paths E (f :: fs) area); [|done].
    destruct (e_manifest_path E f area) as [mp|] eqn:Hmp; [|done]. injection Hb as _ <-.
    by eapply add_reader_effect.
  - unfold ob_delete. destruct (inv_writeable (ob_inv o)); [|apply effect_refl].
    destruct (already_exists _ _ _ _ _) as [[]|]; [|apply effect_refl..].
    apply on_inv_effect; [apply ext_rel_delete|apply delete_manifest].
  - unfold ob_rename. destruct (inv_writeable (ob_inv o)); [|apply effect_refl].
    destruct (already_exists _ _ _ _ _) as [[]|]; [|apply effect_refl..].
    apply on_inv_effect; [apply ext_rel_rename|apply rename_manifest].
  - unfold ob_copy. destruct (inv_writeable (ob_inv o)); [|apply effect_refl].
    apply on_inv_effect; [apply ext_rel_copy|apply copy_manifest].
Qed.
Lemma echo_effect E op orc o : effect E op o (ob_echo_delete E orc o).1.
Proof.
  unfold ob_echo_delete. destruct (e_state_path E "." ""); [|apply effect_refl].
  apply on_inv_effect; [apply ext_rel_echo|apply echo_manifest].
Qed.

(** * Where the effects of a history go *)

(** The handle of a session that started with inventory [i0] and head number [n0]; [Q] holds of every path written. *)
Definition sess (i0 : inventory) (n0 : N) (Q : string → Prop) (o : object) : Prop :=
  (∃ m, head_is (ob_inv o) m ∧ (n0 <= m)%N ∧ (inv_writeable (ob_inv o) = true → n0 < m)%N) ∧
  inv_padding (ob_inv o) = inv_padding i0 ∧ inv_contentdir (ob_inv o) = inv_contentdir i0 ∧
  inv_alg (ob_inv o) = inv_alg i0 ∧ (ob_echo o = true → inv_writeable (ob_inv o) = true) ∧
  Forall (λ e, Q (ev_path e)) (ob_trace o).

(** Below the directory of a version newer than [n0]. *)
Definition in_new_version (i0 : inventory) (n0 : N) (p : string) : Prop :=
  ∃ k, (n0 < k)%N ∧ below (version_name (inv_padding i0) k) p.

Lemma sess_head i0 n0 Q o :
  sess i0 n0 Q o → inv_writeable (ob_inv o) = true →
  ∃ k, (n0 < k)%N ∧ inv_head (ob_inv o) = version_name (inv_padding i0) k.
Proof.
  intros ((m & (Hh & _) & _ & Hw) & Hp & _) Hwr. specialize (Hw Hwr). exists m. split; [done|].
  rewrite decide_False in Hh by lia. by rewrite <- Hp.
Qed.
Lemma sess_manifest_name i0 n0 Q o mp :
  sess i0 n0 Q o → inv_writeable (ob_inv o) = true → plain_name (content_name i0) → clean_rel mp →
  ∃ k, (n0 < k)%N ∧ manifest_name (ob_inv o) mp = version_name (inv_padding i0) k +:+ "/" +:+ content_name i0 +:+ "/" +:+ mp.
Proof.
  intros Hs Hw Hc Hm. destruct (sess_head _ _ _ _ Hs Hw) as (k & Hk & Hh). exists k. split; [done|].
  destruct Hs as (_ & _ & Hcd & _). assert (content_name (ob_inv o) = content_name i0) as Hcn
    by (unfold content_name; by rewrite Hcd).
  rewrite manifest_name_clean; [by rewrite Hh, Hcn| |by rewrite Hcn|done].
  rewrite Hh. apply version_name_plain.
Qed.
Lemma sess_effect E op i0 n0 (Q : string → Prop) o o' :
  plain_name (content_name i0) → (∀ p, in_new_version i0 n0 p → Q p) → clean_target E op →
  effect E op o o' → sess i0 n0 Q o → sess i0 n0 Q o'.
Proof.
  intros Hc HQ Hcl [H1 H2 H3] Hs. pose proof Hs as ((m & Hm & Hle & Hw) & Hp & Hcd & Ha & He & Ht).
  split; [|split; [|split; [|split; [|split]]]].
  - exists m. rewrite (er_wr _ _ H1). split; [|done]. by apply (ext_rel_head_is (ob_inv o)).
  - by rewrite (er_pad _ _ H1).
  - by rewrite (er_cdir _ _ H1).
  - by rewrite (er_alg _ _ H1).
  - by rewrite H2, (er_wr _ _ H1).
  - destruct H3 as [[H3 _]|(f & area & mp & data & Hwr & Hop & Hmp & H3)]; [by rewrite H3|].
    assert (clean_rel mp) as Hrel.
    { destruct op as [? path a ?|? [|g gs] a|? ?|? ? ?|? ?]; simpl in *; try done; injection Hop as -> ->; auto. }
    destruct (sess_manifest_name _ _ _ _ _ Hs Hwr Hc Hrel) as (k & Hk & Hname).
    assert (Q (manifest_name (ob_inv o) mp)) as Hq.
    { apply HQ. exists k. split; [done|]. rewrite Hname. by eexists. }
    destruct H3 as [[H3 _]|[H3 _]]; rewrite H3; apply Forall_app; (split; [done|]); repeat constructor; done.
Qed.
Lemma sess_start i0 n0 Q now msg un ua e o :
  sess i0 n0 Q o → sess i0 n0 Q (ob_start now msg un ua e o).1.
Proof.
  intros ((m & Hm & Hle & Hw) & Hp & Hcd & Ha & He & Ht). unfold ob_start, on_inv. simpl.
  pose proof (new_version_head_is (ob_inv o) m now msg un ua Hm) as Hn.
  destruct (new_version_spec (ob_inv o) m now msg un ua Hm) as (s & Heq & _). rewrite Heq in Hn |- *. simpl in *.
  split; [exists (m + 1)%N; repeat split; try apply Hn; intros; lia|]. done.
Qed.
Lemma sess_store_version E i0 n0 (Q : string → Prop) o :
  (∀ p, in_new_version i0 n0 p → Q p) → sess i0 n0 Q o → sess i0 n0 Q (store_inventory E true false o).1.
Proof.
  intros HQ Hs. unfold store_inventory. destruct (inv_writeable (ob_inv o)) eqn:Hw; [|done].
  destruct (e_hash E _ _) as [d|]; [|done].
  destruct (sess_head _ _ _ _ Hs Hw) as (k & Hk & Hh).
  destruct Hs as (H1 & Hp & Hcd & Ha & He & Ht).
  repeat (split; [done|]). simpl. apply Forall_app. split; [done|].
  repeat constructor; simpl; apply HQ; exists k; (split; [done|]); rewrite Hh.
  - by exists "inventory.json".
  - by exists "inventory.json".
  - by eexists.
  - by eexists.
Qed.

(** The paths Close writes. *)
Definition root_file (i0 : inventory) (p : string) : Prop :=
  p = "inventory.json" ∨ p = sidecar_name (inv_alg i0) ∨ below "extensions" p.
Lemma sess_close E i0 n0 (Q : string → Prop) o :
  (∀ p, root_file i0 p → Q p) → sess i0 n0 Q o →
  sess i0 n0 Q (andThen (store_inventory E false true o) (store_extensions E)).1.
Proof.
  intros HQ Hs. unfold store_inventory. destruct (inv_writeable (ob_inv o)) eqn:Hw; [|done].
  destruct (e_hash E _ _) as [d|]; [|done]. simpl.
  destruct Hs as (H1 & Hp & Hcd & Ha & He & Ht). repeat (split; [done|]). simpl. rewrite Ha.
  apply Forall_app. split.
  - apply Forall_app. split; [done|]. repeat constructor; simpl; apply HQ; unfold root_file; auto.
  - apply Forall_forall. intros e He'. apply elem_of_list_In, in_flat_map in He' as ([f b] & _ & Hin). simpl in Hin.
    apply HQ. right. right. exists f. by destruct Hin as [<-|[<-|[]]].
Qed.


Section runs.
  Context (E : env) (i0 : inventory) (n0 : N) (Q : string → Prop).
  Context (Hc : plain_name (content_name i0)) (HQ : ∀ p, in_new_version i0 n0 p → Q p).
  Lemma sess_run_noclose ops o :
    Forall (λ p : oracle * oop, p.2 ≠ OClose) ops → clean_names E ops → sess i0 n0 Q o → sess i0 n0 Q (orun E ops o).
  Proof.
    intros Hn Hcl Hs.
    eapply (guarded_run_noclose E (λ _ op _, clean_target E op) (λ _, True)); [..|done|by apply all_guarded|done].
    - intros orc op x Hg Hx. eapply sess_effect; [done..|apply sop_effect|done].
    - intros. by apply sess_start.
    - intros orc x _ _ Hx. eapply (sess_effect E (SDelete "" "")); [done..|apply echo_effect|done].
    - intros x _ Hx. by apply sess_store_version.
    - done.
  Qed.
  Lemma sess_run ops o :
    (∀ p, root_file i0 p → Q p) → clean_names E ops → sess i0 n0 Q o → sess i0 n0 Q (orun E ops o).
  Proof.
    intros Hr Hcl Hs.
    eapply (guarded_run E (λ _ op _, clean_target E op) (λ _, True)); [..|by apply all_guarded|done].
    - intros orc op x Hg Hx. eapply sess_effect; [done..|apply sop_effect|done].
    - intros. by apply sess_start.
    - intros orc x _ _ Hx. eapply (sess_effect E (SDelete "" "")); [done..|apply echo_effect|done].
    - intros x _ Hx. by apply sess_store_version.
    - intros x _ Hx. by apply sess_close.
    - done.
  Qed.
End runs.

Lemma sess_open i n Q : head_is i n → sess i n Q (open_object i).
Proof.
  intros H. split; [exists n; repeat split; try apply H; [lia|done]|]. repeat split; try done; constructor.
Qed.

(** ** C15 *)
Lemma root_unchanged E i ops s s' p :
  head_newest i → plain_name (content_name i) → clean_names E ops →
  Forall (λ x : oracle * oop, x.2 ≠ OClose) ops →
  crash s (ob_trace (orun E ops (open_object i))) s' →
  str_mem slash p = false → s' !! p = s !! p.
Proof.
  intros Hn Hc Hcl Hno Hcr Hp. apply head_newest_is in Hn as [n Hn].
  pose proof (sess_run_noclose E i n (λ q, in_new_version i n q) Hc (λ p H, H) ops (open_object i) Hno Hcl (sess_open i n _ Hn)) as Hs.
  destruct Hs as (_ & _ & _ & _ & _ & Ht). eapply crash_other; [done|].
  eapply Forall_impl; [exact Ht|]. intros e (k & _ & Hb) <-. by eapply not_below in Hb.
Qed.

(** ** C16 *)
Lemma head_number_is i n : head_number i n → head_is i n.
Proof.
  intros [H Hh]. apply head_newest_is in H as [k Hk]. assert (k = n) as ->; [|done].
  pose proof Hk as [Hk1 _]. rewrite Hh in Hk1. revert Hk1.
  repeat case_decide; subst; intros E; auto; try by (exfalso; eapply version_name_nonempty; eauto).
  by apply version_name_inj in E.
Qed.

Lemma writes_where E i n ops s s' p :
  head_number i n → plain_name (content_name i) → clean_names E ops →
  crash s (ob_trace (orun E ops (open_object i))) s' → s' !! p ≠ s !! p →
  p = "inventory.json" ∨ p = sidecar_name (inv_alg i) ∨ below "extensions" p ∨
  ∃ k, (n < k)%N ∧ below (version_name (inv_padding i) k) p.
Proof.
  intros Hn Hc Hcl Hcr Hp. apply head_number_is in Hn.
  set (Q := λ q, root_file i q ∨ in_new_version i n q).
  pose proof (sess_run E i n Q Hc (λ p H, or_intror H) ops (open_object i) (λ p H, or_introl H) Hcl (sess_open i n _ Hn)) as Hs.
  destruct Hs as (_ & _ & _ & _ & _ & Ht).
  destruct (decide (Exists (λ e, ev_path e = p) (ob_trace (orun E ops (open_object i))))) as [Hex|Hex].
  - apply Exists_exists in Hex as (e & He & <-). rewrite Forall_forall in Ht. destruct (Ht e He) as [[?|[?|?]]|?]; auto.
  - exfalso. apply Hp. eapply crash_other; [done|]. apply Forall_forall. intros e He Heq. apply Hex, Exists_exists. eauto.
Qed.
