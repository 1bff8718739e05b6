(** What sessions do on a handle that was loaded while the inventory could not be read. *)
From Coq Require Import Ascii.
From stdpp Require Import base list strings gmap.
From Coq Require Import ZArith Lia.
From Verif Require Import GoStr PathModel InventoryModel InventorySpec InventoryProofs ObjectModel ObjectSpec ObjectProofs
  LookupProofs AddProofs RunProofs CrashSpec PathProofs CrashProofs LoadModel UnreadModel.

(** Only truncations, all below the content directory of a version. *)
Definition truncates (e : ev) : Prop := ∃ p k rest, e = ECreate p ∧ (0 < k)%N ∧ p = version_name 0 k +:+ "/content/" +:+ rest.
Definition blank_like (o : object) : Prop := inv_alg (ob_inv o) = "" ∧ inv_fixalgs (ob_inv o) = [].

Lemma checksums_blank E data : e_hash E "" data = None → checksums E (remove_dups ([] ++ [""])) data = None.
Proof. intros H. replace (remove_dups ([] ++ [""])) with [""] by reflexivity. cbn. by rewrite H. Qed.
Lemma add_reader_blank E orc data exts m o : (∀ x, e_hash E "" x = None) → blank_like o →
  ∃ u, add_reader E orc data exts m o = (emit [ECreate m] (set_upd u o), SErr "cannot copy").
Proof.
  intros HE [Ha Hf]. unfold add_reader. rewrite Ha, Hf, checksums_blank by done. by eexists.
Qed.

(** Additions fail. *)
Definition adds (op : sop) : Prop := match op with SAdd _ _ _ _ | SAddReader _ _ _ => True | _ => False end.
Lemma adds_fail E orc op o : (∀ x, e_hash E "" x = None) → blank_like o → adds op → (sop_step E orc op o).2 ≠ SOk.
Proof.
  intros HE Hb Hop. destruct op as [data path area dedup|data files area| | |]; try done; cbn [sop_step].
  - unfold ob_add. destruct (inv_writeable _); [|done]. destruct (build_names _ _ _ _) as [[ps m]|]; [|done].
    destruct (e_state_path _ _ _) as [np|]; [|done].
    assert (∀ orc', (add_reader E orc' data ps m (set_upd (ob_upd o ++ [np]) o)).2 ≠ SOk) as Hr.
    { intros orc'. destruct (add_reader_blank E orc' data ps m (set_upd (ob_upd o ++ [np]) o) HE Hb) as [u ->]. done. }
    destruct dedup; [|apply Hr]. destruct Hb as [-> _]. by rewrite HE.
  - unfold ob_add_reader. destruct files as [|f fs]; [done|]. destruct (inv_writeable _); [|done].
    destruct (build_names _ _ _ _) as [[ps m]|]; [|done]. by destruct (add_reader_blank E orc data ps m o HE Hb) as [u ->].
Qed.
(** A call leaves only truncations. *)
Lemma step_trace E orc op o : (∀ x, e_hash E "" x = None) → blank_like o →
  ob_trace (sop_step E orc op o).1 = ob_trace o ∨
  (match op with SAdd _ _ _ d => d = false | SAddReader _ _ _ => True | _ => False end ∧
   ∃ p, ob_trace (sop_step E orc op o).1 = ob_trace o ++ [ECreate p]).
Proof.
  intros HE Hb. destruct op as [data path area dedup|data files area|f d|a b d|a d]; cbn [sop_step].
  - unfold ob_add. destruct (inv_writeable _); [|by left]. destruct (build_names _ _ _ _) as [[ps m]|]; [|by left].
    destruct (e_state_path _ _ _) as [np|]; [|by left]. destruct dedup.
    + left. destruct Hb as [-> _]. by rewrite HE.
    + right. split; [done|]. exists m. by destruct (add_reader_blank E (shift_oracle orc) data ps m (set_upd (ob_upd o ++ [np]) o) HE Hb) as [u ->].
  - unfold ob_add_reader. destruct files as [|f fs]; [by left|]. destruct (inv_writeable _); [|by left].
    destruct (build_names _ _ _ _) as [[ps m]|]; [|by left]. right. split; [done|]. exists m. by destruct (add_reader_blank E orc data ps m o HE Hb) as [u ->].
  - left. unfold ob_delete. destruct (inv_writeable _); [|done]. destruct (already_exists _ _ _ _ _) as [[]|]; [|done..].
    unfold on_inv. by destruct (delete_file _ _).
  - left. unfold ob_rename. destruct (inv_writeable _); [|done]. destruct (already_exists _ _ _ _ _) as [[]|]; [|done..].
    unfold on_inv. by destruct (rename_file _ _ _).
  - left. unfold ob_copy. destruct (inv_writeable _); [|done]. unfold on_inv. by destruct (copy_file _ _ _).
Qed.

Section runs.
  Context (E : env) (HE : ∀ x, e_hash E "" x = None).

  Lemma effect_blank op o o' : effect E op o o' → blank_like o → blank_like o'.
  Proof. intros [H _ _] [H1 H2]. split; [by rewrite (er_alg _ _ H)|by rewrite (er_fixalgs _ _ H)]. Qed.
  Lemma start_blank now msg un ua e o : blank_like o → blank_like (ob_start now msg un ua e o).1 ∧ ob_trace (ob_start now msg un ua e o).1 = ob_trace o.
  Proof.
    intros [H1 H2]. unfold ob_start, on_inv, new_version. cbn [ob_inv set_echo].
    destruct (next_head (ob_inv o)) as [h|]; [|by split]. destruct (decide (inv_head (ob_inv o) = "")); [by split|].
    cbv zeta. by destruct (inv_versions _ !! inv_head (ob_inv o)); split.
  Qed.
  Lemma echo_blank orc o : blank_like o → blank_like (ob_echo_delete E orc o).1 ∧ ob_trace (ob_echo_delete E orc o).1 = ob_trace o.
  Proof.
    intros H. split; [by eapply (effect_blank (SDelete "" "")); [apply echo_effect|]|]. unfold ob_echo_delete.
    destruct (e_state_path E "." ""); [|done]. unfold on_inv. by destruct (echo_delete _ _ _ _).
  Qed.
  Lemma store_blank v r o : blank_like o → (store_inventory E v r o).1 = o ∧ (store_inventory E v r o).2 ≠ SOk.
  Proof. intros [H1 _]. unfold store_inventory. destruct (inv_writeable _); [|done]. by rewrite H1, HE. Qed.

  (** An invariant of the calls, of StartUpdate and of the deletions is an invariant of histories. *)
  Lemma blank_run (G : sop → Prop) (P : object → Prop) ops o :
    (∀ orc op x, G op → blank_like x → P x → P (sop_step E orc op x).1) →
    (∀ now msg un ua e x, blank_like x → P x → P (ob_start now msg un ua e x).1) →
    (∀ orc x, blank_like x → P x → P (ob_echo_delete E orc x).1) → (∀ x u, P x → P (set_upd u x)) →
    all_ops (λ _, G) (λ _, True) ops → blank_like o → P o → blank_like (orun E ops o) ∧ P (orun E ops o).
  Proof using HE.
    intros HT HS He Hu Hall Hb Ht.
    eapply (guarded_run E (λ _ op _, G op) (λ _, True) (λ o, blank_like o ∧ P o)); [..|by apply all_guarded|done].
    - intros orc op x Hg [H1 H2]. split; [eapply effect_blank; [apply sop_effect|done]|by apply HT].
    - intros now msg un ua e x [H1 H2]. split; [by apply start_blank|by apply HS].
    - intros orc x _ _ [H1 H2]. split; [by apply echo_blank|by apply He].
    - intros x _ [H1 H2]. destruct (store_blank true false x H1) as [-> _]. done.
    - intros x _ [H1 H2]. destruct (store_blank false true x H1) as [H3 H4]. destruct (store_inventory E false true x) as [y [| |]]; cbn in *; subst; done.
    - intros x [H1 H2]. split; [done|by apply Hu].
  Qed.

  (** Every effect of a session is a truncation. *)
  Lemma blank_truncates typ ops : clean_names E ops → Forall truncates (ob_trace (orun E ops (open_object (blank typ)))).
  Proof using HE.
    intros Hcl.
    assert (plain_name (content_name (blank typ))) as Hc by (repeat split; done).
    destruct (blank_run (clean_target E) (λ x, sess (blank typ) 0 (λ _, True) x ∧ Forall truncates (ob_trace x)) ops (open_object (blank typ))) as (_ & _ & H); [..|exact H].
    - intros orc op x Hg Hb [H1 H2]. split; [eapply sess_effect; [done|done|exact Hg|apply sop_effect|done]|].
      pose proof (ef_trace _ _ _ _ (sop_effect E orc op x)) as [[-> _]|(f & area & mp & data & Hw & Hop & Hmp & H3)]; [done|].
      assert (clean_rel mp) as Hrel.
      { destruct op as [? path a ?|? [|g gs] a|? ?|? ? ?|? ?]; simpl in *; try done; injection Hop as -> ->; auto. }
      destruct (sess_manifest_name _ _ _ _ _ H1 Hw Hc Hrel) as (k & Hk & Hname).
      destruct H3 as [[-> _]|[H3 _]].
      + apply Forall_app. split; [done|]. repeat constructor. exists (manifest_name (ob_inv x) mp), k, mp. split; [done|]. split; [done|]. exact Hname.
      + exfalso. destruct (step_trace E orc op x HE Hb) as [H4|(_ & p & H4)]; rewrite H3 in H4; apply (f_equal length) in H4; rewrite ?app_length in H4; cbn in H4; lia.
    - intros now msg un ua e x Hb [H1 H2]. split; [by apply sess_start|]. by destruct (start_blank now msg un ua e x Hb) as [_ ->].
    - intros orc x Hb [H1 H2]. split; [|by destruct (echo_blank orc x Hb) as [_ ->]].
      eapply (sess_effect E (SDelete "" "")); [done|done|done|apply echo_effect|done].
    - by intros x u [H1 H2].
    - done.
    - done.
    - split; [|constructor]. apply sess_open. split; [done|]. split; [done|]. intros ver [v Hv]. change ((∅ : gmap string version) !! ver = Some v) in Hv. by rewrite lookup_empty in Hv.
  Qed.
  (** With de-duplication there is none. *)
  Definition looks_first (op : sop) : Prop := match op with SAdd _ _ _ d => d = true | SAddReader _ _ _ => False | _ => True end.
  Lemma blank_quiet typ ops : all_ops (λ _, looks_first) (λ _, True) ops → ob_trace (orun E ops (open_object (blank typ))) = [].
  Proof using HE.
    intros Hall. destruct (blank_run looks_first (λ x, ob_trace x = []) ops (open_object (blank typ))) as (_ & H); [..|exact H]; try done.
    - intros orc op x Hg Hb Hx. destruct (step_trace E orc op x HE Hb) as [->|(H & _)]; [done|]. by destruct op as [? ? ? []| | | |].
    - intros now msg un ua e x Hb Hx. by destruct (start_blank now msg un ua e x Hb) as [_ ->].
    - intros orc x Hb Hx. by destruct (echo_blank orc x Hb) as [_ ->].
  Qed.
  (** No call adds a file, and nothing is stored. *)
  Lemma blank_stays typ ops : blank_like (orun E ops (open_object (blank typ))).
  Proof using HE.
    destruct (blank_run (λ _, True) (λ _, True) ops (open_object (blank typ))) as (H & _); try done.
    apply Forall_forall. intros [orc op] _. destruct op as [| |h| | |]; cbn; try done. split; [done|].
    assert (∀ l : list hcall, Forall (all_hcall (λ _ _, True)) l) as Hl by (intros l; apply Forall_forall; by intros [] _).
    induction h; cbn; [apply Hl|]. split; [apply Hl|]. by split; [apply Hl|].
  Qed.
End runs.

(** Files that truncations leave are as before or empty. *)
Lemma creates_crash s l s' p : crash s l s' → Forall (λ e, ∃ q, e = ECreate q) l → s' !! p = s !! p ∨ s' !! p = Some "".
Proof.
  induction 1 as [s l|s q b1 b2 l|s e l s' Hc IH]; intros HF; [by left|apply Forall_cons in HF as [[q' H] _]; done|].
  apply Forall_cons in HF as [[q ->] HF]. destruct (IH HF) as [H|H]; [|by right]. rewrite H. cbn.
  destruct (decide (q = p)) as [->|Hq]; [right; by rewrite lookup_insert|left; by rewrite lookup_insert_ne].
Qed.
Lemma unread_blank hash parse typ r o : r "inventory.json" = Failed → load_handle hash parse typ r = inl o → o = open_object (blank typ).
Proof.
  intros Hr. unfold load_handle, load_from. cbv zeta. change ("" +:+ "inventory.json") with "inventory.json". rewrite Hr. by intros [= <-].
Qed.
