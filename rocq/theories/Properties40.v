(** The statistics of storage roots and objects. *)
From Coq Require Import Ascii.
From stdpp Require Import base list strings gmap.
From Coq Require Import ZArith Lia.
From Verif Require Import GoStr InventoryModel StatModel StatProofs Fixtures.

(** * C84: the statistics tell what the inventory says *)

(** A kind of information is asked for by name, or by giving no names. *)
Definition asked (info : list stat_info) (k : stat_info) : Prop := info = [] ∨ k ∈ info.
Global Instance asked_dec info k : Decision (asked info k).
Proof. unfold asked. apply _. Defined.
(** The files of a version, each with its content paths if these are to be shown. *)
Definition files_of (show : bool) (m st : smap) : list (string * list string) :=
  map_to_list st ≫= λ '(d, ps), (λ p, (p, if show then default [] (m !! d) else [])) <$> ps.
Definition lines (o : stat_order) (x : stat_object) (info : list stat_info) : list line := (object_stat o x info).1.

Lemma wants_asked info k : wants info k = bool_decide (asked info k).
Proof. apply eq_true_iff_eq. by rewrite wants_spec, bool_decide_eq_true. Qed.

(** The titles are those of the versions, and only if they are asked for. *)
Theorem C84_titles_partial o x info ver :
  stat_order_ok o → LVersion ver ∈ lines o x info ↔ asked info ObjectVersions ∧ is_Some (inv_versions (st_inv x) !! ver).
Proof.
  intros Ho. unfold lines. rewrite object_stat_lines, !elem_of_app.
  assert (H : LVersion ver ∈ stat_versions o info (st_inv x) ↔ asked info ObjectVersions ∧ is_Some (inv_versions (st_inv x) !! ver)).
  { unfold stat_versions. rewrite wants_asked. case_bool_decide as Ha.
    - rewrite title_in. destruct Ho as (_ & _ & Hv & _). rewrite (Hv (inv_versions (st_inv x))). split.
      + intros H. split; [done|]. apply elem_of_list_fmap in H as ([u v] & -> & H). apply elem_of_map_to_list in H. by exists v.
      + intros (_ & v & H). apply elem_of_list_fmap. exists (ver, v). split; [done|]. by apply elem_of_map_to_list.
    - split; [intros H; by apply elem_of_nil in H|]. by intros [? _]. }
  rewrite H. split.
  - intros [H1|[H1|H1]]; [by apply stat_head_title in H1|done|]. by apply stat_configs_closed in H1.
  - intros H1. right. by left.
Qed.

(** Under the title of a version stand its user, its date and its message, and then its logical files; every logical file is followed by the content
    paths that the manifest has for its digest. *)
Theorem C84_version_partial o x info ver v :
  stat_order_ok o → asked info ObjectVersions → inv_versions (st_inv x) !! ver = Some v →
  ∃ rest, under ver (lines o x info) = Some (LUser (v_uname v) (v_uaddr v) :: LCreated (v_created v) :: LMessage (v_message v) :: rest) ∧
    Forall (λ l, match l with LFile _ | LContent _ => True | _ => False end) rest ∧
    files rest ≡ₚ if bool_decide (asked info ObjectVersionState) then files_of (bool_decide (asked info ObjectManifest)) (inv_manifest (st_inv x)) (v_state v) else [].
Proof.
  intros Ho Ha Hv. unfold lines. rewrite object_stat_lines.
  rewrite under_app by apply stat_head_title. unfold stat_versions. rewrite wants_asked, bool_decide_true by done.
  rewrite (under_versions o info (inv_manifest (st_inv x)) (so_versions o (inv_versions (st_inv x))) _ ver v).
  - unfold body. cbn [fst snd]. eexists. split; [reflexivity|]. rewrite !wants_asked. split.
    + case_bool_decide; [apply stat_state_plain|constructor].
    + case_bool_decide; [|done]. unfold stat_state. rewrite files_state_aux. unfold files_of. rewrite wants_asked.
      destruct Ho as (_ & _ & _ & Hs). by rewrite (Hs ver (v_state v)).
  - apply stat_configs_closed.
  - by apply fst_nodup.
  - destruct Ho as (_ & _ & Hs & _). rewrite (Hs (inv_versions (st_inv x))). by apply elem_of_map_to_list.
Qed.

(** The four lines about the whole object: algorithm, head, fixity algorithms in some order, the number of content paths and that of digests. *)
Theorem C84_summary o x info :
  stat_order_ok o → ∃ algs rest,
    lines o x info = LPath (inv_alg (st_inv x)) :: LHead (inv_head (st_inv x)) :: LFixity algs ::
      LManifest (N.of_nat (length (map_to_list (inv_manifest (st_inv x)) ≫= snd))) (N.of_nat (size (dom (inv_manifest (st_inv x))))) :: rest ∧
    algs ≡ₚ elements (dom (inv_fixity (st_inv x))) ∧
    Forall (λ l, match l with LPath _ | LHead _ | LFixity _ | LManifest _ _ => False | _ => True end) rest.
Proof.
  intros Ho. unfold lines. rewrite object_stat_lines. unfold stat_head. destruct Ho as (Hf & Hm & _ & _).
  assert (Hl : length (so_manifest o (inv_manifest (st_inv x)) ≫= snd) = length (map_to_list (inv_manifest (st_inv x)) ≫= snd)).
  { apply Permutation_length. by rewrite (Hm (inv_manifest (st_inv x))). }
  eexists _, _. split; [|split].
  - cbn [app]. rewrite foldl_count, Hl, size_dom, N.add_0_l. reflexivity.
  - rewrite (Hf (inv_fixity (st_inv x))). apply NoDup_Permutation; [apply NoDup_fst_map_to_list|apply NoDup_elements|].
    intros a. rewrite elem_of_elements, elem_of_dom, elem_of_list_fmap. split.
    + intros ([b y] & -> & H). apply elem_of_map_to_list in H. by exists y.
    + intros [y H]. exists (a, y). split; [done|]. by apply elem_of_map_to_list.
  - apply Forall_app. split.
    + unfold stat_versions. destruct (wants info ObjectVersions); [|constructor]. apply Forall_bind, Forall_true. intros p. unfold stat_version.
      repeat (constructor; [done|]). destruct (wants info ObjectVersionState); [|constructor].
      eapply Forall_impl; [apply stat_state_plain|]. by intros [].
    + unfold stat_configs. destruct (wants info ObjectExtensionConfigs); [|constructor]. destruct (st_initial x); [|constructor].
      repeat (constructor; [done|]). apply Forall_fmap, Forall_true. done.
Qed.

(** The configurations of the extensions, in their order, if they are asked for. *)
Theorem C84_configs o x info j :
  st_initial x = Some j →
  (object_stat o x info).2 = SOk ∧
  omap (λ l, match l with LInitial c | LConfig c => Some c | _ => None end) (lines o x info)
    = if bool_decide (asked info ObjectExtensionConfigs) then j :: st_configs x else [].
Proof.
  intros Hj. unfold lines. rewrite object_stat_lines. unfold object_stat, stat_configs. rewrite Hj.
  assert (H1 : ∀ ls, Forall (λ l, match l with LInitial _ | LConfig _ => False | _ => True end) ls →
    omap (λ l, match l with LInitial c | LConfig c => Some c | _ => None end) ls = []).
  { induction 1 as [|[] ls H _ IH]; cbn in *; done. }
  rewrite wants_asked. rewrite !omap_app. rewrite (H1 (stat_head _ _)) by (repeat constructor).
  rewrite (H1 (stat_versions _ _ _)).
  - case_bool_decide; cbn; [|done]. split; [done|]. f_equal. induction (st_configs x) as [|c l IH]; cbn; [done|]. by f_equal.
  - unfold stat_versions. destruct (wants info ObjectVersions); [|constructor]. apply Forall_bind, Forall_true. intros p. unfold stat_version.
    repeat (constructor; [done|]). destruct (wants info ObjectVersionState); [|constructor].
    eapply Forall_impl; [apply stat_state_plain|]. by intros [].
Qed.

(** The statistics of a storage root.  [titles]: the objects that are shown. *)
Definition titles (ls : list rline) : list string := omap (λ l, match l with RObject f => Some f | _ => None end) ls.
(** The lines below the title of object [f]. *)
Fixpoint below_until (ls : list rline) : list (string * line) :=
  match ls with RLine i l :: r => (i, l) :: below_until r | _ => [] end.
Fixpoint below (f : string) (ls : list rline) : option (list (string * line)) :=
  match ls with
  | [] => None
  | l :: r => if decide (l = RObject f) then Some (below_until r) else below f r
  end.
(** The object can be loaded and its configuration can be shown. *)
Definition showable (info : list stat_info) (x : stat_object) : Prop := asked info ObjectExtensionConfigs → is_Some (st_initial x).

Lemma object_stat_ok o x info : showable info x → (object_stat o x info).2 = SOk.
Proof.
  intros H. unfold object_stat, stat_configs. rewrite wants_asked. case_bool_decide as Ha; [|done]. destruct (H Ha) as [j ->]. done.
Qed.
Lemma titles_app a b : titles (a ++ b) = titles a ++ titles b.
Proof. apply omap_app. Qed.
Lemma titles_lines i (ls : list line) : titles (RLine i <$> ls) = [].
Proof. induction ls; done. Qed.
Lemma below_app f a b : RObject f ∉ a → below f (a ++ b) = below f b.
Proof.
  induction a as [|l a IH]; cbn; intros H; [done|]. apply not_elem_of_cons in H as [H1 H2]. rewrite decide_False by congruence. by apply IH.
Qed.
Lemma below_until_lines i (ls : list line) b : below_until ((RLine i <$> ls) ++ b) = ((i,.) <$> ls) ++ below_until b.
Proof. induction ls as [|l ls IH]; cbn; [done|]. by rewrite IH. Qed.
Lemma root_objects_all o info r fs :
  (∀ f, f ∈ fs → ∃ x, sr_by_folder r f = inl x ∧ showable info x) → NoDup fs →
  (root_objects o info r fs).2 = SOk ∧ titles (root_objects o info r fs).1 = fs ∧
  below_until (root_objects o info r fs).1 = [] ∧
  ∀ f x, f ∈ fs → sr_by_folder r f = inl x → below f (root_objects o info r fs).1 = Some ((inv_id (st_inv x),.) <$> lines (o f) x info).
Proof.
  induction fs as [|f fs IH]; intros H Hn; cbn [root_objects].
  { split; [done|]. split; [done|]. split; [done|]. intros g x Hg. by apply elem_of_nil in Hg. }
  apply NoDup_cons in Hn as [Hf Hn]. destruct (H f) as (x & Hx & Hs); [by left|]. rewrite Hx. unfold root_object.
  pose proof (object_stat_ok (o f) x info Hs) as Hok. destruct (object_stat (o f) x info) as [ls e] eqn:Eo. cbn in Hok. subst e.
  destruct IH as (I1 & I2 & I3 & I4); [intros g Hg; apply H; by right|done|].
  destruct (root_objects o info r fs) as [ls' e]. cbn [fst snd] in *.
  split; [done|]. split; [|split].
  - rewrite titles_app, I2. cbn. by rewrite titles_lines.
  - done.
  - intros g y Hg Hy. cbn [app below]. case_decide as E.
    + injection E as ->. rewrite Hx in Hy. injection Hy as ->. rewrite below_until_lines, I3, app_nil_r. unfold lines. by rewrite Eo.
    + rewrite below_app.
      * apply elem_of_cons in Hg as [-> |Hg]; [done|]. by apply I4.
      * intros Hin. apply elem_of_list_fmap in Hin as (l & [=] & _).
Qed.

(** If all objects can be loaded, every folder is shown, in the order of the folders, each with the statistics of its object. *)
Theorem C84_root_partial o r info fs j :
  sr_folders r = Some fs → NoDup fs → sr_initial r = Some j → (∀ f, f ∈ fs → ∃ x, sr_by_folder r f = inl x ∧ showable info x) →
  (root_stat o r "" "" info).2 = SOk ∧ RFolders fs ∈ (root_stat o r "" "" info).1 ∧
  (asked info Objects → titles (root_stat o r "" "" info).1 = fs ∧
    ∀ f x, f ∈ fs → sr_by_folder r f = inl x → below f (root_stat o r "" "" info).1 = Some ((inv_id (st_inv x),.) <$> lines (o f) x info)) ∧
  (¬ asked info Objects → titles (root_stat o r "" "" info).1 = []).
Proof.
  intros Hfs Hn Hj H. destruct (root_objects_all o info r fs H Hn) as (R1 & R2 & R3 & R4).
  unfold root_stat. rewrite decide_True by done. unfold root_all. rewrite Hfs, Hj.
  assert (Hc : ∃ cs, root_configs info r = (cs, SOk) ∧ (if wants info ExtensionConfigs then RInitial j :: RConfigs :: (RConfig <$> sr_configs r) else []) = cs ∧
    titles cs = [] ∧ ∀ f, RObject f ∉ cs).
  { unfold root_configs. rewrite Hj. destruct (wants info ExtensionConfigs).
    - eexists. split; [reflexivity|]. split; [reflexivity|]. split.
      + cbn. induction (sr_configs r); done.
      + intros f Hin. apply elem_of_cons in Hin as [[=]|Hin]. apply elem_of_cons in Hin as [[=]|Hin]. apply elem_of_list_fmap in Hin as (? & [=] & _).
    - exists []. split; [done|]. split; [done|]. split; [done|]. intros f Hin. by apply elem_of_nil in Hin. }
  destruct Hc as (cs & -> & -> & Hc1 & Hc2).
  rewrite wants_asked. case_bool_decide as Ha.
  - destruct (root_objects o info r fs) as [ls e]. cbn [fst snd] in *. subst e. split; [done|]. split; [|split].
    + right. right. apply elem_of_app. right. by left.
    + intros _. split.
      * change (titles (cs ++ RFolders fs :: cs ++ ls) = fs). rewrite titles_app, Hc1. change (titles (cs ++ ls) = fs). by rewrite titles_app, Hc1, R2.
      * intros f x Hf Hx. cbn [below]. rewrite !decide_False by done. rewrite below_app by done. cbn [below]. rewrite decide_False by done.
        rewrite below_app by done. by apply R4.
    + by intros [].
  - cbn [fst snd]. split; [done|]. split; [|split].
    + right. right. apply elem_of_app. right. by left.
    + by intros.
    + intros _. change (titles (cs ++ RFolders fs :: cs ++ []) = []). rewrite titles_app, Hc1. change (titles (cs ++ []) = []). by rewrite app_nil_r, Hc1.
Qed.

(** An object that is named by its folder or its identifier is shown whatever else is asked for; if it cannot be loaded, the call fails and says so. *)
Theorem C84_named o r path id info j :
  (path = "" ∨ id = "") → path +:+ id ≠ "" → sr_initial r = Some j →
  let load := if decide (path = "") then sr_by_id r id else sr_by_folder r path in
  (∀ x, load = inl x → showable info x → (root_stat o r path id info).2 = SOk ∧
    titles (root_stat o r path id info).1 = [path +:+ id] ∧
    below (path +:+ id) (root_stat o r path id info).1 = Some ((inv_id (st_inv x),.) <$> lines (o (path +:+ id)) x info)) ∧
  (∀ e, load = inr e → RCannot (path +:+ id) e ∈ (root_stat o r path id info).1 ∧ titles (root_stat o r path id info).1 = [] ∧
    (root_stat o r path id info).2 ≠ SOk).
Proof.
  intros _ Hne Hj load. unfold root_stat. rewrite decide_False by (intros [-> ->]; done).
  assert (Hc : ∃ cs, root_configs info r = (cs, SOk) ∧ titles cs = [] ∧ ∀ f, RObject f ∉ cs).
  { unfold root_configs. rewrite Hj. destruct (wants info ExtensionConfigs).
    - eexists. split; [reflexivity|]. split.
      + cbn. induction (sr_configs r); done.
      + intros f Hin. apply elem_of_cons in Hin as [[=]|Hin]. apply elem_of_cons in Hin as [[=]|Hin]. apply elem_of_list_fmap in Hin as (? & [=] & _).
    - exists []. split; [done|]. split; [done|]. intros f Hin. by apply elem_of_nil in Hin. }
  destruct Hc as (cs & -> & Hc1 & Hc2). unfold root_one. fold load. split.
  - intros x -> Hs. unfold root_object. pose proof (object_stat_ok (o (path +:+ id)) x info Hs) as Hok. unfold lines.
    destruct (object_stat (o (path +:+ id)) x info) as [ls e]. cbn [fst snd] in *. subst e. split; [done|]. split.
    + change (titles (cs ++ RObject (path +:+ id) :: (RLine (inv_id (st_inv x)) <$> ls)) = [path +:+ id]).
      rewrite titles_app, Hc1. cbn. by rewrite titles_lines.
    + cbn [below]. rewrite !decide_False by done. rewrite below_app by done. cbn [below]. rewrite decide_True by done.
      rewrite <- (app_nil_r (RLine _ <$> ls)), below_until_lines. cbn. by rewrite app_nil_r.
  - intros e ->. cbn [fst snd]. split; [|split; [|done]].
    + right. right. apply elem_of_app. right. by left.
    + change (titles (cs ++ [RCannot (path +:+ id) e]) = []). by rewrite titles_app, Hc1.
Qed.

(** When the call succeeds: the configuration of the root can be shown; the named object, or all objects if they are asked for, can be loaded and shown.
    Without a named object the configuration of the root is needed also if it is not asked for. *)
Lemma object_stat_status o x info : (object_stat o x info).2 = SOk ↔ showable info x.
Proof.
  split; [|apply object_stat_ok]. unfold object_stat, stat_configs, showable. rewrite wants_asked. case_bool_decide; [|by intros].
  destruct (st_initial x); [intros _ _; by eexists|done].
Qed.
Lemma root_object_status o info n x : (root_object o info n x).2 = SOk ↔ showable info x.
Proof. rewrite <- (object_stat_status o). unfold root_object. destruct (object_stat o x info) as [ls []]; cbn; naive_solver. Qed.
Lemma root_objects_status o info r fs :
  (root_objects o info r fs).2 = SOk ↔ ∀ f, f ∈ fs → ∃ x, sr_by_folder r f = inl x ∧ showable info x.
Proof.
  induction fs as [|f fs IH]; cbn [root_objects]; [split; [intros _ f H; by apply elem_of_nil in H|done]|].
  destruct (sr_by_folder r f) as [x|e] eqn:Hx.
  - pose proof (root_object_status (o f) info f x) as Hs. destruct (root_object (o f) info f x) as [ls e]. cbn in Hs.
    destruct (root_objects o info r fs) as [ls' e']. cbn in IH. split.
    + intros H g Hg. destruct e; [|done..]. cbn in H. apply elem_of_cons in Hg as [-> |Hg]; [exists x; split; [done|by apply Hs]|]. by apply IH.
    + intros H. destruct (H f) as (y & Hy & Hsy); [by left|]. rewrite Hx in Hy. injection Hy as <-. apply Hs in Hsy. subst e. cbn. apply IH.
      intros g Hg. apply H. by right.
  - cbn. split; [done|]. intros H. destruct (H f) as (y & Hy & _); [by left|]. by rewrite Hx in Hy.
Qed.
Theorem C84_status o r path id info :
  (root_stat o r path id info).2 = SOk ↔
  (asked info ExtensionConfigs → is_Some (sr_initial r)) ∧
  if decide (path = "" ∧ id = "") then
    is_Some (sr_initial r) ∧ ∃ fs, sr_folders r = Some fs ∧ (asked info Objects → ∀ f, f ∈ fs → ∃ x, sr_by_folder r f = inl x ∧ showable info x)
  else ∃ x, (if decide (path = "") then sr_by_id r id else sr_by_folder r path) = inl x ∧ showable info x.
Proof.
  unfold root_stat, root_configs.
  assert (A : (if decide (path = "" ∧ id = "") then root_all o info r else root_one o info r path id).2 = SOk ↔
    if decide (path = "" ∧ id = "") then
      is_Some (sr_initial r) ∧ ∃ fs, sr_folders r = Some fs ∧ (asked info Objects → ∀ f, f ∈ fs → ∃ x, sr_by_folder r f = inl x ∧ showable info x)
    else ∃ x, (if decide (path = "") then sr_by_id r id else sr_by_folder r path) = inl x ∧ showable info x).
  { destruct (decide (path = "" ∧ id = "")).
    - unfold root_all. rewrite !wants_asked. destruct (sr_folders r) as [fs|]; [|split; [done|]; intros (_ & fs & [=] & _)].
      destruct (sr_initial r) as [j|]; [|split; [done|]; by intros ([j [=]] & _)].
      pose proof (root_objects_status o info r fs) as Hs. case_bool_decide as Ha.
      + destruct (root_objects o info r fs) as [ls e]. cbn [snd] in *. rewrite Hs. split.
        * intros H. split; [by eexists|]. exists fs. by split.
        * intros (_ & fs' & [= <-] & H). by apply H.
      + cbn [snd]. split; [|done]. intros _. split; [by eexists|]. exists fs. by split.
    - unfold root_one. destruct (if decide (path = "") then sr_by_id r id else sr_by_folder r path) as [x|e].
      + rewrite root_object_status. split; [intros H; by exists x|]. by intros (y & [= <-] & H).
      + cbn. split; [done|]. by intros (y & [=] & _). }
  destruct (if decide (path = "" ∧ id = "") then root_all o info r else root_one o info r path id) as [ls e]. cbn [snd] in A.
  rewrite wants_asked. case_bool_decide as Ha.
  - destruct (sr_initial r) as [j|]; cbn [snd].
    + rewrite A. split; [intros H; split; [intros _; by eexists|done]|]. by intros [_ H].
    + split; [done|]. intros [H _]. by destruct (H Ha).
  - cbn [snd]. rewrite A. split; [intros H; by split|]. by intros [_ H].
Qed.

(** The configurations of the root are shown if they are asked for, and they are shown twice if no object is named. *)
Definition root_conf_lines (ls : list rline) : list string := omap (λ l, match l with RInitial c | RConfig c => Some c | _ => None end) ls.
Lemma root_conf_none ls : Forall (λ l, match l with RInitial _ | RConfig _ => False | _ => True end) ls → root_conf_lines ls = [].
Proof. unfold root_conf_lines. induction 1 as [|[] ls H _ IH]; cbn in *; done. Qed.
Lemma root_object_conf o info n x : Forall (λ l, match l with RInitial _ | RConfig _ => False | _ => True end) (root_object o info n x).1.
Proof. unfold root_object. destruct (object_stat o x info) as [ls e]. constructor; [done|]. apply Forall_fmap, Forall_true. done. Qed.
Lemma root_objects_conf o info r fs : Forall (λ l, match l with RInitial _ | RConfig _ => False | _ => True end) (root_objects o info r fs).1.
Proof.
  induction fs as [|f fs IH]; cbn [root_objects]; [constructor|]. destruct (sr_by_folder r f) as [x|e]; [|constructor].
  pose proof (root_object_conf (o f) info f x) as H. destruct (root_object (o f) info f x) as [ls []]; [|done..].
  destruct (root_objects o info r fs). by apply Forall_app.
Qed.
Theorem C84_root_configs o r path id info j :
  sr_initial r = Some j → is_Some (sr_folders r) →
  root_conf_lines (root_stat o r path id info).1 =
    if bool_decide (asked info ExtensionConfigs) then
      (j :: sr_configs r) ++ if decide (path = "" ∧ id = "") then j :: sr_configs r else []
    else [].
Proof.
  intros Hj [fs Hfs]. unfold root_stat, root_configs, root_all, root_one. rewrite Hj, Hfs, !wants_asked.
  assert (C : root_conf_lines (RInitial j :: RConfigs :: (RConfig <$> sr_configs r)) = j :: sr_configs r).
  { unfold root_conf_lines. cbn. f_equal. induction (sr_configs r) as [|c l IH]; cbn; [done|]. by f_equal. }
  assert (P : ∀ a b, root_conf_lines (a ++ b) = root_conf_lines a ++ root_conf_lines b) by (intros; apply omap_app).
  assert (Q : ∀ v ls, root_conf_lines (RRoot :: RVersion v :: ls) = root_conf_lines ls) by done.
  assert (F : ∀ l ls, root_conf_lines (RFolders l :: ls) = root_conf_lines ls) by done.
  destruct (decide (path = "" ∧ id = "")).
  - pose proof (root_objects_conf o info r fs) as Ho. apply root_conf_none in Ho.
    destruct (root_objects o info r fs) as [ls e]. cbn [fst] in Ho.
    repeat case_bool_decide; cbn [fst]; rewrite Q, P, F, ?P, ?C, ?Ho, ?app_nil_r; done.
  - destruct (if decide (path = "") then sr_by_id r id else sr_by_folder r path) as [x|e].
    + pose proof (root_object_conf (o (path +:+ id)) info (path +:+ id) x) as Ho. apply root_conf_none in Ho.
      destruct (root_object (o (path +:+ id)) info (path +:+ id) x) as [ls e]. cbn [fst] in Ho.
      case_bool_decide; cbn [fst]; rewrite Q, P, ?C, Ho, ?app_nil_r; done.
    + case_bool_decide; cbn [fst]; rewrite Q, P, ?C, ?app_nil_r; done.
Qed.

(** The words of --stat-info: each name, in any case and with blanks around it, selects its own kind of information; other words are refused. *)
Theorem C84_words s k :
  parse_word s = Some [k] ↔ ∃ n, (n, k) ∈ info_names ∧ to_lower n = to_lower (trim_right (trim_left s blanks) blanks).
Proof.
  unfold parse_word. set (t := to_lower (trim_right (trim_left s blanks) blanks)). clearbody t. split.
  - intros H. destruct (filter (λ p, to_lower p.1 = t) info_names) as [|p l] eqn:E; [done|].
    assert (Hp : p ∈ filter (λ p, to_lower p.1 = t) info_names) by (rewrite E; by left). apply elem_of_list_filter in Hp as [H1 H2].
    destruct p as [n k']. exists n. injection H as <- _. done.
  - intros (n & Hn & <-). unfold info_names in Hn.
    repeat (apply elem_of_cons in Hn as [Hn|Hn]; [injection Hn as -> ->; vm_compute; reflexivity|]). by apply elem_of_nil in Hn.
Qed.

Theorem C84_other_words s :
  parse_word s = None ↔ ∀ n k, (n, k) ∈ info_names → to_lower n ≠ to_lower (trim_right (trim_left s blanks) blanks).
Proof.
  unfold parse_word. set (t := to_lower (trim_right (trim_left s blanks) blanks)). clearbody t. split.
  - intros H n k Hn E. destruct (filter (λ p, to_lower p.1 = t) info_names) as [|p l] eqn:F; [|done].
    assert (Hp : (n, k) ∈ filter (λ p, to_lower p.1 = t) info_names) by (apply elem_of_list_filter; done). rewrite F in Hp. by apply elem_of_nil in Hp.
  - intros H. destruct (filter (λ p, to_lower p.1 = t) info_names) as [|[n k] l] eqn:F; [done|].
    assert (Hp : (n, k) ∈ filter (λ p, to_lower p.1 = t) info_names) by (rewrite F; by left). apply elem_of_list_filter in Hp as [H1 H2].
    by destruct (H n k H2).
Qed.

(** A list of words, separated by commas, selects what the words select. *)
Theorem C84_word_list ws ks :
  ws ≠ [] → Forall (λ w, str_mem ","%char w = false) ws → Forall2 (λ w k, parse_word w = Some [k]) ws ks → parse_infos (str_join "," ws) = Some ks.
Proof.
  intros Hn Hc H. unfold parse_infos. rewrite decide_False.
  - change "," with (String ","%char ""). rewrite split_join by done. clear Hn Hc.
    assert (M : mapM parse_word ws = Some ((λ k, [k]) <$> ks)).
    { apply mapM_Some. induction H as [|w k ws ks H1 _ IH]; [constructor|]. by constructor. }
    assert (J : mjoin ((λ k : stat_info, [k]) <$> ks) = ks) by (clear; induction ks as [|k ks IH]; [done|]; rewrite fmap_cons; change ([k] ++ mjoin ((λ k : stat_info, [k]) <$> ks) = k :: ks); by rewrite IH).
    rewrite M. change (Some (mjoin ((λ k : stat_info, [k]) <$> ks)) = Some ks). by rewrite J.
  - intros He. destruct H as [|w k ws ks H1 H2]; [done|]. destruct H2 as [|w2 k2 ws ks H3 H4].
    + cbn in He. subst w. vm_compute in H1. discriminate H1.
    + cbn in He. destruct w; discriminate He.
Qed.

(** Examples. *)
Definition by_key : stat_order := StatOrder map_to_list map_to_list map_to_list (λ _, map_to_list).
Lemma by_key_ok : stat_order_ok by_key.
Proof. done. Qed.
Definition stat_obj : stat_object := StatObject "aa/object1" inv3 (Some "{}") ["{indirect}"].
Definition stat_obj2 : stat_object := StatObject "bb/object2" inv1 (Some "{}") [].
Definition stat_rt : stat_root :=
  StatRoot "1.1" (Some "{}") ["{layout}"] (Some ["aa/object1"; "bb/object2"])
    (λ f, if decide (f = "aa/object1") then inl stat_obj else if decide (f = "bb/object2") then inl stat_obj2 else inr "no such folder")
    (λ i, if decide (i = "id:1") then inl stat_obj else inr "no such object").

Example C84_version_example :
  stat_order_ok by_key ∧ asked [] ObjectVersions ∧ is_Some (inv_versions (st_inv stat_obj) !! "v2") ∧
  under "v2" (lines by_key stat_obj []) = Some [LUser "me" "mailto:me"; LCreated "2024-01-01"; LMessage "msg"; LFile "a"; LContent "v2/content/a";
    LFile "b/c"; LContent "v1/content/b/c"; LFile "d"; LContent "v2/content/d"] ∧
  LVersion "v4" ∉ lines by_key stat_obj [] ∧
  text "id:1" (LManifest 4 4) = "[id:1] Manifest: 4 files (4 unique files)".
Proof.
  split; [apply by_key_ok|]. split; [by left|]. split; [eexists; vm_compute; reflexivity|]. split; [vm_compute; reflexivity|]. split; [|vm_compute; reflexivity].
  rewrite C84_titles_partial by apply by_key_ok. intros [_ [v H]]. vm_compute in H. discriminate H.
Qed.
Example C84_root_example :
  sr_folders stat_rt = Some ["aa/object1"; "bb/object2"] ∧ (∀ f, f ∈ ["aa/object1"; "bb/object2"] → ∃ x, sr_by_folder stat_rt f = inl x ∧ showable [] x) ∧
  titles (root_stat (λ _, by_key) stat_rt "" "" []).1 = ["aa/object1"; "bb/object2"] ∧
  titles (root_stat (λ _, by_key) stat_rt "" "id:1" [ObjectVersions]).1 = ["id:1"] ∧
  titles (root_stat (λ _, by_key) stat_rt "cc" "" []).1 = [] ∧
  RCannot "cc" "no such folder" ∈ (root_stat (λ _, by_key) stat_rt "cc" "" []).1.
Proof.
  split; [done|]. split.
  { intros f Hf. apply elem_of_cons in Hf as [-> |Hf]; [exists stat_obj; split; [done|]; intros _; by eexists|].
    apply elem_of_list_singleton in Hf as ->. exists stat_obj2. split; [done|]. intros _. by eexists. }
  split; [vm_compute; reflexivity|]. split; [vm_compute; reflexivity|]. split; [vm_compute; reflexivity|].
  apply (bool_decide_unpack _). vm_compute. exact I.
Qed.
Example C84_configs_example : omap (λ l, match l with LInitial c | LConfig c => Some c | _ => None end) (lines by_key stat_obj [ObjectExtensionConfigs]) = ["{}"; "{indirect}"].
Proof. vm_compute. reflexivity. Qed.
Example C84_status_example :
  (root_stat (λ _, by_key) stat_rt "" "" []).2 = SOk ∧ (root_stat (λ _, by_key) stat_rt "cc" "" []).2 ≠ SOk ∧
  (root_stat (λ _, by_key) (StatRoot "1.1" None [] (Some []) (λ _, inr "") (λ _, inr "")) "" "" [Objects]).2 ≠ SOk ∧
  root_conf_lines (root_stat (λ _, by_key) stat_rt "" "" [ExtensionConfigs]).1 = ["{}"; "{layout}"; "{}"; "{layout}"].
Proof.
  split; [vm_compute; reflexivity|]. split; [intros H; vm_compute in H; discriminate H|]. split; [intros H; vm_compute in H; discriminate H|].
  vm_compute. reflexivity.
Qed.
Example C84_words_example : parse_infos "objectVersions, OBJECTMANIFEST" = Some [ObjectVersions; ObjectManifest] ∧ parse_infos "Objects,Versions" = None.
Proof. split; vm_compute; reflexivity. Qed.

(** * Findings *)

(** The line that is labelled as the path of the object shows its digest algorithm. *)
Theorem C84_path_refuted :
  ∃ o x l p, stat_order_ok o ∧ l ∈ lines o x [] ∧ text (inv_id (st_inv x)) l = "[" +:+ inv_id (st_inv x) +:+ "] Path: " +:+ p ∧
    p ≠ st_folder x ∧ p = inv_alg (st_inv x).
Proof.
  exists by_key, stat_obj, (LPath "sha512"), "sha512". split; [apply by_key_ok|]. split; [apply (bool_decide_unpack _); vm_compute; exact I|].
  split; [vm_compute; reflexivity|]. split; [intros H; discriminate H|vm_compute; reflexivity].
Qed.

(** Information that is asked for by name is not always shown: the manifest and the state need the versions. *)
Theorem C84_selection_refuted :
  ∃ o x info, stat_order_ok o ∧ parse_infos "ObjectVersionState,ObjectManifest" = Some info ∧ asked info ObjectManifest ∧ asked info ObjectVersionState ∧
    inv_manifest (st_inv x) ≠ ∅ ∧ ∀ p, LFile p ∉ lines o x info ∧ LContent p ∉ lines o x info.
Proof.
  exists by_key, stat_obj, [ObjectVersionState; ObjectManifest]. split; [apply by_key_ok|]. split; [vm_compute; reflexivity|].
  split; [right; apply (bool_decide_unpack _); vm_compute; exact I|]. split; [right; apply (bool_decide_unpack _); vm_compute; exact I|].
  split; [apply (bool_decide_unpack _); vm_compute; exact I|].
  assert (E : lines by_key stat_obj [ObjectVersionState; ObjectManifest] = [LPath "sha512"; LHead "v3"; LFixity ["md5"]; LManifest 4 4]) by (vm_compute; reflexivity).
  rewrite E. intros p. split; intros H; repeat (apply elem_of_cons in H as [[=]|H]); by apply elem_of_nil in H.
Qed.
(** Three of the names have no effect at all beside others. *)
Theorem C84_without_effect o r path id info k :
  k ∈ [ObjectFolders; Extension; ObjectExtension] → info ≠ [] → root_stat o r path id (k :: info) = root_stat o r path id info.
Proof.
  intros Hk Hi.
  assert (W : ∀ k', k' ∉ [ObjectFolders; Extension; ObjectExtension] → wants (k :: info) k' = wants info k').
  { intros k' Hk'. apply eq_true_iff_eq. rewrite !wants_spec. rewrite elem_of_cons. split.
    - intros [?|[->|?]]; [done|done|by right].
    - intros [?|?]; [done|right; by right]. }
  assert (N : ∀ k', bool_decide (k' ∉ [ObjectFolders; Extension; ObjectExtension]) = true → wants (k :: info) k' = wants info k').
  { intros k' H. apply W. by apply bool_decide_eq_true in H. }
  assert (O : ∀ o x, object_stat o x (k :: info) = object_stat o x info).
  { intros o' x. unfold object_stat, stat_configs, stat_versions. rewrite (N ObjectExtensionConfigs), (N ObjectVersions) by reflexivity.
    assert (V : ∀ p, stat_version o' (k :: info) (inv_manifest (st_inv x)) p = stat_version o' info (inv_manifest (st_inv x)) p).
    { intros p. unfold stat_version, stat_state, stat_contents. by rewrite (N ObjectVersionState), (N ObjectManifest) by reflexivity. }
    assert (B : ∀ l, (l ≫= stat_version o' (k :: info) (inv_manifest (st_inv x))) = (l ≫= stat_version o' info (inv_manifest (st_inv x)))).
    { induction l as [|p l IH]; [done|]. by rewrite !bind_cons, IH, V. }
    by rewrite B. }
  assert (R : ∀ o n x, root_object o (k :: info) n x = root_object o info n x) by (intros; unfold root_object; by rewrite O).
  assert (F : ∀ fs, root_objects o (k :: info) r fs = root_objects o info r fs).
  { induction fs as [|f fs IH]; [done|]. cbn [root_objects]. destruct (sr_by_folder r f); [|done]. by rewrite R, IH. }
  unfold root_stat, root_configs, root_all, root_one. rewrite (N ExtensionConfigs), (N Objects) by reflexivity.
  destruct (sr_folders r) as [fs|]; rewrite ?F; (destruct (if decide (path = "") then sr_by_id r id else sr_by_folder r path); [by rewrite R|done]).
Qed.

(** One object that cannot be loaded hides all objects after it. *)
Theorem C84_unloadable_refuted :
  ∃ o r fs f x, (∀ g, stat_order_ok (o g)) ∧ sr_folders r = Some fs ∧ f ∈ fs ∧ sr_by_folder r f = inl x ∧ showable [] x ∧
    f ∉ titles (root_stat o r "" "" []).1 ∧ (root_stat o r "" "" []).2 ≠ SOk.
Proof.
  exists (λ _, by_key), (StatRoot "1.1" (Some "{}") [] (Some ["aa/damaged"; "bb/object2"]) (λ f, if decide (f = "bb/object2") then inl stat_obj2 else inr "damaged") (λ _, inr "unknown")),
    ["aa/damaged"; "bb/object2"], "bb/object2", stat_obj2.
  split; [intros; apply by_key_ok|]. split; [done|]. split; [right; by left|]. split; [done|]. split; [intros _; by eexists|]. split.
  - apply (bool_decide_unpack _). vm_compute. exact I.
  - intros H. vm_compute in H. discriminate H.
Qed.

Print Assumptions C84_titles_partial.
Print Assumptions C84_version_partial.
Print Assumptions C84_summary.
Print Assumptions C84_configs.
Print Assumptions C84_root_partial.
Print Assumptions C84_named.
Print Assumptions C84_status.
Print Assumptions C84_root_configs.
Print Assumptions C84_words.
Print Assumptions C84_other_words.
Print Assumptions C84_word_list.
Print Assumptions C84_path_refuted.
Print Assumptions C84_selection_refuted.
Print Assumptions C84_without_effect.
Print Assumptions C84_unloadable_refuted.
