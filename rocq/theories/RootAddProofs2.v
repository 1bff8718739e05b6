(** Requests for the objects of a storage root, one after the other. *)
From Coq Require Import Ascii.
From stdpp Require Import base list strings gmap.
From Coq Require Import ZArith Lia.
From Verif Require Import GoStr PathModel PathProofs InventoryModel ObjectModel InventorySpec ObjectSpec InventoryProofs ObjectProofs CrashSpec CrashProofs RunProofs AreaModel AreaProofs
  LoadModel LoadProofs PublishSpec PublishProofs2 PublishProofs3 PublishProofs4 IngestModel IngestSpec IngestProofs IngestProofs6 LayoutModel LayoutSpec RootModel RootSpec RootProofs RootAddModel RootAddSpec RootAddProofs.

Lemma sub_empty f s : clean_rel f → sub_files f s = ∅ ↔ ∀ p, inside f p → s !! p = None.
Proof.
  intros Hf. split.
  - intros H p [r ->]. change ("/" +:+ r) with ("/" +:+ r). rewrite <- (sub_lookup f s r Hf), H. done.
  - intros H. apply map_eq. intros p. rewrite sub_lookup, lookup_empty by done. apply H. by exists p.
Qed.
Lemma entries_sub f s : clean_rel f → entries_below s f = [] ↔ sub_files f s = ∅.
Proof.
  intros Hf. rewrite entries_none, sub_empty by done. unfold under. split; intros H p.
  - intros [r ->]. apply H. rewrite (path_clean_rel f Hf). apply orb_true_iff. right. apply has_prefix_spec. exists r. by rewrite <- str_app_assoc.
  - rewrite (path_clean_rel f Hf). intros Hp. apply orb_true_iff in Hp as [Hp|Hp].
    + apply bool_decide_eq_true in Hp. subst f. exfalso. unfold clean_rel in Hf. cbn in Hf. inversion Hf as [|? ? (_ & Hd & _)]. done.
    + apply has_prefix_spec in Hp as [r ->]. apply H. exists r. by rewrite <- str_app_assoc.
Qed.

(** * The declaration *)
Definition decl (v : string) : string := "0=ocfl_object_" +:+ v.
Definition decl_text (v : string) : string := "ocfl_object_" +:+ v +:+ String "010" "".
Lemma decl_plain v : v = "1.0" ∨ v = "1.1" → CrashSpec.plain_name (decl v).
Proof. by intros [-> | ->]. Qed.
Lemma write_placed f p b s : clean_rel f → clean_rel p → apply_evs (place_ev f <$> write_file p b) s = <[path_join [f; p] := b]> s.
Proof.
  intros Hf Hp. rewrite <- apply_write. f_equal.
Qed.
Lemma init_new f v s : clean_rel f → v = "1.0" ∨ v = "1.1" → sub_files f s = ∅ →
  object_init f v true s = (apply_evs (place_ev f <$> write_file (decl v) (decl_text v)) s, SOk).
Proof.
  intros Hf Hv Hs. pose proof (plain_clean _ (decl_plain v Hv)) as Hd. rewrite write_placed by done. unfold object_init. cbv zeta.
  assert (s !! path_join [f; "0=" +:+ ("ocfl_object_" +:+ v)] = None) as ->.
  { change ("0=" +:+ ("ocfl_object_" +:+ v)) with (decl v). rewrite join_two by done. apply (sub_empty f s Hf); [done|]. by exists (decl v). }
  by rewrite (proj2 (entries_sub f s Hf) Hs).
Qed.
(** The object has the declaration of version [v] and no other one. *)
Definition decl_ok (v : string) (t : storage) : Prop :=
  t !! decl v = Some (decl_text v) ∧ ∀ w, w ≠ v → t !! decl w = None.
Lemma decl_other i n v t l : decl_ok v t → Forall (λ e, own_path i n (ev_path e)) l → decl_ok v (apply_evs l t).
Proof.
  intros [H1 H2] Hl.
  assert (∀ w, apply_evs l t !! decl w = t !! decl w) as H.
  { intros w. apply apply_evs_other. eapply stdpp.list.Forall_impl; [exact Hl|]. cbv beta. intros e He Heq. rewrite Heq in He.
    destruct He as [(k & _ & r & Hr)|[Hr|[Hr|(r & Hr)]]]; try done.
    revert Hr. unfold decl, version_name. case_decide; done. }
  split; [by rewrite H|]. intros w Hw. rewrite H. auto.
Qed.
Lemma new_files_ok v : decl_ok v (new_files v).
Proof.
  split; [apply lookup_singleton|]. intros w Hw. apply lookup_singleton_ne. intros H. apply Hw. unfold decl in H. by simplify_eq/=.
Qed.

(** ** The files of an object: the version that the loader finds *)
Definition top_ok (v alg : string) (t : storage) : Prop :=
  decl_ok v t ∧ ∀ p x, t !! p = Some x → str_mem slash p = true ∨ p = "inventory.json" ∨ p = sidecar_name alg ∨ p = decl v.
Lemma top_elem t p d : (p, File d) ∈ top_files t ↔ t !! p = Some d ∧ str_mem slash p = false.
Proof.
  unfold top_files. rewrite elem_of_list_omap. split.
  - intros ([q y] & Hin & H). cbn [fst snd] in H. destruct (str_mem slash q) eqn:E; [done|]. injection H as -> ->. split; [by apply elem_of_map_to_list|done].
  - intros [H1 H2]. exists (p, d). split; [by apply elem_of_map_to_list|]. cbn [fst snd]. by rewrite H2.
Qed.
Lemma top_nodup t : NoDup (top_files t).*1.
Proof.
  unfold top_files. pose proof (NoDup_fst_map_to_list t) as H. induction (map_to_list t) as [|[q y] l IH]; [constructor|]. cbn [omap list_omap fst snd].
  cbn [fmap list_fmap fst] in H. apply stdpp.list.NoDup_cons in H as [Hq H]. destruct (str_mem slash q); [by apply IH|].
  cbn [fmap list_fmap fst]. apply stdpp.list.NoDup_cons. split; [|by apply IH]. intros Hin. apply Hq.
  apply elem_of_list_fmap in Hin as ([q' z] & -> & Hin). apply elem_of_list_omap in Hin as ([q2 y2] & Hin & Heq). cbn [fst snd] in Heq.
  destruct (str_mem slash q2); [done|]. injection Heq as -> _. apply elem_of_list_fmap. by exists (q', y2).
Qed.
Lemma version_known v : v = "1.0" ∨ v = "1.1" → version_number v.
Proof.
  assert (∀ a, a = "0" ∨ a = "1" → digits a) as H.
  { intros a Ha. split; [by destruct Ha as [-> | ->]|]. intros c Hc. destruct Ha as [-> | ->]; apply elem_of_list_singleton in Hc as ->; vm_compute; split; done. }
  intros [-> | ->]; [exists "1", "0"|exists "1", "1"]; (split; [|split]); try (apply H; auto); reflexivity.
Qed.
Lemma load_version v alg t : v = "1.0" ∨ v = "1.1" → alg = "sha512" ∨ alg = "sha256" → top_ok v alg t → load_object_version (top_files t) = Some (object_class v).
Proof.
  intros Hv Ha [[H1 H2] H3]. unfold load_object_version.
  assert (get_version "ocfl_object_" (top_files t) = GOk v) as ->; [|done].
  apply gv_exact; [apply top_nodup| |].
  - intros name data Hin a w b Hname Hw. apply top_elem in Hin as [Hin Hsl]. exists v. split; [by apply version_known|].
    destruct (H3 _ _ Hin) as [H|[H|[H|H]]]; [congruence| | |done].
    + exfalso. assert (str_mem "="%char name = true) as Hm; [|by rewrite H in Hm]. rewrite Hname. unfold declaration. rewrite !str_mem_app. by destruct (str_mem _ a).
    + exfalso. assert (str_mem "="%char name = true) as Hm; [|rewrite H in Hm; by destruct Ha as [-> | ->]].
      rewrite Hname. unfold declaration. rewrite !str_mem_app. by destruct (str_mem _ a).
  - split; [by apply version_known|]. split.
    + exists (decl_text v). split; [|by left]. apply top_elem. split; [exact H1|by destruct Hv as [-> | ->]].
    + intros w data Hw Hin. apply top_elem in Hin as [Hin _]. destruct (decide (w = v)) as [|Hne]; [done|]. change (declaration "ocfl_object_" w) with (decl w) in Hin.
      by rewrite (H2 w Hne) in Hin.
Qed.
Lemma closed_top E v t i n fam : v = "1.0" ∨ v = "1.1" → decl_ok v t → closed E t i n fam → top_ok v (inv_alg i) t.
Proof.
  intros Hv Hd Hc. split; [done|]. intros p x Hp.
  assert (∀ a r, str_mem slash (a +:+ "/" +:+ r) = true) as Hs.
  { intros a r. rewrite !str_mem_app. by destruct (str_mem slash a). }
  assert (∀ w, p = decl w → p = decl v) as Hdec.
  { intros w ->. destruct (decide (w = v)) as [->|Hne]; [done|]. by rewrite (proj2 Hd w Hne) in Hp. }
  destruct (kp_files _ _ _ _ _ _ (cl_kept _ _ _ _ _ Hc) p x Hp) as [H|[[r ->]|[[r ->]|[(k & _ & [-> | ->])|(k & r & _ & ->)]]]]; try (left; apply Hs).
  rewrite !elem_of_cons, elem_of_nil in H. destruct H as [H|[H|[H|[H|[]]]]]; [| |by auto..].
  - right. right. right. by apply (Hdec "1.0").
  - right. right. right. by apply (Hdec "1.1").
Qed.

(** * Histories *)
Section hist.
  Context (E : env) (X : AreaModel.xenv) (area : string) (P : inventory → Prop) (parse : string → option inventory).
  Context (rt : root) (fixalgs allowed : list string) (ids : string → Prop) (s0 : storage).
  Context (Hhex : hex_hash (e_hash E)) (Hj : json_ok P (e_json E) parse) (Hx : ∀ f b, (f, b) ∈ e_ext_files E → clean_rel f).
  Context (Hr : proper_root rt fixalgs allowed ids s0).
  (** Object [t] with identifier [id] and contents [ts]. *)
  Definition obj_ok (id : string) (ts : list storage) (t : storage) : Prop :=
    ∃ i i2, archived E X area P parse ts t i ∧ inv_id i = id ∧ inv_alg i = rt_alg rt ∧ inv_type i = inventory_type (rt_version rt) ∧ inv_contentdir i = "" ∧
      decl_ok (rt_version rt) t ∧
      load_inventory (e_hash E) parse t "" = LInv i2 [] ∧ same_record i i2.
  Definition hist_ok (H : gmap string (list storage)) (s : storage) : Prop :=
    (∀ id f, ids id → root_path (rt_layouts rt) id = Some (f, false) →
      match H !! id with None => sub_files f s = ∅ | Some ts => obj_ok id ts (sub_files f s) end) ∧
    ∀ p, (∀ id f, ids id → root_path (rt_layouts rt) id = Some (f, false) → ¬ inside f p) → s !! p = s0 !! p.

  Lemma hist_step H s s' id f ts : hist_ok H s → ids id → root_path (rt_layouts rt) id = Some (f, false) → clean_rel f →
    (∀ p, ¬ inside f p → s' !! p = s !! p) → obj_ok id ts (sub_files f s') → hist_ok (<[id := ts]> H) s'.
  Proof using Hr.
    intros [H1 H2] Hid Hf Hcl Hout Hobj. split.
    - intros id2 g Hid2 Hg. destruct (decide (id2 = id)) as [->|Hne].
      + rewrite lookup_insert. assert (g = f) as -> by congruence. done.
      + rewrite lookup_insert_ne by done. destruct (ka_folder _ _ (pr_apart _ _ _ _ _ Hr) id2 Hid2) as (g' & Hg' & Hgc). assert (g' = g) as -> by congruence.
        destruct (ka_apart _ _ (pr_apart _ _ _ _ _ Hr) id id2 f g Hid Hid2 (not_eq_sym Hne) Hf Hg) as (A1 & A2 & A3).
        assert (sub_files g s' = sub_files g s) as ->; [|by apply H1]. apply map_eq. intros p. rewrite !sub_lookup by done. apply Hout.
        intros [r Hr']. apply two_folders in Hr' as [[-> _]|[?|?]]; done.
    - intros p Hp. rewrite <- H2 by done. apply Hout. by eapply Hp.
  Qed.
  Lemma obj_new i t : fresh i → t = new_files (rt_version rt) → PublishSpec.declared t.
  Proof using Hr.
    intros _ -> p x Hp. left. unfold new_files in Hp. apply lookup_singleton_Some in Hp as [<- _].
    destruct (pr_version _ _ _ _ _ Hr) as [-> | ->]; [by left|by right; left].
  Qed.
  Lemma alg_plain : str_mem slash (rt_alg rt) = false.
  Proof using Hr. by destruct (pr_alg _ _ _ _ _ Hr) as [-> | ->]. Qed.

  (** The request itself, on the files of the object. *)
  Lemma request_new_ok id i orcs orc1 orc2 r folders src :
    i = new_inventory id (inventory_type (rt_version rt)) (rt_alg rt) fixalgs →
    supported E i → (∀ j k, oracle_ok (orcs j k)) → oracle_ok orc1 → proper_request E i r folders →
    no_clashes E (rt_alg rt) (new_files (rt_version rt)) folders → served E X area i folders → folder_of folders area src →
    (∀ o, ingest E orcs orc1 orc2 r (given folders) (HDone []) (open_object i) = (o, SOk) → P (ob_inv o)) →
    ∃ o, ingest E orcs orc1 orc2 r (given folders) (HDone []) (open_object i) = (o, SOk) ∧ Forall clean_ev (ob_trace o) ∧
      obj_ok id [src] (apply_evs (ob_trace o) (new_files (rt_version rt))).
  Proof using Hhex Hj Hx Hr.
    intros Hi Hsup Horcs Horc1 Hq Hno Hsv Hsrc HP.
    assert (fresh i) as Hf by (subst i; split; [done|done|by repeat split|exact alg_plain]).
    pose proof (obj_new i _ Hf eq_refl) as Hd. assert (inv_alg i = rt_alg rt) as Ha by (by subst i).
    assert (unique_states i) as Hu. { intros ver v Hv. destruct (fr_empty _ Hf) as (_ & H & _). by rewrite H, lookup_empty in Hv. }
    rewrite <- Ha in Hno.
    destruct (request_result E P parse X _ i 0 (λ _, i) orcs orc1 orc2 r folders Hhex Hj (fresh_kept E _ i Hf Hd) Hsup Hu Horcs Horc1 Hq Hno)
      as (o & Hi' & _ & _ & _ & _ & _ & Hld & _).
    pose proof (HP o Hi') as HPo. exists o. split; [done|].
    assert (head_is i 0) as Hh. { apply contiguous_is, (g_contig (e_hash E) (new_files (rt_version rt))), (kp_good _ _ _ _ _ _ (fresh_kept E _ i Hf Hd)). }
    assert (str_mem slash (inv_alg i) = false) as Hsl by (rewrite Ha; exact alg_plain).
    destruct (ingest_tidy E i 0 orcs orc1 orc2 r folders o SOk Hh (fr_cdir _ Hf) Hsl Hx (pq_placed _ _ _ _ Hq) (pq_folders _ _ _ _ Hq) Hi')
      as ((_ & _ & Hcd & Hal & _ & Htr) & Hcl & Hid & Hty).
    split; [done|]. destruct (Hld HPo) as (i2 & Hl2 & Hs2). exists (ob_inv o), i2. split; [by eapply archived_first|].
    split; [rewrite Hid; by subst i|]. split; [congruence|]. split; [rewrite Hty; by subst i|]. split; [rewrite Hcd; by subst i|]. split; [|done]. eapply decl_other; [apply new_files_ok|exact Htr].
  Qed.
  Lemma request_next_ok id t ts st i orcs orc1 orc2 r folders src del :
    obj_ok id (t :: ts) st → load_inventory (e_hash E) parse st "" = LInv i [] →
    supported E i → (∀ j k, oracle_ok (orcs j k)) → oracle_ok orc1 → proper_request E i r folders →
    no_clashes E (inv_alg i) st folders → served E X area i folders → deletes E X area i (rq_echo r) del → folder_of folders area src →
    (∀ o, ingest E orcs orc1 orc2 r (given folders) (HDone []) (open_object i) = (o, SOk) → P (ob_inv o)) →
    ∃ o, ingest E orcs orc1 orc2 r (given folders) (HDone []) (open_object i) = (o, SOk) ∧ Forall clean_ev (ob_trace o) ∧
      obj_ok id (area_after del src t :: t :: ts) (apply_evs (ob_trace o) st).
  Proof using Hhex Hj Hx Hr.
    intros (i0 & i2 & Harch & Hid0 & Hal0 & Hty0 & Hcd0 & Hdecl & Hl2 & Hs2) Hl Hsup Horcs Horc1 Hq Hno Hsv Hdel Hsrc HP.
    rewrite Hl in Hl2. assert (i2 = i) as -> by congruence. clear Hl2.
    destruct (archived_result E X area P parse _ st i0 Hhex Hj Harch) as (Hpub & Hu & _).
    destruct (loaded_kept E P parse st i0 i Hhex Hj Hpub Hl) as (n & fam & _ & Hk).
    assert (unique_states i) as Hu'. { intros ver v Hv. rewrite (sr_vers _ _ Hs2) in Hv. by eapply Hu. }
    destruct (request_result E P parse X st i n fam orcs orc1 orc2 r folders Hhex Hj Hk Hsup Hu' Horcs Horc1 Hq Hno)
      as (o & Hi' & _ & _ & _ & _ & _ & Hld & _).
    pose proof (HP o Hi') as HPo. exists o. split; [done|].
    pose proof (contiguous_is _ _ (g_contig _ _ _ _ (kp_good _ _ _ _ _ _ Hk))) as Hh.
    destruct (ingest_tidy E i n orcs orc1 orc2 r folders o SOk Hh (kp_cdir _ _ _ _ _ _ Hk) (kp_alg _ _ _ _ _ _ Hk) Hx (pq_placed _ _ _ _ Hq) (pq_folders _ _ _ _ Hq) Hi')
      as ((_ & _ & Hcd & Hal & _ & Htr) & Hcl & Hid & Hty).
    split; [done|]. destruct (Hld HPo) as (i3 & Hl3 & Hs3). exists (ob_inv o), i3.
    split; [exact (archived_next E X area P parse t ts st i0 i orcs orc1 orc2 r folders src o del Harch Hl Hsup Horcs Horc1 Hq Hno Hsv Hdel Hsrc Hi' HPo)|].
    split; [rewrite Hid, (sr_id _ _ Hs2); done|]. split; [rewrite Hal, (sr_alg _ _ Hs2); done|]. split; [rewrite Hty, (sr_type _ _ Hs2); done|]. split; [rewrite Hcd, (sr_cdir _ _ Hs2); done|]. split; [|done]. eapply decl_other; [exact Hdecl|exact Htr].
  Qed.
  Lemma version_class : object_class (rt_version rt) = rt_version rt.
  Proof using Hr. by destruct (pr_version _ _ _ _ _ Hr) as [-> | ->]. Qed.
  Lemma obj_loads id ts f s : root_path (rt_layouts rt) id = Some (f, false) → obj_ok id ts (sub_files f s) →
    ∃ i, load_by_id (e_hash E) parse (rt_layouts rt) id s = Opened f i ∧ load_inventory (e_hash E) parse (sub_files f s) "" = LInv i [] ∧ inv_id i = id.
  Proof using Hhex Hj Hr.
    intros Hf (i0 & i2 & Harch & Hid0 & Hal0 & Hty0 & Hcd0 & Hdecl & Hl2 & Hs2). exists i2. split; [|split; [done|rewrite (sr_id _ _ Hs2); done]].
    destruct (archived_result E X area P parse _ _ i0 Hhex Hj Harch) as (_ & _ & n & fam & Hc & _).
    unfold load_by_id. rewrite Hf. cbv zeta.
    rewrite (load_version (rt_version rt) (rt_alg rt)); [|apply Hr|apply Hr|]. { by rewrite Hl2. }
    rewrite <- Hal0. eapply closed_top; [apply Hr|done|exact Hc].
  Qed.
  Lemma obj_exists id ts f s : clean_rel f → root_path (rt_layouts rt) id = Some (f, false) → obj_ok id ts (sub_files f s) →
    object_exists (rt_layouts rt) id s = Some true.
  Proof using.
    intros Hcl Hf (i0 & i2 & _ & _ & _ & _ & _ & [Hd _] & _). unfold object_exists. rewrite Hf. destruct (entries_below s f) eqn:Ee; [|done].
    apply entries_sub in Ee; [|done]. by rewrite Ee, lookup_empty in Hd.
  Qed.
  Lemma obj_missing id f s : clean_rel f → root_path (rt_layouts rt) id = Some (f, false) → sub_files f s = ∅ →
    object_exists (rt_layouts rt) id s = Some false.
  Proof using. intros Hcl Hf Hs. unfold object_exists. rewrite Hf. by rewrite (proj2 (entries_sub f s Hcl) Hs). Qed.

  Lemma request_ok H s H' s' st : hist_ok H s → root_request E X area P parse rt fixalgs allowed ids H s H' s' st → st = SOk ∧ hist_ok H' s'.
  Proof using Hhex Hj Hx Hr.
    intros Hh [id i orcs orc1 orc2 r folders src s1 st1 Hid HH Hi Hsup Horcs Horc1 Hq Hno Hsv Hsrc HP Hadd|
      id t ts f i orcs orc1 orc2 r folders src del s1 st1 Hid HH Hl Hsup Horcs Horc1 Hq Hno Hsv Hdel Hsrc HP Hadd].
    - destruct (ka_folder _ _ (pr_apart _ _ _ _ _ Hr) id Hid) as (f & Hf & Hcl).
      pose proof (proj1 Hh id f Hid Hf) as Hs. rewrite HH in Hs.
      destruct (request_new_ok id i orcs orc1 orc2 r folders src Hi Hsup Horcs Horc1 Hq Hno Hsv Hsrc HP) as (o & Ho & Hev & Hobj).
      unfold add_object in Hadd. rewrite (obj_missing id f s Hcl Hf Hs), Hf in Hadd. unfold create_by_id in Hadd. rewrite Hf, version_class in Hadd. cbv zeta in Hadd.
      assert (forallb (λ a, bool_decide (a ∈ "sha512" :: "sha256" :: allowed)) fixalgs = true) as Hfa.
      { apply forallb_forall. intros a Hin. apply bool_decide_eq_true, (pr_fixity _ _ _ _ _ Hr). by apply elem_of_list_In. }
      rewrite Hfa, (init_new f _ s Hcl (pr_version _ _ _ _ _ Hr) Hs), <- Hi, Ho in Hadd.
      set (l := write_file (decl (rt_version rt)) (decl_text (rt_version rt))) in *.
      assert (Forall clean_ev l) as Hlc.
      { pose proof (plain_clean _ (decl_plain _ (pr_version _ _ _ _ _ Hr))). by repeat constructor. }
      assert (s1 = apply_evs (place_ev f <$> l ++ ob_trace o) s) as Hs1 by (rewrite fmap_app, apply_evs_app; congruence).
      assert (st1 = SOk) as -> by congruence. clear Hadd. split; [done|].
      assert (Forall clean_ev (l ++ ob_trace o)) as Hall by (by apply Forall_app).
      eapply hist_step; [exact Hh|exact Hid|exact Hf|exact Hcl| |].
      + intros p Hp. rewrite Hs1. by apply evs_outside.
      + rewrite Hs1, sub_evs_own, apply_evs_app by done. unfold l. rewrite apply_write, Hs. exact Hobj.
    - destruct (ka_folder _ _ (pr_apart _ _ _ _ _ Hr) id Hid) as (g & Hf & Hcl).
      pose proof (proj1 Hh id g Hid Hf) as Hs. rewrite HH in Hs.
      destruct (obj_loads id _ g s Hf Hs) as (i' & Hl' & Hl2 & _). rewrite Hl in Hl'. assert (g = f) as -> by congruence. assert (i' = i) as -> by congruence. clear Hl'.
      destruct (request_next_ok id t ts _ i orcs orc1 orc2 r folders src del Hs Hl2 Hsup Horcs Horc1 Hq Hno Hsv Hdel Hsrc HP) as (o & Ho & Hev & Hobj).
      unfold add_object in Hadd. rewrite (obj_exists id _ f s Hcl Hf Hs), Hf, Hl, Ho in Hadd.
      assert (s1 = apply_evs (place_ev f <$> ob_trace o) s) as Hs1 by congruence. assert (st1 = SOk) as -> by congruence. clear Hadd. split; [done|].
      eapply hist_step; [exact Hh|exact Hid|exact Hf|exact Hcl| |].
      + intros p Hp. rewrite Hs1. by apply evs_outside.
      + rewrite Hs1, sub_evs_own by done. exact Hobj.
  Qed.
  Lemma history_ok H s : root_history E X area P parse rt fixalgs allowed ids s0 H s → hist_ok H s.
  Proof using Hhex Hj Hx Hr.
    induction 1 as [|H s H' s' st _ IH Hq].
    - split; [|done]. intros id f Hid Hf. rewrite lookup_empty. destruct (ka_folder _ _ (pr_apart _ _ _ _ _ Hr) id Hid) as (g & Hg & Hcl).
      assert (g = f) as -> by congruence. apply sub_empty; [done|]. intros p Hp. by eapply (pr_start _ _ _ _ _ Hr).
    - eapply request_ok; [exact IH|exact Hq].
  Qed.
End hist.
