(** Extraction of a storage root. *)
From Coq Require Import Ascii.
From stdpp Require Import base list strings gmap.
From Coq Require Import ZArith Lia.
From Verif Require Import GoStr PathModel InventoryModel ObjectModel InventorySpec ObjectSpec CrashSpec PathProofs AreaModel AreaProofs LoadModel PublishSpec PublishProofs PublishProofs2 PublishProofs3 PublishProofs4 IngestModel IngestSpec IngestProofs5 IngestProofs6
  ValidateModel ValidateSpec CheckModel AcceptSpec
  LayoutModel LayoutSpec RootModel RootSpec RootProofs RootAddModel RootAddSpec RootAddProofs RootAddProofs2 RootCheckModel RootCheckSpec RootCheckProofs RootCheckProofs2 RootFillSpec RootFillProofs
  RootFillProofs2 RootFillProofs3 MetaModel MetaSpec MetaProofs RootExtractModel RootExtractSpec Properties16 Properties19.

Lemma put_lookup f t target q x : put_folder f t target !! q = Some x ↔
  (∃ r, q = f +:+ "/" +:+ r ∧ t !! r = Some x) ∨ target !! q = Some x ∧ ∀ r, q = f +:+ "/" +:+ r → t !! r = None.
Proof.
  unfold put_folder. set (l := (λ e : string * string, (f +:+ "/" +:+ e.1, e.2)) <$> map_to_list t).
  assert (∀ a b, f +:+ "/" +:+ a = f +:+ "/" +:+ b → a = b) as Hinj.
  { intros a b E. apply str_app_inv_l in E. by apply (str_app_inv_l "/") in E. }
  assert (NoDup l.*1) as Hnd.
  { assert (l.*1 = (λ p, f +:+ "/" +:+ p) <$> (map_to_list t).*1) as -> by (unfold l; by rewrite <- !list_fmap_compose).
    apply NoDup_fmap_2; [intros a b; apply Hinj|apply NoDup_fst_map_to_list]. }
  assert (∀ y, (list_to_map l : storage) !! q = Some y ↔ ∃ r, q = f +:+ "/" +:+ r ∧ t !! r = Some y) as Hl.
  { intros y. rewrite <- elem_of_list_to_map by done. unfold l. rewrite elem_of_list_fmap. split.
    - intros ([r z] & [= -> ->] & Hr%elem_of_map_to_list). by exists r.
    - intros (r & -> & Hr). exists (r, y). split; [done|]. by apply elem_of_map_to_list. }
  rewrite lookup_union_Some_raw, Hl. split.
  - intros [?|[Hn ?]]; [by left|]. right. split; [done|]. intros r ->. destruct (t !! r) eqn:E; [|done]. pose proof (proj2 (Hl _) (ex_intro _ r (conj eq_refl E))). congruence.
  - intros [?|[? Hn]]; [by left|]. right. split; [|done]. destruct ((list_to_map l : storage) !! q) eqn:E; [|done]. destruct (proj1 (Hl _) eq_refl) as (r & -> & Hr). rewrite Hn in Hr; done.
Qed.
Lemma put_sub f g t target : clean_rel f → clean_rel g → apart_from f g → sub_files g (put_folder f t target) = sub_files g target.
Proof.
  intros Hf Hg (Hne & H1 & H2). apply map_eq. intros p. rewrite !sub_lookup by done. apply option_eq. intros x. rewrite put_lookup. split.
  - intros [(r & E & _)|[? _]]; [|done]. apply two_folders in E as [[? _]|[?|?]]; [by symmetry in H|done..].
  - intros Hx. right. split; [done|]. intros r E. apply two_folders in E as [[? _]|[?|?]]; [by symmetry in H|done..].
Qed.

(** The area matters only for the paths of the extensions. *)
Lemma files_area X src alg a b ints d exts s : (∀ e, x_path X e a = x_path X e b) → extract_files X src alg a ints d exts s = extract_files X src alg b ints d exts s.
Proof.
  intros Hx. revert s. induction exts as [|e exts IH]; intros s; [done|]. cbn. rewrite Hx. destruct (x_path X e b); [|done..]. destruct (extract_file _ _ _ _ _ _ _) as [s' []]; [apply IH|done..].
Qed.
Lemma iterate_ext {S} (f g : list string → list string → string → S → S * status) man l s : (∀ a b d s, f a b d s = g a b d s) → iterate f man l s = iterate g man l s.
Proof.
  intros H. revert s. induction l as [|[d exts] l IH]; intros s; [done|]. cbn. destruct (man !! d) as [[|x ints]|]; [done| |done]. rewrite H. destruct (g _ _ _ _) as [s' []]; [apply IH|done..].
Qed.
Lemma extract_area X orc i src ver man a b target : (∀ e, x_path X e a = x_path X e b) → extract X orc i src ver man a target = extract X orc i src ver man b target.
Proof.
  intros Hx. unfold extract. cbv zeta. destruct (inv_versions i !! _); [|done]. erewrite iterate_ext; [reflexivity|]. intros. by apply files_area.
Qed.

(** * Several folders *)
Section folders.
  Context (hash : string → string → option string) (parse : string → option inventory) (create : list (string * RootModel.node) → option ext).
  Context (tree : list (string * RootModel.node)) (X : AreaModel.xenv) (orcs : nat → oracle) (Horcs : ∀ n, oracle_ok (orcs n)) (version : string).
  (** What is expected in each folder. *)
  Context (C : string → storage → Prop).
  Lemma folders_extracted folders n target : NoDup folders → (∀ f, f ∈ folders → clean_rel f) → (∀ f g, f ∈ folders → g ∈ folders → f ≠ g → apart_from f g) →
    (∀ f, f ∈ folders → sub_files f target = ∅) →
    (∀ f, f ∈ folders → ∃ i s t, open_folder hash parse create tree f = OpenedAt i s ∧ (∀ orc, oracle_ok orc → extract X orc i s version false "" ∅ = (t, SOk)) ∧ ∀ t', C f t' ↔ t' = t) →
    ∃ dest, extract_folders hash parse create tree X orcs version false n folders target = (dest, SOk) ∧
      ∀ q x, dest !! q = Some x ↔ target !! q = Some x ∨ ∃ f r t, f ∈ folders ∧ C f t ∧ q = f +:+ "/" +:+ r ∧ t !! r = Some x.
  Proof using Horcs.
    revert n target. induction folders as [|f folders IH]; intros n target Hnd Hc Hap Hsub Hop.
    - exists target. split; [done|]. intros q x. split; [by left|]. intros [?|(f & r & t & Hf & _)]; [done|by apply elem_of_nil in Hf].
    - cbn [extract_folders]. destruct (Hop f ltac:(apply elem_of_list_here)) as (i & s & t & -> & Hex & HC). rewrite (Hsub f) by apply elem_of_list_here. rewrite Hex by apply Horcs.
      apply stdpp.list.NoDup_cons in Hnd as [Hnf Hnd]. assert (clean_rel f) as Hcf by (apply Hc; apply elem_of_list_here).
      assert (∀ g, g ∈ folders → apart_from f g) as Hfg.
      { intros g Hg. apply Hap; [apply elem_of_list_here|by apply elem_of_list_further|]. by intros ->. }
      destruct (IH (S n) (put_folder f t target) Hnd) as (dest & Hd & Hq).
      + intros g Hg. apply Hc. by apply elem_of_list_further.
      + intros g h Hg Hh. apply Hap; by apply elem_of_list_further.
      + intros g Hg. rewrite put_sub; [apply Hsub; by apply elem_of_list_further|done|apply Hc; by apply elem_of_list_further|by apply Hfg].
      + intros g Hg. apply Hop. by apply elem_of_list_further.
      + exists dest. split; [exact Hd|]. intros q x. rewrite Hq, put_lookup. split.
        * intros [[(r & -> & Hr)|[? _]]|(g & r & t' & Hg & H)]; [right; exists f, r, t; split; [apply elem_of_list_here|]; split; [by apply HC|done]|by left|].
          right. exists g, r, t'. split; [by apply elem_of_list_further|done].
        * intros [Ht|(g & r & t' & Hg & HCg & -> & Hr)].
          -- left. right. split; [done|]. intros r ->. pose proof (Hsub f ltac:(apply elem_of_list_here)) as Hs. pose proof (proj1 (sub_empty f target Hcf) Hs (f +:+ "/" +:+ r) ltac:(by exists r)) as Hno. congruence.
          -- apply elem_of_cons in Hg as [-> |Hg]; [left; left; exists r; split; [done|]; apply HC in HCg; by subst|]. right. by exists g, r, t'.
  Qed.
End folders.

Lemma content_one version ts t t' : content_at version ts t → content_at version ts t' → t = t'.
Proof.
  intros [[Hv H1]|(k & -> & H1)] [[Hv' H2]|(k' & E & H2)].
  - congruence.
  - subst version. destruct Hv as [Hv|Hv]; discriminate Hv.
  - destruct Hv' as [Hv|Hv]; discriminate Hv.
  - apply (str_app_inv_l "v") in E. apply dec_of_N_inj in E. assert (k = k') as <- by lia. congruence.
Qed.
Lemma content_of_head version (ts : list storage) t ts' : version = "" ∨ version = "latest" → ts = t :: ts' → content_at version ts t.
Proof. intros ? ->. by left. Qed.
Lemma extract_head X orc i s version man area target : version = "" ∨ version = "latest" → extract X orc i s version man area target = extract X orc i s (inv_head i) man area target.
Proof. intros Hv. unfold extract. rewrite (decide_True _ _ Hv). by destruct (decide (inv_head i = "" ∨ inv_head i = "latest")). Qed.
Lemma find_leads names l l' : find_dir names l = Some l' → leads l names l'.
Proof.
  revert l. induction names as [|name names IH]; intros l; cbn; [intros [= ->]; constructor|]. destruct (list_find _ l) as [[k [nm [d|sub]]]|] eqn:E; try done.
  apply list_find_Some in E as (Hk & Hn & _). cbn in Hn. subst nm. intros Hf. apply elem_of_list_lookup_2 in Hk. eapply leads_below; [exact Hk|]. by apply IH.
Qed.

(** * After a history of requests *)
Section history.
  Context (E : env) (X : AreaModel.xenv) (area : string) (P : inventory → Prop) (parse : string → option inventory).
  Context (rt : root) (fixalgs allowed : list string) (ids : string → Prop) (s0 : storage).
  Context (Hhex : hex_hash (e_hash E)) (Hj : json_ok P (e_json E) parse) (Hx : ∀ f b, (f, b) ∈ e_ext_files E → clean_rel f).
  Context (Hr : proper_root rt fixalgs allowed ids s0).
  Context (H : gmap string (list storage)) (s : storage) (Hh : root_history E X area P parse rt fixalgs allowed ids s0 H s).
  Context (tr : list (string * RootModel.node)) (Hfree : extensions_free rt ids) (Hst : started (rt_version rt) s0) (Hls : lists tr s).
  Context (create : list (string * RootModel.node) → option ext) (Hman : ∀ p l e, object_dir tr p l → extensions_of l e → managed create e).

  Lemma history_open id ts f : H !! id = Some ts → root_path (rt_layouts rt) id = Some (f, false) →
    ∃ i i2, archived E X area P parse ts (sub_files f s) i ∧ inv_id i = id ∧ inv_alg i = rt_alg rt ∧ load_inventory (e_hash E) parse (sub_files f s) "" = LInv i2 [] ∧ same_record i i2 ∧
      open_folder (e_hash E) parse create tr f = OpenedAt i2 (sub_files f s).
  Proof using Hhex Hj Hx Hr Hh Hfree Hst Hls Hman.
    intros HH Hf. pose proof (history_dom _ _ _ _ _ _ _ _ _ _ _ _ _ _ Hh HH) as Hid.
    destruct (history_ok E X area P parse rt fixalgs allowed ids s0 Hhex Hj Hx Hr H s Hh) as [H1 _]. specialize (H1 id f Hid Hf). rewrite HH in H1.
    destruct H1 as (i & i2 & Harch & Hi & Hal & _ & _ & _ & Hl & Hsame). exists i, i2. split; [done|]. split; [done|]. split; [done|]. split; [done|]. split; [done|].
    pose proof (history_in E X area P parse rt fixalgs allowed ids s0 H s Hh) as Hin.
    pose proof (history_shaped E X area P parse rt fixalgs allowed ids s0 Hhex Hj Hx Hr H s Hh) as Hsh.
    pose proof (history_out E X area P parse rt fixalgs allowed ids s0 Hhex Hj Hx Hr H s Hh) as Hout.
    pose proof (history_tidy E X area P parse rt fixalgs allowed ids s0 Hhex Hj Hx Hr H s Hh tr Hst Hls) as Ht.
    assert (occ rt H f) as Hocc by (by exists id, ts).
    destruct (object_dirs rt ids H s tr (pr_apart _ _ _ _ _ Hr) Hls Hin Hsh f Hocc) as [l Hleads].
    assert (object_dir tr f l) as Hod.
    { apply (object_dir_occ rt ids s0 H s tr (pr_version _ _ _ _ _ Hr) (pr_apart _ _ _ _ _ Hr) Hfree Hst Hls Hin Hsh Hout). done. }
    destruct (object_named rt ids s0 H s tr (pr_version _ _ _ _ _ Hr) (pr_apart _ _ _ _ _ Hr) Hfree Hst Hls Hin Hsh Hout f l Hod) as [Hwn Hone].
    assert (NoDup (fst <$> l)) as Hnd by (apply tidy_nodup; eapply leads_tidy; [apply Hls|exact Hleads]).
    unfold open_folder. rewrite (find_object_dir _ _ _ Ht Hod). rewrite (proj2 (gv_exact "ocfl_object_" l (rt_version rt) Hnd Hwn) Hone).
    rewrite (ext_object create _ (folder_managed create l (λ e, Hman f l e Hod))). rewrite (object_files rt H s tr Hls f l Hocc Hleads), Hl. done.
  Qed.
  Lemma history_extract id ts f : H !! id = Some ts → root_path (rt_layouts rt) id = Some (f, false) →
    ∃ i2, open_folder (e_hash E) parse create tr f = OpenedAt i2 (sub_files f s) ∧ inv_id i2 = id ∧ load_inventory (e_hash E) parse (sub_files f s) "" = LInv i2 [] ∧
      (∀ ver, is_Some (inv_versions i2 !! ver) ↔ ∃ k, k < length ts ∧ ver = "v" +:+ dec_of_N (N.of_nat (S k))) ∧ inv_head i2 = "v" +:+ dec_of_N (N.of_nat (length ts)) ∧
      (∀ version t orc, oracle_ok orc → content_at version ts t → extract X orc i2 (sub_files f s) version false area ∅ = (t, SOk)) ∧
      ∀ version orc a target man, (∀ t, ¬ content_at version ts t) → extract X orc i2 (sub_files f s) version man a target = (target, SErr "invalid version").
  Proof using Hhex Hj Hx Hr Hh Hfree Hst Hls Hman.
    intros HH Hf. destruct (history_open id ts f HH Hf) as (i & i2 & Harch & Hi & _ & Hl & Hsame & Ho). exists i2. split; [exact Ho|].
    split; [rewrite (sr_id _ _ Hsame); done|]. split; [exact Hl|].
    destruct (C57_history E X area P parse ts _ i i2 Hhex Hj Harch Hl) as [Hvers Hex].
    destruct (archived_result E X area P parse ts _ i Hhex Hj Harch) as (_ & _ & n & fam & Hc & Hlen & (t0 & ts' & Hts & _) & _).
    assert (∀ k, version_name (inv_padding i2) k = "v" +:+ dec_of_N k) as Hname.
    { intros k. unfold version_name. rewrite (sr_pad _ _ Hsame), decide_True; [done|]. apply (kp_pad _ _ _ _ _ _ (cl_kept _ _ _ _ _ Hc)). }
    assert (inv_head i2 = "v" +:+ dec_of_N (N.of_nat (length ts))) as Hhead.
    { rewrite <- Hname, (sr_head _ _ Hsame), (sr_pad _ _ Hsame), Hlen. rewrite (proj1 (g_contig _ _ _ _ (kp_good _ _ _ _ _ _ (cl_kept _ _ _ _ _ Hc)))). rewrite decide_False; [done|]. subst. cbn. lia. }
    assert (∀ ver, is_Some (inv_versions i2 !! ver) ↔ ∃ k, k < length ts ∧ ver = "v" +:+ dec_of_N (N.of_nat (S k))) as Hvs.
    { intros ver. rewrite Hvers. split.
      - intros (k & Hk & ->). exists (N.to_nat k - 1). split; [lia|]. rewrite Hname. do 2 f_equal. lia.
      - intros (k & Hk & ->). exists (N.of_nat (S k)). split; [lia|]. by rewrite Hname. }
    assert (∀ k t orc, oracle_ok orc → rev ts !! k = Some t → extract X orc i2 (sub_files f s) ("v" +:+ dec_of_N (N.of_nat (S k))) false area ∅ = (t, SOk)) as Hex'.
    { intros k t orc Horc Hk. rewrite <- (Hex k t orc Horc Hk). rewrite Hname. do 3 f_equal. lia. }
    split; [exact Hvs|]. split; [exact Hhead|]. split.
    - intros version t orc Horc [[Hv Ht]|(k & -> & Ht)]; [|by apply Hex']. rewrite (extract_head _ _ _ _ _ _ _ _ Hv), Hhead. subst ts. injection Ht as <-.
      apply (Hex' (length ts')); [done|]. cbn. rewrite lookup_app_r by (rewrite rev_length; lia). rewrite rev_length, Nat.sub_diag. done.
    - intros version orc a target man Hno. unfold extract. rewrite decide_False.
      + destruct (inv_versions i2 !! version) eqn:Ev; [|done]. destruct (proj1 (Hvs version) ltac:(rewrite Ev; by eexists)) as (k & Hk & ->).
        destruct (lookup_lt_is_Some_2 (rev ts) k) as [t Ht]; [rewrite rev_length; lia|]. destruct (Hno t). right. by exists k.
      + intros Hv. apply (Hno t0). by eapply content_of_head.
  Qed.
  Lemma history_nothing id f : ids id → H !! id = None → root_path (rt_layouts rt) id = Some (f, false) → open_folder (e_hash E) parse create tr f = NotOpenedAt (SErr "cannot get version").
  Proof using Hhex Hj Hx Hr Hh Hls.
    intros Hid HH Hf. pose proof (history_shaped E X area P parse rt fixalgs allowed ids s0 Hhex Hj Hx Hr H s Hh id f Hid Hf) as Hs. rewrite HH in Hs.
    destruct (ka_folder _ _ (pr_apart _ _ _ _ _ Hr) id Hid) as (g & Hg & Hc). assert (g = f) as -> by congruence.
    unfold open_folder, find_folder. rewrite path_clean_rel by done. rewrite decide_False by (intros ->; by apply Forall_inv in Hc as (_ & ? & _)).
    destruct (find_dir (split_slash f) tr) as [l|] eqn:El; [|done]. apply find_leads in El. exfalso.
    destruct (ls_full _ _ Hls _ _ (split_on_nonempty slash f) El) as (r & data & Hfa). pose proof (file_at_nonempty _ _ _ Hfa) as Hne.
    pose proof (file_at_leads _ _ _ _ _ El Hfa) as Hfa2. pose proof (proj2 (ls_files _ _ Hls _ _) (ex_intro _ _ (conj Hfa2 eq_refl))) as Hin.
    rewrite (proj1 (sub_empty f s Hc) Hs) in Hin; [done|]. by apply names_inside.
  Qed.
  Lemma history_objects p : p ∈ get_object_folders tr ↔ ∃ id ts, H !! id = Some ts ∧ root_path (rt_layouts rt) id = Some (p, false).
  Proof using Hhex Hj Hx Hr Hh Hfree Hst Hls.
    pose proof (history_tidy E X area P parse rt fixalgs allowed ids s0 Hhex Hj Hx Hr H s Hh tr Hst Hls) as Ht.
    rewrite (proj2 (root_found tr Ht) p). rewrite <- (history_found E X area P parse rt fixalgs allowed ids s0 Hhex Hj Hx Hr H s Hh tr Hfree Hst Hls p). split.
    - intros (name & sub & names & Hi & Hn & Ho & ->). destruct (object_leads sub names Ho) as [l Hl]. exists l, name, sub, names. done.
    - intros (l & name & sub & names & Hi & Hn & Ho & Hl & ->). by exists name, sub, names.
  Qed.
  Lemma history_whole orcs version : (∀ n, oracle_ok (orcs n)) → (∀ e, x_path X e "" = x_path X e area) → (∀ id ts, H !! id = Some ts → ∃ t, content_at version ts t) →
    ∃ dest, extract_folders (e_hash E) parse create tr X orcs version false 0 (get_object_folders tr) ∅ = (dest, SOk) ∧
      ∀ q x, dest !! q = Some x ↔ ∃ id ts f r t, H !! id = Some ts ∧ root_path (rt_layouts rt) id = Some (f, false) ∧ content_at version ts t ∧ q = f +:+ "/" +:+ r ∧ t !! r = Some x.
  Proof using Hhex Hj Hx Hr Hh Hfree Hst Hls Hman.
    intros Horcs Hxp Hall. pose proof (history_tidy E X area P parse rt fixalgs allowed ids s0 Hhex Hj Hx Hr H s Hh tr Hst Hls) as Ht.
    set (C := λ f t, ∃ id ts, H !! id = Some ts ∧ root_path (rt_layouts rt) id = Some (f, false) ∧ content_at version ts t).
    assert (∀ id ts, H !! id = Some ts → ids id) as Hid by (intros id ts HH; by eapply history_dom).
    assert (∀ i1 i2 f t1 t2, H !! i1 = Some t1 → H !! i2 = Some t2 → root_path (rt_layouts rt) i1 = Some (f, false) → root_path (rt_layouts rt) i2 = Some (f, false) → i1 = i2) as Hone.
    { intros i1 i2 f t1 t2 H1 H2 P1 P2. destruct (decide (i1 = i2)) as [|Hne]; [done|]. destruct (ka_apart _ _ (pr_apart _ _ _ _ _ Hr) _ _ _ _ (Hid _ _ H1) (Hid _ _ H2) Hne P1 P2) as [Hn _]. done. }
    destruct (folders_extracted (e_hash E) parse create tr X orcs Horcs version C (get_object_folders tr) 0 ∅) as (dest & Hd & Hq).
    - apply (root_found tr Ht).
    - intros f (id & ts & HH & Hf)%history_objects. destruct (ka_folder _ _ (pr_apart _ _ _ _ _ Hr) id (Hid _ _ HH)) as (g & Hg & Hc). by assert (g = f) as -> by congruence.
    - intros f g (i1 & t1 & H1 & P1)%history_objects (i2 & t2 & H2 & P2)%history_objects Hne. apply (ka_apart _ _ (pr_apart _ _ _ _ _ Hr) i1 i2); [by eapply Hid|by eapply Hid| |done|done]. intros ->. congruence.
    - intros f Hf. apply map_eq. intros p. rewrite lookup_empty. apply history_objects in Hf as (id & ts & HH & Hf). destruct (ka_folder _ _ (pr_apart _ _ _ _ _ Hr) id (Hid _ _ HH)) as (g & Hg & Hc). assert (g = f) as -> by congruence. by rewrite sub_lookup.
    - intros f (id & ts & HH & Hf)%history_objects. destruct (history_extract id ts f HH Hf) as (i2 & Ho & _ & _ & _ & _ & Hex & _). destruct (Hall id ts HH) as [t Hct]. exists i2, (sub_files f s), t. split; [exact Ho|]. split.
      + intros orc Horc. rewrite (extract_area X orc i2 _ version false "" area) by exact Hxp. by apply Hex.
      + intros t'. split; [|intros ->; by exists id, ts]. intros (id' & ts' & HH' & Hf' & Hct'). assert (id' = id) as -> by (by eapply Hone). assert (ts' = ts) as -> by congruence. by eapply content_one.
    - exists dest. split; [exact Hd|]. intros q x. rewrite Hq, lookup_empty. split.
      + intros [?|(f & r & t & _ & (id & ts & HH & Hf & Hct) & -> & Hx')]; [done|]. by exists id, ts, f, r, t.
      + intros (id & ts & f & r & t & HH & Hf & Hct & -> & Hx'). right. exists f, r, t. split; [apply history_objects; by exists id, ts|]. split; [by exists id, ts|done].
  Qed.
End history.
