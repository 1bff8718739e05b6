(** Sub file systems of a storage root, and where sessions write. *)
From Coq Require Import Ascii.
From stdpp Require Import base list strings gmap.
From Coq Require Import ZArith Lia.
From Verif Require Import GoStr PathModel PathProofs InventoryModel ObjectModel InventorySpec ObjectSpec InventoryProofs ObjectProofs CrashSpec CrashProofs RunProofs AreaProofs
  LoadModel IngestModel LayoutModel LayoutSpec RootModel RootAddModel RootAddSpec.

(** * Folders *)
Lemma two_folders f g p q : f +:+ "/" +:+ p = g +:+ "/" +:+ q → f = g ∧ p = q ∨ inside f g ∨ inside g f.
Proof.
  revert g. induction f as [|c f IH]; intros g H.
  - destruct g as [|c' g]; [left; split; [done|]; by injection H|]. right. left. cbn in H. injection H as <- H. by exists g.
  - destruct g as [|c' g]; cbn in H.
    + right. right. injection H as -> H. by exists f.
    + injection H as -> H. destruct (IH g H) as [[-> ->]|[[r ->]|[r ->]]]; [by left|right; left; by exists r|right; right; by exists r].
Qed.
Lemma sub_lookup f s p : clean_rel f → sub_files f s !! p = s !! (f +:+ "/" +:+ p).
Proof.
  intros Hf. unfold sub_files. rewrite path_clean_rel by done. rewrite decide_False by (intros ->; by apply Forall_inv in Hf as (_ & ? & _)).
  apply option_eq. intros x. split.
  - intros H%elem_of_list_to_map_2. apply elem_of_list_omap in H as ([q y] & Hq & H). cbn [fst snd] in H.
    destruct (drop_prefix _ q) as [r|] eqn:E; [|done]. cbn in H. injection H as -> ->. apply drop_prefix_spec in E as ->.
    apply elem_of_map_to_list in Hq. by rewrite <- str_app_assoc in Hq.
  - intros H. apply elem_of_list_to_map_1'.
    + intros y Hy. apply elem_of_list_omap in Hy as ([q z] & Hq & Hy). cbn [fst snd] in Hy. destruct (drop_prefix _ q) as [r|] eqn:E; [|done].
      cbn in Hy. injection Hy as -> ->. apply drop_prefix_spec in E as ->. apply elem_of_map_to_list in Hq. rewrite <- str_app_assoc in Hq. congruence.
    + apply elem_of_list_omap. exists (f +:+ "/" +:+ p, x). split; [by apply elem_of_map_to_list|]. cbn [fst snd].
      by rewrite (proj2 (drop_prefix_spec (f +:+ "/") _ p)) by (by rewrite str_app_assoc).
Qed.

(** * Effects *)
Definition clean_ev (e : ev) : Prop := clean_rel (ev_path e).
Lemma place_clean f e : clean_rel f → clean_ev e →
  place_ev f e = match e with ECreate p => ECreate (f +:+ "/" +:+ p) | EAppend p b => EAppend (f +:+ "/" +:+ p) b end.
Proof. intros Hf He. destruct e; unfold clean_ev in He; cbn [ev_path] in He; cbn [place_ev]; by rewrite join_two. Qed.
Lemma sub_ev_own f e s : clean_rel f → clean_ev e → sub_files f (apply_ev (place_ev f e) s) = apply_ev e (sub_files f s).
Proof.
  intros Hf He. rewrite place_clean by done. apply map_eq. intros p. rewrite sub_lookup by done.
  assert (∀ q, f +:+ "/" +:+ q = f +:+ "/" +:+ p ↔ q = p) as Hinj.
  { intros q. split; [|by intros ->]. intros H. by apply (inj (String.append f)), (inj (String.append "/")) in H. }
  destruct e as [q|q b]; cbn [apply_ev]; (destruct (decide (q = p)) as [->|Hne]; [by rewrite !lookup_insert, ?sub_lookup by done|]);
    rewrite !lookup_insert_ne by (try done; intros Hx; by apply Hinj in Hx); by rewrite sub_lookup.
Qed.
Lemma sub_ev_other f g e s : clean_rel f → clean_rel g → apart_from f g → clean_ev e → sub_files g (apply_ev (place_ev f e) s) = sub_files g s.
Proof.
  intros Hf Hg (Hne & H1 & H2) He. rewrite place_clean by done. apply map_eq. intros p. rewrite !sub_lookup by done.
  assert (∀ q, f +:+ "/" +:+ q ≠ g +:+ "/" +:+ p) as Hx by (intros q Hx; by destruct (two_folders _ _ _ _ Hx) as [[? _]|[?|?]]).
  destruct e as [q|q b]; cbn [apply_ev]; by rewrite lookup_insert_ne.
Qed.
Lemma ev_outside f e s p : clean_rel f → clean_ev e → ¬ inside f p → apply_ev (place_ev f e) s !! p = s !! p.
Proof.
  intros Hf He Hp. rewrite place_clean by done. assert (∀ q, f +:+ "/" +:+ q ≠ p) as Hx by (intros q <-; apply Hp; by exists q).
  destruct e as [q|q b]; cbn [apply_ev]; by rewrite lookup_insert_ne.
Qed.
Lemma sub_evs_own f l s : clean_rel f → Forall clean_ev l → sub_files f (apply_evs (place_ev f <$> l) s) = apply_evs l (sub_files f s).
Proof.
  intros Hf Hl. revert s. induction Hl as [|e l He _ IH]; intros s; [done|]. unfold apply_evs in *. cbn [fmap list_fmap foldl]. by rewrite IH, sub_ev_own.
Qed.
Lemma sub_evs_other f g l s : clean_rel f → clean_rel g → apart_from f g → Forall clean_ev l → sub_files g (apply_evs (place_ev f <$> l) s) = sub_files g s.
Proof.
  intros Hf Hg Ha Hl. revert s. induction Hl as [|e l He _ IH]; intros s; [done|]. unfold apply_evs in *. cbn [fmap list_fmap foldl]. by rewrite IH, sub_ev_other.
Qed.
Lemma evs_outside f l s p : clean_rel f → Forall clean_ev l → ¬ inside f p → apply_evs (place_ev f <$> l) s !! p = s !! p.
Proof.
  intros Hf Hl Hp. revert s. induction Hl as [|e l He _ IH]; intros s; [done|]. unfold apply_evs in *. cbn [fmap list_fmap foldl]. by rewrite IH, ev_outside.
Qed.

(** Effects of several objects in any order. *)
Lemma sched_sub l s f : clean_rel f → (∀ g e, (g, e) ∈ l → clean_rel g ∧ clean_ev e ∧ (g ≠ f → apart_from g f)) →
  sub_files f (apply_evs (sched_evs l) s) = apply_evs (evs_of f l) (sub_files f s).
Proof.
  intros Hf. revert s. induction l as [|[g e] l IH]; intros s Hl; [done|]. unfold apply_evs, sched_evs, evs_of in *. cbn [fmap list_fmap foldl omap list_omap fst snd].
  destruct (Hl g e) as (Hg & He & Hap); [left|]. rewrite IH by (intros g' e' Hin; apply Hl; by right). destruct (decide (g = f)) as [->|Hne].
  - by rewrite sub_ev_own.
  - by rewrite sub_ev_other by auto.
Qed.
Lemma crash_cons e l s s' : crash s (e :: l) s' →
  s' = s ∨ (∃ p b1 b2, e = EAppend p (b1 +:+ b2) ∧ s' = apply_ev (EAppend p b1) s) ∨ crash (apply_ev e s) l s'.
Proof. intros H. inversion H; subst; [by left|right; left; eauto|by right; right]. Qed.
Lemma sched_crash l s s' f : clean_rel f → (∀ g e, (g, e) ∈ l → clean_rel g ∧ clean_ev e ∧ (g ≠ f → apart_from g f)) →
  crash s (sched_evs l) s' → crash (sub_files f s) (evs_of f l) (sub_files f s').
Proof.
  intros Hf. revert s. induction l as [|[g e] l IH]; intros s Hl Hc.
  - inversion Hc; subst. constructor.
  - unfold sched_evs in Hc. cbn [fmap list_fmap fst snd] in Hc. destruct (Hl g e) as (Hg & He & Hap); [left|].
    assert (∀ g' e', (g', e') ∈ l → clean_rel g' ∧ clean_ev e' ∧ (g' ≠ f → apart_from g' f)) as Hl' by (intros g' e' Hin; apply Hl; by right).
    unfold evs_of. cbn [omap list_omap fst snd].
    apply crash_cons in Hc as [-> |[(p & b1 & b2 & E1 & ->)|Hc']].
    + constructor.
    + destruct e as [q|q b]; [done|]. cbn [place_ev] in E1. assert (p = path_join [g; q]) as -> by congruence. assert (b = b1 +:+ b2) as -> by congruence. clear E1.
      destruct (decide (g = f)) as [->|Hne].
      * pose proof (sub_ev_own f (EAppend q b1) s Hf He) as Hx. cbn [place_ev] in Hx. rewrite Hx. constructor.
      * pose proof (sub_ev_other g f (EAppend q b1) s Hg Hf (Hap Hne) He) as Hx. cbn [place_ev] in Hx. rewrite Hx. constructor.
    + apply IH in Hc'; [|done]. destruct (decide (g = f)) as [->|Hne].
      * rewrite sub_ev_own in Hc' by done. by constructor.
      * by rewrite sub_ev_other in Hc' by auto.
Qed.

(** * Sessions write clean relative paths *)
Section clean.
  Context (E : env) (i0 : inventory) (n0 : N).
  Context (Hc : CrashSpec.plain_name (content_name i0)) (Ha : str_mem slash (inv_alg i0) = false)
    (Hx : ∀ f b, (f, b) ∈ e_ext_files E → clean_rel f).
  Definition own_path (p : string) : Prop := in_new_version i0 n0 p ∨ root_file i0 p.
  Definition tidy (o : object) : Prop := sess i0 n0 own_path o ∧ Forall clean_ev (ob_trace o) ∧ inv_id (ob_inv o) = inv_id i0 ∧ inv_type (ob_inv o) = inv_type i0.
  Lemma plain_clean n : CrashSpec.plain_name n → clean_rel n.
  Proof.
    intros (H1 & H2 & H3 & H4). unfold clean_rel, split_slash. rewrite split_on_no_sep by done. by repeat constructor.
  Qed.
  Lemma sidecar_plain alg : str_mem slash alg = false → CrashSpec.plain_name (sidecar_name alg).
  Proof. intros H. unfold sidecar_name. repeat split; try done; try (by destruct alg). Qed.
  Lemma version_clean k : clean_rel (version_name (inv_padding i0) k).
  Proof. apply plain_clean, version_name_plain. Qed.
  Lemma tidy_effect op o o' : clean_target E op → effect E op o o' → tidy o → tidy o'.
  Proof using Hc.
    intros Hcl Hef (Hs & Ht & Hid). split; [|split; [|by rewrite (er_id _ _ (ef_ext _ _ _ _ Hef)), (er_type _ _ (ef_ext _ _ _ _ Hef))]].
    { eapply sess_effect; [exact Hc| |done..]. by left. }
    destruct Hef as [_ _ [[H3 _]|(f & area & mp & data & Hwr & Hop & Hmp & H3)]]; [by rewrite H3|].
    assert (clean_rel mp) as Hrel.
    { destruct op as [? path a ?|? [|g gs] a|? ?|? ? ?|? ?]; simpl in *; try done; injection Hop as -> ->; auto. }
    destruct (sess_manifest_name _ _ _ _ _ Hs Hwr Hc Hrel) as (k & Hk & Hname).
    assert (clean_rel (manifest_name (ob_inv o) mp)) as Hq.
    { rewrite Hname. apply clean_rel_app; [apply version_clean|]. apply clean_rel_app; [by apply plain_clean|done]. }
    destruct H3 as [[H3 _]|[H3 _]]; rewrite H3; apply Forall_app; (split; [done|]); repeat constructor; done.
  Qed.
  Lemma tidy_start now msg un ua e o : tidy o → tidy (ob_start now msg un ua e o).1.
  Proof using.
    intros (Hs & Ht & Hid). split; [by apply sess_start|]. destruct Hs as ((m & Hm & _) & _). unfold ob_start, on_inv.
    destruct (new_version_spec (ob_inv o) m now msg un ua Hm) as (s & Heq & _). cbn. rewrite Heq. done.
  Qed.
  Lemma tidy_store o : tidy o → tidy (store_inventory E true false o).1.
  Proof using Ha.
    intros (Hs & Ht & Hid). split; [apply sess_store_version; [by left|done]|]. unfold store_inventory. destruct (inv_writeable (ob_inv o)) eqn:Hw; [|done].
    destruct (e_hash E _ _) as [d|]; [|done]. destruct (sess_head _ _ _ _ Hs Hw) as (k & Hk & Hh). destruct Hs as (_ & _ & _ & Halg & _). split; [|done].
    cbn [fst emit ob_trace]. rewrite Hh, Halg. apply Forall_app. split; [done|].
    repeat constructor; (apply clean_rel_app; [apply version_clean|]); first [by apply plain_clean, sidecar_plain|by repeat constructor].
  Qed.
  Lemma tidy_close o : tidy o → tidy (andThen (store_inventory E false true o) (store_extensions E)).1.
  Proof using Ha Hx.
    intros (Hs & Ht & Hid). split; [apply sess_close; [by right|done]|]. unfold store_inventory. destruct (inv_writeable (ob_inv o)) eqn:Hw; [|done].
    destruct (e_hash E _ _) as [d|]; [|done]. destruct Hs as (_ & _ & _ & Halg & _). split; [|done]. cbn [andThen store_extensions fst emit ob_trace ob_inv]. rewrite Halg.
    apply Forall_app. split; [apply Forall_app; split; [done|]|].
    - repeat constructor; first [by apply plain_clean, sidecar_plain|by repeat constructor].
    - apply Forall_forall. intros e He. apply elem_of_list_In, in_flat_map in He as ([f b] & Hin & He). apply elem_of_list_In in Hin. cbn in He.
      assert (clean_rel ("extensions/" +:+ f)) as H.
      { change ("extensions/" +:+ f) with ("extensions" +:+ "/" +:+ f). apply clean_rel_app; [by repeat constructor|]. by eapply Hx. }
      by destruct He as [<-|[<-|[]]].
  Qed.
  Lemma tidy_run ops o : clean_names E ops → tidy o → tidy (orun E ops o).
  Proof using Hc Ha Hx.
    intros Hcl Hs.
    eapply (guarded_run E (λ _ op _, clean_target E op) (λ _, True)); [..|by apply all_guarded|done].
    - intros orc op x Hg Hx0. eapply tidy_effect; [done|apply sop_effect|done].
    - intros. by apply tidy_start.
    - intros orc x _ _ Hx0. eapply (tidy_effect (SDelete "" "")); [done|apply echo_effect|done].
    - intros x _ Hx0. by apply tidy_store.
    - intros x _ Hx0. by apply tidy_close.
    - done.
  Qed.
  Lemma tidy_open : head_is i0 n0 → tidy (open_object i0).
  Proof. intros H. split; [by apply sess_open|]. split; [constructor|done]. Qed.
End clean.
Lemma run_clean E i ops : head_newest i → CrashSpec.plain_name (content_name i) → str_mem slash (inv_alg i) = false →
  (∀ f b, (f, b) ∈ e_ext_files E → clean_rel f) → clean_names E ops → Forall clean_ev (ob_trace (orun E ops (open_object i))).
Proof.
  intros Hn Hc Ha Hx Hcl. apply head_newest_is in Hn as [n Hn]. apply (tidy_run E i n Hc Ha Hx ops (open_object i) Hcl (tidy_open i n Hn)).
Qed.

(** * Ingest requests *)
From Verif Require Import IngestSpec IngestProofs.
Section ingest_clean.
  Context (E : env) (i0 : inventory) (n0 : N).
  Context (Hc : CrashSpec.plain_name (content_name i0)) (Ha : str_mem slash (inv_alg i0) = false)
    (Hx : ∀ f b, (f, b) ∈ e_ext_files E → clean_rel f).
  Notation tidy := (tidy i0 n0).
  Lemma tidy_visits orcs area dedup l k o :
    (∀ p x m, VFile p (Some x) ∈ l → e_manifest_path E p area = Some m → clean_rel m) → tidy o → tidy (add_visits E orcs k area dedup l o).1.
  Proof using Hc.
    revert k o. induction l as [|v l IH]; intros k o Hl Ho; [done|]. cbn [add_visits].
    assert (tidy (match v with VDir p => ob_add_dir E p area o | VFile p None => ob_add_unreadable E p area o
      | VFile p (Some data) => ob_add E (orcs k) data p area dedup o end).1) as H1.
    { assert (∀ p, (ob_add_dir E p area o).1 = o) as Hd.
      { intros p. unfold ob_add_dir. destruct (inv_writeable _); [|done]. by destruct (build_names _ _ _ _). }
      destruct v as [p [x|]|p].
      - change (tidy (sop_step E (orcs k) (SAdd x p area dedup) o).1). eapply tidy_effect; [exact Hc| |apply sop_effect|done].
        intros m Hm. eapply Hl; [left|done].
      - unfold ob_add_unreadable. specialize (Hd p). destruct (ob_add_dir E p area o) as [o1 []]; cbn in *; by subst.
      - by rewrite Hd. }
    destruct (match v with VDir p => _ | VFile p _ => _ end) as [o1 []]; cbn [andThen fst] in *; [|done..].
    apply IH; [|done]. intros p x m Hin. apply (Hl p x m). by right.
  Qed.
  Lemma tidy_folders orcs dedup folders j o :
    (∀ area t p x m, (area, t) ∈ folders → VFile p (Some x) ∈ walk "." t → e_manifest_path E p area = Some m → clean_rel m) → tidy o →
    tidy (add_folders E orcs j dedup (given folders) o).1.
  Proof using Hc.
    revert j o. induction folders as [|[a t] l IH]; intros j o Hl Ho; [done|]. unfold given. cbn [fmap list_fmap fst snd add_folders]. fold (given l).
    assert (tidy (add_folder E (orcs j) a dedup (Some t) o).1) as H1.
    { unfold add_folder. apply tidy_visits; [|done]. intros p x m Hin. apply (Hl a t p x m); [left|done]. }
    destruct (add_folder E (orcs j) a dedup (Some t) o) as [o1 []]; cbn [andThen fst] in *; [|done..]. apply IH; [|done].
    intros area t' p x m Hin. apply (Hl area t' p x m). by right.
  Qed.
  Lemma tidy_ingest orcs orc1 orc2 r folders o :
    (∀ area t p x m, (area, t) ∈ folders → VFile p (Some x) ∈ walk "." t → e_manifest_path E p area = Some m → clean_rel m) → tidy o →
    tidy (ingest E orcs orc1 orc2 r (given folders) (HDone []) o).1.
  Proof using Hc Ha Hx.
    intros Hl Ho. unfold ingest. pose proof (tidy_start i0 n0 (rq_now r) (rq_msg r) (rq_name r) (rq_addr r) (rq_echo r) o Ho) as H1.
    destruct (ob_start _ _ _ _ _ o) as [o1 []]; cbn [andThen fst] in *; [|done..].
    pose proof (tidy_folders orcs (rq_dedup r) folders 0 o1 Hl H1) as H2. destruct (add_folders _ _ _ _ _ o1) as [o2 []]; cbn [andThen fst] in *; [|done..].
    assert (tidy (orun E [(orc1, OEnd (HDone []))] o2)) as H3 by (apply (tidy_run E i0 n0 Hc Ha Hx); [by repeat constructor|done]).
    cbn [orun ostep] in H3.
    destruct (ob_end E orc1 (HDone []) o2) as [o3 []] eqn:Eend; cbn [andThen fst] in *; [|done..].
    assert (tidy (orun E [(orc2, OClose)] o3)) as H4 by (apply (tidy_run E i0 n0 Hc Ha Hx); [by repeat constructor|done]).
    cbn [orun ostep] in H4. by destruct (ob_close E orc2 o3) as [o4 []].
  Qed.
End ingest_clean.
Lemma ingest_tidy E i n orcs orc1 orc2 r folders o st : head_is i n → CrashSpec.plain_name (content_name i) → str_mem slash (inv_alg i) = false →
  (∀ f b, (f, b) ∈ e_ext_files E → clean_rel f) → placed E folders → (∀ a t, (a, t) ∈ folders → good_folder t) →
  ingest E orcs orc1 orc2 r (given folders) (HDone []) (open_object i) = (o, st) → tidy i n o.
Proof.
  intros Hn Hc Ha Hx Hp Hg H.
  pose proof (tidy_ingest E i n Hc Ha Hx orcs orc1 orc2 r folders (open_object i)) as Ht. rewrite H in Ht. cbn [fst] in Ht. apply Ht; [|by apply tidy_open].
  intros area t p x m Hin Hv Hm. apply folder_files in Hv as (y & [= <-] & Hf); [|by eapply Hg].
  destruct (pl_file _ _ Hp area p x) as (np & m' & _ & Hm' & Hcl); [by exists t|]. congruence.
Qed.
Lemma ingest_clean E i orcs orc1 orc2 r folders o st : head_newest i → CrashSpec.plain_name (content_name i) → str_mem slash (inv_alg i) = false →
  (∀ f b, (f, b) ∈ e_ext_files E → clean_rel f) → placed E folders → (∀ a t, (a, t) ∈ folders → good_folder t) →
  ingest E orcs orc1 orc2 r (given folders) (HDone []) (open_object i) = (o, st) → Forall clean_ev (ob_trace o).
Proof.
  intros Hn Hc Ha Hx Hp Hg H. apply head_newest_is in Hn as [n Hn].
  exact (proj1 (proj2 (ingest_tidy E i n orcs orc1 orc2 r folders o st Hn Hc Ha Hx Hp Hg H))).
Qed.
