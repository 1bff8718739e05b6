(** Reading a stored inventory: lemmas about JsonInvModel. *)
From Coq Require Import Ascii.
From stdpp Require Import base list strings gmap sorting.
From Coq Require Import ZArith Lia.
From Verif Require Import GoStr InventoryModel InventorySpec ValidateModel PublishSpec LayoutSpec JsonModel JsonSpec JsonProofs JsonInvModel JsonInvSpec.

(** * The value that is written *)
Lemma foldr_elem {A} (P : A → Prop) l : (∀ x, x ∈ l → P x) → foldr (λ x Q, P x ∧ Q) True l.
Proof. intros H. induction l as [|x l IH]; [done|]. split; [apply H; by left|]. apply IH. intros y Hy. apply H. by right. Qed.
Lemma foldr_depth {A} (f : A → nat) n l : (∀ x, x ∈ l → f x ≤ n) → foldr (λ x k, Nat.max (f x) k) 0 l ≤ n.
Proof.
  intros H. induction l as [|x l IH]; [apply Nat.le_0_l|]. cbn [foldr]. apply Nat.max_lub; [apply H; by left|]. apply IH. intros y Hy. apply H. by right.
Qed.
Lemma members_elem {A} (f : A → json) m k j : (k, j) ∈ members f m ↔ ∃ a, m !! k = Some a ∧ j = f a.
Proof.
  unfold members. rewrite elem_of_list_omap. split.
  - intros (k' & _ & H). destruct (m !! k') as [a|] eqn:E; [|done]. cbn in H. injection H as <- <-. by exists a.
  - intros (a & Ha & ->). exists k. rewrite Ha. split; [|done]. unfold str_sort. rewrite merge_sort_Permutation.
    apply elem_of_list_fmap. exists (k, a). split; [done|]. by apply elem_of_map_to_list.
Qed.
Lemma strs_ok l : numberless (strs_json l) ∧ depth (strs_json l) ≤ 1 ∧ ((∀ p, p ∈ l → valid_utf8 p) → json_utf8 (strs_json l)).
Proof.
  unfold strs_json. cbn [numberless depth json_utf8]. split; [|split].
  - apply foldr_elem. intros j Hj. apply elem_of_list_fmap in Hj as (p & -> & _). done.
  - apply le_n_S, foldr_depth. intros j Hj. apply elem_of_list_fmap in Hj as (p & -> & _). done.
  - intros H. apply foldr_elem. intros j Hj. apply elem_of_list_fmap in Hj as (p & -> & Hp). by apply H.
Qed.
Lemma members_ok {A} (f : A → json) (m : gmap string A) n :
  (∀ k a, m !! k = Some a → numberless (f a) ∧ depth (f a) ≤ n) →
  numberless (JObj (members f m)) ∧ depth (JObj (members f m)) ≤ S n.
Proof.
  intros H. cbn [numberless depth]. split.
  - apply foldr_elem. intros [k j] Hj. apply members_elem in Hj as (a & Ha & ->). by apply (H k a).
  - apply le_n_S, (foldr_depth (λ p : string * json, depth p.2)). intros [k j] Hj. apply members_elem in Hj as (a & Ha & ->). by apply (H k a).
Qed.
Lemma members_utf8 {A} (f : A → json) (m : gmap string A) :
  (∀ k a, m !! k = Some a → valid_utf8 k ∧ json_utf8 (f a)) → json_utf8 (JObj (members f m)).
Proof.
  intros H. cbn [json_utf8].
  assert (∀ l, (∀ p, p ∈ l → valid_utf8 p.1 ∧ json_utf8 p.2) → foldr (λ (p : string * json) P, valid_utf8 p.1 ∧ json_utf8 p.2 ∧ P) True l) as Hl.
  { induction l as [|p l IH]; intros Hp; [done|]. destruct (Hp p) as [H1 H2]; [by left|]. split; [done|]. split; [done|].
    apply IH. intros q Hq. apply Hp. by right. }
  apply Hl. intros [k j] Hj. apply members_elem in Hj as (a & Ha & ->). by apply (H k a).
Qed.
Lemma smap_ok m : numberless (smap_json m) ∧ depth (smap_json m) ≤ 2 ∧ (utf8_map m → json_utf8 (smap_json m)).
Proof.
  unfold smap_json. destruct (members_ok strs_json m 1) as [H1 H2]; [intros k a _; split; apply strs_ok|].
  split; [done|]. split; [done|]. intros Hu. apply members_utf8. intros k l Hl. destruct (Hu k l Hl) as [Hk Hp]. split; [done|]. by apply strs_ok.
Qed.
Lemma ascii_encode l : Forall (λ c, (N_of_ascii c < 128)%N) (list_ascii_of_string l) → valid_utf8 l.
Proof.
  intros H. induction l as [|c l IH]; [by exists []|]. cbn in H. apply Forall_cons in H as [Hc Hl].
  destruct (IH Hl) as (r & Hr & ->). exists (N_of_ascii c :: r). split; [constructor; [left; lia|done]|].
  cbn [Utf8Model.encode]. unfold Utf8Model.encode_rune. rewrite (proj2 (N.ltb_lt _ _) Hc). unfold Utf8Model.byte. by rewrite ascii_N_embedding.
Qed.
Ltac lit := apply ascii_encode; repeat constructor.
Lemma version_ok v : numberless (version_json v) ∧ depth (version_json v) ≤ 3 ∧ (utf8_version v → json_utf8 (version_json v)).
Proof.
  unfold version_json. destruct (smap_ok (v_state v)) as (H1 & H2 & H3). split; [|split].
  - cbn [numberless foldr snd]. repeat split; apply H1.
  - cbn [depth foldr snd] in *. lia.
  - intros []. cbn [json_utf8 foldr fst snd]. split; [lit|]. split; [done|]. split; [lit|]. split; [done|]. split; [lit|]. split; [by apply H3|].
    split; [lit|]. split; [|done]. split; [lit|]. split; [done|]. split; [lit|]. split; [done|done].
Qed.
Lemma inventory_ok i : numberless (inventory_json i) ∧ depth (inventory_json i) ≤ 10 ∧ (utf8_inventory i → json_utf8 (inventory_json i)).
Proof.
  unfold inventory_json. destruct (smap_ok (inv_manifest i)) as (H1 & H2 & H3).
  destruct (members_ok version_json (inv_versions i) 3) as [V1 V2]; [intros k v _; split; apply version_ok|].
  destruct (members_ok smap_json (inv_fixity i) 2) as [F1 F2]; [intros k m _; split; apply smap_ok|].
  assert (∀ l, numberless (JObj l) ↔ ∀ p, p ∈ l → numberless p.2) as Hn.
  { intros l. cbn [numberless]. split; [|apply foldr_elem]. induction l as [|p l IH]; [by intros _ p ?%elem_of_nil|]. intros [Hp Hl] q Hq.
    apply elem_of_cons in Hq as [->|Hq]; [done|]. by apply IH. }
  split; [|split].
  - apply Hn. intros p Hp. rewrite !elem_of_app in Hp. 
    destruct Hp as [Hp|[Hp|[Hp|Hp]]]; try (destruct (decide _); [by apply elem_of_nil in Hp|]);
      repeat (apply elem_of_cons in Hp as [->|Hp]; [done|]); try by apply elem_of_nil in Hp.
  - change 10 with (S 9). cbn [depth]. apply le_n_S, (foldr_depth (λ p : string * json, depth p.2)). intros p Hp. rewrite !elem_of_app in Hp.
    destruct Hp as [Hp|[Hp|[Hp|Hp]]]; try (destruct (decide _); [by apply elem_of_nil in Hp|]);
      repeat (apply elem_of_cons in Hp as [->|Hp]; [cbn [snd]; try (cbn [depth]; lia); lia|]); try by apply elem_of_nil in Hp.
  - intros []. assert (∀ l, (∀ p, p ∈ l → valid_utf8 p.1 ∧ json_utf8 p.2) → json_utf8 (JObj l)) as Hl.
    { cbn [json_utf8]. induction l as [|p l IH]; intros Hp; [done|]. destruct (Hp p) as [A B]; [by left|]. split; [done|]. split; [done|].
      apply IH. intros q Hq. apply Hp. by right. }
    apply Hl. intros p Hp. rewrite !elem_of_app in Hp.
    destruct Hp as [Hp|[Hp|[Hp|Hp]]]; try (destruct (decide _); [by apply elem_of_nil in Hp|]);
      repeat (apply elem_of_cons in Hp as [->|Hp]; [split; [cbn [fst]; lit|cbn [snd]; try done]|]); try by apply elem_of_nil in Hp.
    + by apply H3.
    + apply members_utf8. intros k v Hv. destruct (ui_versions k v Hv). split; [done|]. by apply version_ok.
    + apply members_utf8. intros k m Hm. destruct (ui_fixity k m Hm). split; [done|]. by apply smap_ok.
Qed.
Lemma read_inventory i : utf8_inventory i → read (inventory_text i) = Some (inventory_json i).
Proof.
  intros H. destruct (inventory_ok i) as (H1 & H2 & H3). unfold inventory_text. rewrite read_render; [|done|lia]. by rewrite repaired_id by auto.
Qed.

(** * The document that is read *)
Lemma foldl_insert {A B} (f : A → B) (l : list (string * A)) (m : gmap string B) :
  foldl (λ m p, <[p.1 := f p.2]> m) m l = list_to_map (rev ((λ p, (p.1, f p.2)) <$> l)) ∪ m.
Proof.
  revert m; induction l as [|[k a] l IH]; intros m; cbn [foldl]; [symmetry; apply (left_id_L ∅ (∪))|].
  rewrite IH. cbn [fst snd fmap list_fmap rev]. rewrite list_to_map_app. cbn [list_to_map foldr fst snd].
  rewrite <- (assoc_L (∪)). f_equal. rewrite insert_union_singleton_l. f_equal.
Qed.
Lemma members_perm {A} (f : A → json) m : members f m ≡ₚ (λ p : string * A, (p.1, f p.2)) <$> map_to_list m.
Proof.
  unfold members. 
  assert (∀ l : list (string * A), (∀ k a, (k, a) ∈ l → m !! k = Some a) →
    omap (λ k, (λ a, (k, f a)) <$> m !! k) l.*1 = (λ p : string * A, (p.1, f p.2)) <$> l) as Hl.
  { induction l as [|[k a] l IH]; intros Hl; [done|]. cbn. rewrite (Hl k a) by left. cbn. f_equal. apply IH. intros x y Hx. apply Hl. by right. }
  rewrite <- Hl by (intros k a H; by apply elem_of_map_to_list in H). unfold str_sort. by rewrite merge_sort_Permutation.
Qed.
Lemma dec_written {A B} (f : A → json) (g : json → B * bool) (h : A → B) m :
  (∀ k a, m !! k = Some a → g (f a) = (h a, false)) → dec_members g ∅ (members f m) = (h <$> m, false).
Proof.
  intros H. unfold dec_members. f_equal.
  - rewrite (foldl_insert (λ j, (g j).1)), (right_id_L ∅ (∪)). apply map_eq. intros k. rewrite lookup_fmap.
    assert (rev ((λ p : string * json, (p.1, (g p.2).1)) <$> members f m) ≡ₚ (λ p : string * A, (p.1, h p.2)) <$> map_to_list m) as Hp.
    { rewrite <- Permutation_rev. rewrite members_perm, <- list_fmap_compose.
      assert (∀ l : list (string * A), (∀ k a, (k, a) ∈ l → m !! k = Some a) →
        ((λ p : string * json, (p.1, (g p.2).1)) ∘ (λ p : string * A, (p.1, f p.2))) <$> l = (λ p : string * A, (p.1, h p.2)) <$> l) as Hl.
      { induction l as [|[x a] l IH]; intros Hl; [done|]. cbn. rewrite (H x a) by (apply Hl; left). cbn. f_equal. apply IH. intros y z Hy. apply Hl. by right. }
      rewrite Hl; [done|]. intros x a Hx. by apply elem_of_map_to_list in Hx. }
    assert (NoDup ((λ p : string * A, (p.1, h p.2)) <$> map_to_list m).*1) as Hnd.
    { rewrite <- list_fmap_compose. apply NoDup_fst_map_to_list. }
    assert (list_to_map (rev ((λ p : string * json, (p.1, (g p.2).1)) <$> members f m)) = (list_to_map ((λ p : string * A, (p.1, h p.2)) <$> map_to_list m) : gmap string B)) as ->.
    { apply list_to_map_proper; [by rewrite Hp|done]. }
    rewrite <- (lookup_fmap h m k). f_equal. rewrite <- (list_to_map_to_list (h <$> m)).
    apply list_to_map_proper; [done|]. rewrite map_to_list_fmap. reflexivity.
  - destruct (existsb (λ p : string * json, (g p.2).2) (members f m)) eqn:E; [|done].
    apply existsb_exists in E as ([k j] & Hin & He). apply elem_of_list_In, members_elem in Hin as (a & Ha & ->). cbn [snd] in He. by rewrite (H k a Ha) in He.
Qed.
Lemma dec_strs l : dec_strings (strs_json l) = (l, false).
Proof.
  unfold strs_json. cbn [dec_strings]. f_equal.
  - rewrite map_map. cbn. apply map_id.
  - induction l as [|p l IH]; [done|]. cbn. exact IH.
Qed.
Lemma dec_written_smap m : dec_smap ∅ (smap_json m) = (m, false).
Proof.
  unfold dec_smap, smap_json. cbn [dec_map]. rewrite (dec_written strs_json dec_strings id); [by rewrite map_fmap_id|].
  intros k l _. apply dec_strs.
Qed.
Definition unobj (j : json) : list (string * json) := match j with JObj l => l | _ => [] end.
Section load.
  Context (fits : string → bool) (tm : string → option string) (t0 : string).
  Lemma dec_written_version v : tm (v_created v) = Some (v_created v) → dec_version tm t0 (version_json v) = (Some (vdoc_of v), false).
  Proof.
    intros H. unfold version_json. cbn [dec_version foldl].
    assert (∀ d, dec_version_member tm t0 d ("created", JStr (v_created v)) = VDoc (Some (OStr (v_created v) (os_err (default (OStr t0 false) (vd_created d)))))
      (vd_message d) (vd_state d) (vd_user d)) as ->.
    { intros d. unfold dec_version_member. change (field "created" (fst ("created", JStr (v_created v)))) with true. cbn [snd dec_time]. by rewrite H. }
    unfold dec_version_member at 3. cbn [fst snd]. change (field "created" "message") with false. change (field "message" "message") with true. cbn iota.
    unfold dec_version_member at 2. cbn [fst snd]. change (field "created" "state") with false. change (field "message" "state") with false. change (field "state" "state") with true. cbn iota.
    unfold dec_version_member at 1. cbn [fst snd]. change (field "created" "user") with false. change (field "message" "user") with false.
    change (field "state" "user") with false. change (field "user" "user") with true. cbn iota.
    unfold dec_state. change (smap_json (v_state v)) with (JObj (members strs_json (v_state v))) at 1. cbn iota.
    rewrite dec_written_smap. reflexivity.
  Qed.
  Lemma dec_written_versions (m : gmap string version) : (∀ ver v, m !! ver = Some v → tm (v_created v) = Some (v_created v)) →
    dec_versions tm t0 (JObj (members version_json m)) = Some ((λ v, Some (vdoc_of v)) <$> m).
  Proof.
    intros H. unfold dec_versions. cbn [dec_map]. rewrite (dec_written version_json _ (λ v, Some (vdoc_of v))); [done|].
    intros k v Hv. by apply dec_written_version, (H k v).
  Qed.
  Lemma dec_written_fixity (m : gmap string smap) : dec_map (dec_smap ∅) ∅ (JObj (members smap_json m)) = (m, false).
  Proof. cbn [dec_map]. rewrite (dec_written smap_json _ id); [by rewrite map_fmap_id|]. intros k l _. apply dec_written_smap. Qed.
  Lemma dec_written_inventory i spec l : timely tm i → inventory_json i = JObj l →
    dec_inventory tm t0 spec l =
      Raw (inv_id i) (inv_type i) (inv_alg i) (Some (OStr (inv_head i) false)) (inv_contentdir i) (Some (inv_manifest i))
        (Some ((λ v, Some (vdoc_of v)) <$> inv_versions i)) (inv_fixity i) false.
  Proof.
    intros Ht E. apply (f_equal unobj) in E. unfold inventory_json in E. cbn iota beta delta [unobj] in E. subst l. unfold dec_inventory. rewrite !foldl_app. unfold raw0.
    assert (∀ r, dec_member tm t0 r ("manifest", smap_json (inv_manifest i)) =
      Raw (r_id r) (r_type r) (r_alg r) (r_head r) (r_cdir r) (Some (inv_manifest i)) (r_versions r) (r_fixity r) (r_err r)) as Hm.
    { intros r. unfold dec_member. change (field "id" "manifest") with false. change (field "type" "manifest") with false.
      change (field "digestAlgorithm" "manifest") with false. change (field "head" "manifest") with false.
      change (field "contentDirectory" "manifest") with false. change (field "manifest" "manifest") with true. cbn iota.
      unfold dec_manifest. change (smap_json (inv_manifest i)) with (JObj (members strs_json (inv_manifest i))) at 1. cbn iota.
      by rewrite dec_written_smap. }
    assert (∀ r, dec_member tm t0 r ("versions", JObj (members version_json (inv_versions i))) =
      Raw (r_id r) (r_type r) (r_alg r) (r_head r) (r_cdir r) (r_manifest r) (Some ((λ v, Some (vdoc_of v)) <$> inv_versions i)) (r_fixity r) (r_err r)) as Hv.
    { intros r. unfold dec_member. change (field "id" "versions") with false. change (field "type" "versions") with false.
      change (field "digestAlgorithm" "versions") with false. change (field "head" "versions") with false.
      change (field "contentDirectory" "versions") with false. change (field "manifest" "versions") with false.
      change (field "versions" "versions") with true. cbn iota. by rewrite dec_written_versions. }
    assert (∀ r, r_fixity r = ∅ → dec_member tm t0 r ("fixity", JObj (members smap_json (inv_fixity i))) =
      Raw (r_id r) (r_type r) (r_alg r) (r_head r) (r_cdir r) (r_manifest r) (r_versions r) (inv_fixity i) (r_err r || false)) as Hf.
    { intros r Hr. unfold dec_member. change (field "id" "fixity") with false. change (field "type" "fixity") with false.
      change (field "digestAlgorithm" "fixity") with false. change (field "head" "fixity") with false.
      change (field "contentDirectory" "fixity") with false. change (field "manifest" "fixity") with false.
      change (field "versions" "fixity") with false. change (field "fixity" "fixity") with true. cbn iota. by rewrite Hr, dec_written_fixity. }
    cbn [foldl]. 
    match goal with |- context [foldl _ ?r (if decide (inv_contentdir i = "") then _ else _)] => set (r1 := r) end.
    assert (foldl (dec_member tm t0) r1 (if decide (inv_contentdir i = "") then [] else [("contentDirectory", JStr (inv_contentdir i))]) =
      Raw (inv_id i) (inv_type i) (inv_alg i) (Some (OStr (inv_head i) false)) (inv_contentdir i) None (Some ∅) ∅ false) as ->.
    { destruct (decide (inv_contentdir i = "")) as [E|E]; [rewrite E; reflexivity|reflexivity]. }
    rewrite Hm, Hv. cbn [r_id r_type r_alg r_head r_cdir r_manifest r_versions r_fixity r_err].
    destruct (decide (inv_fixity i = ∅)) as [E|E]; cbn [foldl]; [by rewrite E|]. by rewrite Hf.
  Qed.
  Lemma numberless_fits j : numberless j → all_fit fits j = true.
  Proof.
    induction j as [| | | |l IH|l IH] using json_rect'; cbn [numberless all_fit]; try done.
    - intros H. induction IH as [|j l Hj _ IHl]; [done|]. destruct H as [H1 H2]. cbn. rewrite Hj by done. by apply IHl.
    - intros H. induction IH as [|j l Hj _ IHl]; [done|]. destruct H as [H1 H2]. cbn. rewrite Hj by done. by apply IHl.
  Qed.
  Lemma member_type i l : inventory_json i = JObj l → member "type" l = Some (JStr (inv_type i)) ∧ member "head" l = Some (JStr (inv_head i)).
  Proof.
    intros E. apply (f_equal unobj) in E. unfold inventory_json in E. cbn iota beta delta [unobj] in E. subst l. unfold member. rewrite !foldl_app. cbn [foldl fst snd].
    split; destruct (decide (inv_contentdir i = "")), (decide (inv_fixity i = ∅)); reflexivity.
  Qed.
  (** Reading what was written gives the document of the inventory. *)
  Lemma load_written_json i : timely tm i → load_json fits tm t0 (inventory_json i) = LDoc [] (doc_of i).
  Proof.
    intros Ht. unfold load_json. rewrite numberless_fits by apply inventory_ok. cbn [negb].
    destruct (inventory_json i) as [| | | | |l] eqn:E; try done. destruct (member_type i l E) as [-> ->].
    rewrite (dec_written_inventory i _ _ Ht E). cbn [r_err]. unfold no_nil. cbn [r_head r_versions default from_option id].
    rewrite bool_decide_eq_true_2.
    2:{ intros k v Hv. rewrite lookup_fmap in Hv. destruct (inv_versions i !! k); [|done]. injection Hv as <-. by eexists. }
    cbn [r_id r_type r_alg r_cdir r_manifest r_fixity]. unfold doc_of. do 3 f_equal. cbn [fmap option_fmap option_map]. f_equal.
    apply map_eq. intros k. rewrite lookup_omap, !lookup_fmap. by destruct (inv_versions i !! k).
  Qed.
  Lemma load_written_text i : utf8_inventory i → timely tm i → load_text fits tm t0 (inventory_text i) = LDoc [] (doc_of i).
  Proof. intros Hu Ht. unfold load_text. rewrite read_inventory by done. by apply load_written_json. Qed.
End load.
