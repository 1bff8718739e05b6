(** The order of the members of a stored inventory does not matter. *)
From Coq Require Import Ascii.
From stdpp Require Import base list strings gmap relations.
From Coq Require Import ZArith Lia.
From Verif Require Import GoStr InventoryModel ValidateModel LayoutSpec JsonModel JsonSpec JsonProofs JsonInvModel JsonInvSpec JsonInvProofs JsonTextSpec JsonTextProofs JsonTextProofs2.
From Verif Require JsonTypeSpec JsonTypeProofs3.

Lemma folds_fold_name k : folds k (fold_name k).
Proof.
  assert (∀ n s, String.length s ≤ n → folds s (fold_name s)) as H; [|by apply (H (String.length k))].
  induction n as [|n IH]; intros s Hs; [destruct s; [constructor|cbn in Hs; lia]|].
  destruct s as [|a [|b s]]; [constructor|apply (folds_letter a "" ""); constructor|].
  cbn [fold_name]. destruct ((N_of_ascii a =? 197)%N && (N_of_ascii b =? 191)%N) eqn:E.
  - apply andb_prop in E as [Ha%N.eqb_eq Hb%N.eqb_eq]. assert (a = ascii_of_N 197) as -> by (by rewrite <- Ha, ascii_N_embedding). assert (b = ascii_of_N 191) as -> by (by rewrite <- Hb, ascii_N_embedding).
    apply (folds_long_s s). apply IH. cbn in Hs. lia.
  - apply (folds_letter a (String b s) (fold_name (String b s))). apply IH. cbn in *. lia.
Qed.
Lemma apart_fold k k' : apart k k' → fold_name k ≠ fold_name k'.
Proof. intros H E. apply (H (fold_name k)); [apply folds_fold_name|]. rewrite E. apply folds_fold_name. Qed.
Lemma apart_ne k k' : apart k k' → k ≠ k'.
Proof. intros H ->. by apply apart_fold in H. Qed.
Lemma apart_field k k' n : apart k k' → field n k = true → field n k' = true → False.
Proof. intros H%apart_fold H1%bool_decide_eq_true H2%bool_decide_eq_true. congruence. Qed.

Lemma foldl_here {A B} (f : A → B → A) x a p q b : (∀ y, f (f y p) q = f (f y q) p) → foldl f x (a ++ p :: q :: b) = foldl f x (a ++ q :: p :: b).
Proof. intros H. rewrite !foldl_app. cbn [foldl]. by rewrite H. Qed.
Lemma foldl_member {A B} (f : A → B → A) x a p q b : (∀ y, f y p = f y q) → foldl f x (a ++ p :: b) = foldl f x (a ++ q :: b).
Proof. intros H. rewrite !foldl_app. cbn [foldl]. by rewrite H. Qed.
Lemma existsb_here {A} (f : A → bool) a p q b : existsb f (a ++ p :: q :: b) = existsb f (a ++ q :: p :: b).
Proof. rewrite !existsb_app. cbn [existsb]. by destruct (f p), (f q). Qed.
Lemma existsb_member {A} (f : A → bool) a p q b : f p = f q → existsb f (a ++ p :: b) = existsb f (a ++ q :: b).
Proof. intros H. rewrite !existsb_app. cbn [existsb]. by rewrite H. Qed.

(** Fields: the names a decoder looks for are told apart. *)
Section fold_fields.
  Context {A : Type} (f : A → string * json → A).
  (** Either member leaves what the other one sets alone, as long as no field takes both. *)
  Hypothesis f_swap : ∀ y p q, apart p.1 q.1 → f (f y p) q = f (f y q) p.
  Hypothesis f_value : ∀ y k j j', swapped j j' → f y (k, j) = f y (k, j').
  Lemma foldl_swapped x l l' : swapped (JObj l) (JObj l') → foldl f x l = foldl f x l'.
  Proof.
    intros H. inversion H; subst.
    - apply foldl_here. intros y. by apply f_swap.
    - apply foldl_member. intros y. by apply f_value.
  Qed.
End fold_fields.

Lemma swapped_shape j j' : swapped j j' → (∃ l l', j = JObj l ∧ j' = JObj l') ∨ (∃ l l', j = JArr l ∧ j' = JArr l').
Proof. intros []; eauto 10. Qed.
Lemma dec_string_swapped cur j j' : swapped j j' → dec_string cur j = dec_string cur j'.
Proof. intros [(l & l' & -> & ->)|(l & l' & -> & ->)]%swapped_shape; done. Qed.
Lemma dec_strings_swapped j j' : swapped j j' → dec_strings j = dec_strings j'.
Proof.
  intros []; [done..|]. cbn [dec_strings]. f_equal.
  - rewrite !map_app. cbn [map]. by erewrite dec_string_swapped.
  - apply existsb_member. by erewrite dec_string_swapped.
Qed.
Lemma dec_map_swapped {A} (f : json → A * bool) cur j j' : (∀ j j', swapped j j' → f j = f j') → swapped j j' → dec_map f cur j = dec_map f cur j'.
Proof.
  intros Hf H. destruct H as [a k j k' j' b Ha|a k j j' b Hj|a j j' b Hj]; [| |done]; cbn [dec_map]; unfold dec_members; f_equal.
  - apply foldl_here. intros y. cbn [fst snd]. apply insert_commute. intros E. symmetry in E. revert E. by apply apart_ne.
  - apply existsb_here.
  - apply foldl_member. intros y. cbn [fst snd]. by erewrite Hf.
  - apply existsb_member. cbn [snd]. by erewrite Hf.
Qed.
Lemma dec_smap_swapped cur j j' : swapped j j' → dec_smap cur j = dec_smap cur j'.
Proof. apply dec_map_swapped, dec_strings_swapped. Qed.
Lemma dec_ostr_swapped cur j j' : swapped j j' → dec_ostr cur j = dec_ostr cur j'.
Proof. intros [(l & l' & -> & ->)|(l & l' & -> & ->)]%swapped_shape; done. Qed.
Lemma dec_time_swapped tm t0 cur j j' : swapped j j' → dec_time tm t0 cur j = dec_time tm t0 cur j'.
Proof. intros [(l & l' & -> & ->)|(l & l' & -> & ->)]%swapped_shape; done. Qed.
Lemma dec_state_swapped cur j j' : swapped j j' → dec_state cur j = dec_state cur j'.
Proof. intros H. pose proof (dec_smap_swapped ∅ _ _ H) as E. destruct (swapped_shape _ _ H) as [(l & l' & -> & ->)|(l & l' & -> & ->)]; unfold dec_state; by rewrite E. Qed.

Ltac tell := match goal with
  | H1 : field ?n ?k = true, H2 : field ?n ?k' = true, H : apart ?k ?k' |- _ => destruct (apart_field k k' n H H1 H2)
  end.
Lemma user_swap y p q : apart p.1 q.1 → dec_user_member (dec_user_member y p) q = dec_user_member (dec_user_member y q) p.
Proof.
  intros H. unfold dec_user_member. destruct (field "address" p.1) eqn:E1, (field "address" q.1) eqn:E2; try tell; destruct (field "name" p.1) eqn:E3, (field "name" q.1) eqn:E4; try tell; reflexivity.
Qed.
Lemma user_value y k j j' : swapped j j' → dec_user_member y (k, j) = dec_user_member y (k, j').
Proof. intros H. unfold dec_user_member. cbn [fst snd]. by rewrite (dec_ostr_swapped _ _ _ H), (dec_ostr_swapped y.2 _ _ H). Qed.
Lemma dec_user_swapped cur j j' : swapped j j' → dec_user cur j = dec_user cur j'.
Proof.
  intros H. destruct (swapped_shape _ _ H) as [(l & l' & -> & ->)|(l & l' & -> & ->)]; [|done]. cbn [dec_user].
  by rewrite (foldl_swapped dec_user_member user_swap user_value (None, None) l l' H).
Qed.
Lemma version_swap tm t0 y p q : apart p.1 q.1 → dec_version_member tm t0 (dec_version_member tm t0 y p) q = dec_version_member tm t0 (dec_version_member tm t0 y q) p.
Proof.
  intros H. unfold dec_version_member.
  destruct (field "created" p.1) eqn:E1, (field "created" q.1) eqn:E2; try tell; destruct (field "message" p.1) eqn:E3, (field "message" q.1) eqn:E4; try tell;
    destruct (field "state" p.1) eqn:E5, (field "state" q.1) eqn:E6; try tell; destruct (field "user" p.1) eqn:E7, (field "user" q.1) eqn:E8; try tell; reflexivity.
Qed.
Lemma version_value tm t0 y k j j' : swapped j j' → dec_version_member tm t0 y (k, j) = dec_version_member tm t0 y (k, j').
Proof.
  intros H. unfold dec_version_member. cbn [fst snd].
  by rewrite (dec_time_swapped tm t0 (vd_created y) _ _ H), (dec_ostr_swapped (vd_message y) _ _ H), (dec_state_swapped (vd_state y) _ _ H), (dec_user_swapped (vd_user y) _ _ H).
Qed.
Lemma dec_version_swapped tm t0 j j' : swapped j j' → dec_version tm t0 j = dec_version tm t0 j'.
Proof.
  intros H. destruct (swapped_shape _ _ H) as [(l & l' & -> & ->)|(l & l' & -> & ->)]; [|done]. cbn [dec_version].
  by rewrite (foldl_swapped (dec_version_member tm t0) (version_swap tm t0) (version_value tm t0) (VDoc None None None None) l l' H).
Qed.
Lemma dec_manifest_swapped j j' : swapped j j' → dec_manifest j = dec_manifest j'.
Proof. intros H. pose proof (dec_smap_swapped ∅ _ _ H) as E. destruct (swapped_shape _ _ H) as [(l & l' & -> & ->)|(l & l' & -> & ->)]; unfold dec_manifest; by rewrite E. Qed.
Lemma dec_versions_swapped tm t0 j j' : swapped j j' → dec_versions tm t0 j = dec_versions tm t0 j'.
Proof.
  intros H. pose proof (dec_map_swapped (dec_version tm t0) ∅ _ _ (dec_version_swapped tm t0) H) as E.
  destruct (swapped_shape _ _ H) as [(l & l' & -> & ->)|(l & l' & -> & ->)]; unfold dec_versions; by rewrite E.
Qed.
Definition inventory_fields : list string := ["id"; "type"; "digestAlgorithm"; "head"; "contentDirectory"; "manifest"; "versions"; "fixity"].
Lemma field_fun n n' k : n ∈ inventory_fields → n' ∈ inventory_fields → field n k = true → field n' k = true → n = n'.
Proof.
  intros Hn Hn' H1%bool_decide_eq_true H2%bool_decide_eq_true. rewrite H1 in H2. clear H1.
  assert (forallb (λ n, forallb (λ n', negb (bool_decide (to_lower n = to_lower n')) || bool_decide (n = n')) inventory_fields) inventory_fields = true) as H by (vm_compute; reflexivity).
  rewrite List.forallb_forall in H. specialize (H n (proj1 (elem_of_list_In _ _) Hn)). rewrite List.forallb_forall in H. specialize (H n' (proj1 (elem_of_list_In _ _) Hn')).
  rewrite (bool_decide_eq_true_2 _ H2) in H. by apply bool_decide_eq_true in H.
Qed.
Lemma field_other n n' k : n ∈ inventory_fields → n' ∈ inventory_fields → n ≠ n' → field n k = true → field n' k = false.
Proof. intros H1 H2 Hne H. destruct (field n' k) eqn:E; [|done]. by destruct (Hne (field_fun n n' k H1 H2 H E)). Qed.
Ltac among := apply elem_of_list_In; vm_compute; tauto.
Ltac walk := unfold dec_member;
  repeat match goal with
  | |- context [if field ?n ?k then _ else _] =>
      let E := fresh "E" in destruct (field n k) eqn:E;
      [repeat match goal with |- context [field ?n' k] => rewrite (field_other n n' k ltac:(among) ltac:(among) ltac:(discriminate) E) end
      |]
  end.
Section projections.
  Context (tm : string → option string) (t0 : string) (r : raw) (k : string) (j : json).
  Local Notation d := (dec_member tm t0 r (k, j)).
  Definition wrong : bool :=
    if field "id" k then (dec_string "" j).2 else if field "type" k then (dec_string "" j).2 else if field "digestAlgorithm" k then (dec_string "" j).2
    else if field "contentDirectory" k then (dec_string "" j).2 else if field "fixity" k then (dec_map (dec_smap ∅) (∅ : gmap string smap) j).2 else false.
  Lemma d_id : r_id d = if field "id" k then (dec_string (r_id r) j).1 else r_id r.
  Proof. walk; try done; try (by destruct (dec_string _ j)); by destruct (dec_map (dec_smap ∅) (r_fixity r) j). Qed.
  Lemma d_type : r_type d = if field "type" k then (dec_string (r_type r) j).1 else r_type r.
  Proof. walk; try done; try (by destruct (dec_string _ j)); by destruct (dec_map (dec_smap ∅) (r_fixity r) j). Qed.
  Lemma d_alg : r_alg d = if field "digestAlgorithm" k then (dec_string (r_alg r) j).1 else r_alg r.
  Proof. walk; try done; try (by destruct (dec_string _ j)); by destruct (dec_map (dec_smap ∅) (r_fixity r) j). Qed.
  Lemma d_head : r_head d = if field "head" k then dec_ostr (r_head r) j else r_head r.
  Proof. walk; try done; try (by destruct (dec_string _ j)); by destruct (dec_map (dec_smap ∅) (r_fixity r) j). Qed.
  Lemma d_cdir : r_cdir d = if field "contentDirectory" k then (dec_string (r_cdir r) j).1 else r_cdir r.
  Proof. walk; try done; try (by destruct (dec_string _ j)); by destruct (dec_map (dec_smap ∅) (r_fixity r) j). Qed.
  Lemma d_manifest : r_manifest d = if field "manifest" k then dec_manifest j else r_manifest r.
  Proof. walk; try done; try (by destruct (dec_string _ j)); by destruct (dec_map (dec_smap ∅) (r_fixity r) j). Qed.
  Lemma d_versions : r_versions d = if field "versions" k then dec_versions tm t0 j else r_versions r.
  Proof. walk; try done; try (by destruct (dec_string _ j)); by destruct (dec_map (dec_smap ∅) (r_fixity r) j). Qed.
  Lemma d_fixity : r_fixity d = if field "fixity" k then (dec_map (dec_smap ∅) (r_fixity r) j).1 else r_fixity r.
  Proof. walk; try done; try (by destruct (dec_string _ j)); by destruct (dec_map (dec_smap ∅) (r_fixity r) j). Qed.
  Lemma d_err : r_err d = r_err r || wrong.
  Proof.
    assert (∀ c, (dec_string c j).2 = (dec_string "" j).2) as Hs by (intros; by destruct j).
    assert (∀ c, (dec_map (dec_smap ∅) c j).2 = (dec_map (dec_smap ∅) (∅ : gmap string smap) j).2) as Hm by (intros; by destruct j).
    unfold wrong. walk; rewrite ?orb_false_r; try done.
    - rewrite <- (Hs (r_id r)). clear Hs Hm. destruct (dec_string (r_id r) j). reflexivity.
    - rewrite <- (Hs (r_type r)). clear Hs Hm. destruct (dec_string (r_type r) j). reflexivity.
    - rewrite <- (Hs (r_alg r)). clear Hs Hm. destruct (dec_string (r_alg r) j). reflexivity.
    - rewrite <- (Hs (r_cdir r)). clear Hs Hm. destruct (dec_string (r_cdir r) j). reflexivity.
    - rewrite <- (Hm (r_fixity r)). clear Hs Hm. destruct (dec_map (dec_smap ∅) (r_fixity r) j). reflexivity.
  Qed.
End projections.
Lemma raw_ext a b : r_id a = r_id b → r_type a = r_type b → r_alg a = r_alg b → r_head a = r_head b → r_cdir a = r_cdir b → r_manifest a = r_manifest b →
  r_versions a = r_versions b → r_fixity a = r_fixity b → r_err a = r_err b → a = b.
Proof. destruct a, b. cbn. by intros -> -> -> -> -> -> -> -> ->. Qed.
Lemma member_swap tm t0 y p q : apart p.1 q.1 → dec_member tm t0 (dec_member tm t0 y p) q = dec_member tm t0 (dec_member tm t0 y q) p.
Proof.
  destruct p as [k j], q as [k' j']. cbn [fst]. intros H. apply raw_ext.
  - rewrite !d_id. destruct (field "id" k) eqn:E1, (field "id" k') eqn:E2; try tell; reflexivity.
  - rewrite !d_type. destruct (field "type" k) eqn:E1, (field "type" k') eqn:E2; try tell; reflexivity.
  - rewrite !d_alg. destruct (field "digestAlgorithm" k) eqn:E1, (field "digestAlgorithm" k') eqn:E2; try tell; reflexivity.
  - rewrite !d_head. destruct (field "head" k) eqn:E1, (field "head" k') eqn:E2; try tell; reflexivity.
  - rewrite !d_cdir. destruct (field "contentDirectory" k) eqn:E1, (field "contentDirectory" k') eqn:E2; try tell; reflexivity.
  - rewrite !d_manifest. destruct (field "manifest" k) eqn:E1, (field "manifest" k') eqn:E2; try tell; reflexivity.
  - rewrite !d_versions. destruct (field "versions" k) eqn:E1, (field "versions" k') eqn:E2; try tell; reflexivity.
  - rewrite !d_fixity. destruct (field "fixity" k) eqn:E1, (field "fixity" k') eqn:E2; try tell; reflexivity.
  - rewrite !d_err. by destruct (r_err y), (wrong k j), (wrong k' j').
Qed.
Lemma member_value tm t0 y k j j' : swapped j j' → dec_member tm t0 y (k, j) = dec_member tm t0 y (k, j').
Proof.
  intros H. unfold dec_member. rewrite (dec_string_swapped (r_id y) _ _ H), (dec_string_swapped (r_type y) _ _ H), (dec_string_swapped (r_alg y) _ _ H), (dec_string_swapped (r_cdir y) _ _ H),
    (dec_ostr_swapped (r_head y) _ _ H), (dec_manifest_swapped _ _ H), (dec_versions_swapped tm t0 _ _ H), (dec_map_swapped (dec_smap ∅) (r_fixity y) _ _ (dec_smap_swapped ∅) H). done.
Qed.

Lemma all_fit_swapped fits j j' : swapped j j' → all_fit fits j = all_fit fits j'.
Proof.
  induction 1 as [a k j k' j' b _|a k j j' b _ IH|a j j' b _ IH]; cbn [all_fit]; rewrite !forallb_app; cbn [forallb snd]; rewrite ?IH; [|done..].
  by destruct (all_fit fits j), (all_fit fits j').
Qed.
(** What the loader sees of one member: the value up to the order inside of it. *)
Definition alike (o o' : option json) : Prop := o = o' ∨ ∃ j j', o = Some j ∧ o' = Some j' ∧ swapped j j'.
Lemma member_alike n l l' : swapped (JObj l) (JObj l') → alike (member n l) (member n l').
Proof.
  intros H. inversion H as [a k j k' j' b Ha|a k j j' b Hj|]; subst; unfold member.
  - left. apply foldl_here. intros y. cbn [fst snd]. apply apart_ne in Ha. destruct (bool_decide_reflect (k = n)), (bool_decide_reflect (k' = n)); congruence.
  - rewrite !foldl_app. cbn [foldl fst snd].
    assert (∀ c x y, alike x y → alike (foldl (λ r p, if bool_decide (p.1 = n) then Some p.2 else r) x c) (foldl (λ r (p : string * json), if bool_decide (p.1 = n) then Some p.2 else r) y c)) as Hc.
    { induction c as [|p c IH]; intros x y Hxy; [done|]. cbn [foldl]. apply IH. destruct (bool_decide (p.1 = n)); [by left|done]. }
    apply Hc. destruct (bool_decide (k = n)); [right; eauto|by left].
Qed.
Lemma alike_string {A} (o o' : option json) (f : string → A) (g : A) (h : A) : alike o o' →
  match o with None => h | Some (JStr s) => f s | Some _ => g end = match o' with None => h | Some (JStr s) => f s | Some _ => g end.
Proof. intros [->|(j & j' & -> & -> & [(l & l' & -> & ->)|(l & l' & -> & ->)]%swapped_shape)]; done. Qed.
Lemma load_json_swapped fits tm t0 j j' : swapped j j' → load_json fits tm t0 j = load_json fits tm t0 j'.
Proof.
  intros H. unfold load_json. rewrite (all_fit_swapped fits j j' H). destruct (negb (all_fit fits j')); [done|].
  destruct (swapped_shape _ _ H) as [(l & l' & -> & ->)|(l & l' & -> & ->)]; [|done]. 
  pose proof (member_alike "type" l l' H) as Ht. pose proof (member_alike "head" l l' H) as Hh.
  assert (∀ spec, dec_inventory tm t0 spec l = dec_inventory tm t0 spec l') as E.
  { intros spec. unfold dec_inventory. exact (foldl_swapped (dec_member tm t0) (member_swap tm t0) (member_value tm t0) (raw0 spec) l l' H). }
  assert (match member "head" l with Some (JStr _) => [] | _ => [Finding "E040" ["head"]] end = match member "head" l' with Some (JStr _) => [] | _ => [Finding "E040" ["head"]] end) as Eh.
  { destruct Hh as [->|(j & j' & -> & -> & [(? & ? & -> & ->)|(? & ? & -> & ->)]%swapped_shape)]; done. }
  destruct Ht as [->|(j & j' & -> & -> & [(? & ? & -> & ->)|(? & ? & -> & ->)]%swapped_shape)]; [|done..].
  destruct (member "type" l') as [[]|]; try done. cbv zeta. rewrite E, Eh. done.
Qed.
Lemma load_json_reordered fits tm t0 j j' : reordered j j' → load_json fits tm t0 j = load_json fits tm t0 j'.
Proof. induction 1 as [|j j1 j' H _ IH]; [done|]. by rewrite (load_json_swapped _ _ _ _ _ H). Qed.

(** * Texts *)
Lemma foldr_max {A} (f : A → nat) (a : list A) x y b : foldr (λ j n, Nat.max (f j) n) 0 (a ++ x :: y :: b) = foldr (λ j n, Nat.max (f j) n) 0 (a ++ y :: x :: b).
Proof. induction a as [|z a IH]; cbn [foldr app]; [lia|by rewrite IH]. Qed.
Lemma foldr_one {A} (f : A → nat) (a : list A) x y b : f x = f y → foldr (λ j n, Nat.max (f j) n) 0 (a ++ x :: b) = foldr (λ j n, Nat.max (f j) n) 0 (a ++ y :: b).
Proof. intros H. induction a as [|z a IH]; cbn [foldr app]; [by rewrite H|by rewrite IH]. Qed.
Lemma swapped_depth j j' : swapped j j' → depth j = depth j'.
Proof.
  induction 1 as [a k j k' j' b _|a k j j' b _ IH|a j j' b _ IH]; cbn [depth]; f_equal.
  - apply (foldr_max (λ p : string * json, depth p.2)).
  - by apply (foldr_one (λ p : string * json, depth p.2)).
  - by apply (foldr_one depth).
Qed.
Lemma reordered_depth j j' : reordered j j' → depth j = depth j'.
Proof. induction 1 as [|j j1 j' H _ IH]; [done|]. by rewrite (swapped_depth _ _ H). Qed.
Lemma text_reordered R R' fits tm t0 t t' j j' : document (spells R) t j → document (spells R') t' j' → reordered j j' → depth j ≤ N.to_nat 10000 → load_text fits tm t0 t = load_text fits tm t0 t'.
Proof.
  intros H1 H2 Hr Hd. unfold load_text. rewrite (document_read R t j H1 Hd), (document_read R' t' j' H2) by (by rewrite <- (reordered_depth _ _ Hr)). by apply load_json_reordered.
Qed.
Lemma written_document i : utf8_inventory i → document (spells True) (inventory_text i) (inventory_json i).
Proof. intros H. by apply read_document, read_inventory. Qed.
Lemma inventory_shallow i : depth (inventory_json i) ≤ N.to_nat 10000.
Proof. destruct (inventory_ok i) as (_ & H & _). lia. Qed.
Lemma written_reordered R fits tm t0 i t j : utf8_inventory i → document (spells R) t j → reordered (inventory_json i) j →
  load_text fits tm t0 t = load_text fits tm t0 (inventory_text i).
Proof. intros Hu Ht Hr. symmetry. eapply text_reordered; [by apply written_document|done|done|apply inventory_shallow]. Qed.
Lemma parse_same fits tm t0 w lx t t' : load_text fits tm t0 t = load_text fits tm t0 t' → parse_text fits tm t0 w lx t = parse_text fits tm t0 w lx t'.
Proof. unfold parse_text. by intros ->. Qed.

(** * Nesting *)
Fixpoint nest_text (n : nat) : string := match n with 0 => "[]" | S n => "[" +:+ nest_text n +:+ "]" end.
Fixpoint nest (n : nat) : json := match n with 0 => JArr [] | S n => JArr [nest n] end.
Lemma nest_jtext R n : jtext (spells R) (nest_text n) (nest n).
Proof.
  induction n as [|n IH]; [apply (jt_empty_array _ ""); constructor|]. change (jtext (spells R) ("[" +:+ nest_text n +:+ "]") (JArr [nest n])).
  apply jt_array. rewrite <- (str_app_nil_r (nest_text n)). apply (items_one (spells R) "" (nest_text n)); [constructor|done|constructor].
Qed.
Lemma nest_too_deep n stk rest : N.to_nat 10000 ≤ n + length stk → run (SValue stk) (nest_text n +:+ rest) = None.
Proof.
  revert stk rest. induction n as [|n IH]; intros stk rest H.
  - change (nest_text 0 +:+ rest) with (String "[" (String "]" rest)). rewrite run_cons. cbn [step]. change (is_space "[") with false. unfold begin_value.
    change (is_char 123 "[") with false. change (is_char 91 "[") with true. cbn iota. unfold room. rewrite (proj2 (N.ltb_ge _ _)) by (clear - H; lia). done.
  - cbn [nest_text]. rewrite <- !str_app_assoc. change ("[" +:+ ?y) with (String "[" y). rewrite run_cons. cbn [step]. change (is_space "[") with false. unfold begin_value.
    change (is_char 123 "[") with false. change (is_char 91 "[") with true. cbn iota. destruct (room stk); [|done].
    rewrite (run_first_value (spells True) (nest_text n) (nest n)) by apply nest_jtext. apply IH. cbn [length]. lia.
Qed.
Lemma nest_refused n : N.to_nat 10000 ≤ n → read (nest_text n) = None.
Proof. intros H. unfold read. replace (nest_text n) with (nest_text n +:+ "") by apply str_app_nil_r. rewrite nest_too_deep; [done|]. cbn [length]. lia. Qed.

(** Names of ASCII characters. *)
Lemma ascii_folds k t : Forall (λ c, (N_of_ascii c < 128)%N) (list_ascii_of_string k) → folds k t → t = to_lower k.
Proof.
  intros Ha H. induction H as [|c s t _ IH|s t _ IH].
  - done.
  - apply Forall_cons in Ha as [_ Ha]. cbn. by rewrite IH.
  - apply Forall_cons in Ha as [Ha _]. vm_compute in Ha. discriminate Ha.
Qed.
Lemma ascii_apart k k' : forallb (λ c, N_of_ascii c <? 128)%N (list_ascii_of_string k) = true → forallb (λ c, N_of_ascii c <? 128)%N (list_ascii_of_string k') = true →
  bool_decide (to_lower k = to_lower k') = false → apart k k'.
Proof.
  intros H1 H2 Hne%bool_decide_eq_false t Hk%ascii_folds Hk'%ascii_folds; [congruence|..]; apply List.Forall_forall; intros c Hc; rewrite List.forallb_forall in H1, H2; apply N.ltb_lt; [by apply H2|by apply H1].
Qed.

(** A text is longer than it is deep. *)
Lemma texts_depth R :
  (∀ t j, jtext (spells R) t j → depth j ≤ String.length t) ∧
  (∀ t l, items (spells R) t l → foldr (λ j n, Nat.max (depth j) n) 0 l ≤ String.length t) ∧
  (∀ t l, JsonTextSpec.members (spells R) t l → foldr (λ (p : string * json) n, Nat.max (depth p.2) n) 0 l ≤ String.length t).
Proof.
  apply (jtext_mutind (spells R) (λ t j, depth j ≤ String.length t) (λ t l, foldr (λ j n, Nat.max (depth j) n) 0 l ≤ String.length t)
    (λ t l, foldr (λ (p : string * json) n, Nat.max (depth p.2) n) 0 l ≤ String.length t)); intros; cbn [depth foldr snd]; rewrite ?str_length_app; try change (String.length "[") with 1; try change (String.length "{") with 1; lia.
Qed.
Lemma document_depth R t j : document (spells R) t j → depth j ≤ String.length t.
Proof. intros [w1 u j' w2 _ H _]. apply (proj1 (texts_depth R)) in H. rewrite !str_length_app. lia. Qed.

(** Members that are null. *)
Lemma member_skip k' k j l1 l2 : k ≠ k' → JsonInvModel.member k' (l1 ++ (k, j) :: l2) = JsonInvModel.member k' (l1 ++ l2).
Proof. intros H. unfold JsonInvModel.member. rewrite !foldl_app. cbn [foldl fst snd]. by rewrite bool_decide_false. Qed.
Lemma null_member tm t0 r name k : name ∈ ["id"; "digestAlgorithm"; "contentDirectory"] → field name k = true → dec_member tm t0 r (k, JNull) = r.
Proof.
  intros Hn Hf.
  assert (∀ n, n ∈ inventory_fields → n ≠ name → field n k = false) as Ho.
  { intros n H1 H2. apply (field_other name n k); [|done|done|done]. rewrite !elem_of_cons, elem_of_nil in Hn. destruct Hn as [-> |[-> |[-> |[]]]]; among. }
  unfold dec_member. rewrite !elem_of_cons, elem_of_nil in Hn. destruct Hn as [-> |[-> |[-> |[]]]].
  - rewrite Hf. cbn [dec_string]. rewrite orb_false_r. by destruct r.
  - rewrite (Ho "id" ltac:(among)), (Ho "type" ltac:(among)), Hf by discriminate. cbn [dec_string]. rewrite orb_false_r. by destruct r.
  - rewrite (Ho "id" ltac:(among)), (Ho "type" ltac:(among)), (Ho "digestAlgorithm" ltac:(among)), (Ho "head" ltac:(among)), Hf by discriminate. cbn [dec_string]. rewrite orb_false_r. by destruct r.
Qed.
Lemma null_absent fits tm t0 name k l1 l2 : name ∈ ["id"; "digestAlgorithm"; "contentDirectory"] → JsonTypeSpec.spelled name k →
  load_json fits tm t0 (JObj (l1 ++ (k, JNull) :: l2)) = load_json fits tm t0 (JObj (l1 ++ l2)).
Proof.
  intros Hn Hs.
  assert (field name k = true) as Hf. { apply bool_decide_eq_true. apply JsonTypeProofs3.spelled_fold; [|done]. rewrite !elem_of_cons, elem_of_nil in Hn. by destruct Hn as [-> |[-> |[-> |[]]]]. }
  assert (k ≠ "type" ∧ k ≠ "head") as [Ht Hh].
  { clear Hs. rewrite !elem_of_cons, elem_of_nil in Hn. split; intros ->; destruct Hn as [-> |[-> |[-> |[]]]]; discriminate Hf. }
  unfold load_json. rewrite !member_skip by done.
  assert (all_fit fits (JObj (l1 ++ (k, JNull) :: l2)) = all_fit fits (JObj (l1 ++ l2))) as -> by (cbn [all_fit]; rewrite !forallb_app; reflexivity).
  assert (∀ spec, dec_inventory tm t0 spec (l1 ++ (k, JNull) :: l2) = dec_inventory tm t0 spec (l1 ++ l2)) as Hd.
  { intros spec. unfold dec_inventory. rewrite !foldl_app. cbn [foldl]. by rewrite (null_member tm t0 _ name k Hn Hf). }
  destruct (negb _); [done|]. destruct (JsonInvModel.member "type" _) as [[]|]; [done..| |done|done|done]; by rewrite Hd.
Qed.
