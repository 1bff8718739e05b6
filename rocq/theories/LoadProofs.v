(** Proofs about the digest file format, StoreInventory and LoadInventory. *)
From Coq Require Import Ascii.
From stdpp Require Import base list strings gmap.
From Coq Require Import ZArith Lia.
From Verif Require Import GoStr PathModel InventoryModel InventorySpec InventoryProofs ObjectModel ObjectSpec ObjectProofs
  ClaimsInventory2 LoadModel CrashSpec PathProofs CrashProofs.

Definition allc (f : ascii → bool) (s : string) : Prop := ∀ c, c ∈ list_ascii_of_string s → f c = true.
Lemma allc_cons f c s : allc f (String c s) ↔ f c = true ∧ allc f s.
Proof.
  unfold allc. simpl. split.
  - intros H. split; [apply H; by left|]. intros x Hx. apply H. by right.
  - intros [H1 H2] x Hx. apply elem_of_cons in Hx as [->|Hx]; auto.
Qed.
Lemma allc_nil f : allc f "".
Proof. intros c H. by apply elem_of_nil in H. Qed.

Lemma take_drop_while f s : take_while f s +:+ drop_while f s = s.
Proof. induction s as [|c s IH]; [done|]. simpl. destruct (f c); [|done]. rewrite str_app_cons. by rewrite IH. Qed.
Lemma take_while_all f s : allc f (take_while f s).
Proof.
  induction s as [|c s IH]; simpl; [apply allc_nil|]. destruct (f c) eqn:E; [|apply allc_nil]. by apply allc_cons.
Qed.
Lemma drop_while_app f a b : allc f a → drop_while f (a +:+ b) = drop_while f b.
Proof.
  induction a as [|c a IH]; intros H; [done|]. apply allc_cons in H as [H1 H2]. rewrite str_app_cons. simpl. rewrite H1. auto.
Qed.
Lemma take_while_app f a c b : allc f a → f c = false → take_while f (a +:+ String c b) = a.
Proof.
  induction a as [|d a IH]; intros H Hc.
  - simpl. by rewrite Hc.
  - apply allc_cons in H as [H1 H2]. rewrite str_app_cons. simpl. rewrite H1. by rewrite IH.
Qed.
Lemma drop_while_head f c s : f c = false → drop_while f (String c s) = String c s.
Proof. simpl. by intros ->. Qed.
Lemma drop_end_app f a b : drop_while_end f b ≠ "" → drop_while_end f (a +:+ b) = a +:+ drop_while_end f b.
Proof.
  intros H. induction a as [|c a IH]; [done|]. rewrite !str_app_cons. simpl. rewrite IH.
  destruct (a +:+ drop_while_end f b) eqn:E; [|done]. exfalso. destruct a; [done|]. done.
Qed.
Lemma drop_end_split f s : ∃ post, allc f post ∧ s = drop_while_end f s +:+ post.
Proof.
  induction s as [|c s (post & Hp & Hs)]; [exists ""; split; [apply allc_nil|done]|]. simpl.
  destruct (drop_while_end f s) as [|d t] eqn:E.
  - rewrite str_app_nil_l in Hs. subst s. destruct (f c) eqn:Ec.
    + exists (String c post). split; [by apply allc_cons|done].
    + exists post. split; [done|]. done.
  - exists post. split; [done|]. rewrite Hs. done.
Qed.
Lemma drop_split f s : ∃ pre, allc f pre ∧ s = pre +:+ drop_while f s.
Proof. exists (take_while f s). split; [apply take_while_all|]. by rewrite take_drop_while. Qed.
Lemma trim_split s : ∃ pre post, allc go_space pre ∧ allc go_space post ∧ s = pre +:+ trim_space s +:+ post.
Proof.
  unfold trim_space. destruct (drop_split go_space s) as (pre & H1 & H2).
  destruct (drop_end_split go_space (drop_while go_space s)) as (post & H3 & H4).
  exists pre, post. repeat split; [done|done|]. by rewrite <- H4.
Qed.

Lemma hex_not_space c : re_hex c = true → go_space c = false.
Proof. destruct c as [[] [] [] [] [] [] [] []]; vm_compute; congruence. Qed.

(** * C18 *)
Lemma sidecar_round_trip d : hexadecimal d → sidecar_parse (sidecar_text d) = Some d.
Proof.
  intros [Hne Hhex]. change hex_digit with re_hex in Hhex. unfold sidecar_parse.
  assert (trim_space (sidecar_text d) = sidecar_text d) as ->.
  { unfold trim_space, sidecar_text. destruct d as [|c d]; [done|]. rewrite str_app_cons.
    rewrite drop_while_head; [|apply hex_not_space, Hhex; by left].
    rewrite <- str_app_cons. by rewrite drop_end_app. }
  unfold sidecar_text.
  assert (take_while re_hex (d +:+ " inventory.json") = d) as -> by (by apply take_while_app).
  rewrite drop_while_app by done. rewrite decide_False by done. done.
Qed.

Lemma re_name_spec s : re_name s = true → ∃ c, s = "inventory" +:+ String c "json".
Proof.
  unfold re_name. destruct (drop_prefix "inventory" s) as [[|c t]|] eqn:E; try done.
  apply drop_prefix_spec in E as ->. intros H. apply andb_prop in H as [H _]. apply bool_decide_eq_true in H as ->. by exists c.
Qed.
Lemma sidecar_accepts t d :
  sidecar_parse t = Some d →
  hexadecimal d ∧ ∃ pre ws c post, allc go_space pre ∧ allc go_space post ∧ allc go_space ws ∧ ws ≠ "" ∧
    t = pre +:+ d +:+ ws +:+ "inventory" +:+ String c "json" +:+ post.
Proof.
  unfold sidecar_parse. destruct (trim_split t) as (pre & post & H1 & H2 & H3). set (u := trim_space t) in *. clearbody u.
  destruct (decide _) as [|Hd]; [done|]. destruct (decide _) as [|Hw]; [done|].
  destruct (re_name _) eqn:Hn; [|done]. intros [= <-]. apply re_name_spec in Hn as [c Hc].
  split; [split; [done|apply take_while_all]|].
  exists pre, (take_while re_space (drop_while re_hex u)), c, post. repeat split; try done.
  - intros x Hx. apply take_while_all in Hx. revert Hx. destruct x as [[] [] [] [] [] [] [] []]; vm_compute; congruence.
  - rewrite H3. f_equal.
    rewrite <- (take_drop_while re_hex u) at 1. rewrite <- (take_drop_while re_space (drop_while re_hex u)) at 1.
    rewrite Hc.
    rewrite <- !str_app_assoc. done.
Qed.

(** A cut digest file is rejected. *)
Lemma sidecar_torn d a b : hexadecimal d → sidecar_text d = a +:+ b → b ≠ "" → sidecar_parse a = None.
Proof.
  intros [_ Hhex] Hab Hb. destruct (sidecar_parse a) as [d'|] eqn:Hp; [|done]. exfalso.
  apply sidecar_accepts in Hp as ([_ Hhex'] & pre & ws & c & post & Hpre & _ & Hws & _ & ->).
  assert (∀ x, hex_digit x = true → x ≠ "j"%char) as Hx by (intros x Hx ->; done).
  assert (∀ x, go_space x = true → x ≠ "j"%char) as Hy by (intros x Hx' ->; done).
  assert (str_mem "j"%char d = false) as Hd.
  { destruct (str_mem "j"%char d) eqn:E; [|done]. apply str_mem_spec in E. by apply Hhex in E. }
  assert (∀ s, allc go_space s → str_mem "j"%char s = false) as Hsp.
  { intros s Hs. destruct (str_mem "j"%char s) eqn:E; [|done]. apply str_mem_spec in E. by apply Hs in E. }
  assert (str_mem "j"%char d' = false) as Hd'.
  { destruct (str_mem "j"%char d') eqn:E; [|done]. apply str_mem_spec in E. by apply Hhex' in E. }
  (* the text up to the first j *)
  destruct (decide (c = "j"%char)) as [->|Hc].
  - set (x := pre +:+ d' +:+ ws +:+ "inventory") in *.
    assert (sidecar_text d = x +:+ String "j" ("json" +:+ post +:+ b)) as E1.
    { rewrite Hab. unfold x. rewrite <- !str_app_assoc. done. }
    assert (str_mem "j"%char x = false) as Hx1.
    { unfold x. rewrite !str_mem_app, Hd', (Hsp pre Hpre), (Hsp ws Hws). done. }
    assert (split_on "j"%char (sidecar_text d) = split_on "j"%char (x +:+ String "j" ("json" +:+ post +:+ b))) as E2 by (by rewrite E1).
    assert (sidecar_text d = (d +:+ " inventory.") +:+ String "j" "son") as E3 by (unfold sidecar_text; by rewrite <- str_app_assoc).
    rewrite E3 in E2. rewrite !split_on_app in E2; [|done|by rewrite str_mem_app, Hd].
    injection E2 as _ E2. simpl in E2. done.
  - set (x := pre +:+ d' +:+ ws +:+ "inventory" +:+ String c "") in *.
    assert (sidecar_text d = x +:+ String "j" ("son" +:+ post +:+ b)) as E1.
    { rewrite Hab. unfold x. rewrite <- !str_app_assoc. done. }
    assert (str_mem "j"%char x = false) as Hx1.
    { assert (str_mem "j"%char (String c "") = false) as Hc1 by (simpl; rewrite decide_False by congruence; done).
      unfold x. rewrite !str_mem_app, Hd', (Hsp pre Hpre), (Hsp ws Hws), Hc1. done. }
    assert (split_on "j"%char (sidecar_text d) = split_on "j"%char (x +:+ String "j" ("son" +:+ post +:+ b))) as E2 by (by rewrite E1).
    assert (sidecar_text d = (d +:+ " inventory.") +:+ String "j" "son") as E3 by (unfold sidecar_text; by rewrite <- str_app_assoc).
    assert (x = d +:+ " inventory.") as Ex.
    { rewrite E3 in E2. rewrite !split_on_app in E2; [|done|by rewrite str_mem_app, Hd]. by injection E2. }
    rewrite E1, Ex in E3. apply str_app_inv_l in E3. injection E3 as E3.
    destruct post; [|done]. by destruct b.
Qed.

(** * C17 *)

Lemma load_written hash parse s pre b d i :
  s !! (pre +:+ "inventory.json") = Some b → parse b = Some i →
  s !! (pre +:+ sidecar_name (inv_alg i)) = Some (sidecar_text d) →
  hash (inv_alg i) b = Some d → hexadecimal d →
  load_inventory hash parse s pre = LInv i [].
Proof.
  intros H1 H2 H3 H4 H5. unfold load_inventory. rewrite H1, H2.
  assert ((pre +:+ "inventory.json") +:+ "." +:+ inv_alg i = pre +:+ sidecar_name (inv_alg i)) as ->
    by (unfold sidecar_name; by rewrite <- !str_app_assoc).
  rewrite H3, sidecar_round_trip, H4 by done. by rewrite decide_True.
Qed.

Lemma sidecar_name_ne alg : sidecar_name alg ≠ "inventory.json".
Proof. unfold sidecar_name. intros E. apply (f_equal String.length) in E. rewrite str_length_app in E. simpl in E. lia. Qed.

(** Writing the pair. *)
Lemma apply_write p b s : apply_evs (write_file p b) s = <[p := b]> s.
Proof.
  unfold apply_evs, write_file. simpl. rewrite lookup_insert. simpl. rewrite str_app_nil_l. by rewrite insert_insert.
Qed.
Lemma prefix_ne pre a b : a ≠ b → pre +:+ a ≠ pre +:+ b.
Proof. intros H E. by apply str_app_inv_l in E. Qed.

Lemma store_root_spec E o :
  inv_writeable (ob_inv o) = true → ∀ o', store_inventory E false true o = (o', SOk) →
  ∃ d, e_hash E (inv_alg (ob_inv o)) (e_json E (ob_inv o)) = Some d ∧ ob_inv o' = ob_inv o ∧
    ob_trace o' = ob_trace o ++ write_file "inventory.json" (e_json E (ob_inv o))
                     ++ write_file (sidecar_name (inv_alg (ob_inv o))) (sidecar_text d).
Proof.
  intros Hw o'. unfold store_inventory. rewrite Hw. destruct (e_hash E _ _) as [d|]; [|done].
  intros [= <-]. exists d. simpl. done.
Qed.
Definition ext_events (E : env) : list ev :=
  flat_map (λ p : string * string, write_file ("extensions/" +:+ p.1) p.2) (e_ext_files E).
Lemma ext_events_below E : Forall (λ e, below "extensions" (ev_path e)) (ext_events E).
Proof.
  apply Forall_forall. intros e He. apply elem_of_list_In, in_flat_map in He as ([f b] & _ & Hin). exists f.
  by destruct Hin as [<-|[<-|[]]].
Qed.
Lemma close_spec E orc o o' :
  inv_writeable (ob_inv o) = true → inv_modified (ob_inv o) = true → ob_close E orc o = (o', SOk) →
  ∃ d, e_hash E (inv_alg (ob_inv o)) (e_json E (ob_inv o)) = Some d ∧ ob_inv o' = ob_inv o ∧
    ob_trace o' = ob_trace o ++ (write_file "inventory.json" (e_json E (ob_inv o))
                     ++ write_file (sidecar_name (inv_alg (ob_inv o))) (sidecar_text d)) ++ ext_events E.
Proof.
  intros Hw Hm. unfold ob_close. rewrite Hw, Hm. simpl. rewrite clean_ob by done. simpl.
  destruct (store_inventory E false true o) as [o1 st] eqn:Hst. destruct st; simpl; try done. intros [= <-].
  destruct (store_root_spec E o Hw o1 Hst) as (d & Hd & Hi & Ht). exists d. simpl. rewrite Hi, Ht, <- app_assoc. done.
Qed.

Lemma ext_apart p : str_mem slash p = false → ∀ E, Forall (λ e, ev_path e ≠ p) (ext_events E).
Proof.
  intros Hp E. eapply Forall_impl; [apply ext_events_below|]. intros e Hb <-. by eapply not_below in Hb.
Qed.

Lemma pair_written s s2 pre j alg t l :
  pre +:+ sidecar_name alg ≠ pre +:+ "inventory.json" →
  Forall (λ e, ev_path e ≠ pre +:+ "inventory.json") l → Forall (λ e, ev_path e ≠ pre +:+ sidecar_name alg) l →
  s2 = apply_evs ((write_file (pre +:+ "inventory.json") j ++ write_file (pre +:+ sidecar_name alg) t) ++ l) s →
  s2 !! (pre +:+ "inventory.json") = Some j ∧ s2 !! (pre +:+ sidecar_name alg) = Some t.
Proof.
  intros Hne H1 H2 ->. rewrite !apply_evs_app, !apply_write, !apply_evs_other by done. split.
  - rewrite lookup_insert_ne by done. by rewrite lookup_insert.
  - by rewrite lookup_insert.
Qed.

Lemma close_loads E P parse orc o o' s :
  hex_hash (e_hash E) → json_ok P (e_json E) parse → str_mem slash (inv_alg (ob_inv o)) = false →
  inv_writeable (ob_inv o) = true → inv_modified (ob_inv o) = true → ob_close E orc o = (o', SOk) → P (ob_inv o) →
  ∃ i', load_inventory (e_hash E) parse (apply_evs (ob_trace o') s) "" = LInv i' [] ∧ same_record (ob_inv o') i'.
Proof.
  intros Hh Hj Ha Hw Hm Hc HP. destruct (close_spec E orc o o' Hw Hm Hc) as (d & Hd & Hi & Ht).
  destruct (jo_decode _ _ _ Hj (ob_inv o) HP) as (i' & Hp & Hs). exists i'. rewrite Hi. split; [|done].
  rewrite Ht, apply_evs_app. set (s1 := apply_evs (ob_trace o) s).
  destruct (pair_written s1 _ "" (e_json E (ob_inv o)) (inv_alg (ob_inv o)) (sidecar_text d) (ext_events E)
              (prefix_ne "" _ _ (sidecar_name_ne _)) (ext_apart "inventory.json" eq_refl E)
              (ext_apart ("" +:+ sidecar_name (inv_alg (ob_inv o))) Ha E) eq_refl) as [H1 H2].
  apply Hh in Hd as Hd'. destruct Hd' as [Hx _].
  apply (load_written _ _ _ "" (e_json E (ob_inv o)) d i'); auto; by rewrite (sr_alg _ _ Hs).
Qed.

(** The version folder after EndUpdate. *)
Lemma sops_frame E ops o :
  inv_writeable (ob_inv (sops_run E ops o).1) = inv_writeable (ob_inv o) ∧
  inv_alg (ob_inv (sops_run E ops o).1) = inv_alg (ob_inv o).
Proof.
  revert o; induction ops as [|[orc op|orc op|msg] ops IH]; intros o; [done| | |done]; simpl;
    destruct (sop_effect E orc op o) as [Hx _ _]; destruct (sop_step E orc op o) as [o1 [| |]]; simpl in *;
    try destruct (IH o1) as [-> ->]; by rewrite (er_wr _ _ Hx), (er_alg _ _ Hx).
Qed.
Lemma store_version_loads E P parse o o' s :
  hex_hash (e_hash E) → json_ok P (e_json E) parse →
  store_inventory E true false o = (o', SOk) → P (ob_inv o') →
  ∃ i', load_inventory (e_hash E) parse (apply_evs (ob_trace o') s) (inv_head (ob_inv o') +:+ "/") = LInv i' [] ∧
    same_record (ob_inv o') i'.
Proof.
  intros Hh Hj. unfold store_inventory. destruct (inv_writeable (ob_inv o)); [|done].
  destruct (e_hash E _ _) as [d|] eqn:Hd; [|done]. intros [= <-] HP. simpl in HP |- *.
  destruct (jo_decode _ _ _ Hj (ob_inv o) HP) as (i' & Hp & Hs). exists i'. split; [|done].
  rewrite apply_evs_app. set (s1 := apply_evs (ob_trace o) s).
  assert (∀ x, inv_head (ob_inv o) +:+ String slash x = (inv_head (ob_inv o) +:+ "/") +:+ x) as Hx
    by (intros x; by rewrite <- str_app_assoc).
  destruct (pair_written s1 (apply_evs
     (write_file (inv_head (ob_inv o) +:+ "/inventory.json") (e_json E (ob_inv o))
      ++ write_file (inv_head (ob_inv o) +:+ "/" +:+ sidecar_name (inv_alg (ob_inv o))) (sidecar_text d)) s1)
    (inv_head (ob_inv o) +:+ "/") (e_json E (ob_inv o)) (inv_alg (ob_inv o)) (sidecar_text d) []) as [H1 H2].
  { apply prefix_ne, sidecar_name_ne. }
  1,2: constructor.
  { rewrite app_nil_r. rewrite <- !str_app_assoc. done. }
  apply Hh in Hd as Hd'. destruct Hd' as [Hhex _].
  eapply (load_written _ _ _ _ (e_json E (ob_inv o)) d i'); auto; by rewrite (sr_alg _ _ Hs).
Qed.
Lemma end_loads E P parse orc h o o' s :
  hex_hash (e_hash E) → json_ok P (e_json E) parse →
  inv_writeable (ob_inv o) = true → inv_modified (ob_inv o) = true → ob_end E orc h o = (o', SOk) → P (ob_inv o') →
  ∃ i', load_inventory (e_hash E) parse (apply_evs (ob_trace o') s) (inv_head (ob_inv o') +:+ "/") = LInv i' [] ∧
    same_record (ob_inv o') i'.
Proof.
  intros Hh Hj. revert orc o; induction h as [a|a now auto rest IH]; intros orc o Hw Hm; rewrite ob_end_unfold, Hw, Hm; simpl.
  - destruct (if ob_echo o then _ else _) as [o1 [| |]]; simpl; try done.
    destruct (sops_run E a o1) as [o2 [| |]]; simpl; try done.
    destruct (store_inventory E true false o2) as [o3 [| |]] eqn:Hst; simpl; try done. intros [= <-] HP.
    by eapply store_version_loads.
  - pose proof (end_pre_modified E orc a o Hm) as Hm2.
    destruct (if ob_echo o then _ else _) as [o1 [| |]]; simpl in *; try done.
    destruct (sops_run E a o1) as [o2 [| |]]; simpl in *; try done.
    destruct (store_inventory E true false o2) as [o3 [| |]] eqn:Hst; simpl; try done.
    assert (ob_inv o3 = ob_inv o2) as Hi.
    { pose proof (inv_store E true false o2) as Hi. by rewrite Hst in Hi. }
    destruct (ob_start _ _ _ _ _ o3) as [o4 st4] eqn:H4.
    destruct st4; simpl; try done.
    assert (inv_writeable (ob_inv o4) = true ∧ inv_modified (ob_inv o4) = true) as [Hw4 Hm4].
    { revert H4. unfold ob_start, on_inv, new_version. simpl. rewrite Hi. destruct (next_head (ob_inv o2)); [|done].
      destruct (decide _); [intros [= <-]; done|]. simpl. destruct (_ !! inv_head _); [|done]. intros [= <-]. done. }
    destruct (sops_frame E auto o4) as [Hf1 _]. pose proof (sops_modified E auto o4 Hm4) as Hm5.
    destruct (sops_run E auto o4) as [o5 [| |]]; simpl in *; try done. apply IH; congruence.
Qed.

(** Crash points of Close. *)
Lemma crash_write s p b l s' :
  crash s (write_file p b ++ l) s' →
  s' = s ∨ (∃ a c, b = a +:+ c ∧ s' = <[p := a]> s) ∨ crash (<[p := b]> s) l s'.
Proof.
  intros H. inversion H as [| |? ? ? ? H1]; subst; [by left|]. right.
  inversion H1 as [|? ? b1 b2 ?|? ? ? ? H2]; subst.
  - left. exists "", b. split; [done|]. done.
  - left. exists b1, b2. split; [done|]. simpl. rewrite lookup_insert. simpl. by rewrite str_app_nil_l, insert_insert.
  - right. simpl in H2. rewrite lookup_insert in H2. simpl in H2. by rewrite str_app_nil_l, insert_insert in H2.
Qed.

Definition pair_at (s : storage) (alg : string) : option string * option string :=
  (s !! "inventory.json", s !! sidecar_name alg).

Lemma load_parts hash parse s i :
  load_inventory hash parse s "" = LInv i [] →
  ∃ b t d, s !! "inventory.json" = Some b ∧ parse b = Some i ∧ s !! sidecar_name (inv_alg i) = Some t ∧
    sidecar_parse t = Some d ∧ hash (inv_alg i) b = Some d.
Proof.
  unfold load_inventory. rewrite str_app_nil_l. destruct (s !! "inventory.json") as [b|]; [|done].
  destruct (parse b) as [j|] eqn:Hp; [|done]. change ("inventory.json" +:+ "." +:+ inv_alg j) with (sidecar_name (inv_alg j)).
  destruct (s !! sidecar_name (inv_alg j)) as [t|] eqn:Ht; [|done]. destruct (sidecar_parse t) as [d|] eqn:Hd; [|done].
  destruct (hash (inv_alg j) b) as [d'|] eqn:Hh; [|done]. destruct (decide (d = d')) as [->|]; [|done].
  intros [= <-]. naive_solver.
Qed.

Lemma crash_close E P parse orc o o' s s' i0 i1 :
  hex_hash (e_hash E) → json_ok P (e_json E) parse → str_mem slash (inv_alg (ob_inv o)) = false →
  inv_writeable (ob_inv o) = true → inv_modified (ob_inv o) = true → ob_close E orc o = (o', SOk) →
  P (ob_inv o) → load_inventory (e_hash E) parse s "" = LInv i0 [] → inv_alg i0 = inv_alg (ob_inv o) →
  ∀ l, ob_trace o' = ob_trace o ++ l → crash s l s' →
  load_inventory (e_hash E) parse s' "" = LInv i1 [] →
  pair_at s' (inv_alg i0) = pair_at s (inv_alg i0) ∨
  (∃ d, pair_at s' (inv_alg i0) = (Some (e_json E (ob_inv o)), Some (sidecar_text d)) ∧
        e_hash E (inv_alg i0) (e_json E (ob_inv o)) = Some d) ∨
  (∃ old, s !! "inventory.json" = Some old ∧ old ≠ e_json E (ob_inv o) ∧
     e_hash E (inv_alg i0) old = e_hash E (inv_alg i0) (e_json E (ob_inv o)) ∧
     is_Some (e_hash E (inv_alg i0) old)).
Proof.
  intros Hh Hj Hna Hw Hm Hc HP Hl0 Halg l Ht Hcr Hl1.
  destruct (close_spec E orc o o' Hw Hm Hc) as (d & Hd & Hi & Ht'). rewrite Ht in Ht'. apply app_inv_head in Ht'. subst l.
  rewrite <- Halg in *. set (j := e_json E (ob_inv o)) in *. set (sc := sidecar_name (inv_alg i0)) in *.
  assert (sc ≠ "inventory.json") as Hne by apply sidecar_name_ne.
  apply Hh in Hd as Hd'. destruct Hd' as [Hhex _].
  rewrite <- app_assoc in Hcr. apply crash_write in Hcr as [->|[(a & c & Hac & ->)|Hcr]].
  - by left.
  - (* inventory.json cut *)
    destruct (decide (c = "")) as [->|Hcne].
    2: { exfalso. destruct (load_parts _ _ _ _ Hl1) as (b & t & e & H1 & H2 & _). rewrite lookup_insert in H1.
         injection H1 as <-. by rewrite (jo_prefix _ _ _ Hj (ob_inv o) a c Hac Hcne) in H2. }
    rewrite str_app_nil_r in Hac. subst a. fold j in Hl1 |- *.
    destruct (load_parts _ _ _ _ Hl0) as (old & t0 & d0 & H01 & H02 & H03 & H04 & H05).
    destruct (load_parts _ _ _ _ Hl1) as (b & t & e & H1 & H2 & H3 & H4 & H5). rewrite lookup_insert in H1. injection H1 as <-.
    destruct (jo_decode _ _ _ Hj (ob_inv o) HP) as (i' & Hp & Hs). fold j in Hp. rewrite H2 in Hp. injection Hp as <-.
    assert (inv_alg i1 = inv_alg i0) as Ha1 by (rewrite (sr_alg _ _ Hs); done).
    rewrite Ha1 in *. rewrite lookup_insert_ne in H3 by done. fold sc in H03, H3. rewrite H03 in H3. injection H3 as <-.
    rewrite H04 in H4. injection H4 as <-.
    destruct (decide (old = j)) as [->|Hoj].
    + left. unfold pair_at. fold sc. rewrite lookup_insert, lookup_insert_ne by done. by rewrite H01.
    + right. right. exists old. rewrite H05, H5. repeat split; eauto.
  - apply crash_write in Hcr as [->|[(a & c & Hac & ->)|Hcr]].
    + (* new inventory.json, old sidecar *)
      destruct (load_parts _ _ _ _ Hl0) as (old & t0 & d0 & H01 & H02 & H03 & H04 & H05).
      destruct (load_parts _ _ _ _ Hl1) as (b & t & e & H1 & H2 & H3 & H4 & H5). rewrite lookup_insert in H1. injection H1 as <-.
      destruct (jo_decode _ _ _ Hj (ob_inv o) HP) as (i' & Hp & Hs). fold j in Hp. rewrite H2 in Hp. injection Hp as <-.
      assert (inv_alg i1 = inv_alg i0) as Ha1 by (rewrite (sr_alg _ _ Hs); done).
      rewrite Ha1 in *. rewrite lookup_insert_ne in H3 by done. fold sc in H03, H3. rewrite H03 in H3. injection H3 as <-.
      rewrite H04 in H4. injection H4 as <-.
      destruct (decide (old = j)) as [->|Hoj].
      * left. unfold pair_at. fold sc. rewrite lookup_insert, lookup_insert_ne by done. by rewrite H01.
      * right. right. exists old. rewrite H05, H5. repeat split; eauto.
    + (* sidecar cut *)
      destruct (load_parts _ _ _ _ Hl1) as (b & t & e & H1 & H2 & H3 & H4 & H5).
      rewrite lookup_insert_ne, lookup_insert in H1 by done. injection H1 as <-.
      destruct (jo_decode _ _ _ Hj (ob_inv o) HP) as (i' & Hp & Hs). fold j in Hp. rewrite H2 in Hp. injection Hp as <-.
      assert (inv_alg i1 = inv_alg i0) as Ha1 by (rewrite (sr_alg _ _ Hs); done).
      rewrite Ha1 in *. fold sc in H3. rewrite lookup_insert in H3. injection H3 as <-.
      destruct (decide (c = "")) as [->|Hcne].
      * right. left. exists d. rewrite str_app_nil_r in Hac. subst a. unfold pair_at. fold sc.
        rewrite lookup_insert, lookup_insert_ne, lookup_insert by done. done.
      * by rewrite (sidecar_torn d a c Hhex Hac Hcne) in H4.
    + (* complete pair *)
      right. left. exists d. split; [|done]. unfold pair_at. fold sc.
      rewrite !(crash_other _ _ _ _ Hcr); [|apply (ext_apart sc); exact Hna|by apply ext_apart].
      rewrite lookup_insert, lookup_insert_ne, lookup_insert by done. done.
Qed.

Lemma close_succeeds E orc o d :
  inv_writeable (ob_inv o) = true → inv_modified (ob_inv o) = true →
  e_hash E (inv_alg (ob_inv o)) (e_json E (ob_inv o)) = Some d → ∃ o', ob_close E orc o = (o', SOk).
Proof.
  intros Hw Hm Hd. unfold ob_close. rewrite Hw, Hm. simpl. rewrite clean_ob by done. simpl.
  unfold store_inventory. rewrite Hw, Hd. simpl. eauto.
Qed.
