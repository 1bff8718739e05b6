(** Proofs about complete update sessions: the whole object. *)
From Coq Require Import Ascii.
From stdpp Require Import base list strings gmap.
From Coq Require Import ZArith Lia.
From Verif Require Import GoStr PathModel InventoryModel ObjectModel InventorySpec InventoryProofs ObjectSpec ObjectProofs LookupProofs AddProofs
  CrashSpec LoadModel PathProofs CrashProofs LoadProofs SessionProofs PublishSpec PublishProofs PublishProofs2.

Definition vfile (i : inventory) (k : N) (q : string) : string := version_name (inv_padding i) k +:+ "/" +:+ q.

(** * Names *)
Lemma cpath_below i k r : below (version_name (inv_padding i) k +:+ "/" +:+ content_name i) (cpath i k r).
Proof. exists r. unfold cpath. by rewrite <- !str_app_assoc. Qed.
Lemma cpath_vfile i k r i' k' q : str_mem slash q = false → cpath i k r ≠ vfile i' k' q.
Proof. intros Hq. by apply (proj2 (proj2 (content_apart _ _ _ _ (cpath_below i k r)))). Qed.
Lemma cpath_slash i k r : str_mem slash (cpath i k r) = true.
Proof. apply (content_apart _ _ _ _ (cpath_below i k r)). Qed.
Lemma vfile_slash i k q : str_mem slash (vfile i k q) = true.
Proof. unfold vfile. rewrite !str_mem_app. by rewrite orb_true_r. Qed.
Lemma vname_apart pad k x : x ∈ ["extensions"; "logs"] → version_name pad k ≠ x.
Proof. intros Hx E. rewrite !elem_of_cons, elem_of_nil in Hx. unfold version_name in E. destruct Hx as [-> |[-> |[]]]; destruct (decide _); discriminate. Qed.
Lemma cpath_inj i k k' r r' : cpath i k r = cpath i k' r' → k = k'.
Proof.
  intros H. apply (version_name_inj (inv_padding i)). apply (below_inj _ _ (cpath i k r)); [apply version_name_no_slash..| |].
  - by eexists.
  - rewrite H. by eexists.
Qed.
Lemma vfile_inj i k k' q q' : vfile i k q = vfile i k' q' → k = k'.
Proof.
  intros H. apply (version_name_inj (inv_padding i)). apply (below_inj _ _ (vfile i k q)); [apply version_name_no_slash..| |].
  - by eexists.
  - rewrite H. by eexists.
Qed.
Lemma vfile_not_below i k q x : x ∈ ["extensions"; "logs"] → ¬ below x (vfile i k q).
Proof.
  intros Hx Hb. apply (vname_apart (inv_padding i) k x Hx). eapply below_inj; [apply version_name_no_slash| |by exists q|exact Hb].
  rewrite !elem_of_cons, elem_of_nil in Hx. by destruct Hx as [-> |[-> |[]]].
Qed.
Lemma cpath_not_below i k r x : x ∈ ["extensions"; "logs"] → ¬ below x (cpath i k r).
Proof. apply (vfile_not_below i k (content_name i +:+ "/" +:+ r)). Qed.
Lemma sidecar_slash i : str_mem slash (inv_alg i) = false → str_mem slash (sidecar_name (inv_alg i)) = false.
Proof. intros H. unfold sidecar_name. by rewrite str_mem_app, H. Qed.
Lemma sidecar_ne alg : sidecar_name alg ≠ "inventory.json".
Proof. unfold sidecar_name. intros E. apply (f_equal String.length) in E. rewrite str_length_app in E. simpl in E. lia. Qed.
Lemma slash_ne a b : str_mem slash a = true → str_mem slash b = false → a ≠ b.
Proof. congruence. Qed.

Lemma is_below x p : below x p ∨ ¬ below x p.
Proof.
  destruct (has_prefix (x +:+ "/") p) eqn:Hp.
  - left. apply has_prefix_spec in Hp as [u ->]. exists u. by rewrite <- !str_app_assoc.
  - right. intros [u ->]. apply not_true_iff_false in Hp. apply Hp, has_prefix_spec. exists u. by rewrite <- !str_app_assoc.
Qed.
Lemma is_cpath i k p : (∃ r, p = cpath i k r) ∨ ∀ r, p ≠ cpath i k r.
Proof.
  destruct (is_below (version_name (inv_padding i) k +:+ "/" +:+ content_name i) p) as [[r ->]|H].
  - left. exists r. unfold cpath. by rewrite <- !str_app_assoc.
  - right. intros r ->. apply H, cpath_below.
Qed.

(** * The invariant *)

(** The stored inventory of version [k]. *)
Record version_ok (E : env) (s : storage) (i : inventory) (k : N) (j : inventory) : Prop := VersionOk {
  vk_bytes : s !! vfile i k "inventory.json" = Some (e_json E j);
  vk_side : ∃ dg, e_hash E (inv_alg i) (e_json E j) = Some dg ∧ s !! vfile i k (sidecar_name (inv_alg i)) = Some (sidecar_text dg);
  vk_good : good (e_hash E) s j k;
  vk_same : inv_id j = inv_id i ∧ inv_type j = inv_type i ∧ inv_alg j = inv_alg i ∧ inv_contentdir j = inv_contentdir i ∧ inv_padding j = inv_padding i;
  vk_vers : ∀ l, (1 <= l <= k)%N → inv_versions j !! version_name (inv_padding i) l = inv_versions i !! version_name (inv_padding i) l
}.
(** [n] versions are stored, the inventory has [m]. *)
Record kept (E : env) (s : storage) (i : inventory) (n m : N) (fam : N → inventory) : Prop := Kept {
  kp_good : good (e_hash E) s i m;
  kp_pad : (inv_padding i <= 0)%Z;
  kp_cdir : plain_name (content_name i);
  kp_alg : str_mem slash (inv_alg i) = false;
  kp_fam : ∀ k, (1 <= k <= n)%N → version_ok E s i k (fam k);
  kp_files : ∀ p x, s !! p = Some x →
    p ∈ ["0=ocfl_object_1.0"; "0=ocfl_object_1.1"; "inventory.json"; sidecar_name (inv_alg i)] ∨ below "logs" p ∨ below "extensions" p ∨
    (∃ k, (1 <= k <= n)%N ∧ (p = vfile i k "inventory.json" ∨ p = vfile i k (sidecar_name (inv_alg i)))) ∨
    ∃ k r, (1 <= k <= m)%N ∧ p = cpath i k r
}.

Lemma version_frame E s s' i k j :
  (∀ q, q = "inventory.json" ∨ q = sidecar_name (inv_alg i) → s' !! vfile i k q = s !! vfile i k q) →
  (∀ l r, (1 <= l <= k)%N → s' !! cpath i l r = s !! cpath i l r) → version_ok E s i k j → version_ok E s' i k j.
Proof.
  intros H1 H2 []. split; try done.
  - rewrite H1; auto.
  - destruct vk_side0 as (dg & Hd & Hs). exists dg. split; [done|]. rewrite H1; auto.
  - eapply good_frame; [|done]. intros l r Hl. rewrite (cpath_same i j) by apply vk_same0. by apply H2.
Qed.
Lemma version_ext E s i i' k j :
  inv_id i' = inv_id i → inv_type i' = inv_type i → inv_alg i' = inv_alg i → inv_contentdir i' = inv_contentdir i → inv_padding i' = inv_padding i →
  (∀ l, (1 <= l <= k)%N → inv_versions i' !! version_name (inv_padding i) l = inv_versions i !! version_name (inv_padding i) l) →
  version_ok E s i k j → version_ok E s i' k j.
Proof.
  intros H1 H2 H3 H4 H5 H6 []. unfold vfile in *. split; unfold vfile; try rewrite H5; try rewrite H3; try done.
  - rewrite H1, H2, H4. done.
  - intros l Hl. rewrite H6 by done. by apply vk_vers0.
Qed.

Lemma kept_step E s0 o o' n fam :
  kept E (now s0 o) (ob_inv o) n (n + 1) fam → step_ok E s0 (n + 1) o o' → kept E (now s0 o') (ob_inv o') n (n + 1) fam.
Proof.
  intros [] (HG & He & _ & Hfr). split.
  - done.
  - by rewrite (er_pad _ _ He).
  - unfold content_name. by rewrite (er_cdir _ _ He).
  - by rewrite (er_alg _ _ He).
  - intros k Hk. apply (version_ext _ _ (ob_inv o)); [apply He..| |].
    + intros l Hl. apply (er_vers _ _ He). intros Eq. rewrite (proj1 (g_contig _ _ _ _ kp_good0)), decide_False in Eq by lia.
      apply version_name_inj in Eq. lia.
    + eapply version_frame; [| |by apply kp_fam0].
      * intros q Hq. apply Hfr. intros r E'. symmetry in E'. revert E'. apply cpath_vfile. destruct Hq as [-> | ->]; [done|by apply sidecar_slash].
      * intros l r Hl. apply Hfr. intros r' E'%cpath_inj. lia.
  - intros p x Hx. rewrite (er_alg _ _ He). unfold vfile. rewrite (er_pad _ _ He).
    assert (∀ k r, cpath (ob_inv o') k r = cpath (ob_inv o) k r) as Hcp by (intros; apply cpath_same; apply He).
    destruct (decide (now s0 o' !! p = now s0 o !! p)) as [Eq|Hne].
    + rewrite Eq in Hx. destruct (kp_files0 p x Hx) as [H|[H|[H|[H|(k & r & Hk & ->)]]]]; auto. do 4 right. exists k, r. by rewrite Hcp.
    + do 4 right. destruct (is_cpath (ob_inv o) (n + 1) p) as [[r ->]|Hn].
      * exists (n + 1)%N, r. rewrite Hcp. split; [lia|done].
      * exfalso. by apply Hne, Hfr.
Qed.

Lemma lookup_two {A} (s : gmap string A) a b x y p : p ≠ a → p ≠ b → <[b := y]> (<[a := x]> s) !! p = s !! p.
Proof. intros Ha Hb. by rewrite !lookup_insert_ne. Qed.

Lemma kept_start E s i n now msg un ua fam i' :
  kept E s i n n fam → new_version now msg un ua i = (i', SOk) →
  kept E s i' n (n + 1) fam ∧ inv_fixalgs i' = inv_fixalgs i ∧ inv_alg i' = inv_alg i ∧ inv_writeable i' = true.
Proof.
  intros [] Hnew. pose proof kp_good0 as [Q1 Q2 Q3 Q4 Q5 Q6 Q7 Q8 Q9 Q10]. pose proof (contiguous_is _ _ Q1) as Hh.
  destruct (new_version_spec i n now msg un ua Hh) as (st & Eq & Hnone & H0 & Hn). rewrite Eq in Hnew. injection Hnew as <-.
  set (h := version_name (inv_padding i) (n + 1)) in *. set (i' := set_writeable true _).
  assert (∀ k r, cpath i' k r = cpath i k r) as Hcp by done.
  assert (∀ ver v, inv_versions i' !! ver = Some v ↔ (ver = h ∧ v = Version now msg un ua st) ∨ (ver ≠ h ∧ inv_versions i !! ver = Some v)) as Hv.
  { intros ver v. unfold i'. cbn [inv_versions set_writeable set_versions set_head]. rewrite lookup_insert_Some. split; (intros [[H1 H2]|[H1 H2]]; [left|right]; split; congruence). }
  assert (∀ d, is_Some (st !! d) → is_Some (inv_manifest i !! d)) as Hst.
  { intros d Hd. destruct (decide (n = 0%N)) as [E0|E0].
    - rewrite (H0 E0) in Hd. rewrite lookup_empty in Hd. by apply is_Some_None in Hd.
    - destruct (Hn E0) as (old & Ho & ->). by eapply Q2. }
  split; [|done]. split; try done.
  - split; try done.
    + split; [unfold i'; cbn [inv_head inv_padding set_writeable set_versions set_head]; by rewrite decide_False by lia|].
      intros ver. unfold i'. cbn [inv_versions inv_padding set_writeable set_versions set_head].
      destruct (decide (ver = h)) as [-> |Hne].
      * rewrite lookup_insert. split; [intros _; exists (n + 1)%N; split; [lia|done]|by eexists].
      * rewrite lookup_insert_ne by done. rewrite (proj2 Q1 ver). split; intros (k & Hk & ->); exists k; (split; [|done]); [lia|].
        assert (k ≠ (n + 1)%N) by (intros ->; done). lia.
    + intros ver v d [[-> ->]|[Hne H]]%Hv Hd; [by apply Hst|by eapply Q2].
    + intros d Hd. destruct (Q3 d Hd) as (ver & v & H & Hk). exists ver, v. split; [|done]. apply Hv. right. split; [|done].
      intros ->. rewrite Hnone in H. done.
    + intros d p Hl. destruct (Q6 d p Hl) as (k & r & Hk & Hr & ->). exists k, r. split; [lia|]. done.
    + intros k r x Hk Hx. destruct (decide (k = n + 1)%N) as [-> |Hne]; [|apply (Q10 k r x); [lia|done]].
      exfalso. change (cpath i' (n + 1) r) with (cpath i (n + 1) r) in Hx.
      destruct (kp_files0 _ _ Hx) as [H|[H|[H|[(k & Hk' & H)|(k & r' & Hk' & H)]]]].
      * revert H. rewrite !elem_of_cons, elem_of_nil. pose proof (cpath_slash i (n + 1) r) as Hs.
        intros [H|[H|[H|[H|[]]]]]; [by rewrite H in Hs..|]. rewrite H, sidecar_slash in Hs; done.
      * by apply (cpath_not_below i (n + 1) r "logs"); [right; left|].
      * by apply (cpath_not_below i (n + 1) r "extensions"); [left|].
      * destruct H as [H|H]; revert H; apply cpath_vfile; [done|by apply sidecar_slash].
      * apply cpath_inj in H. lia.
  - intros k Hk. apply (version_ext _ _ i); try done; [|by apply kp_fam0].
    intros l Hl. unfold i'. cbn [inv_versions set_writeable set_versions set_head]. apply lookup_insert_ne. intros Eh%version_name_inj. lia.
  - intros p x Hx. destruct (kp_files0 p x Hx) as [H|[H|[H|[H|(k & r & Hk & ->)]]]]; auto. do 4 right. exists k, r. split; [lia|done].
Qed.

Lemma kept_store E s i n fam dg :
  kept E s i n (n + 1) fam → e_hash E (inv_alg i) (e_json E i) = Some dg →
  kept E (<[vfile i (n + 1) (sidecar_name (inv_alg i)) := sidecar_text dg]> (<[vfile i (n + 1) "inventory.json" := e_json E i]> s))
    i (n + 1) (n + 1) (λ k, if decide (k = n + 1)%N then i else fam k).
Proof.
  intros [] Hd. set (s' := <[_ := _]> _).
  pose proof (sidecar_slash i kp_alg0) as Hsl.
  assert (∀ k r, s' !! cpath i k r = s !! cpath i k r) as Hc.
  { intros k r. unfold s'. apply lookup_two; apply cpath_vfile; done. }
  assert (good (e_hash E) s' i (n + 1)) as HG by (eapply good_frame; [|done]; intros; apply Hc).
  split; try done.
  - intros k Hk. destruct (decide (k = n + 1)%N) as [-> |Hne].
    + split; try done.
      * unfold s'. rewrite lookup_insert_ne; [apply lookup_insert|]. unfold vfile. intros Eq. do 2 apply str_app_inv_l in Eq. by apply sidecar_ne in Eq.
      * exists dg. split; [done|]. apply lookup_insert.
    + apply (version_frame _ s); [| |apply kp_fam0; lia].
      * intros q _. unfold s'. apply lookup_two; intros Eq%vfile_inj; done.
      * intros l r _. apply Hc.
  - intros p x Hx. unfold s' in Hx. apply lookup_insert_Some in Hx as [[<- _]|[_ Hx]].
    { do 3 right. left. exists (n + 1)%N. split; [lia|by right]. }
    apply lookup_insert_Some in Hx as [[<- _]|[_ Hx]].
    { do 3 right. left. exists (n + 1)%N. split; [lia|by left]. }
    destruct (kp_files0 p x Hx) as [H|[H|[H|[(k & Hk & H)|H]]]]; auto. do 3 right. left. exists k. split; [lia|done].
Qed.

(** Writes to the root folder and below the extensions folder. *)
Lemma kept_root E s s' i n fam :
  kept E s i n n fam →
  (∀ p, p ≠ "inventory.json" → p ≠ sidecar_name (inv_alg i) → ¬ below "extensions" p → s' !! p = s !! p) → kept E s' i n n fam.
Proof.
  intros [] Hs. pose proof (sidecar_slash i kp_alg0) as Hsl.
  assert (∀ k r, s' !! cpath i k r = s !! cpath i k r) as Hc.
  { intros k r. apply Hs; [apply slash_ne; [apply cpath_slash|done]..|]. apply cpath_not_below. left. }
  assert (∀ k q, s' !! vfile i k q = s !! vfile i k q) as Hv.
  { intros k q. apply Hs; [apply slash_ne; [apply vfile_slash|done]..|]. apply vfile_not_below. left. }
  split; try done.
  - eapply good_frame; [|done]. intros; apply Hc.
  - intros k Hk. apply (version_frame _ s); [intros; apply Hv|intros; apply Hc|by apply kp_fam0].
  - intros p x Hx. destruct (decide (p = "inventory.json")) as [-> |H1]; [left; right; right; left|].
    destruct (decide (p = sidecar_name (inv_alg i))) as [-> |H2]; [left; right; right; right; left|].
    destruct (is_below "extensions" p) as [Hb|Hb]; [by do 2 right; left|]. rewrite Hs in Hx by done. by eapply kp_files0.
Qed.

(** The same inventory read again. *)
Lemma good_same hash s i i' n : same_record i i' → good hash s i n → good hash s i' n.
Proof.
  intros [] []. destruct i, i'. unfold describes, contiguous, fix_full, fix_entry, cpath, content_name in *. simpl in *. subst. by split.
Qed.
Lemma kept_same E s i i' n m fam : same_record i i' → kept E s i n m fam → kept E s i' n m fam.
Proof.
  intros Hr []. pose proof Hr as []. split.
  - by eapply good_same.
  - by rewrite sr_pad.
  - unfold content_name. by rewrite sr_cdir.
  - by rewrite sr_alg.
  - intros k Hk. apply (version_ext _ _ i); try done; [|by apply kp_fam0]. intros l Hl. by rewrite sr_vers.
  - intros p x Hx. rewrite sr_alg. unfold vfile. rewrite sr_pad.
    destruct (kp_files0 p x Hx) as [H|[H|[H|[H|(k & r & Hk & ->)]]]]; auto. do 4 right. exists k, r. split; [done|]. symmetry. by apply cpath_same.
Qed.
Lemma same_flags i : same_record i (set_modified false (set_writeable false i)).
Proof. by split. Qed.
