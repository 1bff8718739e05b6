(** The validator reports nothing but warnings for a sound object: the stored files. *)
From Coq Require Import Ascii ZArith Lia.
From stdpp Require Import base list strings gmap sorting.
From Verif Require Import GoStr InventoryModel InventorySpec InventoryProofs ObjectModel CrashSpec LoadModel PathProofs LoadProofs
  ValidateModel ValidateSpec ValidateProofs ValidateProofs2 ValidateProofs3
  ValidateProofs4 CheckModel CheckSpec EqualProofs CheckProofs CheckProofs2 AcceptSpec AcceptProofs AcceptProofs2.

Lemma split_on_length ch a b : 2 ≤ length (split_on ch (a +:+ String ch b)).
Proof.
  induction a as [|x a IH].
  - rewrite str_app_nil_l. rewrite split_on_cons_sep. destruct (split_on ch b) eqn:E; [|simpl; lia].
    by apply (split_on_ne ch b) in E.
  - rewrite str_app_cons. cbn [split_on]. destruct (decide (x = ch)); [simpl; lia|]. destruct (split_on ch (a +:+ String ch b)); simpl in *; lia.
Qed.

Section object.
  Context (hash : string → string → option string) (decode : string → option doc) (w : vorder) (lx : lexicon) (s : storage).
  Context (d : doc) (c : string) (Hw : vorder_ok w) (HO : sound_object hash decode s d c).

  (** ** Loading *)
  Lemma load_sound pre e : holds_inventory hash decode s pre e → sound_doc e →
    ∃ r, load_doc hash decode w lx s pre = (Some (twice w lx e), r) ∧ only_warnings r.
  Proof using Hw.
    intros (b & dg & H1 & H2 & H3 & H4 & H5) He. unfold load_doc. rewrite H1, H2.
    destruct (finalize w lx false e) as [e1 r1] eqn:E1. destruct (finalize w lx false e1) as [e2 r2] eqn:E2.
    eexists. split.
    { f_equal. f_equal. unfold twice. rewrite E1. cbn [fst]. by rewrite E2. }
    pose proof (sound_validated w lx Hw e He) as Hr1. rewrite E1 in Hr1. cbn [snd] in Hr1.
    pose proof (fin_sound w lx e He) as He1. cbv zeta beta in He1. rewrite E1 in He1. cbn [fst] in He1.
    pose proof (sound_validated w lx Hw e1 He1) as Hr2. rewrite E2 in Hr2. cbn [snd] in Hr2.
    apply ok_seq; [done|]. apply ok_seq; [|done].
    assert ((pre +:+ "inventory.json") +:+ "." +:+ dc_alg e = pre +:+ "inventory.json." +:+ dc_alg e) as -> by (by rewrite <- str_app_assoc).
    rewrite H5. change (dg +:+ " inventory.json") with (sidecar_text dg). rewrite (sidecar_round_trip dg H4), H3.
    apply ok_done, ws_when. rewrite bool_decide_true by done. done.
  Qed.

  (** ** Versions *)
  Let D := twice w lx d.
  Lemma sound_D : sound_doc D.
  Proof using HO. apply twice_sound, HO. Qed.
  Lemma versions_in n ver : ver ∈ version_strings w n D ↔ ∃ v, has_version d ver v.
  Proof using Hw HO.
    rewrite strings_in; [|done|apply sound_numbered, sound_D|apply sound_distinct, sound_D]. apply has_version_twice.
  Qed.
  Lemma versions_numbered n ver : ver ∈ version_strings w n D → ∃ k, numbered ver k.
  Proof using Hw HO. intros [v Hv]%versions_in. by eapply (sound_numbered d (so_doc _ _ _ _ _ HO)). Qed.
  Lemma version_stored ver v : has_version d ver v → ∃ e b,
    holds_inventory hash decode s (ver +:+ "/") e ∧ sound_doc e ∧ s !! (ver +:+ "/inventory.json") = Some b ∧ decode b = Some e ∧
    dc_id e = dc_id d ∧ dc_contentdir e = dc_contentdir d ∧ os_val (dc_head e) = ver ∧
    (∀ ver' v', has_version e ver' v' → ∃ v, has_version d ver' v ∧ state_of v = state_of v') ∧ truthful hash s c e.
  Proof using HO.
    intros Hv. destruct (so_versions _ _ _ _ _ HO ver v Hv) as (e & He & H1 & H2 & H3 & H4 & H5).
    pose proof He as (b & dg & Hb & Hd & _). rewrite <- str_app_assoc in Hb. change ("/" +:+ "inventory.json") with "/inventory.json" in Hb.
    exists e, b. split; [done|]. split; [done|]. split; [done|]. split; [done|]. repeat (split; [done|]).
    apply (so_truthful _ _ _ _ _ HO). right. by exists ver, v, b.
  Qed.
  Lemma load_versions_sound l : (∀ ver, ver ∈ l → ∃ v, has_version d ver v) →
    only_warnings (load_versions hash decode w lx s l).2.
  Proof using Hw HO.
    induction l as [|ver l IH]; intros Hl; [apply ok_done, ws_nil|]. cbn [load_versions].
    destruct (Hl ver) as [v Hv]; [by left|]. destruct (version_stored ver v Hv) as (e & b & He & Hs & _).
    destruct (load_sound _ _ He Hs) as (r & -> & Hr).
    assert (only_warnings (load_versions hash decode w lx s l).2) as IH' by (apply IH; intros x Hx; apply Hl; by right).
    destruct (load_versions hash decode w lx s l) as [m r']. cbn [snd]. by apply ok_seq.
  Qed.
  Context (vinv : gmap string doc).
  Context (Hvinv : ∀ ver, vinv !! ver = if decide (ver ∈ version_strings w 16 D) then
      match s !! (ver +:+ "/inventory.json") with None => None | Some b => twice w lx <$> decode b end else None).
  Lemma vinv_in ver e2 : vinv !! ver = Some e2 ↔
    ∃ v e b, has_version d ver v ∧ s !! (ver +:+ "/inventory.json") = Some b ∧ decode b = Some e ∧ e2 = twice w lx e.
  Proof using Hw HO Hvinv.
    rewrite Hvinv. case_decide as Hin.
    - split.
      + intros H. apply versions_in in Hin as [v Hv]. destruct (s !! _) as [b|] eqn:Eb; [|done].
        destruct (decode b) as [e|] eqn:Ee; [|done]. injection H as <-. by exists v, e, b.
      + intros (v & e & b & _ & -> & He & ->). by rewrite He.
    - split; [done|]. intros (v & e & b & Hv & _). destruct Hin. apply versions_in. by exists v.
  Qed.
  Lemma vinv_get ver v : has_version d ver v → ∃ e b,
    vinv !! ver = Some (twice w lx e) ∧ s !! (ver +:+ "/inventory.json") = Some b ∧ decode b = Some e.
  Proof using Hw HO Hvinv.
    intros Hv. destruct (version_stored ver v Hv) as (e & b & _ & _ & Hb & He & _). exists e, b. split; [|done].
    apply vinv_in. by exists v, e, b.
  Qed.
  Lemma vinv_sound ver e2 : vinv !! ver = Some e2 → ∃ v e b, has_version d ver v ∧ e2 = twice w lx e ∧
    sound_doc e ∧ s !! (ver +:+ "/inventory.json") = Some b ∧ decode b = Some e ∧
    dc_id e = dc_id d ∧ dc_contentdir e = dc_contentdir d ∧ os_val (dc_head e) = ver ∧
    (∀ ver' v', has_version e ver' v' → ∃ v, has_version d ver' v ∧ state_of v = state_of v') ∧ truthful hash s c e.
  Proof using Hw HO Hvinv.
    intros (v & e & b & Hv & Hb & He & ->)%vinv_in. destruct (version_stored ver v Hv) as (e' & b' & _ & H1 & Hb' & He' & H2).
    rewrite Hb in Hb'. injection Hb' as <-. rewrite He in He'. injection He' as <-. by exists v, e, b.
  Qed.

  (** ** Files *)
  Lemma alg_cases e : sound_doc e → dc_alg e ∈ ["sha512"; "sha256"].
  Proof using. intros He. rewrite !elem_of_cons. destruct (sd_alg _ He); auto. Qed.
  Lemma root_name p : p ∈ ["0=ocfl_object_1.0"; "0=ocfl_object_1.1"; "inventory.json"; "inventory.json." +:+ dc_alg d] →
    str_mem slash p = false ∧ allowed_file p = true.
  Proof using HO.
    rewrite !elem_of_cons, elem_of_nil.
    destruct (sd_alg _ (so_doc _ _ _ _ _ HO)) as [-> | ->]; intros [-> | [-> | [-> | [-> | []]]]]; by vm_compute.
  Qed.
  Lemma version_no_slash ver v : has_version d ver v → str_mem slash ver = false.
  Proof using HO. intros Hv. destruct (sound_numbered d (so_doc _ _ _ _ _ HO) ver v Hv) as [n Hn]. by eapply numbered_no_slash. Qed.
  Lemma version_not ver v a : has_version d ver v → str_head a ≠ Some "v"%char → ver ≠ a.
  Proof using HO. intros Hv Ha ->. destruct (sound_numbered d (so_doc _ _ _ _ _ HO) a v Hv) as (n & _ & k & ->). by apply Ha. Qed.
  Lemma in_version ver v f x : has_version d ver v → s !! (ver +:+ "/" +:+ f) = Some x →
    f = "inventory.json" ∨
    (∃ b e, s !! (ver +:+ "/inventory.json") = Some b ∧ decode b = Some e ∧ f = "inventory.json." +:+ dc_alg e) ∨
    ∃ r, f = c +:+ "/" +:+ r.
  Proof using HO.
    intros Hv Hx. pose proof (version_no_slash _ _ Hv) as Hns.
    destruct (so_files _ _ _ _ _ HO _ _ Hx) as [H|[[r H]|[[r H]|(ver' & v' & Hv' & H)]]].
    - apply root_name in H as [H _]. by destruct (no_slash_folder _ ver f H).
    - change ("logs/" +:+ r) with ("logs" +:+ "/" +:+ r) in H. apply folder_inj in H as [H _]; [|done|done].
      by destruct (version_not _ _ "logs" Hv).
    - change ("extensions/" +:+ r) with ("extensions" +:+ "/" +:+ r) in H. apply folder_inj in H as [H _]; [|done|done].
      by destruct (version_not _ _ "extensions" Hv).
    - pose proof (version_no_slash _ _ Hv') as Hns'. destruct H as [H|[(b & e & Hb & He & H)|[r H]]].
      + change (ver' +:+ "/inventory.json") with (ver' +:+ "/" +:+ "inventory.json") in H. apply folder_inj in H as [_ ->]; [|done|done]. by left.
      + change ("/inventory.json." +:+ dc_alg e) with ("/" +:+ "inventory.json." +:+ dc_alg e) in H.
        apply folder_inj in H as [-> ->]; [|done|done]. right. left. by exists b, e.
      + apply folder_inj in H as [_ ->]; [|done|done]. right. right. by exists r.
  Qed.
  Lemma drop_prefix_some p q r : drop_prefix p q = Some r → q = p +:+ r.
  Proof using.
    revert q. induction p as [|a p IH]; intros q; [by intros [= ->]|]. destruct q as [|b q]; [done|]. cbn [drop_prefix].
    destruct (decide (a = b)) as [->|]; [|done]. intros ->%IH. done.
  Qed.
  Lemma sub_files_in dir f : f ∈ sub_files s dir → (∃ x, s !! (dir +:+ "/" +:+ f) = Some x) ∧ str_mem slash f = false.
  Proof using.
    unfold sub_files. intros ([p x] & Hp & Hf)%flat_map_in. cbn [fst] in Hf. apply elem_of_map_to_list in Hp.
    destruct (drop_prefix _ p) as [r|] eqn:E; [|by apply elem_of_nil in Hf]. apply drop_prefix_some in E. rewrite <- str_app_assoc in E.
    destruct (split_slash r) as [|e [|e' l]] eqn:Es; [by apply elem_of_nil in Hf| |by apply elem_of_nil in Hf].
    apply elem_of_list_singleton in Hf as ->.
    assert (r = e) as ->.
    { pose proof (join_split slash r) as Hj. unfold split_slash in Es. rewrite Es in Hj. simpl in Hj. done. }
    split; [exists x; by rewrite <- E|].
    pose proof (split_on_elem_no_sep slash e) as Hn. unfold split_slash in Es. rewrite Es in Hn. by inversion Hn.
  Qed.
  Lemma folder_ok ver v : has_version d ver v → ws (check_version_folder s ver).
  Proof using HO.
    intros Hv. unfold check_version_folder. apply ws_flat. intros f [[x Hx] Hs]%sub_files_in. apply ws_when. intros Hn.
    exfalso. apply negb_true_iff in Hn.
    destruct (in_version ver v f x Hv Hx) as [->|[(b & e & Hb & He & ->)|[r ->]]].
    - by vm_compute in Hn.
    - destruct (so_versions _ _ _ _ _ HO ver v Hv) as (e' & (b' & _ & Hb' & He' & _) & Hsd & _).
      rewrite <- str_app_assoc in Hb'. change ("/" +:+ "inventory.json") with "/inventory.json" in Hb'. rewrite Hb in Hb'. injection Hb' as <-.
      rewrite He in He'. injection He' as <-. destruct (sd_alg _ Hsd) as [E|E]; rewrite E in Hn; by vm_compute in Hn.
    - rewrite !str_mem_app in Hs. simpl in Hs. by rewrite orb_true_r in Hs.
  Qed.
  Lemma root_dirs_in e : e ∈ root_dirs s → e = "logs" ∨ e = "extensions" ∨ ∃ v, has_version d e v.
  Proof using HO.
    unfold root_dirs. rewrite elem_of_remove_dups. intros ([p x] & Hp & He)%flat_map_in. cbn [fst] in He. apply elem_of_map_to_list in Hp.
    destruct (split_slash p) as [|e1 [|e2 l]] eqn:Es; [by apply elem_of_nil in He|by apply elem_of_nil in He|].
    apply elem_of_list_singleton in He as ->.
    destruct (so_files _ _ _ _ _ HO _ _ Hp) as [H|[[r H]|[[r H]|(ver & v & Hv & H)]]].
    - apply root_name in H as [H _]. unfold split_slash in Es. rewrite split_on_no_sep in Es by done. done.
    - rewrite H in Es. change ("logs/" +:+ r) with ("logs" +:+ "/" +:+ r) in Es. rewrite split_folder in Es by done. injection Es as <- _. by left.
    - rewrite H in Es. change ("extensions/" +:+ r) with ("extensions" +:+ "/" +:+ r) in Es. rewrite split_folder in Es by done.
      injection Es as <- _. right. by left.
    - right. right. exists v. assert (∃ r, p = ver +:+ "/" +:+ r) as [r Hr].
      { destruct H as [H|[(b & e & _ & _ & H)|[r H]]]; [by exists "inventory.json"|by exists ("inventory.json." +:+ dc_alg e)|by exists (c +:+ "/" +:+ r)]. }
      rewrite Hr, split_folder in Es by (by eapply version_no_slash). injection Es as <- _. done.
  Qed.
  Lemma root_dirs_version ver v : has_version d ver v → ver ∈ root_dirs s.
  Proof using HO.
    intros Hv. destruct (version_stored ver v Hv) as (e & b & _ & _ & Hb & _). unfold root_dirs. apply elem_of_remove_dups, flat_map_in.
    exists (ver +:+ "/inventory.json", b). split; [by apply elem_of_map_to_list|]. cbn [fst].
    change (ver +:+ "/inventory.json") with (ver +:+ "/" +:+ "inventory.json").
    rewrite split_folder by (by eapply version_no_slash). change (split_slash "inventory.json") with ["inventory.json"]. by left.
  Qed.
  Lemma root_ok n : ws (check_root s (version_strings w n D)).
  Proof using Hw HO.
    unfold check_root. rewrite !ws_app. split; [|split].
    - apply ws_flat. intros e He. apply ws_app. apply root_dirs_in in He. split.
      + rewrite decide_True; [apply ws_nil|]. destruct He as [->|[->|He]]; [by right; left|by right; right|]. left. by apply versions_in.
      + case_decide as Hin; [|apply ws_nil]. apply versions_in in Hin as [v Hv]. by eapply folder_ok.
    - apply ws_flat. intros f Hf. apply ws_when. intros Hn. exfalso. apply negb_true_iff in Hn.
      unfold root_files in Hf. apply flat_map_in in Hf as ([p x] & Hp & Hf). cbn [fst] in Hf. apply elem_of_map_to_list in Hp.
      destruct (split_slash p) as [|e1 [|e2 l]] eqn:Es; [by apply elem_of_nil in Hf| |by apply elem_of_nil in Hf].
      apply elem_of_list_singleton in Hf as ->.
      assert (p = e1) as ->.
      { pose proof (join_split slash p) as Hj. unfold split_slash in Es. rewrite Es in Hj. simpl in Hj. done. }
      assert (∀ a r, str_mem slash a = false → e1 ≠ a +:+ "/" +:+ r) as Hne.
      { intros a r Ha ->. rewrite split_folder in Es by done. injection Es as _ Es. by apply split_ne in Es. }
      destruct (so_files _ _ _ _ _ HO _ _ Hp) as [H|[[r H]|[[r H]|(ver & v & Hv & H)]]].
      + apply root_name in H as [_ H]. by rewrite H in Hn.
      + by apply (Hne "logs" r).
      + by apply (Hne "extensions" r).
      + pose proof (version_no_slash _ _ Hv) as Hns. destruct H as [H|[(b & e & _ & _ & H)|[r H]]].
        * by apply (Hne ver "inventory.json").
        * by apply (Hne ver ("inventory.json." +:+ dc_alg e)).
        * by apply (Hne ver (c +:+ "/" +:+ r)).
    - apply ws_when. intros Hn. exfalso. apply negb_true_iff, bool_decide_eq_false in Hn. apply Hn.
      apply Permutation_length. apply NoDup_Permutation.
      + apply NoDup_filter, NoDup_remove_dups.
      + apply strings_nodup; [done|apply sound_numbered, sound_D|apply sound_distinct, sound_D].
      + intros x. rewrite elem_of_list_filter. split; [by intros [? _]|]. intros Hx. split; [done|].
        apply versions_in in Hx as [v Hv]. by eapply root_dirs_version.
  Qed.

  (** ** Digests *)
  Lemma walk_some ver v : has_version d ver v → ∃ l, walk s ver = Some l.
  Proof using HO.
    intros Hv. destruct (version_stored ver v Hv) as (e & b & _ & _ & Hb & _). unfold walk.
    set (l := (λ p : string * string, p.1) <$> _).
    assert (ver +:+ "/inventory.json" ∈ l) as Hin.
    { unfold l. apply elem_of_list_fmap. exists (ver +:+ "/inventory.json", b). split; [done|].
      apply elem_of_list_filter. split; [|by apply elem_of_map_to_list]. cbn [fst]. apply has_prefix_slash. by exists "inventory.json". }
    clearbody l. destruct l as [|x l]; [by apply elem_of_nil in Hin|]. by eexists.
  Qed.
  Lemma walks_some n : ∃ walks, all_some (walk s <$> version_strings w n D) = Some walks.
  Proof using Hw HO.
    apply all_some_ok. intros x (ver & -> & Hv)%elem_of_list_fmap. apply versions_in in Hv as [v Hv].
    destruct (walk_some ver v Hv) as [l ->]. done.
  Qed.
  Lemma alg_known alg x : alg ∈ all_digests D vinv → ∃ h, hash alg x = Some h ∧ to_lower h = h.
  Proof using Hw HO Hvinv.
    unfold all_digests. rewrite compact_elem, elem_of_list_In. intros Hin.
    assert (alg ∈ dc_alg D :: flat_map (λ p : string * doc, dc_alg p.2 :: (map_to_list (dc_fixity p.2)).*1) (map_to_list vinv)) as Hin2.
    { apply elem_of_list_In in Hin. unfold str_sort in Hin. by rewrite merge_sort_Permutation in Hin. }
    apply elem_of_cons in Hin2 as [->|Hin2].
    - apply (tr_known _ _ _ _ (so_truthful _ _ _ _ _ HO d (or_introl eq_refl))). left. apply twice_fields.
    - apply flat_map_in in Hin2 as ([ver e2] & Hv & Ha). cbn [snd] in Ha. apply elem_of_map_to_list in Hv.
      destruct (vinv_sound _ _ Hv) as (v & e & b & _ & -> & _ & _ & _ & _ & _ & _ & _ & Ht).
      destruct (twice_fields w lx e) as (_ & _ & Halg & _ & _ & _ & Hf). rewrite Halg, Hf in Ha.
      apply (tr_known _ _ _ _ Ht). apply elem_of_cons in Ha as [->|Ha]; [by left|]. right.
      apply elem_of_list_fmap in Ha as ([a m] & -> & Ha). apply elem_of_map_to_list in Ha. by eexists.
  Qed.
  Lemma sums_some n : ∃ fm, content_manifest hash (all_digests D vinv) s (version_strings w n D) = Sums fm.
  Proof using Hw HO Hvinv.
    unfold content_manifest. destruct (walks_some n) as [walks Hwk]. rewrite Hwk.
    destruct (proj2 (all_some_ok (file_sums hash (all_digests D vinv) s <$> concat walks))) as [sums ->]; [|by eexists].
    intros x (f & -> & Hf)%elem_of_list_fmap. apply (walks_in s _ walks f Hwk) in Hf as [[y Hy] _].
    unfold file_sums. rewrite Hy. destruct (proj2 (all_some_ok ((λ alg, (λ h, (alg, h, f)) <$> hash alg y) <$> all_digests D vinv))) as [r ->]; [|done].
    intros z (alg & -> & Halg)%elem_of_list_fmap. destruct (alg_known alg y Halg) as (h & -> & _). done.
  Qed.
  Lemma versions_ne n : version_strings w n D ≠ [].
  Proof using Hw HO.
    destruct (sd_head _ (so_doc _ _ _ _ _ HO)) as [_ (v & k & Hv & _)]. intros E.
    assert (os_val (dc_head d) ∈ version_strings w n D) as Hin by (apply versions_in; by exists v). rewrite E in Hin. by apply elem_of_nil in Hin.
  Qed.
  (** The inventories of the object are those of the versions. *)
  Lemma newest_inventory : ∃ ver v b, ver = os_val (dc_head d) ∧ newest d ver ∧ has_version d ver v ∧
    s !! "inventory.json" = Some b ∧ s !! (ver +:+ "/inventory.json") = Some b ∧ decode b = Some d.
  Proof using HO.
    destruct (sd_head _ (so_doc _ _ _ _ _ HO)) as [_ Hn]. pose proof Hn as (v & k & Hv & _).
    destruct (so_root _ _ _ _ _ HO) as (b & dg & Hb & He & _). rewrite str_app_nil_l in Hb.
    exists (os_val (dc_head d)), v, b. repeat split; try done. by rewrite (so_newest _ _ _ _ _ HO _ Hn).
  Qed.
  Lemma newest_vinv : vinv !! os_val (dc_head d) = Some D.
  Proof using Hw HO Hvinv.
    destruct newest_inventory as (ver & v & b & -> & Hn & Hv & _ & Hb & He). apply vinv_in. by exists v, d, b.
  Qed.
  Definition one_of (e : doc) : Prop := ∃ ver v b, has_version d ver v ∧ s !! (ver +:+ "/inventory.json") = Some b ∧ decode b = Some e.
  Lemma one_of_root : one_of d.
  Proof using HO. destruct newest_inventory as (ver & v & b & _ & _ & Hv & _ & Hb & He). by exists ver, v, b. Qed.
  Lemma one_of_truthful e : one_of e → truthful hash s c e.
  Proof using HO. intros (ver & v & b & H). apply (so_truthful _ _ _ _ _ HO). right. by exists ver, v, b. Qed.
  Lemma one_of_sound e : one_of e → sound_doc e ∧ dc_contentdir e = dc_contentdir d ∧ ∀ ver v, has_version e ver v → ∃ v', has_version d ver v'.
  Proof using HO.
    intros (ver & v & b & Hv & Hb & He). destruct (version_stored ver v Hv) as (e' & b' & _ & H1 & Hb' & He' & _ & H2 & _ & H3 & _).
    rewrite Hb in Hb'. injection Hb' as <-. rewrite He in He'. injection He' as <-. split; [done|]. split; [done|].
    intros ver' v' Hv'. destruct (H3 _ _ Hv') as (v0 & Hv0 & _). by exists v0.
  Qed.
  Lemma one_of_vinv e : one_of e → ∃ ver, vinv !! ver = Some (twice w lx e).
  Proof using Hw HO Hvinv. intros (ver & v & b & Hv & Hb & He). exists ver. apply vinv_in. by exists v, e, b. Qed.
  Lemma files_ok n fm e : content_manifest hash (all_digests D vinv) s (version_strings w n D) = Sums fm → one_of e →
    only_warnings (check_files w fm (twice w lx e)).
  Proof using Hw HO Hvinv.
    intros Hfm He. pose proof (one_of_truthful e He) as Ht. destruct (one_of_sound e He) as (Hse & Hcd & Hsub).
    destruct (one_of_vinv e He) as [ver Hver]. destruct (twice_fields w lx e) as (_ & _ & Halg & _ & _ & Hman & Hfix).
    assert (∀ dg p, man_lists e dg p → below (version_strings w n D) p) as Hbelow.
    { intros dg p Hl. destruct (tr_content _ _ _ _ Ht dg p Hl) as (_ & ver' & v & r & Hv & ->). exists ver', (c +:+ "/" +:+ r). split; [|done].
      apply versions_in. by eapply Hsub. }
    assert (∀ alg, alg = dc_alg e ∨ is_Some (dc_fixity e !! alg) → alg ∈ all_digests D vinv) as Halgs.
    { intros alg [->|Ha]; [rewrite <- Halg; by eapply all_digests_version|]. eapply all_digests_fixity; [exact Hver|]. by rewrite Hfix. }
    unfold check_files. rewrite Halg.
    destruct (content_manifest_alg _ _ _ _ _ (dc_alg e) Hfm (versions_ne n)) as [cs Hcs]; [apply Halgs; by left|]. rewrite Hcs. apply ok_seq.
    - apply ok_done, ws_flat. intros [dg ps] Hin. cbn [fst snd]. apply vo_in in Hin; [|done]. rewrite Hman in Hin.
      assert (∀ p, p ∈ ps → ∃ l, cs !! to_lower dg = Some l ∧ p ∈ l) as Hps.
      { intros p Hp. assert (man_lists e dg p) as Hl by (apply man_lists_man; by exists ps).
        destruct (tr_content _ _ _ _ Ht dg p Hl) as [Hi _].
        assert (in_fm fm (dc_alg e) (to_lower dg) p) as (m & l & Hm & Hl' & Hp').
        { apply (content_manifest_in _ _ _ _ _ _ _ _ Hfm). split; [apply Halgs; by left|]. split; [by eapply Hbelow|done]. }
        rewrite Hcs in Hm. injection Hm as <-. by exists l. }
      assert (ps ≠ []) as Hne.
      { destruct (sound_man e Hse) as (m & Hm & Em). rewrite Em in Hin. by apply (proj1 (tr_nonempty _ _ _ _ Ht) m dg). }
      destruct ps as [|p0 ps0]; [done|]. destruct (Hps p0) as (l0 & Hl0 & _); [by left|]. rewrite Hl0.
      apply ws_flat. intros p Hp. apply ws_when. intros Hn. exfalso. apply negb_true_iff, bool_decide_eq_false in Hn. apply Hn.
      destruct (Hps p Hp) as (l & Hl & Hpl). rewrite Hl0 in Hl. by injection Hl as <-.
    - apply ok_all. intros [alg m] Hin. cbn [fst snd]. apply vo_in in Hin; [|done]. rewrite Hfix in Hin. cbn [fst snd] in Hin.
      destruct (content_manifest_alg _ _ _ _ _ alg Hfm (versions_ne n)) as [cs2 Hcs2]; [apply Halgs; right; by eexists|]. rewrite Hcs2.
      apply ok_done, ws_flat. intros [dg ps] Hdg. cbn [fst snd]. apply vo_in in Hdg; [|done]. cbn [fst snd] in Hdg.
      assert (∀ x l, cs2 !! x = Some l → to_lower x = x) as Hlow.
      { intros x l Hx. pose proof (proj2 (content_manifest_used _ _ _ _ _ Hfm) alg cs2 x l Hcs2 Hx) as Hl.
        destruct l as [|f l]; [done|].
        assert (in_fm fm alg x f) as Hf by (exists cs2, (f :: l); split; [done|]; split; [done|by left]).
        apply (content_manifest_in _ _ _ _ _ _ _ _ Hfm) in Hf as (_ & _ & (y & _ & Hy)).
        destruct (tr_known _ _ _ _ Ht alg y) as (h & Hh & Hlow); [right; by eexists|]. rewrite Hy in Hh. by injection Hh as <-. }
      assert (∀ p, p ∈ ps → ∃ l, cs2 !! to_lower dg = Some l ∧ p ∈ l) as Hps.
      { intros p Hp. destruct (tr_fixity _ _ _ _ Ht alg dg p) as [Hi [dg' Hl]]; [by exists m, ps|].
        assert (in_fm fm alg (to_lower dg) p) as (m' & l & Hm & Hl' & Hp').
        { apply (content_manifest_in _ _ _ _ _ _ _ _ Hfm). split; [apply Halgs; right; by eexists|]. split; [by eapply Hbelow|done]. }
        rewrite Hcs2 in Hm. injection Hm as <-. by exists l. }
      assert (ps ≠ []) as Hne by (by apply (proj2 (tr_nonempty _ _ _ _ Ht) alg m dg)).
      destruct ps as [|p0 ps0]; [done|]. destruct (Hps p0) as (l0 & Hl0 & _); [by left|].
      assert ((match cs2 !! dg with Some x => Some x | None => cs2 !! to_lower dg end) = Some l0) as ->.
      { destruct (cs2 !! dg) as [x|] eqn:Ex; [|done]. rewrite (Hlow _ _ Ex) in Hl0. congruence. }
      apply ws_flat. intros p Hp. apply ws_when. intros Hn. exfalso. apply negb_true_iff, bool_decide_eq_false in Hn. apply Hn.
      destruct (Hps p Hp) as (l & Hl & Hpl). rewrite Hl0 in Hl. by injection Hl as <-.
  Qed.

  (** ** The version inventories *)
  Lemma version_inventory_ok n fm ver v e : content_manifest hash (all_digests D vinv) s (version_strings w n D) = Sums fm →
    has_version d ver v → vinv !! ver = Some (twice w lx e) → one_of e → (∃ b, s !! (ver +:+ "/inventory.json") = Some b ∧ decode b = Some e) →
    only_warnings (check_version_inventory w s fm (dc_contentdir d) ver (twice w lx e)).
  Proof using Hw HO Hvinv.
    intros Hfm Hv Hvi He (b & Hb & Hdec). unfold check_version_inventory.
    destruct (one_of_sound e He) as (Hse & Hcd & Hsub). destruct (twice_fields w lx e) as (_ & _ & Halg & _ & Hcdir & _ & _).
    apply ok_seq; [|apply ok_seq].
    - apply ok_done, ws_when. intros Hn. exfalso. apply negb_true_iff, bool_decide_eq_false in Hn. apply Hn. by rewrite Hcdir.
    - by eapply files_ok.
    - apply ok_done, ws_app. split.
      + apply ws_flat. intros x _. apply ws_when. intros _. by eapply warn_code.
      + apply ws_flat. intros f [[x Hx] Hs]%sub_files_in. apply ws_when. intros Hn. exfalso.
        apply negb_true_iff, bool_decide_eq_false in Hn. apply Hn. rewrite Halg.
        destruct (in_version ver v f x Hv Hx) as [->|[(b' & e' & Hb' & He' & ->)|[r ->]]].
        * by left.
        * right. rewrite Hb in Hb'. injection Hb' as <-. rewrite Hdec in He'. by injection He' as <-.
        * rewrite !str_mem_app in Hs. simpl in Hs. by rewrite orb_true_r in Hs.
  Qed.
  Lemma specs_ok n : ws (check_specs vinv (version_strings w n D)).
  Proof using Hw HO Hvinv.
    destruct (strings_sorted w n D Hw (sound_numbered D sound_D) (sound_distinct D sound_D)) as (ns & Hns & Hs & _).
    assert (∀ ver, ver ∈ version_strings w n D → ∃ v, has_version d ver v) as Hin by (intros ver; by apply versions_in).
    revert ns Hns Hs Hin. generalize (version_strings w n D) as l. induction l as [|v1 l IH]; intros ns Hns Hs Hin; [apply ws_nil|].
    destruct l as [|v2 l]; [apply ws_nil|]. inversion Hns as [|? n1 ? ns1 H1 Hns1]; subst. inversion Hns1 as [|? n2 ? ns2 H2 Hns2]; subst.
    apply StronglySorted_inv in Hs as [Hs Hle]. change (check_specs vinv (v1 :: v2 :: l)) with
      (match vinv !! v1, vinv !! v2 with
      | None, _ => [Finding "W010" [v1]]
      | Some _, None => [Finding "W000" [v2]]
      | Some d1, Some d2 => when (negb (spec_le d1 d2)) (Finding "E103" [v1; v2])
      end ++ check_specs vinv (v2 :: l)). apply ws_app. split.
    - destruct (Hin v1) as [x1 Hx1]; [by left|]. destruct (Hin v2) as [x2 Hx2]; [by right; left|].
      destruct (vinv_get v1 x1 Hx1) as (e1 & b1 & -> & Hb1 & He1). destruct (vinv_get v2 x2 Hx2) as (e2 & b2 & -> & Hb2 & He2).
      apply ws_when. intros Hn. exfalso. apply negb_true_iff in Hn. unfold spec_le in Hn. apply bool_decide_eq_false in Hn. apply Hn.
      destruct (twice_fields w lx e1) as (_ & -> & _). destruct (twice_fields w lx e2) as (_ & -> & _).
      eapply (so_types _ _ _ _ _ HO v1 v2 b1 b2 e1 e2 n1 n2); try done. apply Forall_inv in Hle. done.
    - eapply IH; [exact Hns1|done|]. intros ver Hver. apply Hin. by right.
  Qed.
  Lemma equal_meta_some v v' ver n : numbered ver n → sound_version v → sound_version v' →
    ∃ b, equal_meta (fin_version ver (fin_version ver v).2).2 (fin_version ver (fin_version ver v').2).2 = Some b.
  Proof using.
    intros Hn Hv Hv'. unfold fin_version. rewrite (numbered_value _ _ Hn). cbn [snd vd_created vd_message vd_user vd_state].
    unfold equal_meta. cbn [vd_created vd_message vd_user].
    destruct (sv_created _ Hv) as [H1 _], (sv_created _ Hv') as [H2 _]. destruct (vd_created v); [|done]. destruct (vd_created v'); [|done].
    unfold fin_user. by eexists.
  Qed.
  Lemma equal_meta_refl v ver n : numbered ver n → sound_version v →
    equal_meta (fin_version ver (fin_version ver v).2).2 (fin_version ver (fin_version ver v).2).2 = Some true.
  Proof using.
    intros Hn Hv. unfold fin_version. rewrite (numbered_value _ _ Hn). cbn [snd vd_created vd_message vd_user vd_state].
    unfold equal_meta. cbn [vd_created vd_message vd_user].
    destruct (sv_created _ Hv) as [H1 _]. destruct (vd_created v); [|done].
    unfold fin_user. by rewrite bool_decide_true.
  Qed.
  Lemma state_equal v v' ver n : numbered ver n → state_of v = state_of v' →
    equal_state_doc (fin_version ver (fin_version ver v).2).2 (fin_version ver (fin_version ver v').2).2 = Some true.
  Proof using.
    intros Hn E. unfold equal_state_doc. rewrite !(state_of_twice _ _ _ Hn), E. f_equal. by apply equal_state_iff.
  Qed.
  Lemma root_equal : is_equal D D = Some true.
  Proof using HO.
    apply agrees_is_equal; [done|done|]. constructor; try done.
    - intros dg ps Hl. by exists ps.
    - intros ver v v2 H1 H2. rewrite H1 in H2. injection H2 as <-. apply has_version_vers in H1.
      apply twice_has_version in H1 as (v0 & Hv0 & ->). pose proof (so_doc _ _ _ _ _ HO) as Hd.
      destruct (sound_numbered d Hd ver v0 Hv0) as [n Hn].
      split; [eapply equal_meta_refl; [exact Hn|by apply (sd_version _ Hd ver)]|by eapply state_equal].
  Qed.
  Lemma against_root_ok ver e2 : vinv !! ver = Some e2 → only_warnings (check_against_root w D ver e2).
  Proof using Hw HO Hvinv.
    intros (v & e & b & Hv & -> & Hse & Hb & Hdec & Hid & Hcd & Hhead & Hst & Ht)%vinv_sound. unfold check_against_root.
    destruct (twice_fields w lx e) as (E1 & _ & E3 & E4 & _). destruct (twice_fields w lx d) as (F1 & _ & F3 & _).
    apply ok_seq.
    - apply ok_done. rewrite !ws_app. split; [|split].
      + apply ws_when. intros Hn. exfalso. apply negb_true_iff, bool_decide_eq_false in Hn. apply Hn. unfold D. by rewrite E1, F1.
      + apply ws_when. intros Hn. exfalso. apply bool_decide_eq_true in Hn as [_ Hn]. apply Hn. by rewrite E4.
      + apply ws_when. intros _. by eapply warn_code.
    - apply ok_all. intros [ver' v'] Hin. apply vo_in in Hin; [|done]. cbn [fst snd] in *. apply has_version_vers, twice_has_version in Hin as (v0 & Hv0 & ->).
      destruct (Hst _ _ Hv0) as (v1 & Hv1 & E). pose proof (so_doc _ _ _ _ _ HO) as Hd. destruct (sound_numbered d Hd ver' v1 Hv1) as [n Hn].
      assert (has_version D ver' (fin_version ver' (fin_version ver' v1).2).2) as Hl%has_version_vers by (apply twice_has_version; by exists v1).
      rewrite Hl, (state_equal v1 v0 ver' n Hn E).
      destruct (equal_meta_some v1 v0 ver' n Hn) as [em ->]; [by apply (sd_version _ Hd ver')|by apply (sd_version _ Hse ver')|].
      apply ok_done. cbn [negb when app]. apply ws_when. intros _. by eapply warn_code.
  Qed.
  Lemma files_flat_ok n e : one_of e → ∃ r, files_flat w n (twice w lx e) = (Some (flat_map snd (vo w n (man e))), r) ∧ only_warnings r.
  Proof using Hw HO.
    intros He. pose proof (one_of_truthful e He) as Ht. destruct (one_of_sound e He) as (Hse & Hcd & Hsub).
    destruct (twice_fields w lx e) as (_ & _ & _ & _ & _ & Hman & _). unfold files_flat. rewrite Hman.
    assert (∀ f, f ∈ flat_map snd (vo w n (man e)) → ∃ ver v l, has_version e ver v ∧ split_slash f = ver :: l ∧ 2 ≤ length l) as Hf.
    { intros f ([dg ps] & Hin & Hf)%flat_map_in. apply vo_in in Hin; [|done]. cbn [snd fst] in *.
      destruct (tr_content _ _ _ _ Ht dg f) as (_ & ver & v & r & Hv & ->); [apply man_lists_man; by exists ps|].
      destruct (Hsub _ _ Hv) as [v' Hv']. exists ver, v. exists (split_slash (c +:+ "/" +:+ r)). split; [done|].
      split; [by apply split_folder, (version_no_slash _ _ Hv')|].
      unfold split_slash. change ("/" +:+ r) with (String slash r). generalize (split_on_length slash c r). lia. }
    rewrite (proj2 (forallb_forall _ _)).
    2:{ intros f Hin%elem_of_list_In. destruct (Hf f Hin) as (ver & v & l & _ & -> & Hl). apply bool_decide_eq_true. simpl. lia. }
    eexists. split; [done|]. apply ok_done, ws_app. split.
    - apply ws_flat. intros f Hin. apply ws_when. intros Hlt. exfalso. apply bool_decide_eq_true in Hlt.
      destruct (Hf f Hin) as (ver & v & l & _ & E & Hl). rewrite E in Hlt. simpl in Hlt. lia.
    - apply ws_when. intros Hn. exfalso. apply negb_true_iff in Hn. rewrite (proj2 (forallb_forall _ _)) in Hn; [done|].
      intros f Hin%elem_of_list_In. destruct (Hf f Hin) as (ver & v & l & Hv & -> & Hl). apply bool_decide_eq_true. cbn [head default].
      apply strings_in; [done|by apply sound_numbered, twice_sound|by apply sound_distinct, twice_sound|].
      apply has_version_twice. by exists v.
  Qed.
  Lemma physical_ok n walks e name : all_some (walk s <$> version_strings w n D) = Some walks → one_of e →
    only_warnings (check_physical w (concat walks) (twice w lx e) name).
  Proof using Hw HO.
    intros Hwk He. pose proof (one_of_truthful e He) as Ht. destruct (one_of_sound e He) as (Hse & Hcd & Hsub).
    unfold check_physical. destruct (files_flat_ok 21 e He) as (r & -> & Hr). apply ok_seq; [done|]. apply ok_done, ws_flat.
    intros f ([dg ps] & Hin & Hf)%flat_map_in. apply vo_in in Hin; [|done]. cbn [snd fst] in *.
    destruct (tr_content _ _ _ _ Ht dg f) as ((x & Hx & _) & ver & v & r' & Hv & ->); [apply man_lists_man; by exists ps|].
    apply ws_when. intros Hn. exfalso. apply negb_true_iff, bool_decide_eq_false in Hn. apply Hn.
    apply (walks_in s _ walks _ Hwk). split; [by exists x|]. exists ver, (c +:+ "/" +:+ r'). split; [|done].
    apply versions_in. by eapply Hsub.
  Qed.
  Lemma cdir_D : cdir D = c.
  Proof using HO.
    unfold cdir, D. destruct (twice_fields w lx d) as (_ & _ & _ & _ & -> & _).
    destruct (so_cdir _ _ _ _ _ HO) as [[E ->]|[E ->]]; [by rewrite decide_True|by rewrite decide_False].
  Qed.
  Context (Hap : apart c).
  Lemma content_file ver v l f : has_version d ver v → walk s ver = Some l → f ∈ l → has_prefix (ver +:+ "/" +:+ cdir D) f = true →
    ∃ r x, f = ver +:+ "/" +:+ c +:+ "/" +:+ r ∧ s !! f = Some x.
  Proof using HO Hap.
    intros Hv Hl Hf Hp. rewrite cdir_D in Hp. apply (walk_in _ _ _ _ Hl) in Hf as [[x Hx] [t ->]].
    apply has_prefix_spec in Hp as [u Hu]. assert (t = c +:+ u) as Ht.
    { rewrite <- !str_app_assoc in Hu. apply str_app_inv_l in Hu. by injection Hu. }
    assert (∀ alg, alg ∈ ["sha512"; "sha256"] → ∀ r, "inventory.json." +:+ alg ≠ c +:+ r) as Ha by (intros alg Halg r; by apply Hap).
    destruct (in_version ver v t x Hv Hx) as [E|[(b & e & Hb & He & E)|[r E]]].
    - exfalso. apply (Ha "sha512" ltac:(rewrite elem_of_cons; by left) (u +:+ ".sha512")). rewrite str_app_assoc, <- Ht, E. done.
    - exfalso. destruct (one_of_sound e) as (Hse & _); [by exists ver, v, b|]. apply (Ha (dc_alg e) (alg_cases e Hse) u). congruence.
    - exists r, x. by rewrite <- E.
  Qed.
  Lemma listed_ok ver v l e iver iv : has_version d ver v → walk s ver = Some l → has_version d iver iv →
    (∃ b, s !! (iver +:+ "/inventory.json") = Some b ∧ decode b = Some e) →
    only_warnings (check_listed w (filter (λ f, has_prefix (ver +:+ "/" +:+ cdir D) f = true) l) ver (twice w lx e) iver).
  Proof using Hw HO Hap.
    intros Hv Hl Hiv (b & Hb & He). unfold check_listed. destruct (version_le _ _ _) eqn:Hle; [|apply ok_done, ws_nil].
    assert (one_of e) as Hone by (by exists iver, iv, b). destruct (one_of_sound e Hone) as (Hse & Hcd & Hsub).
    destruct (files_flat_ok 21 e Hone) as (r & -> & Hr). apply ok_seq; [done|]. apply ok_done, ws_flat.
    intros f [Hp Hf]%elem_of_list_filter. apply ws_when. intros Hn. exfalso. apply negb_true_iff, bool_decide_eq_false in Hn. apply Hn.
    destruct (content_file ver v l f Hv Hl Hf Hp) as (u & x & -> & Hx).
    pose proof (so_doc _ _ _ _ _ HO) as Hd. destruct (sound_numbered d Hd ver v Hv) as [n1 Hn1]. destruct (sound_numbered d Hd iver iv Hiv) as [n2 Hn2].
    unfold version_le in Hle. destruct (dc_values (twice w lx e) !! ver) as [z1|] eqn:E1; [|done].
    destruct (dc_values (twice w lx e) !! iver) as [z2|] eqn:E2; [|done].
    assert (z1 = Z.of_N n1 ∧ z2 = Z.of_N n2) as [-> ->].
    { assert (∀ x z k, dc_values (twice w lx e) !! x = Some z → numbered x k → z = Z.of_N k) as Hz.
      { intros y z k Hy Hk. unfold twice, finalize in Hy. cbn [negb andb] in Hy. repeat (destruct (check_doc _ _ _); cbn [fst dc_values dc_versions] in Hy).
        unfold fin_values in Hy. rewrite map_lookup_imap in Hy. destruct (vers _ !! y); [|done]. simpl in Hy. rewrite (numbered_value _ _ Hk) in Hy. congruence. }
      split; by eapply Hz. }
    apply bool_decide_eq_true in Hle. unfold as_uint in Hle. rewrite !decide_False in Hle by lia.
    destruct (so_listed _ _ _ _ _ HO ver iver v iv n1 n2 u x b e Hv Hiv Hn1 Hn2 ltac:(lia) Hx Hb He) as (dg & Hl').
    apply man_lists_man in Hl' as (ps & Hps & Hin). apply flat_map_in. exists (dg, ps). split; [by apply vo_in|done].
  Qed.

  (** ** The whole check *)
  Lemma check_ok : only_warnings (check_object hash w s D vinv).
  Proof using Hw HO Hvinv Hap.
    unfold check_object. apply ok_seq; [apply ok_done, root_ok|]. unfold check_files_and_versions.
    destruct (walks_some 18) as [walks Hwk]. rewrite Hwk. apply ok_seq.
    { apply ok_done, ws_flat. intros ver _. unfold walk_findings. apply ws_flat. intros dir _. apply ws_when. intros _. by eapply warn_code. }
    destruct (sums_some 18) as [fm Hfm]. rewrite Hfm. apply ok_seq; [by eapply files_ok, one_of_root|].
    assert (match version_strings w 18 D with [] => Some "" | v0 :: _ => dc_contentdir <$> vinv !! v0 end = Some (dc_contentdir d)) as ->.
    { pose proof (versions_ne 18) as Hne. destruct (version_strings w 18 D) as [|v0 l] eqn:El; [done|].
      destruct (proj1 (versions_in 18 v0)) as [v Hv]; [rewrite El; by left|]. destruct (vinv_get v0 v Hv) as (e & b & -> & Hb & He). simpl. f_equal.
      destruct (twice_fields w lx e) as (_ & _ & _ & _ & -> & _). destruct (one_of_sound e) as (_ & -> & _); [by exists v0, v, b|done]. }
    assert (∀ p, p ∈ vo w 19 vinv → vinv !! p.1 = Some p.2) as Hvo by (intros [ver e2] Hp; by apply vo_in in Hp).
    assert (∀ ver e2, vinv !! ver = Some e2 → ∃ e, e2 = twice w lx e ∧ one_of e) as Hone.
    { intros ver e2 (v & e & b & Hv & Hb & He & ->)%vinv_in. exists e. split; [done|]. by exists ver, v, b. }
    apply ok_seq; [|apply ok_seq; [|apply ok_seq; [|apply ok_seq; [|apply ok_seq; [|apply ok_seq]]]]].
    - apply ok_all. intros ver [v Hv]%versions_in. destruct (vinv_get ver v Hv) as (e & b & Hvi & Hb & He). rewrite Hvi.
      eapply version_inventory_ok; [exact Hfm|exact Hv|exact Hvi|by exists ver, v, b|by exists b].
    - apply ok_done, specs_ok.
    - rewrite (strings_last w 18 D (os_val (dc_head d)) Hw (sound_numbered D sound_D) (sound_distinct D sound_D)).
      2:{ destruct (sd_head _ sound_D) as [_ Hn]. unfold D in Hn. destruct (twice_fields w lx d) as (_ & _ & _ & E & _). by rewrite E in Hn. }
      change (default "" (Some (os_val (dc_head d)))) with (os_val (dc_head d)).
      match goal with |- only_warnings ?x => change (only_warnings (match vinv !! os_val (dc_head d) with
        | None => VDone []
        | Some ld => match is_equal ld D with None => VPanic | Some b => VDone (when (negb b) (Finding "E064" [])) end end)) end.
      rewrite newest_vinv, root_equal. apply ok_done, ws_nil.
    - apply ok_all. intros [ver e2] Hp%Hvo. by apply against_root_ok.
    - apply ok_all. intros [ver e2] Hp%Hvo. destruct (Hone _ _ Hp) as (e & -> & He). by eapply physical_ok.
    - eapply physical_ok; [exact Hwk|apply one_of_root].
    - apply ok_all. intros ver [v Hv]%versions_in. destruct (walk_some ver v Hv) as [l Hl]. rewrite Hl.
      change (default [] (Some l)) with l. apply ok_seq.
      + apply ok_all. intros [iver e2] Hp%Hvo. cbn [fst snd] in *. apply vinv_in in Hp as (iv & e & b & Hiv & Hb & He & ->).
        eapply listed_ok; [exact Hv|exact Hl|exact Hiv|by exists b].
      + destruct newest_inventory as (nver & nv & b & E & _ & Hnv & _ & Hb & He).
        assert (os_val (dc_head D) = nver) as -> by (unfold D; destruct (twice_fields w lx d) as (_ & _ & _ & -> & _); done).
        eapply listed_ok; [exact Hv|exact Hl|exact Hnv|by exists b].
  Qed.
End object.

Theorem sound_accepted hash decode w lx s d c :
  vorder_ok w → sound_object hash decode s d c → apart c → only_warnings (validate_object hash decode w lx s).
Proof.
  intros Hw HO Hap. unfold validate_object. destruct (load_sound hash decode w lx s Hw "" d (so_root _ _ _ _ _ HO) (so_doc _ _ _ _ _ HO)) as (r & -> & Hr).
  assert (∀ ver, ver ∈ version_strings w 16 (twice w lx d) → ∃ v, has_version d ver v) as Hin by (intros ver; by eapply versions_in).
  pose proof (load_versions_sound hash decode w lx s d c Hw HO _ Hin) as Hlv.
  destruct (load_versions hash decode w lx s _) as [vinv rv] eqn:E. cbn [snd] in Hlv.
  apply ok_seq; [done|]. apply ok_seq; [done|]. eapply check_ok; [done|done| |done].
  destruct Hlv as (fs & -> & _). exact (load_versions_done _ _ _ _ _ _ _ _ E).
Qed.
