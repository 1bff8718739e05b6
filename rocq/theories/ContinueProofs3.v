(** Proofs about complete sessions on objects of any origin: the object after the session. *)
From Coq Require Import Ascii.
From stdpp Require Import base list strings gmap.
From Coq Require Import ZArith Lia.
From Verif Require Import GoStr PathModel InventoryModel ObjectModel InventorySpec InventoryProofs ObjectSpec ObjectProofs LookupProofs AddProofs
  CrashSpec LoadModel PathProofs CrashProofs LoadProofs SessionProofs PublishSpec PublishProofs PublishProofs2 PublishProofs3 PublishProofs4
  ValidateModel ValidateSpec ValidateProofs ValidateProofs4 CheckModel CheckSpec CheckProofs AcceptSpec AcceptProofs AcceptProofs2 AcceptProofs3
  PublishProofs5 InheritProofs JsonInvModel ForeignModel ForeignProofs ForeignProofs2 ContinueSpec ContinueProofs ContinueProofs2.
From Verif Require FsProofs2.

Section session.
  Context (E : env) (decode : string → option doc) (s : storage) (d : doc) (c : string).
  Context (Hhex : hex_hash (e_hash E)) (HO : sound_object (e_hash E) decode s d c) (HS : plain_style decode s d).
  Context (Hdec : ∀ j, decode (e_json E j) = Some (doc_of j)).
  Context (w : vorder) (lx : lexicon) (Hw : vorder_ok w) (d1 : doc) (fs : list finding) (Hfin : finalize w lx false d = (d1, VDone fs)).
  Notation i := (to_inventory d1).
  Notation pad := (inv_padding i).
  Notation vn := (version_name pad).
  Notation E' := (swap E s).
  Context (n : N) (Hn : (1 <= n)%N) (Hnew : newest d (vn n)) (fam : N → inventory) (Hk : kept E' s i n n fam).
  Context (Hver : ∀ ver, (∃ v, has_version d ver v) ↔ ∃ k, (1 <= k <= n)%N ∧ ver = vn k).
  Context (s' : storage) (i' : inventory) (Hs : supported E i) (Hco : complete E s i s' i') (Hpn : proper_names i').
  Context (n' : N) (fam' : N → inventory) (Hcl : closed E' s' i' n' fam').

  Lemma inherited : inherits s i s' i'.
  Proof using All.
    destruct (complete_swap E s Hhex i n fam Hk s' i' Hs Hco) as [Hc _]. exact (complete_inherits E' s Hhex i n fam Hk s' i' Hs Hc).
  Qed.
  Lemma frame k r : (1 <= k <= n)%N → s' !! cpath i k r = s !! cpath i k r.
  Proof using All.
    destruct (complete_swap E s Hhex i n fam Hk s' i' Hs Hco) as [Hc _]. exact (FsProofs2.complete_frame E' s i n fam s' i' Hhex Hk Hs Hc k r).
  Qed.
  Lemma pad_kept : inv_padding i' = pad.
  Proof using All. apply inherited. Qed.
  Lemma content_kept : content_name i' = c.
  Proof using All.
    rewrite <- (content_same (e_hash E) decode s d c HO w lx d1 fs Hfin). unfold content_name. by rewrite (ih_cdir _ _ _ _ inherited).
  Qed.
  Lemma cpath_kept k r : cpath i' k r = vn k +:+ "/" +:+ c +:+ "/" +:+ r.
  Proof using All. unfold cpath. by rewrite pad_kept, content_kept. Qed.
  Lemma cpath_old k r : cpath i k r = vn k +:+ "/" +:+ c +:+ "/" +:+ r.
  Proof using All. unfold cpath. by rewrite (content_same (e_hash E) decode s d c HO w lx d1 fs Hfin). Qed.
  Lemma alg_kept : inv_alg i' = dc_alg d.
  Proof using All. rewrite (ih_alg _ _ _ _ inherited). exact (alg_same d w lx d1 fs Hfin). Qed.
  Lemma id_kept : inv_id i' = dc_id d ∧ inv_type i' = dc_type d.
  Proof using All. destruct (complete_named _ _ _ _ _ Hco) as [-> ->]. exact (id_same d w lx d1 fs Hfin). Qed.
  Lemma more : (n < n')%N.
  Proof using All.
    destruct (complete_swap E s Hhex i n fam Hk s' i' Hs Hco) as [_ (m & Hm & H)].
    apply (proj2 (g_contig _ _ _ _ (kp_good _ _ _ _ _ _ (cl_kept _ _ _ _ _ Hcl)))) in H as (k & Hkn & Eq). rewrite pad_kept in Eq. apply version_name_inj in Eq. lia.
  Qed.
  Lemma fam_head k : (1 <= k <= n')%N → inv_head (fam' k) = vn k.
  Proof using All.
    intros Hr. pose proof (fam_version E' s' i' n' fam' Hcl k Hr) as Hv. pose proof (vk_same _ _ _ _ _ Hv) as (_ & _ & _ & _ & H5).
    rewrite (proj1 (g_contig _ _ _ _ (vk_good _ _ _ _ _ Hv))), decide_False by lia. by rewrite H5, pad_kept.
  Qed.
  Lemma top_head : inv_head i' = vn n'.
  Proof using All. rewrite <- (cl_newest _ _ _ _ _ Hcl). apply fam_head. pose proof (cl_some _ _ _ _ _ Hcl). lia. Qed.
  Lemma old_version k : (1 <= k <= n)%N → ∃ v, has_version d (vn k) v.
  Proof using All. intros Hr. apply Hver. by exists k. Qed.
  Lemma old_bytes k b : (1 <= k <= n)%N → s !! (vn k +:+ "/inventory.json") = Some b → e_json E' (fam' k) = b.
  Proof using All. intros Hr Hb. pose proof more. unfold swap. cbn [e_json]. rewrite fam_head by lia. by rewrite Hb. Qed.
  Lemma new_bytes k : (n < k <= n')%N → e_json E' (fam' k) = e_json E (fam' k).
  Proof using All. intros Hr. apply swap_json. rewrite fam_head by lia. apply (not_stored E s i n fam Hk). lia. Qed.
  Lemma stored_at k : (1 <= k <= n')%N → s' !! (vn k +:+ "/inventory.json") = Some (e_json E' (fam' k)).
  Proof using All. intros Hr. pose proof (vk_bytes _ _ _ _ _ (fam_version E' s' i' n' fam' Hcl k Hr)) as H. unfold vfile in H. by rewrite pad_kept in H. Qed.
  Lemma same_bytes k : (1 <= k <= n)%N → s' !! (vn k +:+ "/inventory.json") = s !! (vn k +:+ "/inventory.json").
  Proof using All.
    intros Hr. pose proof more. rewrite stored_at by lia. destruct (old_version k Hr) as [v Hv].
    destruct (so_versions _ _ _ _ _ HO _ _ Hv) as (e & (b & dg & B1 & _) & _). rewrite <- str_app_assoc in B1. change ("/" +:+ "inventory.json") with "/inventory.json" in B1.
    by rewrite (old_bytes k b Hr B1), B1.
  Qed.
  Lemma found ver m b : numbered ver m → s' !! (ver +:+ "/inventory.json") = Some b → (1 <= m <= n')%N ∧ ver = vn m ∧ b = e_json E' (fam' m).
  Proof using All. intros Hm Hb. rewrite <- pad_kept. by eapply stored_inventory. Qed.
  Lemma read_back ver m b e : numbered ver m → s' !! (ver +:+ "/inventory.json") = Some b → decode b = Some e →
    ((1 <= m <= n)%N ∧ ver = vn m ∧ s !! (vn m +:+ "/inventory.json") = Some b) ∨ ((n < m <= n')%N ∧ ver = vn m ∧ e = doc_of (fam' m)).
  Proof using All.
    intros Hm Hb He. destruct (found _ _ _ Hm Hb) as (Hr & -> & Ej). destruct (decide (m <= n)%N) as [Hle|Hgt].
    - left. split; [lia|]. split; [done|]. by rewrite <- same_bytes by lia.
    - right. split; [lia|]. split; [done|]. rewrite Ej, new_bytes, Hdec in He by lia. by injection He.
  Qed.
  Lemma vn_num k : (1 <= k)%N → numbered (vn k) k.
  Proof using All. intros H. split; [done|]. exists 0. unfold version_name. by rewrite decide_True by apply (kp_pad _ _ _ _ _ _ Hk). Qed.
  Lemma new_version ver v : has_version (doc_of i') ver v → ∃ k, (1 <= k <= n')%N ∧ ver = vn k.
  Proof using All. intros Hv. destruct (closed_version _ _ _ _ _ Hcl _ _ Hv) as (k & Hr & ->). exists k. by rewrite pad_kept. Qed.
  Lemma new_has k : (1 <= k <= n')%N → ∃ v, has_version (doc_of i') (vn k) v.
  Proof using All. intros Hr. rewrite <- pad_kept. exact (closed_has _ _ _ _ _ Hcl k Hr). Qed.
  Lemma found_in e : inventory_in decode s' (doc_of i') e → e = doc_of i' ∨ (inventory_in decode s d e) ∨ ∃ k, (n < k <= n')%N ∧ e = doc_of (fam' k).
  Proof using All.
    intros [-> |(ver & v & b & Hv & Hb & He)]; [by left|]. right. destruct (new_version _ _ Hv) as (k & Hr & ->).
    destruct (read_back _ k _ _ (vn_num k ltac:(lia)) Hb He) as [(Hl & _ & Hb')|(Hl & _ & ->)]; [left|right; by exists k].
    right. destruct (old_version k Hl) as [v0 Hv0]. by exists (vn k), v0, b.
  Qed.
  (** What an inventory of the session says of the files of the old versions is what it said before. *)
  Lemma old_paths e dg p : inventory_in decode s d e → man_lists e dg p → s' !! p = s !! p.
  Proof using All.
    intros Hin Hp. destruct (tr_content _ _ _ _ (so_truthful _ _ _ _ _ HO e Hin) _ _ Hp) as [_ (ver & v & r & Hv & ->)].
    assert (∃ v0, has_version d ver v0) as H0.
    { destruct Hin as [-> |(ver2 & v2 & b & Hv2 & Hb & He)]; [by exists v|]. destruct (so_versions _ _ _ _ _ HO _ _ Hv2) as (e' & (b' & dg' & B1 & B2 & _) & _ & _ & _ & _ & Hst).
      rewrite <- str_app_assoc in B1. change ("/" +:+ "inventory.json") with "/inventory.json" in B1. rewrite Hb in B1. injection B1 as <-. rewrite He in B2. injection B2 as <-.
      destruct (Hst _ _ Hv) as (v0 & Hv0 & _). by exists v0. }
    apply Hver in H0 as (k & Hr & ->). rewrite <- cpath_old. by apply frame.
  Qed.
  Lemma old_truthful e : inventory_in decode s d e → truthful (e_hash E) s' c e.
  Proof using All.
    intros Hin. pose proof (so_truthful _ _ _ _ _ HO e Hin) as [T1 T2 T3 T4]. split; try done.
    - intros dg p Hp. destruct (T1 _ _ Hp) as [(x & Hx & Hh) H]. split; [|done]. exists x. split; [|done]. by rewrite (old_paths e dg p Hin Hp).
    - intros alg dg p Hp. destruct (T2 _ _ _ Hp) as [(x & Hx & Hh) (dg' & H)]. split; [|by exists dg']. exists x. split; [|done]. by rewrite (old_paths e dg' p Hin H).
  Qed.
  Lemma known x : ∃ dg, e_hash E (inv_alg i') x = Some dg.
  Proof using All. exact (cl_known _ _ _ _ _ Hcl x). Qed.
  Lemma new_doc k : (1 <= k <= n')%N → sound_doc (doc_of (fam' k)).
  Proof using All. exact (fam_doc E' Hhex s' i' n' fam' Hcl Hpn k). Qed.
  Lemma new_truthful k : (1 <= k <= n')%N → truthful (e_hash E) s' c (doc_of (fam' k)).
  Proof using All. rewrite <- content_kept. exact (fam_truthful E' Hhex s' i' n' fam' Hcl k). Qed.
  Lemma version_kept ver v : has_version d ver v → vd_state v ≠ None → ∃ u, has_version (doc_of i') ver u ∧ state_of u = state_of v.
  Proof using All.
    intros Hv Hne. assert (inv_versions i !! ver = Some (to_version (fin_version ver v).2)) as H by (apply (root_state d w lx d1 fs Hfin); by exists v).
    apply (ih_vers _ _ _ _ inherited) in H. eexists. split; [apply doc_version; by eexists|]. unfold vdoc_of, state_of. cbn [vd_state fmap option_fmap option_map fst].
    rewrite to_fin_state. unfold state_of. destruct (vd_state v) as [[st e]|]; [done|]. by destruct Hne.
  Qed.

  Lemma session_sound : sound_object (e_hash E) decode s' (doc_of i') c.
  Proof using All.
    pose proof (cl_kept _ _ _ _ _ Hcl) as Hk'. pose proof (kp_good _ _ _ _ _ _ Hk') as Hg. pose proof more as Hmore. destruct id_kept as [Hid Hty].
    assert (e_json E' i' = e_json E i') as Etop.
    { rewrite <- (cl_newest _ _ _ _ _ Hcl). apply new_bytes. lia. }
    split.
    - eapply good_sound; [exact Hhex|exact Hg|lia|apply (kp_pad _ _ _ _ _ _ Hk')|apply (kp_cdir _ _ _ _ _ _ Hk')|done].
    - destruct (cl_side _ _ _ _ _ Hcl) as (dg & Hd & Hsd). rewrite Etop in Hd. exists (e_json E i'), dg. rewrite !str_app_nil_l.
      split; [rewrite <- Etop; exact (cl_root _ _ _ _ _ Hcl)|]. split; [apply Hdec|]. split; [exact Hd|]. split; [by apply Hhex in Hd as [? _]|exact Hsd].
    - unfold content_folder. change (dc_contentdir (doc_of i')) with (inv_contentdir i').
      rewrite (ih_cdir _ _ _ _ inherited), (cdir_same d w lx d1 fs Hfin). apply (so_cdir _ _ _ _ _ HO).
    - intros ver v Hv. destruct (new_version _ _ Hv) as (k & Hr & ->). destruct (decide (k <= n)%N) as [Hle|Hgt].
      + destruct (old_version k) as [v0 Hv0]; [lia|]. destruct (so_versions _ _ _ _ _ HO _ _ Hv0) as (e & (b & dg & B1 & B2 & B3 & B4 & B5) & He & Eid & Ecd & Eh & Hst).
        assert (inventory_in decode s d e) as Hin.
        { right. exists (vn k), v0, b. split; [done|]. split; [|done]. by rewrite <- str_app_assoc in B1. }
        pose proof (ps_alg _ _ _ HS e Hin) as Ea. exists e. split.
        { exists b, dg. rewrite <- !str_app_assoc in B1, B5 |- *. split; [rewrite <- B1; apply same_bytes; lia|]. split; [done|]. split; [done|]. split; [done|].
          destruct (vk_side _ _ _ _ _ (fam_version E' s' i' n' fam' Hcl k Hr)) as (dg' & D1 & D2).
          rewrite (old_bytes k b) in D1 by (lia || exact B1). rewrite Ea in B3 |- *. rewrite alg_kept in D1, D2. cbn [swap e_hash] in D1. rewrite B3 in D1. injection D1 as <-.
          unfold vfile in D2. rewrite pad_kept in D2. rewrite <- ?str_app_assoc. exact D2. }
        split; [done|]. change (dc_id (doc_of i')) with (inv_id i'). change (dc_contentdir (doc_of i')) with (inv_contentdir i').
        split; [by rewrite Hid|]. split; [by rewrite (ih_cdir _ _ _ _ inherited), (cdir_same d w lx d1 fs Hfin)|]. split; [done|].
        intros ver' v' Hv'. destruct (Hst _ _ Hv') as (v1 & Hv1 & E1). destruct (version_kept ver' v1 Hv1) as (u & Hu & Eu).
        { intros H. apply (ps_state _ _ _ HS e ver' v' Hin Hv'). unfold state_of in E1. rewrite H in E1. cbn in E1. by destruct (vd_state v'). }
        exists u. split; [done|]. by rewrite Eu, E1.
      + exists (doc_of (fam' k)). pose proof (fam_version E' s' i' n' fam' Hcl k Hr) as Hvk. pose proof (vk_same _ _ _ _ _ Hvk) as (H1 & H2 & H3 & H4 & H5). split.
        { destruct (vk_side _ _ _ _ _ Hvk) as (dg & D1 & D2). rewrite new_bytes in D1 by lia. exists (e_json E (fam' k)), dg. rewrite <- !str_app_assoc.
          change (dc_alg (doc_of (fam' k))) with (inv_alg (fam' k)). rewrite H3. split; [rewrite <- new_bytes by lia; by apply stored_at|]. split; [apply Hdec|].
          split; [done|]. split; [by apply Hhex in D1 as [? _]|]. unfold vfile in D2. rewrite pad_kept in D2. rewrite <- ?str_app_assoc. exact D2. }
        split; [by apply new_doc|]. split; [done|]. split; [done|]. split; [by apply fam_head|].
        intros ver' v' (u & Hu & ->)%doc_version. exists (vdoc_of u). split; [|done]. apply doc_version. exists u. split; [|done].
        destruct (proj1 (proj2 (g_contig _ _ _ _ (vk_good _ _ _ _ _ Hvk)) ver')) as (l & Hl' & ->); [by eexists|].
        rewrite H5 in Hu |- *. by apply (fam_has E' s' i' n' fam' Hcl k).
    - intros ver (v & m & Hv & Hm & Hmax). destruct (new_version _ _ Hv) as (k & Hr & ->).
      assert (m = k) as -> by (eapply numbered_fun; [exact Hm|apply vn_num; lia]).
      destruct (new_has n') as [vn' Hvn]; [lia|]. assert (n' <= k)%N by (eapply Hmax; [exact Hvn|apply vn_num; lia]).
      assert (k = n') as -> by lia. rewrite stored_at by lia. by rewrite (cl_root _ _ _ _ _ Hcl), (cl_newest _ _ _ _ _ Hcl).
    - assert (∀ ver m b e, numbered ver m → s' !! (ver +:+ "/inventory.json") = Some b → decode b = Some e → (n < m)%N → dc_type e = dc_type d) as Ht.
      { intros ver m b e Hm Hb He Hl. destruct (read_back _ _ _ _ Hm Hb He) as [(? & _)|(Hr & _ & ->)]; [lia|].
        change (inv_type (fam' m) = dc_type d). rewrite <- Hty. apply (vk_same _ _ _ _ _ (fam_version E' s' i' n' fam' Hcl m ltac:(lia))). }
      assert (∀ ver m b e, numbered ver m → s' !! (ver +:+ "/inventory.json") = Some b → decode b = Some e → (m <= n)%N → ver = vn m ∧ s !! (vn m +:+ "/inventory.json") = Some b) as Ho.
      { intros ver m b e Hm Hb He Hl. destruct (read_back _ _ _ _ Hm Hb He) as [(? & ? & ?)|(? & _)]; [done|lia]. }
      intros ver1 ver2 b1 b2 e1 e2 n1 n2 N1 N2 Hle Hb1 He1 Hb2 He2. destruct (decide (n1 <= n)%N) as [L1|G1].
      + destruct (Ho _ _ _ _ N1 Hb1 He1 L1) as [-> Q1]. destruct (decide (n2 <= n)%N) as [L2|G2].
        * destruct (Ho _ _ _ _ N2 Hb2 He2 L2) as [-> Q2]. exact (so_types _ _ _ _ _ HO _ _ _ _ _ _ _ _ N1 N2 Hle Q1 He1 Q2 He2).
        * rewrite (Ht _ _ _ _ N2 Hb2 He2) by lia. destruct (so_root _ _ _ _ _ HO) as (b & dg & B1 & B2 & _). rewrite str_app_nil_l in B1.
          apply (so_types _ _ _ _ _ HO (vn n1) (vn n) b1 b e1 d n1 n); try done; [apply vn_num; lia|].
          rewrite <- B1. by apply (so_newest _ _ _ _ _ HO).
      + rewrite (Ht _ _ _ _ N1 Hb1 He1), (Ht _ _ _ _ N2 Hb2 He2) by lia. apply str_le_refl.
    - intros e He. destruct (found_in e He) as [-> |[Hin|(k & Hr & ->)]].
      + rewrite <- content_kept. eapply good_truthful; [exact Hhex|exact Hg|apply known].
      + by apply old_truthful.
      + apply new_truthful. lia.
    - intros p x Hx. destruct (kp_files _ _ _ _ _ _ Hk' _ _ Hx) as [H|[(r & ->)|[(r & ->)|[(k & Hr & H)|(k & r & Hr & ->)]]]].
      + by left.
      + right. left. by exists r.
      + right. right. left. by exists r.
      + right. right. right. destruct (new_has k Hr) as [v Hv]. exists (vn k), v. split; [done|]. unfold vfile in H. rewrite pad_kept in H.
        destruct H as [-> | ->]; [by left|]. right. left. destruct (decide (k <= n)%N) as [Hle|Hgt].
        * destruct (old_version k) as [v0 Hv0]; [lia|]. destruct (so_versions _ _ _ _ _ HO _ _ Hv0) as (e & (b & dg & B1 & B2 & _) & _).
          rewrite <- str_app_assoc in B1. exists b, e. split; [rewrite same_bytes by lia; exact B1|]. split; [done|].
          rewrite (ps_alg _ _ _ HS e); [by rewrite alg_kept|]. right. by exists (vn k), v0, b.
        * exists (e_json E (fam' k)), (doc_of (fam' k)). split; [rewrite <- new_bytes by lia; by apply stored_at|]. split; [apply Hdec|].
          change (dc_alg (doc_of (fam' k))) with (inv_alg (fam' k)). pose proof (vk_same _ _ _ _ _ (fam_version E' s' i' n' fam' Hcl k Hr)) as (_ & _ & -> & _). done.
      + right. right. right. destruct (new_has k Hr) as [v Hv]. exists (vn k), v. split; [done|]. right. right. exists r. apply cpath_kept.
    - intros ver1 ver2 v1 v2 n1 n2 r x b e Hv1 Hv2 N1 N2 Hle Hx Hb He.
      destruct (new_version _ _ Hv1) as (k & Hr & ->). assert (n1 = k) as -> by (eapply numbered_fun; [exact N1|apply vn_num; lia]).
      destruct (read_back _ _ _ _ N2 Hb He) as [(Hl & -> & Hb')|(Hl & -> & ->)].
      + destruct (old_version k) as [v3 Hv3]; [lia|]. destruct (old_version n2 Hl) as [v4 Hv4].
        apply (so_listed _ _ _ _ _ HO (vn k) (vn n2) v3 v4 k n2 r x b e); try done. rewrite <- cpath_old, <- frame, cpath_old by lia. done.
      + pose proof (fam_version E' s' i' n' fam' Hcl n2 ltac:(lia)) as Hvk. pose proof (vk_same _ _ _ _ _ Hvk) as (_ & _ & _ & H4 & H5).
        destruct (g_listed _ _ _ _ (vk_good _ _ _ _ _ Hvk) k r x) as (dg & Hd); [lia| |].
        * rewrite (cpath_same i'), cpath_kept by done. exact Hx.
        * exists dg. apply doc_man. rewrite (cpath_same i'), cpath_kept in Hd by done. exact Hd.
  Qed.

  Lemma good_lower j k : good (e_hash E) s' j k → (∀ dg p, man_lists (doc_of j) dg p → to_lower dg = dg) ∧ (∀ alg dg p, fix_lists (doc_of j) alg dg p → to_lower dg = dg).
  Proof using All.
    intros Hg. split.
    - intros dg p Hl%doc_man. destruct (g_content _ _ _ _ Hg _ _ Hl) as (x & _ & Hx). by apply Hhex in Hx as [_ ?].
    - intros alg dg p Hl%doc_fix. destruct (g_fix _ _ _ _ Hg _ _ _ Hl) as ((x & _ & Hx) & _). by apply Hhex in Hx as [_ ?].
  Qed.
  Lemma session_style : plain_style decode s' (doc_of i').
  Proof using All.
    pose proof (cl_kept _ _ _ _ _ Hcl) as Hk'. pose proof (kp_good _ _ _ _ _ _ Hk') as Hg. change (e_hash E') with (e_hash E) in Hg.
    assert (∀ k, (n < k <= n')%N → good (e_hash E) s' (fam' k) k ∧ inv_alg (fam' k) = inv_alg i') as Hf.
    { intros k Hr. pose proof (fam_version E' s' i' n' fam' Hcl k ltac:(lia)) as Hv. split; [exact (vk_good _ _ _ _ _ Hv)|apply (vk_same _ _ _ _ _ Hv)]. }
    split.
    - intros ver v Hv. destruct (new_version _ _ Hv) as (k & Hr & ->). apply vname_plain; [apply (kp_pad _ _ _ _ _ _ Hk)|lia].
    - intros e He. change (dc_alg (doc_of i')) with (inv_alg i'). destruct (found_in e He) as [-> |[Hin|(k & Hr & ->)]]; [done| |].
      + rewrite alg_kept. by apply (ps_alg _ _ _ HS).
      + by apply Hf.
    - intros e dg p He. destruct (found_in e He) as [-> |[Hin|(k & Hr & ->)]].
      + apply (proj1 (good_lower _ _ Hg)).
      + by apply (ps_man _ _ _ HS).
      + apply (proj1 (good_lower _ _ (proj1 (Hf k Hr)))).
    - intros e alg dg p He. destruct (found_in e He) as [-> |[Hin|(k & Hr & ->)]].
      + apply (proj2 (good_lower _ _ Hg)).
      + by apply (ps_fix _ _ _ HS).
      + apply (proj2 (good_lower _ _ (proj1 (Hf k Hr)))).
    - intros e ver v He. destruct (found_in e He) as [-> |[Hin|(k & Hr & ->)]].
      + intros (u & _ & ->)%doc_version. done.
      + by apply (ps_state _ _ _ HS).
      + intros (u & _ & ->)%doc_version. done.
  Qed.
End session.

Lemma load_finalize hash decode w lx s d i : holds_inventory hash decode s "" d → load_inventory hash (parse_of decode w lx) s "" = LInv i [] →
  ∃ d1 fs, finalize w lx false d = (d1, VDone fs) ∧ i = to_inventory d1.
Proof.
  intros (b & dg & B1 & B2 & _) Hl. unfold load_inventory in Hl. cbv zeta in Hl. rewrite B1 in Hl. unfold parse_of in Hl. rewrite B2 in Hl.
  destruct (finalize w lx false d) as [d1 [fs| |]]; [|done..]. exists d1, fs. split; [done|]. repeat (case_match; try done; try congruence).
Qed.
Theorem session_keeps E decode w lx s d c i s' i' :
  hex_hash (e_hash E) → (∀ j, decode (e_json E j) = Some (doc_of j)) → vorder_ok w → sound_object (e_hash E) decode s d c → plain_style decode s d →
  load_inventory (e_hash E) (parse_of decode w lx) s "" = LInv i [] → supported E i → complete E s i s' i' → proper_names i' →
  sound_object (e_hash E) decode s' (doc_of i') c ∧ plain_style decode s' (doc_of i').
Proof.
  intros Hhex Hdec Hw HO HS Hl Hs Hco Hpn. destruct (load_finalize _ _ _ _ _ _ _ (so_root _ _ _ _ _ HO) Hl) as (d1 & fs & Hfin & ->).
  destruct (sound_kept (e_hash E) decode s d c HO HS w lx Hw d1 fs Hfin E eq_refl) as (n & Hn & Hnew & Hk & Hver).
  destruct (complete_swap E s Hhex _ n _ Hk s' i' Hs Hco) as [Hc _]. destruct (complete_closed (swap E s) s _ s' i' n _ Hhex Hk Hs Hc) as (n' & fam' & Hcl).
  split; [eapply session_sound|eapply session_style]; eassumption.
Qed.
Theorem continued_sound hash decode s s' d c : hex_hash hash → sound_object hash decode s d c → plain_style decode s d → continued hash decode s s' →
  ∃ d', sound_object hash decode s' d' c ∧ plain_style decode s' d'.
Proof.
  intros Hhex HO HS. induction 1 as [|E w lx s1 i s2 i2 _ (d1 & IH1 & IH2) <- Hdec Hw Hl Hs Hco Hpn]; [by exists d|].
  exists (doc_of i2). by eapply session_keeps.
Qed.
