(** Proofs about complete update sessions: the stored object satisfies the rules of the specification. *)
From Coq Require Import Ascii.
From stdpp Require Import base list strings gmap.
From Coq Require Import ZArith Lia.
From Verif Require Import GoStr PathModel InventoryModel ObjectModel InventorySpec InventoryProofs ObjectSpec ObjectProofs LookupProofs AddProofs
  CrashSpec LoadModel PathProofs CrashProofs LoadProofs SessionProofs PublishSpec PublishProofs PublishProofs2 PublishProofs3 PublishProofs4
  ValidateModel ValidateSpec ValidateProofs ValidateProofs4 CheckModel CheckSpec CheckProofs AcceptSpec AcceptProofs AcceptProofs2 AcceptProofs3.

(** * Documents *)
Lemma doc_version i ver v : has_version (doc_of i) ver v ↔ ∃ u, inv_versions i !! ver = Some u ∧ v = vdoc_of u.
Proof.
  unfold has_version, doc_of. cbn [dc_versions]. split.
  - intros (vs & [= <-] & H). rewrite lookup_fmap in H. destruct (inv_versions i !! ver) as [u|]; [|done]. injection H as <-. by exists u.
  - intros (u & H & ->). eexists. split; [done|]. by rewrite lookup_fmap, H.
Qed.
Lemma doc_man i d p : man_lists (doc_of i) d p ↔ lists (inv_manifest i) p d.
Proof.
  unfold man_lists, lists, doc_of. cbn [dc_manifest]. split.
  - intros (m & ps & [= <-] & H). by exists ps.
  - intros (ps & H). by exists (inv_manifest i), ps.
Qed.
Lemma doc_fix i alg d p : fix_lists (doc_of i) alg d p ↔ fix_entry i alg d p.
Proof. done. Qed.
Lemma doc_state i ver d p : state_lists (doc_of i) ver d p ↔ recorded i ver p d.
Proof.
  split.
  - intros (v & st & e & ps & Hv & Hst & Hd & Hp). apply doc_version in Hv as (u & Hu & ->). injection Hst as <- <-. exists u. split; [done|]. by exists ps.
  - intros (u & Hu & ps & Hd & Hp). exists (vdoc_of u), (v_state u), false, ps. split; [|done]. apply doc_version. by exists u.
Qed.
Lemma clean_ok p : clean_rel p → ¬ malformed p.
Proof.
  intros Hc (e & He & H). unfold clean_rel in Hc. pose proof (proj1 (List.Forall_forall _ _) Hc e (proj1 (elem_of_list_In _ _) He)) as (H1 & H2 & H3 & _).
  by destruct H as [H|[H|H]].
Qed.
Lemma cpath_clean i k r : plain_name (content_name i) → clean_rel r → clean_rel (cpath i k r).
Proof.
  intros Hc Hr. unfold clean_rel, cpath. rewrite split_folder by apply version_name_no_slash. rewrite split_folder by apply Hc.
  constructor; [apply version_name_plain|]. by constructor.
Qed.
Lemma vname_numbered pad k : (pad <= 0)%Z → (1 <= k)%N → numbered (version_name pad k) k.
Proof. intros Hp Hk. split; [done|]. exists 0. unfold version_name. by rewrite decide_True. Qed.
Lemma vname_plain pad k : (pad <= 0)%Z → (1 <= k)%N → str_head (trim_prefix (version_name pad k) "v") ≠ Some "0"%char.
Proof.
  intros Hp Hk. unfold version_name. rewrite decide_True by done. rewrite trim_prefix_app.
  destruct (dec_of_N_digit k) as (c & t & -> & _ & H0). simpl. assert (c ≠ "0"%char) by (apply H0; lia). congruence.
Qed.

Section doc.
  Context (hash : string → string → option string) (Hhex : hex_hash hash).

  Lemma good_version s i n ver v : good hash s i n → has_version (doc_of i) ver v → ∃ k, (1 <= k <= n)%N ∧ ver = version_name (inv_padding i) k.
  Proof using. intros Hg (u & Hu & _)%doc_version. apply (g_contig _ _ _ _ Hg). by eexists. Qed.
  Lemma good_has s i n k : good hash s i n → (1 <= k <= n)%N → ∃ u, inv_versions i !! version_name (inv_padding i) k = Some u.
  Proof using. intros Hg Hk. apply (g_contig _ _ _ _ Hg). by exists k. Qed.

  Lemma good_sound s i n :
    good hash s i n → (1 <= n)%N → (inv_padding i <= 0)%Z → CrashSpec.plain_name (content_name i) → proper_names i → sound_doc (doc_of i).
  Proof using Hhex.
    intros Hg Hn Hp Hc [Pid Pty Palg Ppa Pdir].
    assert (∀ ver v k, has_version (doc_of i) ver v → numbered ver k → (1 <= k <= n)%N ∧ ver = version_name (inv_padding i) k) as Hnum.
    { intros ver v k Hv Hk. destruct (good_version _ _ _ _ _ Hg Hv) as (l & Hl & ->).
      assert (k = l) as ->; [|done]. eapply numbered_fun; [exact Hk|]. apply vname_numbered; [done|lia]. }
    split; try done.
    - change (dc_contentdir (doc_of i)) with (inv_contentdir i). unfold content_name in Hc. destruct (decide (inv_contentdir i = "")) as [-> |].
      + split; [done|]. split; [done|]. intros a b H. by destruct a.
      + destruct Hc as (_ & H1 & H2 & H3). split; [done|]. split; [done|]. intros a b H. by eapply no_slash_folder in H.
    - split.
      + intros ver v Hv. destruct (good_version _ _ _ _ _ Hg Hv) as (k & Hk & ->). exists k. apply vname_numbered; [done|lia].
      + left. intros ver v Hv. destruct (good_version _ _ _ _ _ Hg Hv) as (k & Hk & ->). apply vname_plain; [done|lia].
    - exists n. split; [done|]. split; [|split].
      + intros k Hk. destruct (good_has _ _ _ _ Hg Hk) as [u Hu]. exists (version_name (inv_padding i) k), (vdoc_of u).
        split; [apply doc_version; by exists u|]. apply vname_numbered; [done|lia].
      + intros ver v Hv. destruct (good_version _ _ _ _ _ Hg Hv) as (k & Hk & ->). exists k. split; [|lia]. apply vname_numbered; [done|lia].
      + intros ver1 v1 ver2 v2 k H1 H2 N1 N2. destruct (Hnum _ _ _ H1 N1) as [_ ->]. by destruct (Hnum _ _ _ H2 N2) as [_ ->].
    - split; [done|]. change (os_val (dc_head (doc_of i))) with (inv_head i). rewrite (proj1 (g_contig _ _ _ _ Hg)), decide_False by lia.
      destruct (good_has _ _ _ n Hg) as [u Hu]; [lia|]. exists (vdoc_of u), n. split; [apply doc_version; by exists u|].
      split; [by apply vname_numbered|]. intros ver' v' n' Hv' Hn'. destruct (Hnum _ _ _ Hv' Hn') as [? _]. lia.
    - intros ver v (u & _ & ->)%doc_version. split; cbn.
      + split; [done|]. by intros x [= <-].
      + by intros x [= <-].
      + intros w [= <-]. split; [done|]. split; by intros x [= <-].
      + intros st e Hst. by injection Hst.
    - intros ver v st e dg (u & Hu & ->)%doc_version Hst Hs. injection Hst as <- <-. exists (inv_manifest i). split; [done|]. by eapply (g_states _ _ _ _ Hg).
    - intros m dg Hm Hs. injection Hm as <-. destruct (g_used _ _ _ _ Hg dg Hs) as (ver & u & Hu & Hk). exists ver, (vdoc_of u), (v_state u), false.
      split; [apply doc_version; by exists u|done].
    - intros dg p Hl%doc_man. destruct (g_paths _ _ _ _ Hg _ _ Hl) as (k & r & _ & Hr & ->). by apply clean_ok, cpath_clean.
    - intros alg dg p Hl%doc_fix. destruct (g_fix _ _ _ _ Hg _ _ _ Hl) as (_ & d & Hd).
      destruct (g_paths _ _ _ _ Hg _ _ Hd) as (k & r & _ & Hr & ->). by apply clean_ok, cpath_clean.
    - intros ver dg p Hl%doc_state. by eapply clean_ok, Ppa.
    - intros ver dg dg' p q Hl%doc_state Hl'%doc_state (r & Hr). exact (Pdir _ _ _ _ _ Hl Hl' r Hr).
    - intros alg m dg dg' Hm H1 H2 He. change (inv_fixity i !! alg = Some m) in Hm.
      assert (∀ d, is_Some (m !! d) → to_lower d = d) as Hlow.
      { intros d [ps Hd]. pose proof (g_full _ _ _ _ Hg _ _ _ _ Hm Hd) as Hne. destruct ps as [|p ps]; [done|].
        destruct (g_fix _ _ _ _ Hg alg d p) as ((x & _ & Hx) & _); [exists m, (p :: ps); split; [done|]; split; [done|by left]|].
        by apply Hhex in Hx as [_ ->]. }
      rewrite (Hlow _ H1), (Hlow _ H2) in He. done.
  Qed.

  Lemma good_truthful s i n :
    good hash s i n → (∀ x, ∃ d, hash (inv_alg i) x = Some d) → truthful hash s (content_name i) (doc_of i).
  Proof using Hhex.
    intros Hg Hk. split.
    - intros dg p Hl%doc_man. split.
      + destruct (g_content _ _ _ _ Hg _ _ Hl) as (x & Hx & Hd). exists x. split; [done|]. by rewrite (proj2 (Hhex _ _ _ Hd)).
      + destruct (g_paths _ _ _ _ Hg _ _ Hl) as (k & r & Hr & _ & ->). destruct (good_has _ _ _ k Hg Hr) as [u Hu].
        exists (version_name (inv_padding i) k), (vdoc_of u), r. split; [|done]. apply doc_version. by exists u.
    - intros alg dg p Hl%doc_fix. destruct (g_fix _ _ _ _ Hg _ _ _ Hl) as ((x & Hx & Hd) & d & Hm). split.
      + exists x. split; [done|]. by rewrite (proj2 (Hhex _ _ _ Hd)).
      + exists d. by apply doc_man.
    - split.
      + intros m dg ps Hm Hl. injection Hm as <-. by eapply (g_nonempty _ _ _ _ Hg).
      + intros alg m dg ps Hm Hl. by eapply (g_full _ _ _ _ Hg).
    - intros alg x Halg. assert (∃ h, hash alg x = Some h) as [h Hh].
      { destruct Halg as [-> |Hs]; [apply Hk|by apply (g_known _ _ _ _ Hg)]. }
      exists h. split; [done|]. by apply Hhex in Hh as [_ ?].
  Qed.
End doc.

(** * The object *)
Section object.
  Context (E : env) (decode : string → option doc) (Hhex : hex_hash (e_hash E)).
  Context (s : storage) (i : inventory) (n : N) (fam : N → inventory) (Hcl : closed E s i n fam) (Hpn : proper_names i).
  Context (Hdec : ∀ k, (1 <= k <= n)%N → decode (e_json E (fam k)) = Some (doc_of (fam k))).

  Lemma fam_version k : (1 <= k <= n)%N → version_ok E s i k (fam k).
  Proof using Hcl. intros Hk. by apply (kp_fam _ _ _ _ _ _ (cl_kept _ _ _ _ _ Hcl)). Qed.
  Lemma fam_has k l u : (1 <= k <= n)%N → inv_versions (fam k) !! version_name (inv_padding i) l = Some u → (1 <= l <= k)%N ∧
    inv_versions i !! version_name (inv_padding i) l = Some u.
  Proof using Hcl.
    intros Hk Hu. pose proof (fam_version k Hk) as Hv. pose proof (vk_same _ _ _ _ _ Hv) as (_ & _ & _ & _ & Hpad).
    assert (1 <= l <= k)%N as Hl.
    { destruct (proj1 (proj2 (g_contig _ _ _ _ (vk_good _ _ _ _ _ Hv)) (version_name (inv_padding i) l))) as (l' & Hl & E'); [by eexists|].
      rewrite Hpad in E'. by apply version_name_inj in E' as ->. }
    split; [done|]. by rewrite <- (vk_vers _ _ _ _ _ Hv l Hl).
  Qed.
  Lemma fam_proper k : (1 <= k <= n)%N → proper_names (fam k).
  Proof using Hcl Hpn.
    intros Hk. pose proof (fam_version k Hk) as Hv. pose proof (vk_same _ _ _ _ _ Hv) as (H1 & H2 & H3 & H4 & H5).
    assert (∀ ver p d, recorded (fam k) ver p d → recorded i ver p d) as Hrec.
    { intros ver p d (u & Hu & Hl). exists u. split; [|done].
      destruct (proj1 (proj2 (g_contig _ _ _ _ (vk_good _ _ _ _ _ Hv)) ver)) as (l & Hl' & ->); [by eexists|].
      rewrite H5 in Hu |- *. by apply (fam_has k). }
    destruct Hpn as [Pid Pty Palg Ppa Pdir]. split; [by rewrite H1|by rewrite H2|by rewrite H3|..].
    - intros ver p d H%Hrec. by eapply Ppa.
    - intros ver p q d e H%Hrec H'%Hrec. by eapply Pdir.
  Qed.
  Lemma fam_doc k : (1 <= k <= n)%N → sound_doc (doc_of (fam k)).
  Proof using Hcl Hpn Hhex.
    intros Hk. pose proof (fam_version k Hk) as Hv. pose proof (vk_same _ _ _ _ _ Hv) as (H1 & H2 & H3 & H4 & H5).
    eapply good_sound; [exact Hhex|exact (vk_good _ _ _ _ _ Hv)|lia|..|by apply fam_proper].
    - rewrite H5. apply (kp_pad _ _ _ _ _ _ (cl_kept _ _ _ _ _ Hcl)).
    - unfold content_name. rewrite H4. apply (kp_cdir _ _ _ _ _ _ (cl_kept _ _ _ _ _ Hcl)).
  Qed.
  Lemma fam_truthful k : (1 <= k <= n)%N → truthful (e_hash E) s (content_name i) (doc_of (fam k)).
  Proof using Hcl Hhex.
    intros Hk. pose proof (fam_version k Hk) as Hv. pose proof (vk_same _ _ _ _ _ Hv) as (H1 & H2 & H3 & H4 & H5).
    assert (content_name i = content_name (fam k)) as -> by (unfold content_name; by rewrite H4).
    eapply good_truthful; [exact Hhex|exact (vk_good _ _ _ _ _ Hv)|]. rewrite H3. apply (cl_known _ _ _ _ _ Hcl).
  Qed.
  Lemma fam_holds k : (1 <= k <= n)%N → holds_inventory (e_hash E) decode s (version_name (inv_padding i) k +:+ "/") (doc_of (fam k)).
  Proof using Hcl Hdec Hhex.
    intros Hk. pose proof (fam_version k Hk) as Hv. pose proof (vk_same _ _ _ _ _ Hv) as (H1 & H2 & H3 & H4 & H5).
    destruct (vk_side _ _ _ _ _ Hv) as (dg & Hd & Hs). exists (e_json E (fam k)), dg. rewrite <- !str_app_assoc.
    change (dc_alg (doc_of (fam k))) with (inv_alg (fam k)). rewrite H3.
    split; [exact (vk_bytes _ _ _ _ _ Hv)|]. split; [by apply Hdec|]. split; [done|]. split; [by apply Hhex in Hd as [? _]|]. exact Hs.
  Qed.
  Lemma name_ok k : (1 <= k)%N → numbered (version_name (inv_padding i) k) k.
  Proof using Hcl. intros Hk. apply vname_numbered; [|done]. apply (kp_pad _ _ _ _ _ _ (cl_kept _ _ _ _ _ Hcl)). Qed.
  Lemma stored_inventory ver m b : numbered ver m → s !! (ver +:+ "/inventory.json") = Some b →
    (1 <= m <= n)%N ∧ ver = version_name (inv_padding i) m ∧ b = e_json E (fam m).
  Proof using Hcl.
    intros Hm Hb. pose proof (numbered_no_slash _ _ Hm) as Hns.
    pose proof (kp_alg _ _ _ _ _ _ (cl_kept _ _ _ _ _ Hcl)) as Halg. pose proof (sidecar_slash i Halg) as Hss.
    assert (∀ k, (1 <= k <= n)%N → ver = version_name (inv_padding i) k → (1 <= m <= n)%N ∧ ver = version_name (inv_padding i) m ∧ b = e_json E (fam m)) as Hfin.
    { intros k Hk ->. assert (m = k) as -> by (eapply numbered_fun; [exact Hm|apply name_ok; lia]). split; [done|]. split; [done|].
      pose proof (vk_bytes _ _ _ _ _ (fam_version k Hk)) as Hv. pose proof (eq_trans (eq_sym Hb) Hv) as He. by injection He. }
    destruct (kp_files _ _ _ _ _ _ (cl_kept _ _ _ _ _ Hcl) _ _ Hb) as [H|[(r & H)|[(r & H)|[(k & Hk & [H|H])|(k & r & Hk & H)]]]].
    - exfalso. change (ver +:+ "/inventory.json") with (ver +:+ "/" +:+ "inventory.json") in H. rewrite !elem_of_cons, elem_of_nil in H.
      destruct H as [H|[H|[H|[H|[]]]]]; symmetry in H; revert H; by apply no_slash_folder.
    - exfalso. apply (folder_inj ver "logs" "inventory.json" r) in H as [-> _]; [|done..]. by destruct Hm as (_ & j & Hj).
    - exfalso. apply (folder_inj ver "extensions" "inventory.json" r) in H as [-> _]; [|done..]. by destruct Hm as (_ & j & Hj).
    - apply (folder_inj ver _ "inventory.json" "inventory.json") in H as [H _]; [|done|apply version_name_no_slash]. by apply (Hfin k).
    - apply (folder_inj ver _ "inventory.json" _) in H as [H _]; [|done|apply version_name_no_slash]. by apply (Hfin k).
    - exfalso. apply (folder_inj ver _ "inventory.json" (content_name i +:+ "/" +:+ r)) in H as [_ H]; [|done|apply version_name_no_slash].
      by apply no_slash_folder in H.
  Qed.
  Lemma closed_version ver v : has_version (doc_of i) ver v → ∃ k, (1 <= k <= n)%N ∧ ver = version_name (inv_padding i) k.
  Proof using Hcl. apply (good_version (e_hash E) s). apply (kp_good _ _ _ _ _ _ (cl_kept _ _ _ _ _ Hcl)). Qed.
  Lemma closed_has k : (1 <= k <= n)%N → ∃ v, has_version (doc_of i) (version_name (inv_padding i) k) v.
  Proof using Hcl.
    intros Hk. destruct (good_has (e_hash E) s i n k) as [u Hu]; [apply (kp_good _ _ _ _ _ _ (cl_kept _ _ _ _ _ Hcl))|done|].
    exists (vdoc_of u). apply doc_version. by exists u.
  Qed.

  Lemma root_decodes : decode (e_json E i) = Some (doc_of i).
  Proof using Hcl Hdec. rewrite <- (cl_newest _ _ _ _ _ Hcl). apply Hdec. pose proof (cl_some _ _ _ _ _ Hcl). lia. Qed.
  Lemma closed_sound : sound_object (e_hash E) decode s (doc_of i) (content_name i).
  Proof using Hcl Hdec Hhex Hpn.
    pose proof (cl_kept _ _ _ _ _ Hcl) as Hk. pose proof (kp_good _ _ _ _ _ _ Hk) as Hg. pose proof (cl_some _ _ _ _ _ Hcl) as Hn.
    split.
    - eapply good_sound; [exact Hhex|exact Hg|done|apply (kp_pad _ _ _ _ _ _ Hk)|apply (kp_cdir _ _ _ _ _ _ Hk)|done].
    - destruct (cl_side _ _ _ _ _ Hcl) as (dg & Hd & Hs). exists (e_json E i), dg.
      split; [exact (cl_root _ _ _ _ _ Hcl)|]. split; [apply root_decodes|]. split; [done|]. split; [by apply Hhex in Hd as [? _]|exact Hs].
    - unfold content_folder, content_name. change (dc_contentdir (doc_of i)) with (inv_contentdir i). destruct (decide _); [by left|by right].
    - intros ver v Hv. destruct (closed_version _ _ Hv) as (k & Hr & ->). exists (doc_of (fam k)).
      pose proof (fam_version k Hr) as Hvk. pose proof (vk_same _ _ _ _ _ Hvk) as (H1 & H2 & H3 & H4 & H5).
      split; [by apply fam_holds|]. split; [by apply fam_doc|]. split; [done|]. split; [done|]. split.
      + change (os_val (dc_head (doc_of (fam k)))) with (inv_head (fam k)).
        rewrite (proj1 (g_contig _ _ _ _ (vk_good _ _ _ _ _ Hvk))), decide_False, H5 by lia. done.
      + intros ver' v' (u & Hu & ->)%doc_version. exists (vdoc_of u). split; [|done]. apply doc_version. exists u. split; [|done].
        destruct (proj1 (proj2 (g_contig _ _ _ _ (vk_good _ _ _ _ _ Hvk)) ver')) as (l & Hl' & ->); [by eexists|].
        rewrite H5 in Hu |- *. by apply (fam_has k).
    - intros ver (v & m & Hv & Hm & Hmax). destruct (closed_version _ _ Hv) as (k & Hr & ->).
      assert (m = k) as -> by (eapply numbered_fun; [exact Hm|apply name_ok; lia]).
      destruct (closed_has n) as [vn Hvn]; [lia|]. assert (n <= k)%N by (eapply Hmax; [exact Hvn|apply name_ok; lia]).
      assert (k = n) as -> by lia. rewrite (cl_root _ _ _ _ _ Hcl). pose proof (vk_bytes _ _ _ _ _ (fam_version n Hr)) as Hvb. rewrite (cl_newest _ _ _ _ _ Hcl) in Hvb. exact Hvb.
    - intros ver1 ver2 b1 b2 e1 e2 n1 n2 N1 N2 _ Hb1 He1 Hb2 He2.
      assert (∀ ver m b e, numbered ver m → s !! (ver +:+ "/inventory.json") = Some b → decode b = Some e → dc_type e = inv_type i) as Ht.
      { intros ver m b e Hm Hb He. destruct (stored_inventory _ _ _ Hm Hb) as (Hr & -> & ->). rewrite Hdec in He by done. injection He as <-.
        apply (vk_same _ _ _ _ _ (fam_version m Hr)). }
      rewrite (Ht _ _ _ _ N1 Hb1 He1), (Ht _ _ _ _ N2 Hb2 He2). apply str_le_refl.
    - intros e [-> |(ver & v & b & Hv & Hb & He)].
      + eapply good_truthful; [exact Hhex|exact Hg|apply (cl_known _ _ _ _ _ Hcl)].
      + destruct (closed_version _ _ Hv) as (k & Hr & ->). destruct (stored_inventory _ k _ (name_ok k ltac:(lia)) Hb) as (_ & _ & ->).
        rewrite Hdec in He by done. injection He as <-. by apply fam_truthful.
    - intros p x Hx. destruct (kp_files _ _ _ _ _ _ Hk _ _ Hx) as [H|[(r & ->)|[(r & ->)|[(k & Hr & H)|(k & r & Hr & ->)]]]].
      + by left.
      + right. left. by exists r.
      + right. right. left. by exists r.
      + right. right. right. destruct (closed_has k Hr) as [v Hv]. exists (version_name (inv_padding i) k), v. split; [done|].
        destruct H as [-> | ->]; [by left|]. right. left. exists (e_json E (fam k)), (doc_of (fam k)).
        split; [exact (vk_bytes _ _ _ _ _ (fam_version k Hr))|]. split; [by apply Hdec|].
        change (dc_alg (doc_of (fam k))) with (inv_alg (fam k)). pose proof (vk_same _ _ _ _ _ (fam_version k Hr)) as (_ & _ & -> & _). done.
      + right. right. right. destruct (closed_has k Hr) as [v Hv]. exists (version_name (inv_padding i) k), v. split; [done|]. right. right. by exists r.
    - intros ver1 ver2 v1 v2 n1 n2 r x b e Hv1 Hv2 N1 N2 Hle Hx Hb He.
      destruct (closed_version _ _ Hv1) as (k & Hr & ->). assert (n1 = k) as -> by (eapply numbered_fun; [exact N1|apply name_ok; lia]).
      destruct (stored_inventory _ _ _ N2 Hb) as (Hr2 & -> & ->). rewrite Hdec in He by done. injection He as <-.
      pose proof (fam_version n2 Hr2) as Hvk. pose proof (vk_same _ _ _ _ _ Hvk) as (_ & _ & _ & H4 & H5).
      destruct (g_listed _ _ _ _ (vk_good _ _ _ _ _ Hvk) k r x) as (d & Hd); [lia| |].
      + rewrite (cpath_same i) by done. exact Hx.
      + exists d. apply doc_man. rewrite (cpath_same i) in Hd by done. exact Hd.
  Qed.
End object.

Lemma published_sound E P parse decode s i :
  hex_hash (e_hash E) → json_ok P (e_json E) parse → (∀ i, decode (e_json E i) = Some (doc_of i)) → published E P parse s i → proper_names i →
  sound_object (e_hash E) decode s (doc_of i) (content_name i).
Proof. intros Hh Hj Hd Hp Hn. destruct (published_closed _ _ _ _ _ Hh Hj Hp) as (_ & n & fam & Hc). by eapply closed_sound. Qed.
