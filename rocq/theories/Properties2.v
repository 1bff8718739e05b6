(** Properties C15 to C18 and C48: where an update writes, what crash points leave behind, and the digest file. *)
From Coq Require Import Ascii.
From stdpp Require Import base list strings gmap.
From Coq Require Import ZArith Lia.
From Verif Require Import GoStr PathModel InventoryModel InventorySpec ObjectModel ObjectSpec ObjectProofs LoadModel
  CrashSpec PathProofs CrashProofs LoadProofs SessionSpec SessionProofs Fixtures Fixtures2 Properties1.

(** * C15: the published inventory changes only when the object is closed *)

(** Full statement: for all path names.  Proved for clean relative names; names with dot-dot elements break it, see below.
    For every history of calls other than Close and every crash point of the resulting writes. *)
Theorem C15_published_unchanged_before_close_partial E i ops s s' :
  head_newest i → plain_name (content_name i) → clean_names E ops →
  Forall (λ x : oracle * oop, x.2 ≠ OClose) ops →
  crash s (ob_trace (orun E ops (open_object i))) s' →
  s' !! "inventory.json" = s !! "inventory.json" ∧
  ∀ alg, str_mem slash alg = false → s' !! ("inventory.json." +:+ alg) = s !! ("inventory.json." +:+ alg).
Proof.
  intros Hn Hc Hcl Hno Hcr. split.
  - by eapply root_unchanged.
  - intros alg Ha. by eapply root_unchanged.
Qed.
Definition long_update : list (oracle * oop) :=
  [(dflt, OStart "2024-01-01" "msg" "me" "mailto:me" false)] ++
  simple [SAdd "x" "a" "" true; SAdd "y" "b/c" "" false; SDelete "a" "sx"] ++
  [(dflt, OEnd (HMore [HCall dflt (SAdd "q" "auto" "" true)] "2024-01-02"
                     [HTry dflt (SRename "no" "d" "sy"); HCall dflt (SRename "b/c" "d" "sy")] (HDone [])))].

Lemma plain_abc : plain_name "a" ∧ plain_name "b" ∧ plain_name "c" ∧ plain_name "auto" ∧ plain_name "content".
Proof. repeat split; done. Qed.
Lemma clean_one c : plain_name c → clean_rel c.
Proof. intros H. unfold clean_rel, split_slash. rewrite split_on_no_sep by apply H. by constructor. Qed.
Example C15_example :
  head_newest inv2 ∧ plain_name (content_name inv2) ∧ clean_names xenv long_update ∧
  Forall (λ x : oracle * oop, x.2 ≠ OClose) long_update ∧
  length (ob_trace (orun xenv long_update (open_object inv2))) = 12.
Proof.
  split; [apply inv2_newest|]. split; [repeat split; by vm_compute|]. split; [|split; [repeat (apply Forall_cons; split; [done|]); by apply Forall_nil|by vm_compute]].
  unfold clean_names, all_ops, long_update, simple. simpl.
  repeat (apply Forall_cons; split); simpl; try done; try (intros m [= <-]).
  - by apply clean_one.
  - repeat (apply Forall_cons; split); done.
  - split; [done|]. repeat split; repeat (apply Forall_cons; split); simpl; try done.
    intros m [= <-]. by apply clean_one.
Qed.
Print Assumptions C15_published_unchanged_before_close_partial.

(** Adding a file with a name that climbs out of the content directory replaces the root inventory before Close. *)
Theorem C15_dotdot_refuted :
  ∃ E i ops s, head_newest i ∧ plain_name (content_name i) ∧ Forall (λ x : oracle * oop, x.2 ≠ OClose) ops ∧
    s !! "inventory.json" = Some "old" ∧
    apply_evs (ob_trace (orun E ops (open_object i))) s !! "inventory.json" = Some "evil".
Proof.
  exists xenv, inv2, ((dflt, OStart "2024-01-01" "msg" "me" "mailto:me" false) :: simple [SAdd "evil" "../../inventory.json" "" true]),
    {["inventory.json" := "old"]}.
  split; [apply inv2_newest|]. split; [repeat split; by vm_compute|].
  split; [repeat (apply Forall_cons; split; [done|]); by apply Forall_nil|]. split; by vm_compute.
Qed.
Print Assumptions C15_dotdot_refuted.

(** * C16: stored content of earlier versions is never overwritten *)

(** Full statement: for all path names.  Proved for clean relative names.  [n] is the number of the head version. *)
Theorem C16_writes_where_partial E i n ops s s' p :
  head_number i n → plain_name (content_name i) → clean_names E ops →
  crash s (ob_trace (orun E ops (open_object i))) s' → s' !! p ≠ s !! p →
  p = "inventory.json" ∨ p = "inventory.json." +:+ inv_alg i ∨ below "extensions" p ∨
  ∃ k, (n < k)%N ∧ below (version_name (inv_padding i) k) p.
Proof. exact (writes_where E i n ops s s' p). Qed.
Theorem C16_earlier_content_unchanged_partial E i n k ops s s' p :
  head_number i n → plain_name (content_name i) → clean_names E ops → str_mem slash (inv_alg i) = false →
  crash s (ob_trace (orun E ops (open_object i))) s' →
  (1 <= k <= n)%N → below (version_name (inv_padding i) k) p → s' !! p = s !! p.
Proof.
  intros Hn Hc Hcl Ha Hcr Hk Hb. destruct (decide (s' !! p = s !! p)) as [|Hne]; [done|]. exfalso.
  destruct (writes_where E i n ops s s' p Hn Hc Hcl Hcr Hne) as [->|[->|[Hx|(k' & Hk' & Hx)]]].
  - by apply not_below in Hb.
  - apply not_below in Hb; [done|]. unfold sidecar_name. by rewrite str_mem_app, Ha.
  - pose proof (below_inj _ "extensions" _ (version_name_no_slash _ _) eq_refl Hb Hx) as Heq. revert Heq. unfold version_name.
    destruct (decide _); done.
  - pose proof (below_inj _ _ _ (version_name_no_slash _ _) (version_name_no_slash _ _) Hb Hx) as Heq.
    apply InventoryProofs.version_name_inj in Heq. lia.
Qed.
Example C16_example :
  head_number inv2 2 ∧ clean_names xenv (long_update ++ [(dflt, OClose)]) ∧
  below (version_name (inv_padding inv2) 1) "v1/content/a" ∧
  apply_evs (ob_trace (orun xenv (long_update ++ [(dflt, OClose)]) (open_object inv2))) ∅ !! "v3/content/b/c" = Some "y".
Proof.
  split; [split; [apply inv2_newest|by vm_compute]|]. split.
  - apply Forall_app. split; [apply C15_example|]. apply Forall_cons; split; [done|]. by apply Forall_nil.
  - split; [by exists "content/a"|by vm_compute].
Qed.
Print Assumptions C16_writes_where_partial.
Print Assumptions C16_earlier_content_unchanged_partial.

Theorem C16_dotdot_refuted :
  ∃ E i n ops s, head_number i n ∧ plain_name (content_name i) ∧ (1 <= n)%N ∧
    s !! "v1/content/a" = Some "x" ∧ below (version_name (inv_padding i) 1) "v1/content/a" ∧
    apply_evs (ob_trace (orun E ops (open_object i))) s !! "v1/content/a" = Some "evil".
Proof.
  exists xenv, inv2, 2%N,
    ((dflt, OStart "2024-01-01" "msg" "me" "mailto:me" false) :: simple [SAdd "evil" "../../v1/content/a" "" false]),
    {["v1/content/a" := "x"]}.
  split; [split; [apply inv2_newest|by vm_compute]|]. split; [repeat split; by vm_compute|]. split; [done|].
  split; [done|]. split; [by exists "content/a"|by vm_compute].
Qed.
Print Assumptions C16_dotdot_refuted.

(** * C17: after Close the inventory and its digest file agree *)

Theorem C17_close_then_load E P parse orc o o' s :
  hex_hash (e_hash E) → json_ok P (e_json E) parse → str_mem slash (inv_alg (ob_inv o)) = false →
  inv_writeable (ob_inv o) = true → inv_modified (ob_inv o) = true → ob_close E orc o = (o', SOk) → P (ob_inv o) →
  ∃ i', load_inventory (e_hash E) parse (apply_evs (ob_trace o') s) "" = LInv i' [] ∧ same_record (ob_inv o') i'.
Proof. exact (close_loads E P parse orc o o' s). Qed.
Theorem C17_end_update_then_load E P parse orc h o o' s :
  hex_hash (e_hash E) → json_ok P (e_json E) parse →
  inv_writeable (ob_inv o) = true → inv_modified (ob_inv o) = true → ob_end E orc h o = (o', SOk) → P (ob_inv o') →
  ∃ i', load_inventory (e_hash E) parse (apply_evs (ob_trace o') s) (inv_head (ob_inv o') +:+ "/") = LInv i' [] ∧
    same_record (ob_inv o') i'.
Proof. exact (end_loads E P parse orc h o o' s). Qed.
(** Crash points of Close on an object whose stored inventory was accepted before: if the loader accepts the result without
    complaint then the pair of files is the old one or the new one, or the digests of old and new inventory collide. *)
Theorem C17_crash_in_close E P parse orc o o' s s' i0 i1 :
  hex_hash (e_hash E) → json_ok P (e_json E) parse → str_mem slash (inv_alg (ob_inv o)) = false →
  inv_writeable (ob_inv o) = true → inv_modified (ob_inv o) = true → ob_close E orc o = (o', SOk) →
  P (ob_inv o) → load_inventory (e_hash E) parse s "" = LInv i0 [] → inv_alg i0 = inv_alg (ob_inv o) →
  ∀ l, ob_trace o' = ob_trace o ++ l → crash s l s' →
  load_inventory (e_hash E) parse s' "" = LInv i1 [] →
  (s' !! "inventory.json" = s !! "inventory.json" ∧
   s' !! ("inventory.json." +:+ inv_alg i0) = s !! ("inventory.json." +:+ inv_alg i0)) ∨
  (∃ d, s' !! "inventory.json" = Some (e_json E (ob_inv o)) ∧
        s' !! ("inventory.json." +:+ inv_alg i0) = Some (d +:+ " inventory.json") ∧
        e_hash E (inv_alg i0) (e_json E (ob_inv o)) = Some d) ∨
  (∃ old d, s !! "inventory.json" = Some old ∧ old ≠ e_json E (ob_inv o) ∧
     e_hash E (inv_alg i0) old = Some d ∧ e_hash E (inv_alg i0) (e_json E (ob_inv o)) = Some d).
Proof.
  intros. destruct (crash_close E P parse orc o o' s s' i0 i1) with (l := l) as [Hp|[(d & Hp & Hd)|(old & A & B & C & [d D])]]; auto.
  - left. by injection Hp.
  - right. left. exists d. injection Hp as Hp1 Hp2. done.
  - right. right. exists old, d. rewrite <- C. done.
Qed.

Definition c_started : object :=
  orun cenv ((dflt, OStart "2024-01-01" "msg" "me" "mailto:me" false) :: simple [SAdd "x" "a" "" true; SAdd "y" "b/c" "" false])
    (open_object fresh0).
Example C17_example :
  hex_hash (e_hash cenv) ∧ json_ok (λ _, True) (e_json cenv) cparse ∧ str_mem slash (inv_alg (ob_inv c_started)) = false ∧
  inv_writeable (ob_inv c_started) = true ∧ inv_modified (ob_inv c_started) = true ∧
  length (ob_trace c_started) = 4 ∧ ∃ o', ob_close cenv dflt c_started = (o', SOk).
Proof.
  split; [apply hexh_ok|]. split; [apply cjson_ok|]. do 4 (split; [by vm_compute|]).
  eapply close_succeeds; [by vm_compute..|].
  assert (inv_alg (ob_inv c_started) = "sha512") as -> by (by vm_compute). reflexivity.
Qed.
(** After that Close the stored object is accepted, so it can be the starting point of the crash theorem. *)
Example C17_crash_example o' :
  ob_close cenv dflt c_started = (o', SOk) →
  ∃ i0, load_inventory (e_hash cenv) cparse (apply_evs (ob_trace o') ∅) "" = LInv i0 [] ∧ inv_alg i0 = "sha512".
Proof.
  intros Hc. destruct C17_example as (H1 & H2 & H3 & H4 & H5 & _).
  destruct (C17_close_then_load cenv (λ _, True) cparse dflt c_started o' ∅ H1 H2 H3 H4 H5 Hc I) as (i' & Hl & Hs).
  exists i'. split; [done|]. rewrite (sr_alg _ _ Hs).
  destruct (close_spec cenv dflt c_started o' H4 H5 Hc) as (d & _ & -> & _). by vm_compute.
Qed.
Print Assumptions C17_close_then_load.
Print Assumptions C17_end_update_then_load.
Print Assumptions C17_crash_in_close.

(** * C18: the digest file format *)

Theorem C18_round_trip d : hexadecimal d → sidecar_parse (d +:+ " inventory.json") = Some d.
Proof. exact (sidecar_round_trip d). Qed.
(** Whatever is accepted consists of a hexadecimal digest, white space and the file name (with one arbitrary character in
    place of the dot), surrounded by white space. *)
Theorem C18_accepts_only_partial t d :
  sidecar_parse t = Some d →
  hexadecimal d ∧ ∃ pre ws c post,
    (∀ x, x ∈ list_ascii_of_string (pre +:+ ws +:+ post) → go_space x = true) ∧ ws ≠ "" ∧
    t = pre +:+ d +:+ ws +:+ "inventory" +:+ String c "json" +:+ post.
Proof.
  intros H. apply sidecar_accepts in H as (H1 & pre & ws & c & post & A & B & C & D & E). split; [done|].
  exists pre, ws, c, post. split; [|done]. intros x. rewrite !list_ascii_app, !elem_of_app. intros [?|[?|?]]; auto.
Qed.
(** Every cut of the written text is rejected. *)
Theorem C18_cut_rejected d a b :
  hexadecimal d → d +:+ " inventory.json" = a +:+ b → b ≠ "" → sidecar_parse a = None.
Proof. exact (sidecar_torn d a b). Qed.
Example C18_example :
  hexadecimal "0aF9" ∧ sidecar_parse "0aF9 inventory.json" = Some "0aF9" ∧
  sidecar_parse "inventory.json" = None ∧ sidecar_parse "0aF9" = None ∧ sidecar_parse "0aX9 inventory.json" = None.
Proof.
  split; [|by vm_compute]. split; [done|]. intros c. simpl. rewrite !elem_of_cons, elem_of_nil.
  intros [->|[->|[->|[->|[]]]]]; done.
Qed.
(** Full statement: texts without the file name are rejected.  The dot of the regular expression is not escaped. *)
Theorem C18_wrong_name_refuted : ∃ t d, sidecar_parse t = Some d ∧ ¬ contains t "inventory.json".
Proof.
  exists "0a inventoryXjson", "0a". split; [by vm_compute|]. intros (a & b & H).
  assert (str_mem "."%char "0a inventoryXjson" = false) as Hm by (by vm_compute). rewrite H in Hm.
  rewrite !str_mem_app in Hm. apply orb_false_elim in Hm as [_ Hm]. done.
Qed.
Print Assumptions C18_round_trip.
Print Assumptions C18_accepts_only_partial.
Print Assumptions C18_cut_rejected.
Print Assumptions C18_wrong_name_refuted.

(** * C48: the published inventory always describes the stored content *)

(** Full statement: for all calls.  Proved for histories in which new content always goes to clean relative paths that are
    not in use, which excludes dot-dot names and adding the same path twice in one version.
    An object is created, then updated in any number of sessions; every session may crash at any point; every session
    starts from a state the loader accepts.  Whenever the loader accepts the stored root inventory, every content path it
    records is stored with content of the recorded digest (or two byte strings with the same digest have been found). *)
Theorem C48_created_object_intact_partial E P parse s s' i :
  hex_hash (e_hash E) → json_ok P (e_json E) parse → str_mem slash (inv_alg i) = false → plain_name (content_name i) →
  creation E P s i s' → accepted E parse s' → ∃ i' n, (1 <= n)%N ∧ intact E parse s' i' n.
Proof. exact (creation_safe E P parse s s' i). Qed.
Theorem C48_sessions_intact_partial E P parse s s' i n :
  hex_hash (e_hash E) → json_ok P (e_json E) parse → intact E parse s i n → sessions E P parse s s' → accepted E parse s' →
  collision E ∨ ∃ i' n', (n <= n')%N ∧ intact E parse s' i' n'.
Proof. exact (sessions_safe E P parse s s' i n). Qed.

Definition c_ops : list (oracle * oop) :=
  (dflt, OStart "2024-01-01" "msg" "me" "mailto:me" false) :: simple [SAdd "x" "a" "" true; SAdd "y" "b/c" "" false].
Definition c_guardb (op : sop) (o : object) : bool :=
  match op with
  | SAdd _ p _ _ => forallb (λ c, bool_decide (c ≠ "" ∧ c ≠ "." ∧ c ≠ "..")) (split_slash p)
                    && man_freshb (ob_inv o) (manifest_name (ob_inv o) p)
  | SDelete _ _ => true
  | _ => false
  end.
Lemma c_guardb_sound ops o :
  guardedb cenv c_guardb ops o = true →
  guarded cenv (λ _ op o, clean_target cenv op ∧ fresh_target cenv op o) (λ _, True) ops o.
Proof.
  intros Hb. apply (guardedb_sound cenv c_guardb); [|by apply Forall_true|done]. clear.
  intros orc op o _ H. destruct op as [data p area dd| | | |]; try done. apply andb_prop in H as [H1 H2]. split.
  - intros m [= <-]. unfold clean_rel. apply Forall_forall. intros c Hc. rewrite forallb_forall in H1.
    assert (bool_decide (c ≠ "" ∧ c ≠ "." ∧ c ≠ "..") = true) as Hb by (apply H1; by apply elem_of_list_In).
    apply bool_decide_eq_true in Hb as (A & B & C). repeat split; auto.
    pose proof (split_on_elem_no_sep slash p) as Hs. rewrite Forall_forall in Hs. auto.
  - intros m [= <-] d. by apply man_freshb_true.
Qed.
Lemma c_ops_guarded :
  guarded cenv (λ _ op o, clean_target cenv op ∧ fresh_target cenv op o) (λ _, True) c_ops (open_object fresh0).
Proof. apply c_guardb_sound. by vm_compute.
Qed.
Lemma open_c : orun cenv c_ops (open_object fresh0) = c_started.
Proof. done. Qed.
Example C48_example : ∃ s', creation cenv (λ _, True) ∅ fresh0 s' ∧ accepted cenv cparse s' ∧ ∃ i n, intact cenv cparse s' i n.
Proof.
  destruct C17_example as (H1 & H2 & H3 & H4 & H5 & _ & o' & Hc).
  set (s' := apply_evs (ob_trace o') ∅).
  assert (creation cenv (λ _, True) ∅ fresh0 s') as Hcr.
  { apply (Creation _ _ _ _ _ c_ops dflt).
    - clear. repeat split; reflexivity.
    - intros p _. apply lookup_empty.
    - clear. repeat (apply Forall_cons; split; [done|]); by apply Forall_nil.
    - apply c_ops_guarded.
    - intros _. exact I.
    - assert (orun cenv (c_ops ++ [(dflt, OClose)]) (open_object fresh0) = o') as ->; [|apply crash_all].
      rewrite orun_snoc_ok by (clear; by vm_compute). rewrite open_c.
      change (ostep cenv dflt OClose c_started) with (ob_close cenv dflt c_started). rewrite Hc. reflexivity. }
  assert (accepted cenv cparse s') as Ha by (destruct (C17_crash_example o' Hc) as (i0 & Hl & _); exists i0; exact Hl).
  exists s'. split; [exact Hcr|]. split; [exact Ha|].
  destruct (C48_created_object_intact_partial cenv (λ _, True) cparse ∅ s' fresh0 H1 H2) as (i & n & _ & Hi).
  - reflexivity.
  - clear. by repeat split.
  - exact Hcr.
  - exact Ha.
  - exists i, n. exact Hi.
Qed.
(** A second session on the stored object, which deletes one file and adds another. *)
Definition c_ops2 : list (oracle * oop) :=
  (dflt, OStart "2024-02-02" "next" "me" "mailto:me" false) :: simple [SDelete "a" "a78"; SAdd "z" "a" "" true].
Lemma cparse_cjson i : cparse (cjson i) = Some i.
Proof.
  unfold cparse, cjson. rewrite drop_end_one; [|apply dec_no_brace|done]. rewrite decide_False.
  - rewrite N_of_dec_of_N. simpl. apply countable.decode_encode.
  - intros E. apply (f_equal String.length) in E. rewrite str_length_app in E. cbn [String.length] in E. lia.
Qed.
Lemma sidecar_no_slash alg : str_mem slash alg = false → str_mem slash (sidecar_name alg) = false.
Proof. intros H. unfold sidecar_name. by rewrite str_mem_app, H. Qed.
Lemma stored_back o o' s :
  inv_writeable (ob_inv o) = true → inv_modified (ob_inv o) = true → inv_alg (ob_inv o) = "sha512" →
  ob_close cenv dflt o = (o', SOk) →
  load_inventory (e_hash cenv) cparse (apply_evs (ob_trace o') s) "" = LInv (ob_inv o) [].
Proof.
  intros H4 H5 H6 Hc. assert (str_mem slash (inv_alg (ob_inv o)) = false) as H3 by (rewrite H6; reflexivity).
  destruct (C17_close_then_load cenv (λ _, True) cparse dflt o o' s hexh_ok cjson_ok H3 H4 H5 Hc I) as (i0 & Hl & _).
  enough (i0 = ob_inv o) as He by (rewrite <- He; exact Hl).
  destruct (close_spec cenv dflt o o' H4 H5 Hc) as (d & _ & _ & Ht).
  destruct (load_parts _ _ _ _ Hl) as (b & t & e & P1 & P2 & _).
  rewrite Ht, apply_evs_app in P1.
  destruct (pair_written (apply_evs (ob_trace o) s) _ "" (e_json cenv (ob_inv o)) (inv_alg (ob_inv o))
            (sidecar_text d) (ext_events cenv)
            (prefix_ne "" _ _ (sidecar_name_ne _)) (ext_apart "inventory.json" eq_refl cenv)
            (ext_apart ("" +:+ sidecar_name (inv_alg (ob_inv o))) (sidecar_no_slash _ H3) cenv) eq_refl) as [W _].
  change ("" +:+ "inventory.json") with "inventory.json" in W.
  change ("" +:+ sidecar_name (inv_alg (ob_inv o))) with (sidecar_name (inv_alg (ob_inv o))) in W.
  rewrite W in P1. apply (inj Some) in P1. rewrite <- P1 in P2.
  change (e_json cenv (ob_inv o)) with (cjson (ob_inv o)) in P2. rewrite cparse_cjson in P2.
  apply (inj Some) in P2. symmetry. exact P2.
Qed.
Lemma c_second :
  let o2 := orun cenv c_ops2 (open_object (ob_inv c_started)) in
  inv_writeable (ob_inv o2) = true ∧ inv_modified (ob_inv o2) = true ∧ inv_alg (ob_inv o2) = "sha512" ∧
  panics cenv c_ops2 (open_object (ob_inv c_started)) = false.
Proof. repeat split; by vm_compute. Qed.
Lemma second_close o2 : inv_writeable (ob_inv o2) = true → inv_modified (ob_inv o2) = true → inv_alg (ob_inv o2) = "sha512" →
  ∃ o3, ob_close cenv dflt o2 = (o3, SOk) ∧ ∀ s, accepted cenv cparse (apply_evs (ob_trace o3) s).
Proof.
  intros W2 M2 A2.
  destruct (close_succeeds cenv dflt o2 (String "a" (hex_str (cjson (ob_inv o2)))) W2 M2) as [o3 Hc3]; [rewrite A2; reflexivity|].
  exists o3. split; [exact Hc3|]. intros s.
  destruct (C17_close_then_load cenv (λ _, True) cparse dflt o2 o3 s hexh_ok cjson_ok) as (i' & Hl' & _).
  - rewrite A2. reflexivity.
  - exact W2.
  - exact M2.
  - exact Hc3.
  - exact I.
  - exists i'. exact Hl'.
Qed.
Example C48_sessions_example o' :
  ob_close cenv dflt c_started = (o', SOk) →
  ∃ s'', sessions cenv (λ _, True) cparse (apply_evs (ob_trace o') ∅) s'' ∧ accepted cenv cparse s''.
Proof.
  intros Hc. destruct C17_example as (_ & _ & _ & H4 & H5 & _).
  assert (inv_alg (ob_inv c_started) = "sha512") as H6 by (clear; by vm_compute).
  pose proof (stored_back c_started o' ∅ H4 H5 H6 Hc) as Hl. destruct c_second as (W2 & M2 & A2 & P2).
  destruct (second_close _ W2 M2 A2) as (o3 & Hc3 & Hacc).
  exists (apply_evs (ob_trace o3) (apply_evs (ob_trace o') ∅)). split; [|apply Hacc].
  eapply sessions_more; [apply sessions_none|].
  apply (Session _ _ _ _ _ (ob_inv c_started) c_ops2 dflt).
  - exact Hl.
  - clear. repeat (apply Forall_cons; split; [done|]); by apply Forall_nil.
  - clear. apply c_guardb_sound. by vm_compute.
  - intros _. exact I.
  - rewrite orun_snoc_ok by exact P2. cbn [ostep]. rewrite Hc3. apply crash_all.
Qed.
Print Assumptions C48_created_object_intact_partial.
Print Assumptions C48_sessions_intact_partial.

(** Adding the same path twice with different content in one version: the published inventory records a digest for which
    nothing is stored any more. *)
Theorem C48_same_path_twice_refuted :
  ∃ E i ops, describes (e_hash E) i ∅ ∧ clean_names E ops ∧ head_number i 0 ∧
    ∃ d p, lists (inv_manifest (ob_inv (orun E ops (open_object i)))) p d ∧
      ∀ data, apply_evs (ob_trace (orun E ops (open_object i))) ∅ !! p = Some data → e_hash E (inv_alg i) data ≠ Some d.
Proof.
  exists xenv, fresh0, (update [SAdd "x" "a" "" true; SAdd "y" "a" "" true]).
  split; [intros d p (ps & Hps & _); change (inv_manifest fresh0) with (∅ : gmap string (list string)) in Hps; by rewrite lookup_empty in Hps|].
  split; [|split].
  - unfold clean_names, all_ops, update, simple. simpl.
    repeat (apply Forall_cons; split); simpl; try done; try (intros m [= <-]; by apply clean_one).
  - split; [|done]. eapply contiguous_newest, fresh0_contiguous.
  - exists "sx", "v1/content/a". split; [exists ["v1/content/a"]; split; [by vm_compute|by left]|].
    intros data. assert (apply_evs (ob_trace (orun xenv (update [SAdd "x" "a" "" true; SAdd "y" "a" "" true]) (open_object fresh0))) ∅
      !! "v1/content/a" = Some "y") as -> by (by vm_compute). intros [= <-]. by vm_compute.
Qed.
Print Assumptions C48_same_path_twice_refuted.
