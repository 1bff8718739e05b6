(** Objects of a storage root: C59. *)
From Coq Require Import Ascii.
From stdpp Require Import base list strings gmap.
From Coq Require Import ZArith Lia.
From Verif Require Import GoStr PathModel PathProofs InventoryModel ObjectModel InventorySpec ObjectSpec CrashSpec CrashProofs LoadModel PublishSpec AreaModel AreaProofs IngestModel IngestSpec
  IngestProofs6 LayoutModel LayoutSpec LayoutProofs LayoutProofs3 RootModel RootAddModel RootAddSpec RootAddProofs RootAddProofs2
  ValidateModel CheckModel AcceptSpec Properties1 Properties4 Properties10 Properties16 Properties17 Fixtures Fixtures2 Fixtures3 Fixtures5 Fixtures6 Properties3 Fixtures8 Fixtures9 RootAddModel.

(** * C59: the objects of a storage root do not disturb each other *)

(** Whatever is done with an open object, also if it fails or is interrupted, no file outside its folder changes. *)
Theorem C59_outside_untouched E i ops f s s' p :
  head_newest i → CrashSpec.plain_name (content_name i) → str_mem slash (inv_alg i) = false → (∀ x b, (x, b) ∈ e_ext_files E → clean_rel x) →
  clean_names E ops → clean_rel f → crash s (place_ev f <$> ob_trace (orun E ops (open_object i))) s' → ¬ inside f p → s' !! p = s !! p.
Proof.
  intros Hn Hc Ha Hx Hcl Hf Hcr Hp. pose proof (run_clean E i ops Hn Hc Ha Hx Hcl) as Hev. revert s Hcr. induction Hev as [|e l He Hl IH]; intros s Hcr.
  - by inversion Hcr.
  - cbn [fmap list_fmap] in Hcr. apply crash_cons in Hcr as [-> |[(q & b1 & b2 & Heq & ->)|Hcr]]; [done| |].
    + destruct e as [q'|q' b]; [done|]. cbn [place_ev] in Heq. assert (q = path_join [f; q']) as -> by congruence.
      exact (ev_outside f (EAppend q' b1) s p Hf He Hp).
    + rewrite (IH _ Hcr). by apply ev_outside.
Qed.
(** Sessions of several objects whose storage effects are interleaved in any way, the whole interrupted at any point: every object is
    as if its session alone had run on it and had been interrupted somewhere. *)
Theorem C59_interleaved E (folders : list string) (inv : string → inventory) (ops : string → list (oracle * oop)) l s s' :
  (∀ x b, (x, b) ∈ e_ext_files E → clean_rel x) →
  (∀ f, f ∈ folders → clean_rel f ∧ head_newest (inv f) ∧ CrashSpec.plain_name (content_name (inv f)) ∧ str_mem slash (inv_alg (inv f)) = false ∧
    clean_names E (ops f) ∧ evs_of f l = ob_trace (orun E (ops f) (open_object (inv f)))) →
  (∀ f g, f ∈ folders → g ∈ folders → f ≠ g → apart_from f g) → (∀ f e, (f, e) ∈ l → f ∈ folders) →
  crash s (sched_evs l) s' →
  ∀ f, f ∈ folders → crash (sub_files f s) (ob_trace (orun E (ops f) (open_object (inv f)))) (sub_files f s').
Proof.
  intros Hx Hs Hap Hin Hcr f Hf. destruct (Hs f Hf) as (Hc & _ & _ & _ & _ & <-). eapply sched_crash; [done| |done].
  intros g e Hge. pose proof (Hin g e Hge) as Hg. destruct (Hs g Hg) as (Hgc & Hn & Hpl & Ha & Hcl & Hev). split; [done|]. split; [|by auto].
  pose proof (run_clean E (inv g) (ops g) Hn Hpl Ha Hx Hcl) as Hall. rewrite <- Hev in Hall. rewrite Forall_forall in Hall. apply Hall.
  unfold evs_of. apply elem_of_list_omap. exists (g, e). split; [done|]. cbn [fst snd]. by rewrite decide_True.
Qed.
(** Without interruption: exactly the storage effects of its own session. *)
Theorem C59_interleaved_complete E (folders : list string) (inv : string → inventory) (ops : string → list (oracle * oop)) l s :
  (∀ x b, (x, b) ∈ e_ext_files E → clean_rel x) →
  (∀ f, f ∈ folders → clean_rel f ∧ head_newest (inv f) ∧ CrashSpec.plain_name (content_name (inv f)) ∧ str_mem slash (inv_alg (inv f)) = false ∧
    clean_names E (ops f) ∧ evs_of f l = ob_trace (orun E (ops f) (open_object (inv f)))) →
  (∀ f g, f ∈ folders → g ∈ folders → f ≠ g → apart_from f g) → (∀ f e, (f, e) ∈ l → f ∈ folders) →
  ∀ f, f ∈ folders → sub_files f (apply_evs (sched_evs l) s) = apply_evs (ob_trace (orun E (ops f) (open_object (inv f)))) (sub_files f s).
Proof.
  intros Hx Hs Hap Hin f Hf. destruct (Hs f Hf) as (Hc & _ & _ & _ & _ & <-). eapply sched_sub; [done|].
  intros g e Hge. pose proof (Hin g e Hge) as Hg. destruct (Hs g Hg) as (Hgc & Hn & Hpl & Ha & Hcl & Hev). split; [done|]. split; [|by auto].
  pose proof (run_clean E (inv g) (ops g) Hn Hpl Ha Hx Hcl) as Hall. rewrite <- Hev in Hall. rewrite Forall_forall in Hall. apply Hall.
  unfold evs_of. apply elem_of_list_omap. exists (g, e). split; [done|]. cbn [fst snd]. by rewrite decide_True.
Qed.

(** Requests for objects of a storage root in any order: every request succeeds.  Partial: identifiers whose folders are apart; the
    requests of C55 and C56. *)
Theorem C59_requests_succeed_partial E X area P parse rt fixalgs allowed ids s0 H s H' s' st :
  hex_hash (e_hash E) → json_ok P (e_json E) parse → (∀ f b, (f, b) ∈ e_ext_files E → clean_rel f) → proper_root rt fixalgs allowed ids s0 →
  root_history E X area P parse rt fixalgs allowed ids s0 H s → root_request E X area P parse rt fixalgs allowed ids H s H' s' st → st = SOk.
Proof.
  intros Hhex Hj Hx Hr Hh Hq.
  exact (proj1 (request_ok E X area P parse rt fixalgs allowed ids s0 Hhex Hj Hx Hr H s H' s' st (history_ok E X area P parse rt fixalgs allowed ids s0 Hhex Hj Hx Hr H s Hh) Hq)).
Qed.
(** The storage root is a map from identifiers to objects: after any requests for any identifiers, an identifier without request has no
    object; any other one has an object that is loaded by its identifier, has this identifier, and gives back what the area held after
    each of its own requests.  No other file of the storage root changed. *)
Theorem C59_storage_root_partial E X area P parse rt fixalgs allowed ids s0 H s :
  hex_hash (e_hash E) → json_ok P (e_json E) parse → (∀ f b, (f, b) ∈ e_ext_files E → clean_rel f) → proper_root rt fixalgs allowed ids s0 →
  root_history E X area P parse rt fixalgs allowed ids s0 H s →
  (∀ id, ids id → H !! id = None → object_exists (rt_layouts rt) id s = Some false) ∧
  (∀ id ts, ids id → H !! id = Some ts → object_exists (rt_layouts rt) id s = Some true ∧
    ∃ f i, load_by_id (e_hash E) parse (rt_layouts rt) id s = Opened f i ∧ inv_id i = id ∧
      (∀ ver, is_Some (inv_versions i !! ver) ↔ ∃ k, (1 <= k <= N.of_nat (length ts))%N ∧ ver = version_name (inv_padding i) k) ∧
      ∀ k t orc, oracle_ok orc → rev ts !! k = Some t → extract X orc i (sub_files f s) (version_name (inv_padding i) (N.of_nat k + 1)) false area ∅ = (t, SOk)) ∧
  ∀ p, (∀ id f, ids id → root_path (rt_layouts rt) id = Some (f, false) → ¬ inside f p) → s !! p = s0 !! p.
Proof.
  intros Hhex Hj Hx Hr Hh. destruct (history_ok E X area P parse rt fixalgs allowed ids s0 Hhex Hj Hx Hr H s Hh) as [H1 H2]. split; [|split; [|exact H2]].
  - intros id Hid HH. destruct (ka_folder _ _ (pr_apart _ _ _ _ _ Hr) id Hid) as (f & Hf & Hcl). specialize (H1 id f Hid Hf). rewrite HH in H1.
    by eapply obj_missing.
  - intros id ts Hid HH. destruct (ka_folder _ _ (pr_apart _ _ _ _ _ Hr) id Hid) as (f & Hf & Hcl). specialize (H1 id f Hid Hf). rewrite HH in H1.
    split; [exact (obj_exists E X area P parse rt id ts f s Hcl Hf H1)|].
    destruct (obj_loads E X area P parse rt fixalgs allowed ids s0 Hhex Hj Hr id ts f s Hf H1) as (i & Hl & Hl2 & Hi). exists f, i. split; [done|]. split; [done|].
    destruct H1 as (i0 & _ & Harch & _). exact (C57_history E X area P parse ts _ i0 i Hhex Hj Harch Hl2).
Qed.
(** Layouts that keep all identifiers apart: 0004 if the digests differ, and 0003 (identifiers with a byte below 16 are left out, see
    C28) if the digests of identifiers of more than 33 bytes differ. *)
Theorem C59_hashed_apart hs c0 c h (ids : string → Prop) : new4 hs c0 = Some c → (c4_short c = true → ∀ id, ids id → c4_n c * c4_t c ≠ 2 * String.length (h id)) →
  (∀ id, ids id → h id ≠ "" ∧ c4_t c * c4_n c ≤ 2 * String.length (h id)) → (∀ a b, ids a → ids b → h a = h b → a = b) → keeps_apart [build4 h c] ids.
Proof.
  intros Hc Hsh Hid Hinj.
  assert (∀ id, ids id → ∃ p, build4 h c id = POk p ∧ clean_rel p) as Hex.
  { intros id Hi. destruct (Hid id Hi) as [H1 H2]. destruct (C29_defined h c id H2) as [p Hp]. exists p. split; [done|].
    destruct (C30_hashed_plain_partial hs c0 c h id p Hc H1) as (es & Hes & Hpl & _); [|done|].
    { intros Hs. by apply Hsh. }
    unfold clean_rel. rewrite (path_plain_split es p Hes Hpl). eapply stdpp.list.Forall_impl; [exact Hpl|]. cbv beta.
    intros e (E1 & E2 & E3 & E4). repeat split; try done. destruct (str_mem slash e) eqn:Em; [|done]. by apply str_mem_spec in Em. }
  assert (∀ id f, ids id → root_path [build4 h c] id = Some (f, false) → build4 h c id = POk f ∧ clean_rel f) as Hrp.
  { intros id f Hi. destruct (Hex id Hi) as (p & Hp & Hcl). cbn [root_path]. rewrite Hp. case_decide as He.
    - subst p. unfold clean_rel in Hcl. cbn in Hcl. inversion Hcl as [|? ? (Hne & _)]. done.
    - by intros [= <-]. }
  split.
  - intros id Hi. destruct (Hex id Hi) as (p & Hp & Hcl). exists p. split; [|done]. cbn [root_path]. rewrite Hp. rewrite decide_False; [done|].
    intros ->. unfold clean_rel in Hcl. cbn in Hcl. inversion Hcl as [|? ? (Hne & _)]. done.
  - intros a b f g Ha Hb Hne [Hf _]%Hrp [Hg _]%Hrp; [|done..]. split.
    + intros ->. apply Hne, Hinj; [done..|]. exact (C29_injective h c a b g Hf Hg).
    + split; [exact (C30_hashed_not_nested h c a b f g Hf Hg)|exact (C30_hashed_not_nested h c b a g f Hg Hf)].
Qed.
Theorem C59_hash_and_id_apart_partial hs c0 c h (ids : string → Prop) : new3 hs c0 = Some c →
  (∀ id, ids id → id ≠ "" ∧ bytes_from 16 id ∧ c3_t c * c3_n c ≤ 2 * String.length (h id)) →
  (∀ a b, ids a → ids b → 33 < String.length a → 33 < String.length b → h a = h b → a = b) → keeps_apart [build3 h c] ids.
Proof.
  intros Hc Hid Hinj.
  assert (∀ id, ids id → ∃ p, build3 h c id = POk p ∧ clean_rel p) as Hex.
  { intros id Hi. destruct (Hid id Hi) as (H1 & _ & H2).
    assert (∃ p, build3 h c id = POk p) as [p Hp].
    { unfold build3. rewrite hex_bytes_length. destruct (Nat.ltb_spec (2 * String.length (h id)) (c3_t c * c3_n c)); [lia|]. by eexists. }
    exists p. split; [done|]. destruct (C30_hash_and_id_plain_partial hs c0 c h id p Hc H1 Hp) as (es & Hes & Hpl & _).
    unfold clean_rel. rewrite (path_plain_split es p Hes Hpl). eapply stdpp.list.Forall_impl; [exact Hpl|]. cbv beta.
    intros e (E1 & E2 & E3 & E4). repeat split; try done. destruct (str_mem slash e) eqn:Em; [|done]. by apply str_mem_spec in Em. }
  assert (∀ id f, ids id → root_path [build3 h c] id = Some (f, false) → build3 h c id = POk f) as Hrp.
  { intros id f Hi. destruct (Hex id Hi) as (p & Hp & Hcl). cbn [root_path]. rewrite Hp. case_decide as He.
    - subst p. unfold clean_rel in Hcl. cbn in Hcl. inversion Hcl as [|? ? (Hne & _)]. done.
    - by intros [= <-]. }
  split.
  - intros id Hi. destruct (Hex id Hi) as (p & Hp & Hcl). exists p. split; [|done]. cbn [root_path]. rewrite Hp. rewrite decide_False; [done|].
    intros ->. unfold clean_rel in Hcl. cbn in Hcl. inversion Hcl as [|? ? (Hne & _)]. done.
  - intros a b f g Ha Hb Hne Hf%Hrp Hg%Hrp; [|done..]. split.
    + intros ->. apply Hne. eapply C28_injective_partial; [by apply Hid|by apply Hid| |exact Hf|exact Hg]. by apply Hinj.
    + split; [exact (C30_hash_and_id_not_nested h c a b f g Hf Hg)|exact (C30_hash_and_id_not_nested h c b a g f Hg Hf)].
Qed.
(** Every object of the root passes the validation with nothing but warnings.  Partial: without path extensions; no version may hold a file
    and a directory of the same name (see C58). *)
Theorem C59_objects_valid_partial E X P parse decode w lx rt fixalgs allowed ids s0 H s id f ts :
  hex_hash (e_hash E) → json_ok P (e_json E) parse → (∀ i, decode (e_json E i) = Some (doc_of i)) → paths_by E X [] → vorder_ok w →
  (∀ x b, (x, b) ∈ e_ext_files E → clean_rel x) → proper_root rt fixalgs allowed ids s0 →
  root_history E X "content" P parse rt fixalgs allowed ids s0 H s →
  ids id → id ≠ "" → root_path (rt_layouts rt) id = Some (f, false) → H !! id = Some ts → Forall no_conflict ts →
  only_warnings (validate_object (e_hash E) decode w lx (sub_files f s)).
Proof.
  intros Hhex Hj Hdec HE Hw Hx Hr Hh Hid Hne Hf HH Hc. destruct (history_ok E X "content" P parse rt fixalgs allowed ids s0 Hhex Hj Hx Hr H s Hh) as [H1 _].
  specialize (H1 id f Hid Hf). rewrite HH in H1. destruct H1 as (i & i2 & Harch & Hi & Hal & Hty & Hcd & _).
  apply (C58_ingested_valid_partial E X P parse decode w lx ts _ i Hhex Hj Hdec HE Hw Harch Hc).
  - congruence.
  - rewrite Hty. unfold inventory_type. by case_decide.
  - rewrite Hal. apply Hr.
  - unfold content_name. rewrite Hcd. exact apart_content.
Qed.

(** Three objects, five requests. *)
Definition c4 : conf4 := Conf4 "toy" 2 3 false.
Definition rt4 : root := the_root (build4 toy_hash c4) "1.1".
Definition ids3 : list string := ["obj:1"; "obj:2"; "a/b"].
Definition s_root : storage := {[ "0=ocfl_1.1" := "ocfl_1.1" +:+ String "010" ""; "ocfl_layout.json" := "{}" ]}.
Definition calls5 : list (bool * bool * string * IngestModel.node) :=
  [(false, true, "obj:1", t1); (false, true, "a/b", NDir true [("x", F "X")]); (true, true, "obj:1", t2); (false, true, "a/b", NDir true [("y", F "A")]);
   (false, false, "obj:1", NDir true [("f", F "new"); ("a", F "A3")])].
Lemma rt4_apart : keeps_apart [build4 toy_hash c4] (λ id, id ∈ ids3).
Proof.
  apply (C59_hashed_apart toy_hashes c4 c4).
  - by vm_compute.
  - done.
  - intros id Hid. unfold ids3 in Hid. rewrite !elem_of_cons, elem_of_nil in Hid. destruct Hid as [-> |[-> |[-> |[]]]]; (split; [by vm_compute|]); vm_compute; lia.
  - intros a b Ha Hb. unfold ids3 in Ha, Hb. rewrite !elem_of_cons, elem_of_nil in Ha, Hb.
    destruct Ha as [-> |[-> |[-> |[]]]], Hb as [-> |[-> |[-> |[]]]]; try done; intros He; vm_compute in He; discriminate He.
Qed.
Lemma s_root_out f r : clean_rel f → f ≠ "0=ocfl_1.1" → f ≠ "ocfl_layout.json" → s_root !! (f +:+ "/" +:+ r) = None.
Proof.
  intros Hf _ _. assert (str_mem slash (f +:+ "/" +:+ r) = true) as Hm by (rewrite !str_mem_app; by destruct (str_mem slash f)).
  unfold s_root. rewrite !lookup_insert_ne, lookup_singleton_ne; [done|..]; intros He; rewrite <- He in Hm; vm_compute in Hm; discriminate Hm.
Qed.
Lemma rt4_proper : proper_root rt4 [] [] (λ id, id ∈ ids3) s_root.
Proof.
  split; [by right|by left| |exact rt4_apart|].
  - intros a Ha. by apply elem_of_nil in Ha.
  - intros id f p Hid Hf [r ->]. destruct (ka_folder _ _ rt4_apart id Hid) as (g & Hg & Hc). change (rt_layouts rt4) with [build4 toy_hash c4] in Hf.
    assert (f = g) as -> by congruence. unfold ids3 in Hid. rewrite !elem_of_cons, elem_of_nil in Hid.
    apply s_root_out; [done|..]; intros ->; destruct Hid as [-> |[-> |[-> |[]]]]; vm_compute in Hg; discriminate Hg.
Qed.
Lemma penv_ext x b : (x, b) ∈ e_ext_files penv → clean_rel x.
Proof. intros [= -> ->]%elem_of_list_singleton. by repeat constructor. Qed.
Example C59_example : ∃ H s f i,
  hex_hash (e_hash penv) ∧ json_ok (λ _, True) (e_json penv) jparse ∧ (∀ x b, (x, b) ∈ e_ext_files penv → clean_rel x) ∧
  proper_root rt4 [] [] (λ id, id ∈ ids3) s_root ∧ root_history penv px "content" (λ _, True) jparse rt4 [] [] (λ id, id ∈ ids3) s_root H s ∧
  H !! "obj:2" = None ∧ H !! "a/b" = Some [{[ "x" := "X"; "y" := "A" ]}; {[ "x" := "X" ]}] ∧ length <$> (H !! "obj:1") = Some 3 ∧
  load_by_id hexh jparse (rt_layouts rt4) "a/b" s = Opened f i ∧ f = "03/f2/15/03f21561" ∧ inv_id i = "a/b" ∧
  extract px default_oracle i (sub_files f s) "v2" false "content" ∅ = ({[ "x" := "X"; "y" := "A" ]}, SOk).
Proof.
  assert (match root_steps rt4 s_root calls5 with
          | Some (H, s) => match load_by_id hexh jparse (rt_layouts rt4) "a/b" s with
             | Opened f i => bool_decide (H !! "obj:2" = None) && bool_decide (H !! "a/b" = Some [{[ "x" := "X"; "y" := "A" ]}; {[ "x" := "X" ]}]) &&
                bool_decide (length <$> (H !! "obj:1") = Some 3) && bool_decide (f = "03/f2/15/03f21561") && bool_decide (inv_id i = "a/b") &&
                yields (extract px default_oracle i (sub_files f s) "v2" false "content" ∅) {[ "x" := "X"; "y" := "A" ]}
             | _ => false end
          | None => false end = true) as H0 by (by vm_compute).
  destruct (root_steps rt4 s_root calls5) as [[H s]|] eqn:E; [|discriminate H0]. destruct (load_by_id hexh jparse (rt_layouts rt4) "a/b" s) as [f i|] eqn:El; [|discriminate H0].
  apply andb_prop in H0 as [H0 H6]. apply andb_prop in H0 as [H0 H5]. apply andb_prop in H0 as [H0 H4]. apply andb_prop in H0 as [H0 H3]. apply andb_prop in H0 as [H1 H2].
  apply bool_decide_eq_true in H1, H2, H3, H4, H5. apply yields_true in H6.
  exists H, s, f, i. split; [exact hexh_ok|]. split; [exact jjson_ok|]. split; [exact penv_ext|]. split; [exact rt4_proper|]. split.
  { eapply root_steps_true; [|exact E]. intros x Hx. unfold calls5 in Hx. rewrite !elem_of_cons, elem_of_nil in Hx. unfold ids3. rewrite !elem_of_cons.
    destruct Hx as [-> |[-> |[-> |[-> |[-> |[]]]]]]; cbn [fst snd]; tauto. }
  split; [exact H1|]. split; [exact H2|]. split; [exact H3|]. split; [done|]. split; [exact H4|]. split; [exact H5|exact H6].
Qed.
(** Two sessions in turns. *)
Definition session (x p : string) : list (oracle * oop) :=
  [(dflt, OStart "2024-01-01T00:00:00Z" "msg" "me" "mailto:me" false); (dflt, OSimple (SAdd x p "" true)); (dflt, OEnd (HDone [])); (dflt, OClose)].
Definition inv_ab (f : string) : inventory := if decide (f = "a") then fresh0 else inv1.
Definition ops_ab (f : string) : list (oracle * oop) := if decide (f = "a") then session "A" "p" else session "B" "d/q".
Definition trace_ab (f : string) : list ev := ob_trace (orun penv (ops_ab f) (open_object (inv_ab f))).
Fixpoint in_turns {A} (l1 l2 : list A) : list A :=
  match l1, l2 with x :: l1', y :: l2' => x :: y :: in_turns l1' l2' | [], l | l, [] => l end.
Definition turns : list (string * ev) := in_turns (pair "a" <$> trace_ab "a") (pair "b/c" <$> trace_ab "b/c").
Example C59_interleaved_example :
  (∀ x b, (x, b) ∈ e_ext_files penv → clean_rel x) ∧
  (∀ f, f ∈ ["a"; "b/c"] → clean_rel f ∧ head_newest (inv_ab f) ∧ CrashSpec.plain_name (content_name (inv_ab f)) ∧ str_mem slash (inv_alg (inv_ab f)) = false ∧
    clean_names penv (ops_ab f) ∧ evs_of f turns = ob_trace (orun penv (ops_ab f) (open_object (inv_ab f)))) ∧
  (∀ f g, f ∈ ["a"; "b/c"] → g ∈ ["a"; "b/c"] → f ≠ g → apart_from f g) ∧ (∀ f e, (f, e) ∈ turns → f ∈ ["a"; "b/c"]) ∧
  length turns = 24 ∧ (fst <$> take 4 turns) = ["a"; "b/c"; "a"; "b/c"] ∧
  apply_evs (sched_evs turns) ∅ !! "a/v1/content/p" = Some "A" ∧ is_Some (apply_evs (sched_evs turns) ∅ !! "b/c/inventory.json").
Proof.
  split; [exact penv_ext|]. split.
  { intros f Hf. rewrite !elem_of_cons, elem_of_nil in Hf. destruct Hf as [-> |[-> |[]]].
    - split; [by repeat constructor|]. split; [apply (contiguous_newest _ 0); split; [done|]|].
      + intros ver. split; [intros [v Hv]; vm_compute in Hv; discriminate Hv|intros (k & Hk & _); lia].
      + split; [vm_compute; by repeat split|]. split; [by vm_compute|]. split; [|by vm_compute].
        repeat constructor; intros m Hm; vm_compute in Hm; injection Hm as <-; by repeat constructor.
    - split; [by repeat constructor|]. split; [exact inv1_newest|]. split; [vm_compute; by repeat split|]. split; [by vm_compute|]. split; [|by vm_compute].
      repeat constructor; intros m Hm; vm_compute in Hm; injection Hm as <-; by repeat constructor. }
  split.
  { intros f g Hf Hg Hne. rewrite !elem_of_cons, elem_of_nil in Hf, Hg.
    destruct Hf as [-> |[-> |[]]], Hg as [-> |[-> |[]]]; try done; (split; [done|]); split; intros [r Hr]; discriminate Hr. }
  split.
  { intros f e Hin. assert (forallb (λ x : string * ev, bool_decide (x.1 ∈ ["a"; "b/c"])) turns = true) as H by (by vm_compute).
    rewrite forallb_forall in H. apply elem_of_list_In, H in Hin. by apply bool_decide_eq_true in Hin. }
  split; [by vm_compute|]. split; [by vm_compute|]. split; [by vm_compute|]. vm_compute. by eexists.
Qed.
Print Assumptions C59_outside_untouched.
Print Assumptions C59_interleaved.
Print Assumptions C59_interleaved_complete.
Print Assumptions C59_requests_succeed_partial.
Print Assumptions C59_storage_root_partial.
Print Assumptions C59_hashed_apart.
Print Assumptions C59_hash_and_id_apart_partial.
Print Assumptions C59_objects_valid_partial.

(** The flat layout and an identifier that is a directory in front of another one: the second request succeeds, and the first object is no
    longer valid.  In the other order the object of the shorter identifier cannot be created. *)
Lemma done_with (x : storage * status) st : x.2 = st → x = (x.1, st).
Proof. destruct x. cbn. by intros ->. Qed.
Lemma ended_with (x : storage * status) s st : x.1 = s → x.2 = st → x = (s, st).
Proof. destruct x. cbn. by intros -> ->. Qed.
Definition flat : root := the_root (build toy_hashes Flat) "1.1".
Theorem C59_nested_refuted :
  ∃ E parse decode w lx rt id1 id2 (s1 s2 s3 : storage) m, id1 ≠ id2 ∧ (∀ i, decode (e_json E i) = Some (doc_of i)) ∧ vorder_ok w ∧ rt_layouts rt = [build toy_hashes Flat] ∧
    (let add id t s := add_object E parse rt [] [] id id dfl2 default_oracle default_oracle (req false true) (given [("content", t)]) (HDone []) s in
     add id1 t1 ∅ = (s1, SOk) ∧ add id2 t2 s1 = (s2, SOk) ∧ add id2 t2 ∅ = (s3, SOk) ∧ add id1 t1 s3 = (s3, SErr m)) ∧
    validate_object (e_hash E) decode w lx (sub_files id1 s1) = VDone [] ∧
    validate_object (e_hash E) decode w lx (sub_files id1 s2) = VDone [Finding "E001" ["b"]].
Proof.
  exists penv, jparse, jdecode, wd, lx0, flat, "a", "a/b", (adds flat false true "a" t1 ∅).1, (adds flat false true "a/b" t2 (adds flat false true "a" t1 ∅).1).1,
    (adds flat false true "a/b" t2 ∅).1, "cannot get version".
  split; [done|]. split; [exact jdecode_ok|]. split; [exact wd_ok|]. split; [done|]. 
  cbv zeta. split; [split; [|split; [|split]]|].
  - unfold adds; apply done_with; by vm_compute.
  - unfold adds; apply done_with; by vm_compute.
  - unfold adds; apply done_with; by vm_compute.
  - unfold adds. apply ended_with; [apply (bool_decide_unpack _)|]; by vm_compute.
  - split; by vm_compute.
Qed.
(** Flat-omit-prefix: two identifiers with the same rest.  The object of the first is taken for that of the second: the request for the
    second identifier becomes version 2 of the first object, and success is reported. *)
Definition omit : root := the_root (build toy_hashes (Lay6 ":")) "1.1".
Theorem C59_same_folder_refuted :
  ∃ E parse rt id1 id2 s1 s2 f i, id1 ≠ id2 ∧ rt_layouts rt = [build toy_hashes (Lay6 ":")] ∧
    add_object E parse rt [] [] id1 id1 dfl2 default_oracle default_oracle (req false true) (given [("content", t1)]) (HDone []) ∅ = (s1, SOk) ∧
    add_object E parse rt [] [] id2 id2 dfl2 default_oracle default_oracle (req true true) (given [("content", t2)]) (HDone []) s1 = (s2, SOk) ∧
    load_by_id (e_hash E) parse (rt_layouts rt) id2 s2 = Opened f i ∧ inv_id i = id1 ∧ inv_head i = "v2" ∧
    load_by_id (e_hash E) parse (rt_layouts rt) id1 s2 = Opened f i.
Proof.
  assert (match load_by_id hexh jparse (rt_layouts omit) "y:1" (adds omit true true "y:1" t2 (adds omit false true "x:1" t1 ∅).1).1 with
          | Opened f i => bool_decide (inv_id i = "x:1") && bool_decide (inv_head i = "v2") | _ => false end = true) as H by (by vm_compute).
  destruct (load_by_id hexh jparse (rt_layouts omit) "y:1" (adds omit true true "y:1" t2 (adds omit false true "x:1" t1 ∅).1).1) as [f i|] eqn:E; [|discriminate H].
  apply andb_prop in H as [H1 H2]. apply bool_decide_eq_true in H1, H2.
  exists penv, jparse, omit, "x:1", "y:1", (adds omit false true "x:1" t1 ∅).1, (adds omit true true "y:1" t2 (adds omit false true "x:1" t1 ∅).1).1, f, i.
  split; [done|]. split; [done|]. split; [unfold adds; apply done_with; by vm_compute|].
  split; [unfold adds; apply done_with; by vm_compute|]. split; [exact E|]. split; [exact H1|]. split; [exact H2|exact E].
Qed.
(** A storage root of version 2.0: the object is declared with version 2.0, its inventory with version 1.0, and the validator does not
    object. *)
Definition two : root := the_root (build toy_hashes Flat) "2.0".
Theorem C59_version_refuted :
  ∃ E parse decode w lx rt s f i, rt_version rt = "2.0" ∧ (∀ i, decode (e_json E i) = Some (doc_of i)) ∧ vorder_ok w ∧
    add_object E parse rt [] [] "a" "a" dfl2 default_oracle default_oracle (req false true) (given [("content", t1)]) (HDone []) ∅ = (s, SOk) ∧
    load_by_id (e_hash E) parse (rt_layouts rt) "a" s = Opened f i ∧ is_Some (sub_files f s !! "0=ocfl_object_2.0") ∧
    inv_type i = "https://ocfl.io/1.0/spec/#inventory" ∧ validate_object (e_hash E) decode w lx (sub_files f s) = VDone [].
Proof.
  assert (match load_by_id hexh jparse (rt_layouts two) "a" (adds two false true "a" t1 ∅).1 with
          | Opened f i => bool_decide (is_Some (sub_files f (adds two false true "a" t1 ∅).1 !! "0=ocfl_object_2.0")) && bool_decide (inv_type i = "https://ocfl.io/1.0/spec/#inventory") &&
              match validate_object hexh jdecode wd lx0 (sub_files f (adds two false true "a" t1 ∅).1) with VDone [] => true | _ => false end
          | _ => false end = true) as H by (by vm_compute).
  destruct (load_by_id hexh jparse (rt_layouts two) "a" (adds two false true "a" t1 ∅).1) as [f i|] eqn:E; [|discriminate H].
  apply andb_prop in H as [H H3]. apply andb_prop in H as [H1 H2]. apply bool_decide_eq_true in H1, H2.
  destruct (validate_object hexh jdecode wd lx0 (sub_files f (adds two false true "a" t1 ∅).1)) as [[|]| |] eqn:Ev; [|discriminate H3..].
  exists penv, jparse, jdecode, wd, lx0, two, (adds two false true "a" t1 ∅).1, f, i.
  split; [done|]. split; [exact jdecode_ok|]. split; [exact wd_ok|]. split; [unfold adds; apply done_with; by vm_compute|]. split; [exact E|]. split; [exact H1|]. split; [exact H2|exact Ev].
Qed.
Print Assumptions C59_nested_refuted.
Print Assumptions C59_same_folder_refuted.
Print Assumptions C59_version_refuted.
