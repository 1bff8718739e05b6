(** Storage roots that were filled by requests: the objects of a history have the files that a validation of the whole root expects. *)
From Coq Require Import Ascii.
From stdpp Require Import base list strings gmap.
From Coq Require Import ZArith Lia.
From Verif Require Import GoStr PathModel InventoryModel ObjectModel InventorySpec ObjectSpec CrashSpec PathProofs AreaModel AreaProofs LoadModel PublishSpec PublishProofs PublishProofs2 PublishProofs3 PublishProofs4 IngestModel IngestSpec IngestProofs6
  ValidateModel ValidateSpec CheckModel AcceptSpec
  LayoutModel LayoutSpec RootModel RootSpec RootProofs RootAddModel RootAddSpec RootAddProofs RootAddProofs2 RootCheckModel RootCheckSpec RootCheckProofs RootCheckProofs2 RootFillSpec RootFillProofs
  RootFillProofs2.

Lemma version_name_v (i : inventory) k : ∃ r, version_name (inv_padding i) k = String "v" r.
Proof. unfold version_name. case_decide; eexists; reflexivity. Qed.
Lemma closed_shaped E v t i n fam : v = "1.0" ∨ v = "1.1" → inv_alg i = "sha512" ∨ inv_alg i = "sha256" → decl_ok v t → closed E t i n fam → shaped v t.
Proof.
  intros Hv Ha Hd Hc. destruct (closed_top E v t i n fam Hv Hd Hc) as [_ Ht]. split; [done| |].
  - intros p x Hp Hsl. destruct (Ht p x Hp) as [H|[-> |[-> |H]]]; [congruence|by right| |by left]. right. by destruct Ha as [-> | ->].
  - intros p x Hp Hsl.
    destruct (kp_files _ _ _ _ _ _ (cl_kept _ _ _ _ _ Hc) p x Hp) as [H|[[r ->]|[[r ->]|[(k & _ & H)|(k & r & _ & ->)]]]].
    + exfalso. revert Hsl. rewrite !elem_of_cons, elem_of_nil in H. destruct H as [-> |[-> |[-> |[-> |[]]]]]; try done. by destruct Ha as [-> | ->].
    + right. right. by exists r.
    + right. left. by exists r.
    + left. destruct (version_name_v i k) as [r Hr]. destruct H as [-> | ->]; unfold vfile; rewrite Hr; by eexists.
    + left. destruct (version_name_v i k) as [r' Hr]. unfold cpath. rewrite Hr. by eexists.
Qed.
Lemma history_dom E X area P parse rt fixalgs allowed ids s0 H s id ts : root_history E X area P parse rt fixalgs allowed ids s0 H s → H !! id = Some ts → ids id.
Proof.
  induction 1 as [|H s H' s' st _ IH Hq]; [by rewrite lookup_empty|]. inversion Hq; subst; rewrite lookup_insert_Some; intros [[<- _]|[_ ?]]; auto.
Qed.

Section history.
  Context (E : env) (X : AreaModel.xenv) (area : string) (P : inventory → Prop) (parse : string → option inventory).
  Context (rt : root) (fixalgs allowed : list string) (ids : string → Prop) (s0 : storage).
  Context (Hhex : hex_hash (e_hash E)) (Hj : json_ok P (e_json E) parse) (Hx : ∀ f b, (f, b) ∈ e_ext_files E → clean_rel f).
  Context (Hr : proper_root rt fixalgs allowed ids s0).
  Context (H : gmap string (list storage)) (s : storage) (Hh : root_history E X area P parse rt fixalgs allowed ids s0 H s).
  Context (tr : list (string * RootModel.node)) (Hfree : extensions_free rt ids) (Hst : started (rt_version rt) s0) (Hls : lists tr s).

  Lemma history_shaped id f : ids id → root_path (rt_layouts rt) id = Some (f, false) →
    match H !! id with None => sub_files f s = ∅ | Some _ => shaped (rt_version rt) (sub_files f s) end.
  Proof using Hhex Hj Hx Hr Hh.
    intros Hid Hf. destruct (history_ok E X area P parse rt fixalgs allowed ids s0 Hhex Hj Hx Hr H s Hh) as [H1 _]. specialize (H1 id f Hid Hf).
    destruct (H !! id) as [ts|]; [|done]. destruct H1 as (i & i2 & Harch & _ & Hal & _ & _ & Hd & _).
    destruct (archived_result E X area P parse ts _ i Hhex Hj Harch) as (_ & _ & n & fam & Hc & _).
    eapply closed_shaped; [apply Hr| |exact Hd|exact Hc]. rewrite Hal. apply Hr.
  Qed.
  Lemma history_out p : (∀ id f, ids id → root_path (rt_layouts rt) id = Some (f, false) → ¬ inside f p) → s !! p = s0 !! p.
  Proof using Hhex Hj Hx Hr Hh. apply (history_ok E X area P parse rt fixalgs allowed ids s0 Hhex Hj Hx Hr H s Hh). Qed.
  Lemma history_in id ts : H !! id = Some ts → ids id.
  Proof using Hh. by eapply history_dom. Qed.
  Lemma history_found p : (∃ l, object_dir tr p l) ↔ ∃ id ts, H !! id = Some ts ∧ root_path (rt_layouts rt) id = Some (p, false).
  Proof using Hhex Hj Hx Hr Hh Hfree Hst Hls.
    pose proof (object_dir_occ rt ids s0 H s tr (pr_version _ _ _ _ _ Hr) (pr_apart _ _ _ _ _ Hr) Hfree Hst Hls history_in history_shaped history_out p) as Ho. split.
    - intros [l [(id & ts & Hf & HH) _]%Ho]. by exists id, ts.
    - intros (id & ts & HH & Hf). assert (occ rt H p) as Hocc by (by exists id, ts).
      destruct (object_dirs rt ids H s tr (pr_apart _ _ _ _ _ Hr) Hls history_in history_shaped p Hocc) as [l Hl]. exists l. by apply Ho.
  Qed.
  Lemma history_tidy : tidy_root tr.
  Proof using Hhex Hj Hx Hr Hh Hst Hls.
    exact (root_tidy rt ids s0 H s tr (pr_version _ _ _ _ _ Hr) (pr_apart _ _ _ _ _ Hr) Hst Hls history_in history_shaped history_out).
  Qed.
  Lemma history_good hash decode w lx create : (∀ e, extensions_of tr e → managed create e ∧ ∀ name, ¬ unknown create e name) →
    (∀ p l e, object_dir tr p l → extensions_of l e → managed create e) →
    (∀ id ts f, H !! id = Some ts → root_path (rt_layouts rt) id = Some (f, false) → only_warnings (validate_object hash decode w lx (sub_files f s))) →
    ∃ fs, validate_root hash decode w lx create tr = RDone fs ∧ ∀ x, x ∈ fs → warning (snd x).
  Proof using Hhex Hj Hx Hr Hh Hfree Hst Hls.
    exact (fill_good rt ids s0 H s tr (pr_version _ _ _ _ _ Hr) (pr_apart _ _ _ _ _ Hr) Hfree Hst Hls history_in history_shaped history_out hash decode w lx create).
  Qed.
End history.

(** Init of a storage root. *)
Lemma init_started v others s : (∀ p data, (p, data) ∈ others → inside "extensions" p ∨ str_mem slash p = false ∧ str_mem "="%char p = false) →
  root_init v others ∅ = (s, SOk) → started v s.
Proof.
  intros Ho. unfold root_init. rewrite map_to_list_empty. intros [= <-]. change ("0=ocfl_" +:+ v) with (declaration "ocfl_" v).
  assert (started v (<[declaration "ocfl_" v := "ocfl_" +:+ v +:+ String "010" ""]> ∅)) as Hs.
  { split; [by rewrite lookup_insert|]. intros p data. rewrite lookup_insert_Some, lookup_empty. intros [[<- _]|[_ ?]]; [by left|done]. }
  revert Hs. generalize (<[declaration "ocfl_" v := "ocfl_" +:+ v +:+ String "010" ""]> ∅ : storage). induction others as [|[q d] others IH]; intros t Hs; [done|]. cbn [foldl fst snd].
  apply IH; [intros p data Hi; apply (Ho p data); by apply elem_of_list_further|]. pose proof (Ho q d ltac:(apply elem_of_list_here)) as Hq. split.
  - rewrite lookup_insert_ne; [apply Hs|]. intros ->. destruct Hq as [[r E]|[_ E]]; [|unfold declaration in E; by rewrite !str_mem_app in E]. discriminate E.
  - intros p data. rewrite lookup_insert_Some. intros [[<- _]|[_ Hp]]; [by right|by apply Hs with data].
Qed.
