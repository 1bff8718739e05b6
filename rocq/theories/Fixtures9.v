(** Requests to a storage root for the examples of C59. *)
From Coq Require Import Ascii.
From stdpp Require Import base list strings gmap.
From Coq Require Import ZArith Lia.
From Verif Require Import GoStr PathModel InventoryModel ObjectModel InventorySpec ObjectSpec CrashSpec LoadModel PublishSpec Fixtures Fixtures2 Fixtures5 Fixtures8
  AreaModel AreaSpec IngestModel IngestSpec IngestProofs IngestProofs7 LayoutModel LayoutSpec RootModel RootAddModel RootAddSpec.

Definition the_root (l : string → pres) (version : string) : root := Root [l] version "sha512".
Definition new_of (rt : root) (id : string) : inventory := new_inventory id (inventory_type (rt_version rt)) (rt_alg rt) [].
(** A request for one folder. *)
Definition adds (rt : root) (echo dedup : bool) (id : string) (t : IngestModel.node) (s : storage) : storage * status :=
  add_object penv jparse rt [] [] id id dfl2 default_oracle default_oracle (req echo dedup) (given [("content", t)]) (HDone []) s.
Definition contents := gmap string (list storage).
Definition root_step (rt : root) (x : bool * bool * string * IngestModel.node) (c : contents * storage) : option (contents * storage) :=
  let '(echo, dedup, id, t) := x in
  let '(H, s) := c in
  let folders := [("content", t)] in
  let src := files_of folders "content" in
  match H !! id with
  | None =>
      if supportedb (new_of rt id) && request_okb penv (new_of rt id) (req echo dedup) folders then
        match adds rt echo dedup id t s with (s', SOk) => Some (<[id := [src]]> H, s') | _ => None end
      else None
  | Some (t0 :: ts) =>
      match load_by_id hexh jparse (rt_layouts rt) id s with
      | Opened f i =>
          if supportedb i && request_okb penv i (req echo dedup) folders then
            match adds rt echo dedup id t s with (s', SOk) => Some (<[id := area_after echo src t0 :: t0 :: ts]> H, s') | _ => None end
          else None
      | _ => None
      end
  | _ => None
  end.
Lemma root_step_true rt (ids : string → Prop) echo dedup id t H s H' s' : ids id → root_step rt (echo, dedup, id, t) (H, s) = Some (H', s') →
  root_request penv px "content" (λ _, True) jparse rt [] [] ids H s H' s' SOk.
Proof.
  intros Hid. unfold root_step. destruct (H !! id) as [[|t0 ts]|] eqn:EH; [done| |].
  - destruct (load_by_id _ _ _ _ _) as [f i|] eqn:El; [|done]. destruct (supportedb i) eqn:E3; [|done]. cbn [andb].
    destruct (request_okb _ _ _ _) eqn:E1; [|done]. destruct (adds rt echo dedup id t s) as [s1 []] eqn:E2; [|done..]. intros Heq.
    apply (inj Some) in Heq. pose proof (f_equal fst Heq) as Hq1. pose proof (f_equal snd Heq) as Hq2. cbn [fst snd] in Hq1, Hq2. subst H' s'. clear Heq.
    pose proof (okb_good _ _ _ _ E1) as Hf.
    eapply (request_next penv px "content" _ jparse rt [] [] ids H s id t0 ts f i dfl2 default_oracle default_oracle (req echo dedup) [("content", t)]).
    + exact Hid.
    + exact EH.
    + exact El.
    + by apply supportedb_env.
    + exact dfl2_ok.
    + exact dflt_ok.
    + apply request_okb_true; [exact E1|]. apply (plain_placed penv px _ _ penv_paths). apply (proj1 (folders_okb_true _ Hf) "content"). left.
    + by apply hexh_no_clashes.
    + exact (plain_served _ _ _ _ _ penv_paths).
    + exact (plain_deletes _ _ _ _ _ penv_paths).
    + by apply files_of_true.
    + done.
    + exact E2.
  - destruct (supportedb (new_of rt id)) eqn:E3; [|done]. cbn [andb].
    destruct (request_okb _ _ _ _) eqn:E1; [|done]. destruct (adds rt echo dedup id t s) as [s1 []] eqn:E2; [|done..]. intros Heq.
    apply (inj Some) in Heq. pose proof (f_equal fst Heq) as Hq1. pose proof (f_equal snd Heq) as Hq2. cbn [fst snd] in Hq1, Hq2. subst H' s'. clear Heq.
    pose proof (okb_good _ _ _ _ E1) as Hf.
    eapply (request_new penv px "content" _ jparse rt [] [] ids H s id _ dfl2 default_oracle default_oracle (req echo dedup) [("content", t)]).
    + exact Hid.
    + exact EH.
    + reflexivity.
    + by apply (supportedb_env penv (new_of rt id)).
    + exact dfl2_ok.
    + exact dflt_ok.
    + apply request_okb_true; [exact E1|]. apply (plain_placed penv px _ _ penv_paths). apply (proj1 (folders_okb_true _ Hf) "content"). left.
    + by apply hexh_no_clashes.
    + exact (plain_served _ _ _ _ _ penv_paths).
    + by apply files_of_true.
    + done.
    + exact E2.
Qed.
Definition root_steps (rt : root) (s0 : storage) (l : list (bool * bool * string * IngestModel.node)) : option (contents * storage) :=
  foldl (λ c x, c ≫= root_step rt x) (Some (∅, s0)) l.
Lemma root_steps_true rt (ids : string → Prop) s0 l H s : (∀ x, x ∈ l → ids x.1.2) → root_steps rt s0 l = Some (H, s) →
  root_history penv px "content" (λ _, True) jparse rt [] [] ids s0 H s.
Proof.
  intros Hl. unfold root_steps. revert H s. induction l as [|x l IH] using rev_ind; intros H s.
  - cbn. intros Heq. apply (inj Some) in Heq. pose proof (f_equal fst Heq) as Hq1. pose proof (f_equal snd Heq) as Hq2. cbn [fst snd] in Hq1, Hq2. subst. constructor.
  - rewrite foldl_app. cbn [foldl]. destruct (foldl _ _ l) as [[H1 s1]|] eqn:E; [|done]. cbn [mbind option_bind]. intros Hs.
    econstructor; [apply (IH (λ y Hy, Hl y (proj2 (elem_of_app _ _ _) (or_introl Hy))) H1 s1); reflexivity|]. destruct x as [[[echo dedup] id] t].
    eapply root_step_true; [|exact Hs]. apply (Hl (echo, dedup, id, t)), elem_of_app. right. left.
Qed.
