(** Hooks for the examples of C55 and C56. *)
From Coq Require Import Ascii.
From stdpp Require Import base list strings gmap.
From Coq Require Import ZArith Lia.
From Verif Require Import GoStr PathModel InventoryModel ObjectModel InventorySpec ObjectSpec CrashSpec LoadModel ValidateModel PublishSpec AreaModel AreaSpec IngestModel IngestSpec
  HookSpec Fixtures Fixtures2 Fixtures5 Fixtures8 Fixtures10.

(** Finite versions of the hypotheses on hooks. *)
Section hooks.
  Context (E : env) (g : sop → object → bool).
  Definition after_okb (r : object * status) (k : object → bool) : bool := match r with (o, SOk) => k o | _ => true end.
  Fixpoint sopsb (ops : list hcall) (o : object) : bool :=
    match ops with
    | [] => true
    | HCall orc op :: ops' => g op o && after_okb (sop_step E orc op o) (sopsb ops')
    | HTry orc op :: ops' => g op o && match sop_step E orc op o with (_, SPanic) => true | (o', _) => sopsb ops' o' end
    | HFail _ :: _ => true
    end.
  Fixpoint endb (orc : oracle) (h : hooks) (o : object) : bool :=
    let after := match h with HDone a => a | HMore a _ _ _ => a end in
    after_okb (if ob_echo o then ob_echo_delete E orc o else (o, SOk)) (λ o1,
      sopsb after o1 &&
      after_okb (sops_run E after o1) (λ o2,
      after_okb (store_inventory E true false o2) (λ o3,
        match h with
        | HDone _ => true
        | HMore _ now auto rest =>
            after_okb (ob_start now "automated version" "gocfl" "https://github.com/je4/gocfl" false o3) (λ o4,
              sopsb auto o4 && after_okb (sops_run E auto o4) (endb (shift_oracle orc) rest))
        end))).
  Context (G : oracle → sop → object → Prop) (HG : ∀ op o, g op o = true → G dflt op o).
  Lemma sopsb_true ops o : Forall (all_hcall (λ orc _, orc = dflt)) ops → sopsb ops o = true → guarded_sops E G ops o.
  Proof using HG.
    intros Ha. revert o. induction Ha as [|c ops Hc Ha IH]; intros o; [done|]. destruct c as [orc op|orc op|msg]; cbn [sopsb guarded_sops all_hcall] in *; [| |done];
      subst orc; intros [H1 H2]%andb_prop; (split; [by apply HG|]).
    - unfold after_okb in H2. unfold after_ok. destruct (sop_step E dflt op o) as [o' []]; auto.
    - destruct (sop_step E dflt op o) as [o' []]; auto.
  Qed.
  Lemma endb_true h orc o : all_hooks (λ orc _, orc = dflt) h → endb orc h o = true → guarded_end E G (λ _, True) orc h o.
  Proof using HG.
    revert orc o. induction h as [a|a now b rest IH]; intros orc o; cbn [all_hooks endb guarded_end]; unfold after_okb, after_ok.
    - intros Ha H. split; [done|]. destruct (if ob_echo o then _ else _) as [o1 []]; [|done..]. apply andb_prop in H as [H1 H2]. split; [by apply sopsb_true|].
      destruct (sops_run E a o1) as [o2 []]; [|done..]. by destruct (store_inventory E true false o2) as [o3 []].
    - intros (Ha & Hb & Hr) H. split; [done|]. destruct (if ob_echo o then _ else _) as [o1 []]; [|done..]. apply andb_prop in H as [H1 H2]. split; [by apply sopsb_true|].
      destruct (sops_run E a o1) as [o2 []]; [|done..]. destruct (store_inventory E true false o2) as [o3 []]; [|done..].
      destruct (ob_start _ _ _ _ _ o3) as [o4 []]; [|done..]. apply andb_prop in H2 as [H2 H3]. split; [by apply sopsb_true|].
      destruct (sops_run E b o4) as [o5 []]; [|done..]. by apply IH.
  Qed.
  Definition hooksb (r : request) (folders : list (string * node)) (h : hooks) (i : inventory) : bool :=
    match ob_start (rq_now r) (rq_msg r) (rq_name r) (rq_addr r) (rq_echo r) (open_object i) with
    | (o1, SOk) => match add_folders E dfl2 0 (rq_dedup r) (given folders) o1 with (o2, SOk) => endb default_oracle h o2 | _ => true end
    | _ => true
    end.
  Lemma hooksb_true r folders h i : all_hooks (λ orc _, orc = dflt) h → hooksb r folders h i = true → hooks_satisfy E G dfl2 default_oracle r folders h i.
  Proof using HG.
    intros Ha H o1 o2 H1 H2. unfold hooksb in H. rewrite H1, H2 in H. by apply endb_true.
  Qed.
End hooks.
Definition collisionb (E : env) (op : sop) (o : object) : bool :=
  let c := now_listed (ob_inv o) in
  match op with
  | SAdd data path area true =>
      match e_state_path E path area, e_hash E (inv_alg (ob_inv o)) data with
      | Some np, Some d => forallb (λ e : string * string, bool_decide (e.1 ≠ np) || bool_decide (e.2 = d)) c
      | _, _ => true
      end
  | SRename a b _ => forallb (λ e : string * string, bool_decide (e.1 ≠ b)) c
  | SCopy b d => forallb (λ e : string * string, bool_decide (e.1 ≠ b) || bool_decide (e.2 = d)) c
  | _ => true
  end.
Definition orderlyb (E : env) (op : sop) (o : object) : bool := guardb E op o && collisionb E op o.
Lemma orderlyb_true E op o : orderlyb E op o = true → orderly E dflt op o.
Proof.
  intros [H1 H2]%andb_prop. split; [by apply guardb_true|]. split; [exact dflt_ok|].
  destruct op as [data path area [|]|data files area|f old|a b old|b d]; try done; cbn [collisionb] in H2.
  - intros np d e Hs Hh Hc%now_spec. rewrite Hs, Hh, forallb_forall in H2. apply elem_of_list_In, H2 in Hc. cbn [fst snd] in Hc.
    apply orb_prop in Hc as [Hc|Hc]; by apply bool_decide_eq_true in Hc.
  - right. intros e Hc%now_spec. rewrite forallb_forall in H2. apply elem_of_list_In, H2 in Hc. by apply bool_decide_eq_true in Hc.
  - intros e Hc%now_spec. rewrite forallb_forall in H2. apply elem_of_list_In, H2 in Hc. cbn [fst snd] in Hc.
    apply orb_prop in Hc as [Hc|Hc]; by apply bool_decide_eq_true in Hc.
Qed.
Definition touched (E : env) (op : sop) : list string :=
  match op with
  | SAdd _ path area _ => match e_state_path E path area with Some np => [np] | None => [] end
  | SAddReader _ files area => flat_map (λ f, match e_state_path E f area with Some np => [np] | None => [] end) files
  | SDelete f _ => [f]
  | SRename a b _ => [a; b]
  | SCopy dst _ => [dst]
  end.
Lemma touched_spec E op np : touches E op np → np ∈ touched E op.
Proof.
  destruct op as [data path area dd|data files area|f old|a b old|b d]; cbn [touches touched].
  - intros ->. by apply elem_of_list_singleton.
  - intros (f & Hf & Hs). apply elem_of_list_In, in_flat_map. exists f. split; [by apply elem_of_list_In|]. rewrite Hs. by left.
  - intros ->. by apply elem_of_list_singleton.
  - intros [-> | ->]; [left|right; left].
  - intros ->. by apply elem_of_list_singleton.
Qed.
(** The places that may change are in the list. *)
Definition staysb (E : env) (X : AreaModel.xenv) (area : string) (l : list string) (op : sop) (o : object) : bool :=
  forallb (λ np, match x_path X np area with XPath q => bool_decide (q ∈ l) | _ => true end) (touched E op).
Lemma staysb_true E X area l op o : staysb E X area l op o = true → stays_in E X area (λ q, q ∈ l) dflt op o.
Proof.
  unfold staysb. rewrite forallb_forall. intros H np q Ht%touched_spec Hq. apply elem_of_list_In, H in Ht. rewrite Hq in Ht. by apply bool_decide_eq_true in Ht.
Qed.
Lemma staysb_nil E X area op o : staysb E X area [] op o = true → stays_in E X area (λ _, False) dflt op o.
Proof. intros H np q Ht Hq. apply (staysb_true _ _ _ _ _ _ H np q Ht) in Hq. by apply elem_of_nil in Hq. Qed.

Definition retrievableb (X : AreaModel.xenv) (area : string) (i : inventory) : bool :=
  let c := now_listed i in
  forallb (λ e : string * string,
    match x_path X e.1 area with
    | XErr => false
    | XWrongArea => forallb (λ f : string * string, bool_decide (f.2 ≠ e.2) || match x_path X f.1 area with XWrongArea => true | _ => false end) c
    | XPath q => forallb (λ f : string * string, bool_decide (f.1 = e.1) || match x_path X f.1 area with XPath q' => bool_decide (q' ≠ q) | _ => true end) c
    end) c.
Lemma retrievableb_true X area i : retrievableb X area i = true → retrievable X area i.
Proof.
  unfold retrievableb. rewrite forallb_forall. intros H. split.
  - intros np d Hc%now_spec Hx. apply elem_of_list_In, H in Hc. cbn [fst] in Hc. by rewrite Hx in Hc.
  - intros np np' d Hc%now_spec Hc'%now_spec Hx. apply elem_of_list_In, H in Hc. cbn [fst snd] in Hc. rewrite Hx, forallb_forall in Hc.
    apply elem_of_list_In, Hc in Hc'. cbn [fst snd] in Hc'. apply orb_prop in Hc' as [Hd|Hd]; [by apply bool_decide_eq_true in Hd|]. by destruct (x_path X np' area).
  - intros np np' d d' q Hc%now_spec Hc'%now_spec Hx Hx'. apply elem_of_list_In, H in Hc. cbn [fst snd] in Hc. rewrite Hx, forallb_forall in Hc.
    apply elem_of_list_In, Hc in Hc'. cbn [fst snd] in Hc'. rewrite Hx' in Hc'. apply orb_prop in Hc' as [Hd|Hd]; by apply bool_decide_eq_true in Hd.
Qed.

(** The README file of the content-subpath extension, and an extension that opens another version and stores a converted file in it. *)
Definition call (op : sop) : hcall := HCall default_oracle op.
Definition readme (x : string) : hooks := HDone [call (SAddReader x ["README.md"] "full")].
Definition converting (old digest name data : string) : hooks :=
  HMore [call (SAddReader "readme" ["README.md"] "full")] "2024-01-02T00:00:00Z" [HTry default_oracle (SAddReader data [name] "content"); call (SDelete old digest)] (HDone []).
Definition ingested_by (E : env) (h : hooks) (r : request) (folders : list (string * option node)) (i : inventory) : option object :=
  match ingest E dfl2 default_oracle default_oracle r folders h (open_object i) with (o, SOk) => Some o | _ => None end.
Lemma ingested_by_true E h r folders i o : ingested_by E h r folders i = Some o → ingest E dfl2 default_oracle default_oracle r folders h (open_object i) = (o, SOk).
Proof. unfold ingested_by. destruct (ingest _ _ _ _ _ _ _ _) as [o' []]; [|done..]. by intros [= ->]. Qed.
