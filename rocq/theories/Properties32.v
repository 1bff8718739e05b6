(** Requests made again after interrupted attempts: C76. *)
From Coq Require Import Ascii.
From stdpp Require Import base list strings gmap.
From Coq Require Import ZArith Lia.
From Verif Require Import GoStr PathModel InventoryModel ObjectModel InventorySpec ObjectSpec CrashSpec CrashProofs LoadModel ValidateModel ValidateSpec CheckModel PublishSpec PublishProofs2 AreaModel AreaSpec
  IngestModel IngestSpec IngestProofs6 IngestProofs7 LayoutModel LayoutSpec RootModel RootAddModel RetrySpec RetryProofs Fixtures Fixtures2 Fixtures3 Fixtures5 Fixtures8 Fixtures9.
From Verif Require SessionProofs Properties11 Properties16 Properties4 Properties18 Properties31.

(** * C76: a request can be made again after attempts that failed or were interrupted *)

(** Any number of attempts to store the folders, each of which fails at files that cannot be opened or stops at any moment.  Afterwards the
    request succeeds, and it leaves the very same files as without the attempts; so the areas hold what C56 says.  Partial: the conditions of C56,
    and the attempts were made for the same folders in the same order; this is needed, see below. *)
Theorem C76_retry_partial E P parse X s s1 i0 i orcs orc1 orc2 r folders :
  hex_hash (e_hash E) → json_ok P (e_json E) parse → published E P parse s i0 → load_inventory (e_hash E) parse s "" = LInv i [] → supported E i →
  unique_states i → (∀ j k, oracle_ok (orcs j k)) → oracle_ok orc1 → proper_request E i r folders → no_clashes E (inv_alg i) s folders →
  interrupted E parse i (rq_dedup r) folders s s1 →
  ∃ o, ingest E orcs orc1 orc2 r (given folders) (HDone []) (open_object i) = (o, SOk) ∧
    apply_evs (ob_trace o) s1 = apply_evs (ob_trace o) s ∧
    (P (ob_inv o) → let s' := apply_evs (ob_trace o) s1 in
      published E P parse s' (ob_inv o) ∧ ∃ i', load_inventory (e_hash E) parse s' "" = LInv i' [] ∧ unique_states i' ∧
      ∀ area src orc del, served E X area i folders → folder_of folders area src → deletes E X area i (rq_echo r) del → oracle_ok orc →
        ∃ before, extract X orc i s "latest" false area ∅ = (before, SOk) ∧
          extract X orc i' s' "latest" false area ∅ = (area_after del src before, SOk)).
Proof.
  intros Hhex Hj Hp Hl Hsup Hu Horcs Horc1 Hq Hno Hint.
  destruct (Properties16.C56_update_partial E P parse X s i0 i orcs orc1 orc2 r folders Hhex Hj Hp Hl Hsup Hu Horcs Horc1 Hq Hno) as (o & Hi & Hres).
  destruct (loaded_kept _ _ _ _ _ _ Hhex Hj Hp Hl) as (n & fam & _ & Hk).
  assert (apply_evs (ob_trace o) s1 = apply_evs (ob_trace o) s) as Hs.
  { destruct Hq as [Hnd Hg Hpl Had Hch _].
    exact (retry_same E Hhex s i n fam Hk Hsup Hu folders (rq_dedup r) Hpl Had Hg Hnd parse orcs orc1 orc2 r o s s1 Horcs Horc1 eq_refl Hch Hi Hint). }
  exists o. split; [exact Hi|]. split; [exact Hs|]. rewrite Hs. exact Hres.
Qed.

(** An object with one version, opened again, and an attempt that is made for a folder. *)
Definition kept1 : option (storage * inventory * inventory) :=
  match arch1 with Some (_, s, i0) => match loadb jparse s with Some i => if supportedb i then Some (s, i0, i) else None | None => None end | None => None end.
Lemma kept1_true s i0 i : kept1 = Some (s, i0, i) →
  published penv (λ _, True) jparse s i0 ∧ load_inventory hexh jparse s "" = LInv i [] ∧ supported penv i ∧ unique_states i.
Proof.
  unfold kept1. destruct arch1 as [[[ts s'] i0']|] eqn:E1; [|done]. destruct (loadb jparse s') as [i'|] eqn:E2; [|done]. destruct (supportedb i') eqn:E3; [|done].
  intros [= <- <- <-]. apply arch1_archived in E1. apply loadb_true in E2.
  destruct (archived_result penv px "content" _ jparse ts s' i0' hexh_ok jjson_ok E1) as (Hp & Hu & _).
  split; [exact Hp|]. split; [exact E2|]. split; [exact (supportedb_env penv i' eq_refl E3)|].
  exact (unique_same _ _ (loaded_same penv _ _ _ _ _ hexh_ok jjson_ok Hp E2) Hu).
Qed.
Definition attempt (E : env) (r : request) (i : inventory) (folders : list (string * IngestModel.node)) : object * status :=
  ingest E dfl2 default_oracle default_oracle r (given folders) (HDone []) (open_object i).
Lemma attempt_interrupted E r i folders folders1 s s1 s2 :
  load_inventory (e_hash E) jparse s "" = LInv i [] → Forall2 (λ f f1 : string * IngestModel.node, f1.1 = f.1 ∧ hidden f.2 f1.2) folders folders1 →
  crash s (ob_trace (attempt E r i folders1).1) s1 → interrupted E jparse i (rq_dedup r) folders s1 s2 → interrupted E jparse i (rq_dedup r) folders s s2.
Proof. intros Hl Hf Hc Hi. exact (interrupted_once E jparse i (rq_dedup r) folders s s1 s2 dfl2 default_oracle default_oracle r folders1 Hl dfl2_ok dflt_ok eq_refl Hf Hc Hi). Qed.
(** In the first attempt the file d/e cannot be opened; the second one stops while it writes a. *)
Definition t2_closed : IngestModel.node := NDir true [("a", F "A2"); ("d", NDir true [("b", F "B"); ("e", NFile None)])].
Lemma t2_hidden : Forall2 (λ f f1 : string * IngestModel.node, f1.1 = f.1 ∧ hidden f.2 f1.2) [("content", t2)] [("content", t2_closed)].
Proof. repeat constructor. Qed.
Lemma t2_proper i r : request_okb penv i r [("content", t2)] = true → proper_request penv i r [("content", t2)].
Proof. intros H. apply request_okb_true; [exact H|]. apply (plain_placed penv px _ _ penv_paths). apply (proj1 (folders_okb_true [("content", t2)] eq_refl) "content"). left. Qed.
Definition twice : option (storage * inventory * inventory * storage) :=
  match kept1 with
  | Some (s, i0, i) =>
      let s1 := apply_evs (ob_trace (attempt penv (req true true) i [("content", t2_closed)]).1) s in
      match loadb jparse s1 with
      | Some i1 => if request_okb penv i (req true true) [("content", t2)] && bool_decide (inv_head i1 = inv_head i ∧ s1 !! "v2/content/a" = Some "A2") then Some (s, i0, i, s1) else None
      | None => None
      end
  | None => None
  end.
Lemma twice_true s i0 i s1 : twice = Some (s, i0, i, s1) →
  published penv (λ _, True) jparse s i0 ∧ load_inventory hexh jparse s "" = LInv i [] ∧ supported penv i ∧ unique_states i ∧
  proper_request penv i (req true true) [("content", t2)] ∧ s1 !! "v2/content/a" = Some "A2" ∧
  crash s (ob_trace (attempt penv (req true true) i [("content", t2_closed)]).1) s1.
Proof.
  unfold twice. destruct kept1 as [[[s' i0'] i']|] eqn:E1; [|done]. cbv zeta. destruct (loadb jparse _) as [i1|] eqn:E2; [|done].
  destruct (request_okb penv i' _ _) eqn:E3; [|done]. cbn [andb]. destruct (bool_decide _) eqn:E4; [|done]. apply bool_decide_eq_true in E4 as [_ E4]. intros [= <- <- <- <-].
  destruct (kept1_true _ _ _ E1) as (H1 & H2 & H3 & H4). split; [exact H1|]. split; [exact H2|]. split; [exact H3|]. split; [exact H4|]. split; [exact (t2_proper _ _ E3)|].
  split; [exact E4|]. apply crash_all.
Qed.
Example C76_example :
  ∃ s s1 s2 i0 i o, hex_hash (e_hash penv) ∧ json_ok (λ _, True) (e_json penv) jparse ∧ published penv (λ _, True) jparse s i0 ∧ load_inventory hexh jparse s "" = LInv i [] ∧
    supported penv i ∧ unique_states i ∧ proper_request penv i (req true true) [("content", t2)] ∧ no_clashes penv (inv_alg i) s [("content", t2)] ∧
    interrupted penv jparse i true [("content", t2)] s s2 ∧ interrupted penv jparse i true [("content", t2)] s s1 ∧
    s1 !! "v2/content/a" = Some "A2" ∧ s2 !! "v2/content/a" = Some "A" ∧ s !! "v2/content/a" = None ∧
    ingest penv dfl2 default_oracle default_oracle (req true true) (given [("content", t2)]) (HDone []) (open_object i) = (o, SOk) ∧
    extract px default_oracle (ob_inv o) (apply_evs (ob_trace o) s2) "latest" false "content" ∅ = ({[ "a" := "A2"; "d/b" := "B"; "d/e" := "C" ]}, SOk).
Proof.
  assert (match twice with
          | Some (s, i0, i, s1) =>
              let s2 := apply_ev (EAppend "v2/content/a" "A") (apply_ev (ECreate "v2/content/a") s1) in
              bool_decide (s1 !! "inventory.json" = s !! "inventory.json" ∧ s1 !! "inventory.json.sha512" = s !! "inventory.json.sha512" ∧ inv_alg i = "sha512") &&
              bool_decide (s2 !! "v2/content/a" = Some "A" ∧ s !! "v2/content/a" = None) &&
              (match ob_trace (attempt penv (req true true) i [("content", t2)]).1 with ECreate p :: EAppend q b :: _ => bool_decide (p = "v2/content/a" ∧ q = "v2/content/a" ∧ b = "A2") | _ => false end) &&
              match ingested penv (req true true) (given [("content", t2)]) i with
              | Some o => yields (extract px default_oracle (ob_inv o) (apply_evs (ob_trace o) s2) "latest" false "content" ∅) {[ "a" := "A2"; "d/b" := "B"; "d/e" := "C" ]}
              | None => false
              end
          | None => false end = true) as H by (by vm_compute).
  destruct twice as [[[[s i0] i] s1]|] eqn:E; [|discriminate H]. cbv zeta in H. apply andb_prop in H as [H H4]. apply andb_prop in H as [H H3]. apply andb_prop in H as [H1 H2].
  destruct (ingested penv (req true true) (given [("content", t2)]) i) as [o|] eqn:E3; [|discriminate H4]. apply bool_decide_eq_true in H1, H2.
  destruct (twice_true _ _ _ _ E) as (P1 & P2 & P3 & P4 & P5 & P6 & P7).
  assert (load_inventory hexh jparse s1 "" = LInv i []) as Hl1.
  { apply (SessionProofs.load_same hexh jparse s s1 i []); [exact P2|]. destruct H1 as (Ha & Hb & ->). exact (f_equal2 pair Ha Hb). }
  exists s, s1, (apply_ev (EAppend "v2/content/a" "A") (apply_ev (ECreate "v2/content/a") s1)), i0, i, o.
  split; [exact hexh_ok|]. split; [exact jjson_ok|]. split; [exact P1|]. split; [exact P2|]. split; [exact P3|]. split; [exact P4|]. split; [exact P5|].
  split; [exact (hexh_no_clashes penv _ _ _ eq_refl)|].
  assert (Forall2 (λ f f1 : string * IngestModel.node, f1.1 = f.1 ∧ hidden f.2 f1.2) [("content", t2)] [("content", t2)]) as Hsame by (repeat constructor).
  split.
  { apply (attempt_interrupted penv (req true true) i _ _ s s1 _ P2 t2_hidden P7).
    apply (attempt_interrupted penv (req true true) i _ _ s1 (apply_ev (EAppend "v2/content/a" "A") (apply_ev (ECreate "v2/content/a") s1)) _ Hl1 Hsame); [|constructor].
    destruct (ob_trace (attempt penv (req true true) i [("content", t2)]).1) as [|[p|p b] [|[q|q b'] l]]; [discriminate H3|discriminate H3|discriminate H3| |discriminate H3|discriminate H3|discriminate H3].
    apply bool_decide_eq_true in H3 as (-> & -> & ->). apply crash_step. exact (crash_torn _ "v2/content/a" "A" "2" l). }
  split. { apply (attempt_interrupted penv (req true true) i _ _ s s1 _ P2 t2_hidden P7). constructor. }
  split; [exact P6|]. split; [exact (proj1 H2)|]. split; [exact (proj2 H2)|]. split; [exact (ingested_true _ _ _ _ _ E3)|exact (yields_true _ _ H4)].
Qed.
Print Assumptions C76_retry_partial.

Lemma penv_faithful : Properties11.faithful penv jparse jdecode.
Proof. split; [exact hexh_ok|]. split; [exact jjson_ok|exact jdecode_ok]. Qed.
(** Between the attempts the object is not valid: the folder of the version that nobody published is left in it. *)
Theorem C76_left_over_refuted :
  ∃ E parse decode w lx s s1 i0 i r folders fs, Properties11.faithful E parse decode ∧ vorder_ok w ∧ published E (λ _, True) parse s i0 ∧
    load_inventory (e_hash E) parse s "" = LInv i [] ∧ supported E i ∧ unique_states i ∧ proper_request E i r folders ∧ interrupted E parse i (rq_dedup r) folders s s1 ∧
    validate_object (e_hash E) decode w lx s = VDone [] ∧ validate_object (e_hash E) decode w lx s1 = VDone fs ∧ reported fs "E046".
Proof.
  assert (match twice with
          | Some (s, _, _, s1) => match validate_object hexh jdecode wd lx0 s with VDone [] => true | _ => false end && Properties31.finding (validate_object hexh jdecode wd lx0 s1) "E046"
          | None => false end = true) as H by (by vm_compute).
  destruct twice as [[[[s i0] i] s1]|] eqn:E; [|discriminate H]. apply andb_prop in H as [H1 H2]. apply Properties31.finding_true in H2 as (fs & H2 & H3).
  destruct (twice_true _ _ _ _ E) as (P1 & P2 & P3 & P4 & P5 & P6 & P7).
  exists penv, jparse, jdecode, wd, lx0, s, s1, i0, i, (req true true), [("content", t2)], fs.
  split; [exact penv_faithful|]. split; [exact wd_ok|]. split; [exact P1|]. split; [exact P2|]. split; [exact P3|]. split; [exact P4|]. split; [exact P5|].
  split; [apply (attempt_interrupted penv (req true true) i _ _ s s1 _ P2 t2_hidden P7); constructor|]. split; [|exact (conj H2 H3)].
  change (e_hash penv) with hexh. destruct (validate_object hexh jdecode wd lx0 s) as [[|]| |]; [reflexivity|discriminate H1..].
Qed.
Print Assumptions C76_left_over_refuted.

(** What another request finds after an attempt, with and without the attempt. *)
Definition resumed (E : env) (r : request) (i : inventory) (s : storage) (tried1 folders' : list (string * IngestModel.node)) : option (storage * object) :=
  let s1 := apply_evs (ob_trace (attempt E r i tried1).1) s in
  match ingested E r (given folders') i with
  | Some o =>
      if bool_decide (s1 !! "inventory.json" = s !! "inventory.json" ∧ s1 !! "inventory.json.sha512" = s !! "inventory.json.sha512" ∧ inv_alg i = "sha512") &&
         Properties31.finding (validate_object hexh jdecode wd lx0 (apply_evs (ob_trace o) s1)) "E023" &&
         match validate_object hexh jdecode wd lx0 (apply_evs (ob_trace o) s) with VDone [] => true | _ => false end
      then Some (s1, o) else None
  | None => None
  end.
Lemma resumed_true E r i s folders folders1 folders' s1 o : e_hash E = hexh → resumed E r i s folders1 folders' = Some (s1, o) →
  load_inventory hexh jparse s "" = LInv i [] → Forall2 (λ f f1 : string * IngestModel.node, f1.1 = f.1 ∧ hidden f.2 f1.2) folders folders1 →
  interrupted E jparse i (rq_dedup r) folders s s1 ∧ load_inventory hexh jparse s1 "" = LInv i [] ∧
  ingest E dfl2 default_oracle default_oracle r (given folders') (HDone []) (open_object i) = (o, SOk) ∧
  validate_object hexh jdecode wd lx0 (apply_evs (ob_trace o) s) = VDone [] ∧
  ∃ fs, validate_object hexh jdecode wd lx0 (apply_evs (ob_trace o) s1) = VDone fs ∧ reported fs "E023".
Proof.
  intros HE. unfold resumed. cbv zeta. destruct (ingested E r (given folders') i) as [o'|] eqn:E1; [|done].
  destruct (bool_decide _) eqn:E2; [|done]. destruct (Properties31.finding _ _) eqn:E3; [|done]. cbn [andb].
  destruct (validate_object hexh jdecode wd lx0 (apply_evs (ob_trace o') s)) as [[|]| |] eqn:E4; [|done..]. intros [= <- <-] Hl Hf.
  apply bool_decide_eq_true in E2 as (Ha & Hb & Hc). split.
  { apply (attempt_interrupted E r i folders folders1 s _ _ ltac:(by rewrite HE) Hf (crash_all _ _)). constructor. }
  split. { apply (SessionProofs.load_same hexh jparse s _ i []); [exact Hl|]. rewrite Hc. exact (f_equal2 pair Ha Hb). }
  split; [exact (ingested_true _ _ _ _ _ E1)|]. split; [exact E4|]. exact (Properties31.finding_true _ _ E3).
Qed.
(** If a file is taken out of the folder before the request is made again, its content from the attempt stays in the new version and makes the
    object invalid; without the attempt the object would be valid. *)
Definition more : IngestModel.node := NDir true [("n", F "N"); ("m", F "M"); ("z", F "Z")].
Definition more_closed : IngestModel.node := NDir true [("n", F "N"); ("m", F "M"); ("z", NFile None)].
Definition fewer : IngestModel.node := NDir true [("n", F "N"); ("z", F "Z")].
Lemma one_proper i r t : request_okb penv i r [("content", t)] = true → folders_okb [("content", t)] = true → proper_request penv i r [("content", t)].
Proof. intros H Hf. apply request_okb_true; [exact H|]. apply (plain_placed penv px _ _ penv_paths). apply (proj1 (folders_okb_true [("content", t)] Hf) "content"). left. Qed.
Theorem C76_other_folder_refuted :
  ∃ E parse decode w lx s s1 i0 i r folders folders' o fs, Properties11.faithful E parse decode ∧ vorder_ok w ∧ published E (λ _, True) parse s i0 ∧
    load_inventory (e_hash E) parse s "" = LInv i [] ∧ supported E i ∧ unique_states i ∧ proper_request E i r folders ∧ proper_request E i r folders' ∧
    interrupted E parse i (rq_dedup r) folders s s1 ∧ load_inventory (e_hash E) parse s1 "" = LInv i [] ∧
    ingest E dfl2 default_oracle default_oracle r (given folders') (HDone []) (open_object i) = (o, SOk) ∧
    validate_object (e_hash E) decode w lx (apply_evs (ob_trace o) s) = VDone [] ∧
    validate_object (e_hash E) decode w lx (apply_evs (ob_trace o) s1) = VDone fs ∧ reported fs "E023".
Proof.
  assert (match kept1 with
          | Some (s, i0, i) => request_okb penv i (req false true) [("content", more)] && request_okb penv i (req false true) [("content", fewer)] &&
              match resumed penv (req false true) i s [("content", more_closed)] [("content", fewer)] with Some _ => true | None => false end
          | None => false end = true) as H by (by vm_compute).
  destruct kept1 as [[[s i0] i]|] eqn:E; [|discriminate H]. apply andb_prop in H as [H H3]. apply andb_prop in H as [H1 H2].
  destruct (resumed penv (req false true) i s [("content", more_closed)] [("content", fewer)]) as [[s1 o]|] eqn:E2; [|discriminate H3].
  destruct (kept1_true _ _ _ E) as (P1 & P2 & P3 & P4).
  destruct (resumed_true penv (req false true) i s [("content", more)] [("content", more_closed)] [("content", fewer)] s1 o eq_refl E2 P2) as (Q1 & Q2 & Q3 & Q4 & fs & Q5); [repeat constructor|].
  exists penv, jparse, jdecode, wd, lx0, s, s1, i0, i, (req false true), [("content", more)], [("content", fewer)], o, fs.
  split; [exact penv_faithful|]. split; [exact wd_ok|]. split; [exact P1|]. split; [exact P2|]. split; [exact P3|]. split; [exact P4|].
  split; [exact (one_proper _ _ _ H1 eq_refl)|]. split; [exact (one_proper _ _ _ H2 eq_refl)|]. split; [exact Q1|]. split; [exact Q2|]. split; [exact Q3|]. split; [exact Q4|exact Q5].
Qed.
Print Assumptions C76_other_folder_refuted.
(** The areas after the first one come from a Go map.  The same request made again with another order of them: a file of which two areas have
    the same content is stored below the other area, and the copy of the attempt makes the object invalid. *)
Definition areas3 : subpaths := SubPaths {[ "content" := "data"; "metadata" := "meta"; "logs" := "logs" ]} "content".
Definition names3 : list string := ["content"; "metadata"; "logs"].
Lemma areas3_configured : configured areas3 names3.
Proof.
  split.
  - intros a Ha. unfold names3 in Ha. rewrite !elem_of_cons, elem_of_nil in Ha.
    destruct Ha as [-> |[-> |[-> |[]]]]; (split; [by vm_compute|]); eexists; (split; [by vm_compute|]); unfold clean_rel; repeat constructor; by vm_compute.
  - intros a1 a2 s1 s2 Ha1 Ha2 Hne. unfold names3 in Ha1, Ha2. rewrite !elem_of_cons, elem_of_nil in Ha1, Ha2.
    destruct Ha1 as [-> |[-> |[-> |[]]]], Ha2 as [-> |[-> |[-> |[]]]]; try done; vm_compute; intros [= <-] [= <-] [r Hr]; discriminate Hr.
Qed.
Definition tenv : env := Env hexh jjson (mgr_state_path [areas3]) (mgr_state_path [areas3]) [("initial/config.json", "{}")].
Definition tx : AreaModel.xenv := XEnv hexh (mgr_extract_path [areas3]) (λ _, true).
Lemma tenv_paths : paths_by tenv tx [areas3].
Proof. by repeat split. Qed.
Lemma tenv_proper i r folders : request_okb tenv i r folders = true → folders_okb folders = true → bool_decide (fst <$> folders ⊆ names3) = true → proper_request tenv i r folders.
Proof.
  intros H Hf Hs. apply request_okb_true; [exact H|]. apply (areas_placed tenv tx areas3 names3 tenv_paths areas3_configured).
  - apply folders_okb_true. exact Hf.
  - by apply bool_decide_eq_true in Hs.
Qed.
Definition c1 : IngestModel.node := NDir true [("n", F "N")].
Definition meta3 : string * IngestModel.node := ("metadata", NDir true [("m", F "S")]).
Definition logs3 : string * IngestModel.node := ("logs", NDir true [("l", F "S"); ("k", F "K")]).
Definition logs3_closed : string * IngestModel.node := ("logs", NDir true [("l", F "S"); ("k", NFile None)]).
Definition kept3 : option (storage * inventory * inventory) :=
  match ingested tenv (req false true) (given [("content", c1)]) fresh0 with
  | Some o => match loadb jparse (apply_evs (ob_trace o) store0) with Some i => if supportedb i then Some (apply_evs (ob_trace o) store0, ob_inv o, i) else None | None => None end
  | None => None
  end.
Theorem C76_area_order_refuted :
  ∃ E parse decode w lx s s1 i0 i r folders folders' o fs, Properties11.faithful E parse decode ∧ vorder_ok w ∧ published E (λ _, True) parse s i0 ∧
    load_inventory (e_hash E) parse s "" = LInv i [] ∧ supported E i ∧ proper_request E i r folders ∧ proper_request E i r folders' ∧
    Permutation folders folders' ∧ head folders = head folders' ∧
    interrupted E parse i (rq_dedup r) folders s s1 ∧ load_inventory (e_hash E) parse s1 "" = LInv i [] ∧
    ingest E dfl2 default_oracle default_oracle r (given folders') (HDone []) (open_object i) = (o, SOk) ∧
    validate_object (e_hash E) decode w lx (apply_evs (ob_trace o) s) = VDone [] ∧
    validate_object (e_hash E) decode w lx (apply_evs (ob_trace o) s1) = VDone fs ∧ reported fs "E023".
Proof.
  assert (match kept3 with
          | Some (s, i0, i) => request_okb tenv i (req false true) [("content", c1); meta3; logs3] && request_okb tenv i (req false true) [("content", c1); logs3; meta3] &&
              match resumed tenv (req false true) i s [("content", c1); meta3; logs3_closed] [("content", c1); logs3; meta3] with Some _ => true | None => false end
          | None => false end = true) as H by (by vm_compute).
  destruct kept3 as [[[s i0] i]|] eqn:E; [|discriminate H]. apply andb_prop in H as [H H3]. apply andb_prop in H as [H1 H2].
  destruct (resumed tenv (req false true) i s [("content", c1); meta3; logs3_closed] [("content", c1); logs3; meta3]) as [[s1 o]|] eqn:E2; [|discriminate H3].
  assert (published tenv (λ _, True) jparse s i0 ∧ load_inventory hexh jparse s "" = LInv i [] ∧ supported tenv i) as (P1 & P2 & P3).
  { unfold kept3 in E. destruct (ingested tenv _ _ fresh0) as [o0|] eqn:E0; [|discriminate E]. destruct (loadb jparse _) as [i'|] eqn:E1; [|discriminate E]. destruct (supportedb i') eqn:E3; [|discriminate E].
    injection E as <- <- <-. apply ingested_true in E0. apply loadb_true in E1.
    split; [|split; [exact E1|exact (supportedb_env tenv i' eq_refl E3)]].
    assert (∀ a t, (a, t) ∈ [("content", c1)] → good_folder t) as Hg by exact (proj1 (folders_okb_true [("content", c1)] eq_refl)).
    destruct (Properties16.C55_created_comes_back_partial tenv (λ _, True) jparse tx store0 fresh0 dfl2 default_oracle default_oracle (req false true) [("content", c1)] hexh_ok jjson_ok fresh0_fresh store0_declared
      ltac:(by apply supportedb_env; [|vm_compute]) dfl2_ok dflt_ok ltac:(by apply NoDup_singleton) Hg) as (o1 & Ho & Hr).
    - apply (areas_placed tenv tx areas3 names3 tenv_paths areas3_configured); [exact Hg|]. by apply (bool_decide_unpack _).
    - exists "content", "n", "N". exists c1. split; [left|]. exists "n", []. split; [|reflexivity]. econstructor; [left|constructor].
    - by eexists.
    - exact (hexh_no_clashes tenv _ _ _ eq_refl).
    - rewrite E0 in Ho. injection Ho as <-. exact (proj1 (Hr I)). }
  destruct (resumed_true tenv (req false true) i s [("content", c1); meta3; logs3] [("content", c1); meta3; logs3_closed] [("content", c1); logs3; meta3] s1 o eq_refl E2 P2) as (Q1 & Q2 & Q3 & Q4 & fs & Q5); [repeat constructor|].
  exists tenv, jparse, jdecode, wd, lx0, s, s1, i0, i, (req false true), [("content", c1); meta3; logs3], [("content", c1); logs3; meta3], o, fs.
  split. { split; [exact hexh_ok|]. split; [exact jjson_ok|exact jdecode_ok]. }
  split; [exact wd_ok|]. split; [exact P1|]. split; [exact P2|]. split; [exact P3|].
  split; [exact (tenv_proper _ _ _ H1 eq_refl eq_refl)|]. split; [exact (tenv_proper _ _ _ H2 eq_refl eq_refl)|].
  split; [apply perm_skip, perm_swap|]. split; [reflexivity|]. split; [exact Q1|]. split; [exact Q2|]. split; [exact Q3|]. split; [exact Q4|exact Q5].
Qed.
Print Assumptions C76_area_order_refuted.
(** The creation of an object: after an attempt that failed, the object exists without an inventory, and the same request fails forever. *)
Definition flat1 : root := the_root (build Properties4.toy_hashes Flat) "1.1".
Lemma stuck E parse rt id x orcs orc1 orc2 r folders h s m :
  root_path (rt_layouts rt) id = Some x → object_exists (rt_layouts rt) id s = Some true → load_by_id (e_hash E) parse (rt_layouts rt) id s = NotOpened (SErr m) →
  add_object E parse rt [] [] id id orcs orc1 orc2 r folders h s = (s, SErr m).
Proof. intros H1 H2 H3. unfold add_object. by rewrite H1, H2, H3. Qed.
Theorem C76_creation_refuted :
  ∃ E parse rt id folders folders1 s1 m1 m2, Properties11.faithful E parse jdecode ∧
    Forall2 (λ f f1 : string * IngestModel.node, f1.1 = f.1 ∧ hidden f.2 f1.2) folders folders1 ∧ (∀ a t, (a, t) ∈ folders → good_folder t) ∧
    add_object E parse rt [] [] id id dfl2 default_oracle default_oracle (req false true) (given folders1) (HDone []) ∅ = (s1, SErr m1) ∧
    (∀ orcs orc1 orc2 r, add_object E parse rt [] [] id id orcs orc1 orc2 r (given folders) (HDone []) s1 = (s1, SErr m2)) ∧
    ∃ s2, add_object E parse rt [] [] id id dfl2 default_oracle default_oracle (req false true) (given folders) (HDone []) ∅ = (s2, SOk).
Proof.
  exists penv, jparse, flat1, "a", [("content", t2)], [("content", t2_closed)], (adds flat1 false true "a" t2_closed ∅).1, "cannot open file", "file does not exist".
  split; [exact penv_faithful|]. split; [exact t2_hidden|]. split; [exact (proj1 (folders_okb_true [("content", t2)] eq_refl))|].
  split; [unfold adds; apply Properties18.ended_with; [reflexivity|]; by vm_compute|]. split.
  { intros orcs orc1 orc2 r. apply (stuck penv jparse flat1 "a" ("a", false)); by vm_compute. }
  eexists. unfold adds. apply Properties18.done_with. by vm_compute.
Qed.
Print Assumptions C76_creation_refuted.
