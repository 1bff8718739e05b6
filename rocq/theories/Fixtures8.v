(** Requests for the examples of C55 to C57. *)
From Coq Require Import Ascii.
From stdpp Require Import base list strings gmap.
From Coq Require Import ZArith Lia.
From Verif Require Import GoStr PathModel InventoryModel ObjectModel InventorySpec ObjectSpec CrashSpec LoadModel ValidateModel PublishSpec Fixtures Fixtures2 Fixtures5
  AreaModel AreaSpec IngestModel IngestSpec IngestProofs IngestProofs7.

(** Different data have different digests. *)
Lemma hexd_inj n m : (n < 16)%N → (m < 16)%N → hexd n = hexd m → n = m.
Proof.
  intros Hn Hm He. assert (N_of_ascii (hexd n) = N_of_ascii (hexd m)) as H by (by rewrite He). clear He.
  unfold hexd in H. rewrite !N_ascii_embedding in H; repeat case_match; lia.
Qed.
Lemma hex_str_inj x y : hex_str x = hex_str y → x = y.
Proof.
  revert y. induction x as [|a x IH]; intros [|b y]; [done|done|done|]. cbn [hex_str]. intros H. injection H as H1 H2 H3. apply IH in H3 as ->. f_equal.
  assert (∀ c, N_of_ascii c / 16 < 16)%N as Hd by (intros c; apply N.div_lt_upper_bound; [done|]; apply N_ascii_bounded).
  assert (∀ c, N_of_ascii c mod 16 < 16)%N as Hm by (intros c; by apply N.mod_lt).
  apply hexd_inj in H1; [|done..]. apply hexd_inj in H2; [|done..].
  rewrite <- (ascii_N_embedding a), <- (ascii_N_embedding b). f_equal.
  rewrite (N.div_mod (N_of_ascii a) 16), (N.div_mod (N_of_ascii b) 16) by done. congruence.
Qed.
Lemma hexh_inj alg x y d : hexh alg x = Some d → hexh alg y = Some d → x = y.
Proof. unfold hexh. repeat case_decide; intros [= <-] [= Heq]; by apply hex_str_inj. Qed.
Lemma hexh_no_clashes E alg s folders : e_hash E = hexh → no_clashes E alg s folders.
Proof. intros HE x y d _ _. rewrite HE. apply hexh_inj. Qed.

(** Finite versions of the hypotheses. *)
Definition brought (E : env) (i : inventory) (folders : list (string * node)) : list (string * string) :=
  flat_map (λ f : string * node,
    flat_map (λ v, match v with
                   | VFile p (Some x) => match e_state_path E p f.1, e_hash E (inv_alg i) x with Some np, Some d => [(np, d)] | _, _ => [] end
                   | _ => []
                   end) (walk "." f.2)) folders.
Lemma brought_spec E i folders np d : (∀ a t, (a, t) ∈ folders → good_folder t) → brings E i folders np d ↔ (np, d) ∈ brought E i folders.
Proof.
  intros Hg. unfold brought. rewrite elem_of_list_In, in_flat_map. split.
  - intros (a & p & x & (t & Hin & Hf) & Hs & Hh). exists (a, t). split; [by apply elem_of_list_In|]. apply in_flat_map. exists (VFile p (Some x)). split.
    + apply elem_of_list_In, folder_files; [by eapply Hg|]. by exists x.
    + cbn [fst]. rewrite Hs, Hh. by left.
  - intros ((a & t) & Hin & (v & Hv & H)%in_flat_map). apply elem_of_list_In in Hin, Hv. destruct v as [p [x|]|p]; [|by destruct H..].
    cbn [fst snd] in *. destruct (e_state_path E p a) as [np'|] eqn:Hs; [|by destruct H]. destruct (e_hash E _ x) as [d'|] eqn:Hh; [|by destruct H].
    destruct H as [[= -> ->]|[]]. exists a, p, x. split; [|done]. exists t. split; [done|].
    apply folder_files in Hv; [|by eapply Hg]. destruct Hv as (y & [= <-] & H). done.
Qed.
Definition listed (st : smap) : list (string * string) := flat_map (λ e : string * list string, (λ p, (p, e.1)) <$> e.2) (map_to_list st).
Lemma listed_spec st p d : lists st p d ↔ (p, d) ∈ listed st.
Proof.
  unfold listed. rewrite elem_of_list_In, in_flat_map. split.
  - intros (ps & Hd & Hp). exists (d, ps). split; [by apply elem_of_list_In, elem_of_map_to_list|]. apply elem_of_list_In, elem_of_list_fmap. by exists p.
  - intros ([d' ps] & Hin & H). apply elem_of_list_In, elem_of_map_to_list in Hin. apply elem_of_list_In, elem_of_list_fmap in H as (q & [= -> ->] & Hq). by exists ps.
Qed.
Definition now_listed (i : inventory) : list (string * string) := match inv_versions i !! inv_head i with Some v => listed (v_state v) | None => [] end.
Lemma now_spec i p d : current i p d ↔ (p, d) ∈ now_listed i.
Proof.
  unfold current, recorded, now_listed. destruct (inv_versions i !! inv_head i) as [v|].
  - rewrite <- listed_spec. split; [by intros (v' & [= <-] & H)|]. intros H. by exists v.
  - split; [by intros (v' & ? & _)|]. intros H. by apply elem_of_nil in H.
Qed.
Definition ever (i : inventory) : list string := flat_map (λ e : string * version, fst <$> listed (v_state e.2)) (map_to_list (inv_versions i)).
Lemma ever_spec i ver p d : recorded i ver p d → p ∈ ever i.
Proof.
  intros (v & Hv & Hl). unfold ever. apply elem_of_list_In, in_flat_map. exists (ver, v). split; [by apply elem_of_list_In, elem_of_map_to_list|].
  apply elem_of_list_In, elem_of_list_fmap. exists (p, d). split; [done|]. by apply listed_spec.
Qed.
Definition addressedb (E : env) (dedup : bool) (i : inventory) (folders : list (string * node)) : bool :=
  let b := brought E i folders in
  let c := now_listed i in
  forallb (λ e : string * string, bool_decide (e.1 ∈ fst <$> c) || bool_decide (e.1 ∉ ever i)) b &&
  (negb dedup || forallb (λ e : string * string, forallb (λ f : string * string,
     bool_decide (f.1 ≠ e.1) || bool_decide (f.2 = e.2) ||
     (bool_decide (inv_manifest i !! e.2 = None) && forallb (λ g : string * string, bool_decide (g.2 ≠ e.2) || bool_decide (g.1 = e.1)) b)) c) b).
Lemma addressedb_true E dedup i folders : (∀ a t, (a, t) ∈ folders → good_folder t) → addressedb E dedup i folders = true → addressed E dedup i folders.
Proof.
  intros Hg [H1 H2]%andb_prop. rewrite forallb_forall in H1. split.
  - intros np d Hb%brought_spec (k & Hr & _); [|done]. apply elem_of_list_In, H1 in Hb. cbn [fst] in Hb. apply orb_prop in Hb as [Hb|Hb]; apply bool_decide_eq_true in Hb.
    + apply elem_of_list_fmap in Hb as ([p e] & -> & Hin). exists e. by apply now_spec.
    + by apply ever_spec in Hr.
  - intros -> np d e Hb%brought_spec Hc%now_spec Hne; [|done]. cbn [negb orb] in H2. rewrite forallb_forall in H2. apply elem_of_list_In, H2 in Hb.
    rewrite forallb_forall in Hb. apply elem_of_list_In, Hb in Hc. cbn [fst snd] in Hc.
    apply orb_prop in Hc as [Hc|Hc]; [apply orb_prop in Hc as [Hc|Hc]; by apply bool_decide_eq_true in Hc|].
    apply andb_prop in Hc as [Hc Hd]. apply bool_decide_eq_true in Hc. split; [done|]. intros np' Hb'%brought_spec; [|done].
    rewrite forallb_forall in Hd. apply elem_of_list_In, Hd in Hb'. cbn [fst snd] in Hb'. by apply orb_prop in Hb' as [Hb'|Hb']; apply bool_decide_eq_true in Hb'.
Qed.
Definition changesb (E : env) (i : inventory) (folders : list (string * node)) : bool :=
  existsb (λ e, bool_decide (e ∉ now_listed i)) (brought E i folders).
Lemma changesb_true E i folders : (∀ a t, (a, t) ∈ folders → good_folder t) → changesb E i folders = true → changes E i folders.
Proof.
  intros Hg ([np d] & Hin & Hn)%existsb_exists. exists np, d. apply elem_of_list_In in Hin. split; [by apply brought_spec|].
  apply bool_decide_eq_true in Hn. by rewrite now_spec.
Qed.
Fixpoint readableb (t : node) : bool :=
  match t with
  | NFile (Some _) => true
  | NFile None => false
  | NDir c l => c && bool_decide (NoDup (fst <$> l)) && forallb (λ n : string, bool_decide (n ≠ "" ∧ n ≠ "." ∧ n ≠ ".." ∧ str_mem slash n = false)) (fst <$> l) &&
      (fix go (l : list (string * node)) : bool := match l with [] => true | (_, t') :: l' => readableb t' && go l' end) l
  end.
Fixpoint readableb_true (t : node) : readableb t = true → readable t.
Proof.
  destruct t as [[x|]|c l]; cbn [readableb]; [intros _; constructor|done|]. intros H.
  apply andb_prop in H as [H H4]. apply andb_prop in H as [H H3]. apply andb_prop in H as [H1 H2]. destruct c; [|done].
  constructor.
  - by apply bool_decide_eq_true in H2.
  - clear -H3. induction (fst <$> l) as [|n ns IH]; [done|]. cbn [forallb] in H3. apply andb_prop in H3 as [Ha Hb]. constructor; [|by apply IH].
    by apply bool_decide_eq_true in Ha.
  - clear -H4 readableb_true. revert H4. induction l as [|[m t'] l IH]; intros H4 n t Hin; [by apply elem_of_nil in Hin|].
    apply andb_prop in H4 as [Ha Hb]. apply elem_of_cons in Hin as [Heq|Hin].
    + injection Heq as _ ->. by apply readableb_true.
    + by apply (IH Hb n t).
Qed.
Definition folders_okb (folders : list (string * node)) : bool :=
  forallb (λ f : string * node, readableb f.2 && match f.2 with NDir _ _ => true | _ => false end) folders && bool_decide (NoDup (fst <$> folders)).
Lemma folders_okb_true folders : folders_okb folders = true → (∀ a t, (a, t) ∈ folders → good_folder t) ∧ NoDup (fst <$> folders).
Proof.
  intros [H1 H2]%andb_prop. split; [|by apply bool_decide_eq_true in H2]. intros a t Hin. rewrite forallb_forall in H1. apply elem_of_list_In, H1 in Hin.
  apply andb_prop in Hin as [Ha Hb]. split; [by apply readableb_true|]. cbn [snd] in Hb. destruct t as [|c l]; [done|]. by exists c, l.
Qed.
Definition request_okb (E : env) (i : inventory) (r : request) (folders : list (string * node)) : bool :=
  folders_okb folders && addressedb E (rq_dedup r) i folders && changesb E i folders && bool_decide (is_Some (e_state_path E "." "")).
Lemma request_okb_true E i r folders : request_okb E i r folders = true → placed E folders → proper_request E i r folders.
Proof.
  intros H Hp. apply andb_prop in H as [H H4]. apply andb_prop in H as [H H3]. apply andb_prop in H as [H1 H2].
  apply folders_okb_true in H1 as [Hg Hn]. split; [done|done|done|by apply addressedb_true|by apply changesb_true|]. intros _. by apply bool_decide_eq_true in H4.
Qed.
(** The files of an area as a map. *)
Definition files_of (folders : list (string * node)) (area : string) : storage :=
  list_to_map (flat_map (λ f : string * node, if decide (f.1 = area) then
    flat_map (λ v, match v with VFile p (Some x) => [(p, x)] | _ => [] end) (walk "." f.2) else []) folders).

(** An object without extensions, and one with two areas. *)
Definition penv : env := Env hexh jjson (mgr_state_path []) (mgr_state_path []) [("initial/config.json", "{}")].
Definition px : xenv := XEnv hexh (mgr_extract_path []) (λ _, true).
Definition areas2 : subpaths := SubPaths {[ "content" := "data"; "metadata" := "meta/xml" ]} "content".
Definition aenv : env := Env hexh jjson (mgr_state_path [areas2]) (mgr_state_path [areas2]) [("initial/config.json", "{}")].
Definition ax : xenv := XEnv hexh (mgr_extract_path [areas2]) (λ _, true).
Definition F (x : string) : node := NFile (Some x).
Definition t1 : node := NDir true [("a", F "A"); ("d", NDir true [("b", F "B"); ("c", F "C")])].
Definition t2 : node := NDir true [("a", F "A2"); ("d", NDir true [("b", F "B"); ("e", F "C")])].
Definition meta1 : node := NDir true [("m.xml", F "M")].
Definition dfl2 : nat → nat → oracle := λ _ _, default_oracle.
Definition req (echo dedup : bool) : request := Request "2024-01-01T00:00:00Z" "msg" "me" "mailto:me" echo dedup.
(** The object after a request. *)
Definition ingested (E : env) (r : request) (folders : list (string * option node)) (i : inventory) : option object :=
  match ingest E dfl2 default_oracle default_oracle r folders (HDone []) (open_object i) with (o, SOk) => Some o | _ => None end.
Lemma ingested_true E r folders i o : ingested E r folders i = Some o → ingest E dfl2 default_oracle default_oracle r folders (HDone []) (open_object i) = (o, SOk).
Proof. unfold ingested. destruct (ingest _ _ _ _ _ _ _ _) as [o' []]; [|done..]. by intros [= ->]. Qed.

Lemma files_of_true folders area : folders_okb folders = true → folder_of folders area (files_of folders area).
Proof.
  intros [Hg Hn]%folders_okb_true p x. unfold files_of.
  assert (∀ y, (p, y) ∈ flat_map (λ f : string * node, if decide (f.1 = area) then
    flat_map (λ v, match v with VFile p (Some x) => [(p, x)] | _ => [] end) (walk "." f.2) else []) folders ↔ offered folders area p y) as He.
  { intros y. rewrite elem_of_list_In, in_flat_map. split.
    - intros ([a t] & Hin & H). apply elem_of_list_In in Hin. cbn [fst snd] in H. destruct (decide (a = area)) as [->|]; [|done].
      apply in_flat_map in H as (v & Hv & H). apply elem_of_list_In in Hv. destruct v as [q [z|]|q]; [|done..]. destruct H as [[= -> ->]|[]].
      exists t. split; [done|]. apply folder_files in Hv as (y' & [= <-] & H); [done|by eapply Hg].
    - intros (t & Hin & Hf). exists (area, t). split; [by apply elem_of_list_In|]. cbn [fst snd]. rewrite decide_True by done. apply in_flat_map.
      exists (VFile p (Some y)). split; [|by left]. apply elem_of_list_In, folder_files; [by eapply Hg|]. by exists y. }
  split.
  - intros H%elem_of_list_to_map_2. by apply He.
  - intros H. apply elem_of_list_to_map_1'; [|by apply He]. intros y Hy%He. destruct H as (t & Hin & Hf), Hy as (t' & Hin' & Hf').
    assert (t' = t) as -> by exact (same_entry _ _ _ _ Hn Hin Hin'). exact (has_file_unique _ _ _ _ (Hg _ _ Hin) Hf Hf').
Qed.
Lemma dfl2_ok j k : oracle_ok (dfl2 j k).
Proof. exact dflt_ok. Qed.
Lemma penv_paths : paths_by penv px [].
Proof. by repeat split. Qed.
Lemma aenv_paths : paths_by aenv ax [areas2].
Proof. by repeat split. Qed.
Lemma supportedb_env E i : e_hash E = hexh → supportedb i = true → supported E i.
Proof. intros HE H. apply (supportedb_true jjson) in H. unfold supported in *. by rewrite HE. Qed.

(** Requests in a row on an object without extensions. *)
Definition first_request (r : bool * bool * node) : option (list storage * storage * inventory) :=
  let folders := [("content", r.2)] in
  if request_okb penv fresh0 (req r.1.1 r.1.2) folders then
    o ← ingested penv (req r.1.1 r.1.2) (given folders) fresh0; Some ([files_of folders "content"], apply_evs (ob_trace o) store0, ob_inv o)
  else None.
Definition next_request (r : bool * bool * node) (x : list storage * storage * inventory) : option (list storage * storage * inventory) :=
  let folders := [("content", r.2)] in
  match x with
  | (t :: ts, s, _) =>
      i ← loadb jparse s;
      if supportedb i && request_okb penv i (req r.1.1 r.1.2) folders then
        o ← ingested penv (req r.1.1 r.1.2) (given folders) i;
        Some (area_after r.1.1 (files_of folders "content") t :: t :: ts, apply_evs (ob_trace o) s, ob_inv o)
      else None
  | _ => None
  end.
Notation kept_archive := (archived penv px "content" (λ _, True) jparse).
Lemma okb_good E i r folders : request_okb E i r folders = true → folders_okb folders = true.
Proof. unfold request_okb. by intros [[[? ?]%andb_prop ?]%andb_prop ?]%andb_prop. Qed.
Lemma first_archived r ts s i : first_request r = Some (ts, s, i) → kept_archive ts s i.
Proof.
  unfold first_request. destruct (request_okb _ _ _ _) eqn:E1; [|done]. destruct (ingested _ _ _ _) as [o|] eqn:E2; [|done]. cbn [mbind option_bind].
  intros [= <- <- <-]. pose proof (okb_good _ _ _ _ E1) as Hf.
  eapply (archived_first penv px "content" _ jparse store0 fresh0 dfl2 default_oracle default_oracle).
  - exact fresh0_fresh.
  - exact store0_declared.
  - by apply supportedb_env; [|vm_compute].
  - exact dfl2_ok.
  - exact dflt_ok.
  - apply request_okb_true; [exact E1|]. apply (plain_placed penv px _ _ penv_paths). apply (proj1 (folders_okb_true _ Hf) "content"). left.
  - by apply hexh_no_clashes.
  - exact (plain_served _ _ _ _ _ penv_paths).
  - by apply files_of_true.
  - by apply ingested_true.
  - done.
Qed.
Lemma next_archived r ts s i ts' s' i' : kept_archive ts s i → next_request r (ts, s, i) = Some (ts', s', i') → kept_archive ts' s' i'.
Proof.
  intros Ha. unfold next_request. destruct ts as [|t ts]; [done|]. destruct (loadb jparse s) as [i2|] eqn:E0; [|done]. cbn [mbind option_bind].
  destruct (supportedb i2) eqn:E3; [|done]. cbn [andb].
  destruct (request_okb _ _ _ _) eqn:E1; [|done]. destruct (ingested _ _ _ _) as [o|] eqn:E2; [|done]. cbn [mbind option_bind].
  intros [= <- <- <-]. pose proof (okb_good _ _ _ _ E1) as Hf. apply loadb_true in E0.
  eapply (archived_next penv px "content" _ jparse t ts s i i2 dfl2 default_oracle default_oracle).
  - exact Ha.
  - exact E0.
  - by apply supportedb_env.
  - exact dfl2_ok.
  - exact dflt_ok.
  - apply request_okb_true; [exact E1|]. apply (plain_placed penv px _ _ penv_paths). apply (proj1 (folders_okb_true _ Hf) "content"). left.
  - by apply hexh_no_clashes.
  - exact (plain_served _ _ _ _ _ penv_paths).
  - exact (plain_deletes _ _ _ _ _ penv_paths).
  - by apply files_of_true.
  - by apply ingested_true.
  - done.
Qed.
Definition arch1 : option (list storage * storage * inventory) := first_request (false, true, t1).
Definition arch2 : option (list storage * storage * inventory) := arch1 ≫= next_request (true, true, t2).
Definition arch3 : option (list storage * storage * inventory) := arch2 ≫= next_request (false, false, NDir true [("f", F "new"); ("a", F "A3")]).
Lemma arch1_archived ts s i : arch1 = Some (ts, s, i) → kept_archive ts s i.
Proof. exact (first_archived _ ts s i). Qed.
Lemma arch2_archived ts s i : arch2 = Some (ts, s, i) → kept_archive ts s i.
Proof. unfold arch2. destruct arch1 as [[[ts1 s1] i1]|] eqn:E1; [|done]. exact (next_archived _ _ _ _ _ _ _ (arch1_archived _ _ _ E1)). Qed.
Lemma arch3_archived ts s i : arch3 = Some (ts, s, i) → kept_archive ts s i.
Proof. unfold arch3. destruct arch2 as [[[ts1 s1] i1]|] eqn:E1; [|done]. exact (next_archived _ _ _ _ _ _ _ (arch2_archived _ _ _ E1)). Qed.

(** Content that is in no two places is not shared by areas. *)
Lemma nothing_shared E X c areas i folders : paths_by E X [c] → configured c areas → (∀ a t, (a, t) ∈ folders → good_folder t) →
  forallb (λ e : string * string, forallb (λ f : string * string, bool_decide (e.2 ≠ f.2) || bool_decide (e.1 = f.1)) (now_listed i ++ brought E i folders))
    (now_listed i ++ brought E i folders) = true → areas_share_nothing E areas i folders.
Proof.
  intros HE Hcf Hg H np np' d a a' H1 H2 Ha Ha'.
  assert (∀ p, current i p d ∨ brings E i folders p d → In (p, d) (now_listed i ++ brought E i folders)) as Hin.
  { intros p Hp. apply elem_of_list_In, elem_of_app. destruct Hp as [Hp|Hp]; [left; by apply now_spec|right; by apply brought_spec]. }
  rewrite forallb_forall in H. apply Hin, H in H1. rewrite forallb_forall in H1. apply Hin, H1 in H2. cbn [fst snd] in H2.
  apply orb_prop in H2 as [H2|H2]; apply bool_decide_eq_true in H2; [done|]. subst np'.
  destruct Ha as (Ha & p & Hp & Hs), Ha' as (Ha' & p' & Hp' & Hs').
  destruct (area_round E X c areas HE Hcf a p Ha Hp) as (n1 & E1 & _ & _ & _ & W1). destruct (area_round E X c areas HE Hcf a' p' Ha' Hp') as (n2 & E2 & _ & _ & X2 & _).
  destruct (decide (a = a')) as [|Hne]; [done|]. assert (n1 = n2) as -> by congruence. rewrite (W1 a' Ha' (not_eq_sym Hne)) in X2. discriminate X2.
Qed.
Definition areas : list string := ["content"; "metadata"].
Lemma areas2_configured : configured areas2 areas.
Proof.
  split.
  - intros a Ha. unfold areas in Ha. rewrite !elem_of_cons, elem_of_nil in Ha.
    destruct Ha as [-> |[-> |[]]]; (split; [by vm_compute|]); eexists; (split; [by vm_compute|]); unfold clean_rel; repeat constructor; by vm_compute.
  - intros a1 a2 s1 s2 Ha1 Ha2 Hne. unfold areas in Ha1, Ha2. rewrite !elem_of_cons, elem_of_nil in Ha1, Ha2.
    destruct Ha1 as [-> |[-> |[]]], Ha2 as [-> |[-> |[]]]; try done; vm_compute; intros [= <-] [= <-] [r Hr]; discriminate Hr.
Qed.
Definition both : list (string * node) := [("content", t1); ("metadata", meta1)].
Lemma fresh0_none np d : ¬ current fresh0 np d.
Proof. intros (v & Hv & _). vm_compute in Hv. discriminate Hv. Qed.
Lemma both_proper : proper_request aenv fresh0 (req false true) both.
Proof.
  apply request_okb_true; [by vm_compute|]. apply (areas_placed aenv ax areas2 areas aenv_paths areas2_configured).
  - apply folders_okb_true. by vm_compute.
  - intros a Ha. exact Ha.
Qed.
Lemma both_served area : area ∈ areas → served aenv ax area fresh0 both.
Proof.
  intros Ha. apply (areas_served aenv ax areas2 areas aenv_paths areas2_configured).
  - apply folders_okb_true. by vm_compute.
  - intros a H. exact H.
  - done.
  - intros np d H. destruct (fresh0_none np d H).
  - apply (nothing_shared aenv ax areas2 areas fresh0 both aenv_paths areas2_configured); [|by vm_compute]. apply folders_okb_true. by vm_compute.
Qed.

Definition yields (x : storage * status) (m : storage) : bool := match x with (t, SOk) => bool_decide (t = m) | _ => false end.
Lemma yields_true x m : yields x m = true → x = (m, SOk).
Proof. destruct x as [t []]; cbn [yields]; [|done..]. intros H%bool_decide_eq_true. by subst. Qed.

(** A request after others: the folder is readable and brings something new, but the extraction is not the folder. *)
Definition differs (before : option (list storage * storage * inventory)) (dedup : bool) (t : node) (out : storage) : bool :=
  match before with
  | Some (ts, s, _) =>
      match loadb jparse s with
      | Some i =>
          let folders := [("content", t)] in
          supportedb i && folders_okb folders && changesb penv i folders &&
          match ingested penv (req true dedup) (given folders) i with
          | Some o => yields (extract px default_oracle (ob_inv o) (apply_evs (ob_trace o) s) "latest" false "content" ∅) out &&
                      bool_decide (out ≠ files_of folders "content")
          | None => false
          end
      | None => false
      end
  | None => false
  end.
(** The object with areas after the first request. *)
Definition with_areas : option (storage * inventory) :=
  o ← ingested aenv (req false true) (given [("content", t1); ("metadata", NDir true [("m.xml", F "M"); ("n.xml", F "N")])]) fresh0;
  Some (apply_evs (ob_trace o) store0, ob_inv o).
(** The folder of an area begins with the folder of the main area. *)
Definition areas3 : subpaths := SubPaths {[ "content" := "data"; "metadata" := "data2" ]} "content".
Definition benv : env := Env hexh jjson (mgr_state_path [areas3]) (mgr_state_path [areas3]) [("initial/config.json", "{}")].
Definition bx : xenv := XEnv hexh (mgr_extract_path [areas3]) (λ _, true).
