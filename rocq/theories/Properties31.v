(** Several handles on one object at the same time: C75. *)
From Coq Require Import Ascii.
From stdpp Require Import base list strings gmap.
From Coq Require Import ZArith Lia.
From Verif Require Import GoStr PathModel PathProofs InventoryModel ObjectModel InventorySpec ObjectSpec CrashSpec CrashProofs LoadModel ValidateModel ValidateSpec CheckModel PublishSpec ConcurSpec ConcurProofs
  Fixtures Fixtures2 Fixtures3 Fixtures5.
From Verif Require Properties11.

(** * C75: handles that are open at the same time do not harm what is published *)

(** Any number of handles, opened on the object when it had at least [n] versions, with any calls; their effects happen in any order, each
    handle may stop anywhere, and then the machine stops: no file of the versions up to [n] has changed.  Partial: clean relative names for new
    content, as in C16. *)
Theorem C75_versions_kept_partial E n pad alg hs m rest s s' k p :
  str_mem slash alg = false → Forall (opened_on E n pad alg) hs → merged (trace_of E <$> hs) m rest → crash s m s' →
  (1 <= k <= n)%N → below (version_name pad k) p → s' !! p = s !! p.
Proof. exact (versions_kept E n pad alg hs m rest s s' k p). Qed.
(** As long as none of them is closed, the published inventory and its digest file, and so what is loaded, are the same. *)
Theorem C75_not_closed_partial E n pad alg hs m rest s s' :
  Forall (λ h, opened_on E n pad alg h ∧ not_closed h) hs → merged (trace_of E <$> hs) m rest → crash s m s' →
  s' !! "inventory.json" = s !! "inventory.json" ∧
  ∀ a, str_mem slash a = false → s' !! ("inventory.json." +:+ a) = s !! ("inventory.json." +:+ a).
Proof. intros H1 H2 H3. split; [by eapply root_kept|]. intros a Ha. by eapply root_kept. Qed.
(** If one of them makes complete updates and is closed, and the others are not closed and write to other content paths: the object is loaded with
    the inventory of the one that was closed, and all its content is there.  Partial: the conditions on the others are needed, see below. *)
Theorem C75_one_closes_partial E P parse s i0 i o1 orc o2 hs m rest :
  hex_hash (e_hash E) → json_ok P (e_json E) parse →
  published E P parse s i0 → load_inventory (e_hash E) parse s "" = LInv i [] → supported E i →
  updates E (open_object i) o1 → ob_close E orc o1 = (o2, SOk) → P (ob_inv o2) →
  Forall (λ h, (∃ n pad alg, opened_on E n pad alg h) ∧ not_closed h ∧ ∀ p d, lists (inv_manifest (ob_inv o2)) p d → avoids p (trace_of E h)) hs →
  merged (ob_trace o2 :: (trace_of E <$> hs)) m rest → rest !! 0 = Some [] →
  ∃ i', load_inventory (e_hash E) parse (apply_evs m s) "" = LInv i' [] ∧ same_record (ob_inv o2) i' ∧ describes (e_hash E) i' (apply_evs m s).
Proof. exact (one_closes E P parse s i0 i o1 orc o2 hs m rest). Qed.

(** Schedules, for examples. *)
Fixpoint scheduled (ks : list nat) (ls : list (list ev)) : option (list ev * list (list ev)) :=
  match ks with
  | [] => Some ([], ls)
  | k :: ks =>
      match ls !! k with
      | Some (e :: l) => match scheduled ks (<[k := l]> ls) with Some (m, rest) => Some (e :: m, rest) | None => None end
      | _ => None
      end
  end.
Lemma scheduled_true ks ls m rest : scheduled ks ls = Some (m, rest) → merged ls m rest.
Proof.
  revert ls m. induction ks as [|k ks IH]; intros ls m; cbn [scheduled]; [intros [= <- <-]; constructor|].
  destruct (ls !! k) as [[|e l]|] eqn:Hk; [done| |done]. destruct (scheduled ks (<[k := l]> ls)) as [[m' r']|] eqn:Hs; [|done]. intros [= <- <-].
  eapply merged_step; [exact Hk|by apply IH].
Qed.
(** The object of version 1 as loaded, an update of one file, closed or not. *)
Definition one_version : option (storage * inventory * inventory) :=
  match made1 with Some (s, i) => match loadb jparse s with Some i' => if supportedb i' then Some (s, i, i') else None | None => None end | None => None end.
Lemma one_version_true s i i' : one_version = Some (s, i, i') →
  published jenv (λ _, True) jparse s i ∧ load_inventory (e_hash jenv) jparse s "" = LInv i' [] ∧ supported jenv i'.
Proof.
  unfold one_version. destruct made1 as [[s1 i1]|] eqn:E1; [|done]. destruct (loadb jparse s1) as [i2|] eqn:E2; [|done]. destruct (supportedb i2) eqn:E3; [|done]. intros [= <- <- <-].
  split; [|split; [exact (loadb_true _ _ _ E2)|exact (supportedb_true _ _ E3)]].
  eapply published_first; [exact fresh0_fresh|exact store0_declared|apply supportedb_true; by vm_compute|by eapply completeb_true|exact I].
Qed.
Definition adds (data p : string) : list (oracle * oop) := [begin_up "2024-05-05"; (dflt, OSimple (SAdd data p "" true)); end_up].
Definition ended (data p : string) (i : inventory) : option object := updatesb jjson [("2024-04-04", [SAdd data p "" true])] (open_object i).
Definition over (data p : string) (i : inventory) : option object :=
  match ended data p i with Some o => match ob_close jenv dflt o with (o', SOk) => Some o' | _ => None end | None => None end.
Lemma over_true data p i o : over data p i = Some o → ∃ o1, updates jenv (open_object i) o1 ∧ ob_close jenv dflt o1 = (o, SOk).
Proof.
  unfold over, ended. destruct (updatesb jjson _ (open_object i)) as [o1|] eqn:E1; [|done]. destruct (ob_close jenv dflt o1) as [o2 []] eqn:E2; [|done..]. intros [= <-].
  exists o1. split; [exact (updatesb_true _ _ _ _ E1)|exact E2].
Qed.
Lemma over_complete data p i o s : over data p i = Some o → complete jenv s i (apply_evs (ob_trace o) s) (ob_inv o).
Proof. intros (o1 & H1 & H2)%over_true. by eapply Complete. Qed.

(** The hypotheses: head, padding and content folder of the loaded inventory, and clean names. *)
Definition openb (i : inventory) : bool :=
  bool_decide (fst <$> map_to_list (inv_versions i) = ["v1"]) && bool_decide (inv_head i = "v1" ∧ inv_padding i = 0%Z ∧ inv_contentdir i = "" ∧ inv_alg i = "sha512").
Lemma openb_true i data p : openb i = true → clean_relb p = true → opened_on jenv 1 0 "sha512" (i, adds data p).
Proof.
  unfold openb. intros [H1 H2]%andb_prop Hp. apply bool_decide_eq_true in H1, H2. destruct H2 as (Ha & Hb & Hc & Hd). split; cbn [fst snd]; [|done|done|..].
  - exists 1%N. split; [lia|]. split; [|rewrite Ha, Hb; by vm_compute]. exists 1%N. rewrite Ha, Hb. split; [done|]. split.
    { intros _. split; [by vm_compute|]. assert ("v1" ∈ fst <$> map_to_list (inv_versions i)) as Hv by (rewrite H1; by left).
      apply elem_of_list_fmap in Hv as ([v' y] & -> & Hv). apply elem_of_map_to_list in Hv. by exists y. }
    intros v [x' Hv]. apply elem_of_map_to_list in Hv. apply (elem_of_list_fmap_1 fst) in Hv. rewrite H1 in Hv.
    cbn [fst] in Hv. apply elem_of_list_singleton in Hv as ->. exists 1%N. by vm_compute.
  - unfold content_name. rewrite Hc. repeat split; by vm_compute.
  - unfold clean_names, all_ops, adds. repeat (apply stdpp.list.Forall_cons; split); try done; try (by apply stdpp.list.Forall_nil).
    { intros m' Hm'. injection Hm' as <-. by apply clean_relb_true. }
    split; [done|]. constructor.
Qed.
Lemma adds_not_closed i data p : not_closed (i, adds data p).
Proof. repeat constructor; done. Qed.

(** The content paths listed in a manifest. *)
Definition paths_of (m : smap) : list string := concat (snd <$> map_to_list m).
Lemma paths_of_spec m p d : lists m p d → In p (paths_of m).
Proof.
  intros (ps & H1 & H2). apply in_concat. exists ps. split; [|by apply elem_of_list_In].
  apply elem_of_list_In, elem_of_list_fmap. exists (d, ps). split; [done|]. by apply elem_of_map_to_list.
Qed.
(** Handle 0 adds a file and is closed; handles 1 and 2 add other files and are not closed; the effects alternate, and handle 2 stops early. *)
Definition mixed : list nat := [1; 0; 2; 2; 0; 1; 1; 0; 0; 1; 0; 0; 1; 1; 0; 0; 0; 0; 0; 0].
Definition mixed_run : option (storage * inventory * inventory * object * list ev * list (list ev)) :=
  match one_version with
  | Some (s, i0, i) =>
      match over "n" "new" i with
      | Some o =>
          match scheduled mixed [ob_trace o; trace_of jenv (i, adds "p" "p"); trace_of jenv (i, adds "q" "q")] with
          | Some (m, rest) => Some (s, i0, i, o, m, rest)
          | None => None
          end
      | None => None
      end
  | None => None
  end.
Example C75_one_closes_example :
  ∃ s i0 i o1 o2 hs m rest, hex_hash (e_hash jenv) ∧ json_ok (λ _, True) (e_json jenv) jparse ∧ published jenv (λ _, True) jparse s i0 ∧
    load_inventory (e_hash jenv) jparse s "" = LInv i [] ∧ supported jenv i ∧ updates jenv (open_object i) o1 ∧ ob_close jenv dflt o1 = (o2, SOk) ∧
    Forall (λ h, (∃ n pad alg, opened_on jenv n pad alg h) ∧ not_closed h ∧ ∀ p d, lists (inv_manifest (ob_inv o2)) p d → avoids p (trace_of jenv h)) hs ∧
    merged (ob_trace o2 :: (trace_of jenv <$> hs)) m rest ∧ rest !! 0 = Some [] ∧ length hs = 2 ∧ length m = 20 ∧
    apply_evs m s !! "v2/content/new" = Some "n" ∧ apply_evs m s !! "v2/content/p" = Some "p" ∧ apply_evs m s !! "v2/content/q" = Some "q".
Proof.
  assert (match mixed_run with
          | Some (s, i0, i, o, m, rest) => openb i && (match rest !! 0 with Some [] => true | _ => false end) && bool_decide (length m = 20) &&
              forallb (λ q : string, forallb (λ e, negb (bool_decide (ev_path e = q))) (trace_of jenv (i, adds "p" "p") ++ trace_of jenv (i, adds "q" "q"))) (paths_of (inv_manifest (ob_inv o))) &&
              bool_decide (apply_evs m s !! "v2/content/new" = Some "n" ∧ apply_evs m s !! "v2/content/p" = Some "p" ∧ apply_evs m s !! "v2/content/q" = Some "q")
          | None => false end = true) as H by (by vm_compute).
  destruct mixed_run as [[[[[[s i0] i] o] m] rest]|] eqn:E; [|discriminate H]. apply andb_prop in H as [H H5]. apply andb_prop in H as [H H4]. apply andb_prop in H as [H H3]. apply andb_prop in H as [H1 H2].
  apply bool_decide_eq_true in H3, H5. assert (rest !! 0 = Some []) as H2'.
  { destruct (rest !! 0) as [[|]|]; [reflexivity|discriminate H2|discriminate H2]. }
  clear H2. rename H2' into H2. unfold mixed_run in E. destruct one_version as [[[s' i0'] i']|] eqn:E1; [|discriminate E]. destruct (over "n" "new" i') as [o'|] eqn:E2; [|discriminate E].
  destruct (scheduled mixed _) as [[m' r']|] eqn:E3; [|discriminate E]. injection E as -> -> -> -> -> ->. destruct (one_version_true _ _ _ E1) as (P1 & P2 & P3). destruct (over_true _ _ _ _ E2) as (o1 & Q1 & Q2).
  exists s, i0, i, o1, o, [(i, adds "p" "p"); (i, adds "q" "q")], m, rest. split; [exact hexh_ok|]. split; [exact jjson_ok|]. split; [exact P1|]. split; [exact P2|]. split; [exact P3|]. split; [exact Q1|]. split; [exact Q2|].
  split; [|split; [exact (scheduled_true _ _ _ _ E3)|exact (conj H2 (conj eq_refl (conj H3 H5)))]].
  rewrite forallb_forall in H4.
  assert (∀ h, h ∈ [(i, adds "p" "p"); (i, adds "q" "q")] → ∀ p d, lists (inv_manifest (ob_inv o)) p d → avoids p (trace_of jenv h)) as Hav.
  { intros h Hh p d Hd%paths_of_spec. apply H4 in Hd. rewrite forallb_forall in Hd. unfold avoids. rewrite stdpp.list.Forall_forall. intros e He.
    assert (e ∈ trace_of jenv (i, adds "p" "p") ++ trace_of jenv (i, adds "q" "q")) as Hin.
    { apply elem_of_app. apply elem_of_cons in Hh as [-> |Hh]; [by left|]. apply elem_of_list_singleton in Hh as ->. by right. }
    apply elem_of_list_In, Hd in Hin. apply negb_true_iff, bool_decide_eq_false in Hin. exact Hin. }
  repeat (apply stdpp.list.Forall_cons; split); [..|by apply stdpp.list.Forall_nil].
  - split; [exists 1%N, 0%Z, "sha512"; by apply openb_true|]. split; [apply adds_not_closed|]. apply Hav. left.
  - split; [exists 1%N, 0%Z, "sha512"; by apply openb_true|]. split; [apply adds_not_closed|]. apply Hav. right. left.
Qed.
Print Assumptions C75_one_closes_partial.

(** All three handles, with the machine stopping at any moment: the files of version 1 are there. *)
Example C75_versions_kept_example :
  ∃ s i m rest, str_mem slash "sha512" = false ∧ Forall (opened_on jenv 1 0 "sha512") [(i, adds "p" "p"); (i, adds "q" "q")] ∧
    Forall (λ h, opened_on jenv 1 0 "sha512" h ∧ not_closed h) [(i, adds "p" "p"); (i, adds "q" "q")] ∧
    merged (trace_of jenv <$> [(i, adds "p" "p"); (i, adds "q" "q")]) m rest ∧ crash s m (apply_evs m s) ∧ below (version_name 0 1) "v1/content/a" ∧ length m = 5 ∧ s !! "v1/content/a" = Some "x".
Proof.
  assert (match one_version with
          | Some (s, i0, i) => openb i && bool_decide (s !! "v1/content/a" = Some "x") &&
              match scheduled [0; 1; 1; 0; 0] (trace_of jenv <$> [(i, adds "p" "p"); (i, adds "q" "q")]) with Some (m, _) => bool_decide (length m = 5) | None => false end
          | None => false end = true) as H by (by vm_compute).
  destruct one_version as [[[s i0] i]|]; [|discriminate H]. apply andb_prop in H as [H H3]. apply andb_prop in H as [H1 H2]. destruct (scheduled _ _) as [[m rest]|] eqn:E; [|discriminate H3].
  apply bool_decide_eq_true in H2, H3. exists s, i, m, rest. split; [reflexivity|].
  split; [repeat (apply stdpp.list.Forall_cons; split); [by apply openb_true|by apply openb_true|by apply stdpp.list.Forall_nil]|].
  split; [repeat (apply stdpp.list.Forall_cons; split); [split; [by apply openb_true|apply adds_not_closed]|split; [by apply openb_true|apply adds_not_closed]|by apply stdpp.list.Forall_nil]|].
  split; [exact (scheduled_true _ _ _ _ E)|]. split; [apply crash_all|]. split; [by exists "content/a"|exact (conj H3 H2)].
Qed.
Print Assumptions C75_versions_kept_partial.
Print Assumptions C75_not_closed_partial.

(** * What goes wrong *)

Definition finding (v : verdict) (code : string) : bool := match v with VDone fs => existsb (λ f, bool_decide (f_code f = code)) fs | _ => false end.
Lemma finding_true v code : finding v code = true → ∃ fs, v = VDone fs ∧ reported fs code.
Proof.
  destruct v as [fs| |]; [|done..]. cbn [finding]. intros H. exists fs. split; [done|]. apply existsb_exists in H as (f & H1 & H2%bool_decide_eq_true).
  apply elem_of_list_In in H1. destruct f as [c a]. cbn in H2. subst c. by exists a.
Qed.
Definition verdict_of (s : storage) : verdict := validate_object (e_hash jenv) jdecode wd lx0 s.

(** Two handles are opened; the first makes a complete update and is closed, then the second.  Every call succeeds.  The object is loaded without a
    finding, but no version has the file of the first one, and its content is left in the object, which is invalid for that. *)
Definition lost_run : option (storage * inventory * inventory * object * object * inventory) :=
  match one_version with
  | Some (s, i0, i) =>
      match over "n" "new" i with
      | Some oA => match over "m" "other" i with
                   | Some oB => match loadb jparse (apply_evs (ob_trace oB) (apply_evs (ob_trace oA) s)) with Some iB => Some (s, i0, i, oA, oB, iB) | None => None end
                   | None => None end
      | None => None end
  | None => None
  end.
Theorem C75_lost_update_refuted :
  ∃ E parse decode w lx s i0 i sA iA sB iB iL fs, Properties11.faithful E parse decode ∧ vorder_ok w ∧
    published E (λ _, True) parse s i0 ∧ load_inventory (e_hash E) parse s "" = LInv i [] ∧ supported E i ∧
    complete E s i sA iA ∧ complete E sA i sB iB ∧
    (∃ d, recorded iA "v2" "new" d) ∧ load_inventory (e_hash E) parse sB "" = LInv iL [] ∧ dom (inv_versions iL) = {["v1"; "v2"]} ∧
    (∀ d, ¬ recorded iL "v1" "new" d ∧ ¬ recorded iL "v2" "new" d) ∧ sB !! "v2/content/new" = Some "n" ∧
    validate_object (e_hash E) decode w lx sB = VDone fs ∧ reported fs "E023".
Proof.
  assert (match lost_run with
          | Some (s, i0, i, oA, oB, iB) => bool_decide ("new" ∈ pathsb (ob_inv oA) "v2") && bool_decide (dom (inv_versions iB) = {["v1"; "v2"]}) &&
              bool_decide ("new" ∉ pathsb iB "v1" ∧ "new" ∉ pathsb iB "v2" ∧ apply_evs (ob_trace oB) (apply_evs (ob_trace oA) s) !! "v2/content/new" = Some "n") &&
              finding (verdict_of (apply_evs (ob_trace oB) (apply_evs (ob_trace oA) s))) "E023"
          | None => false end = true) as H by (by vm_compute).
  destruct lost_run as [[[[[[s i0] i] oA] oB] iB]|] eqn:E; [|discriminate H]. apply andb_prop in H as [H H4]. apply andb_prop in H as [H H3]. apply andb_prop in H as [H1 H2].
  apply bool_decide_eq_true in H1, H2, H3. destruct H3 as (H3a & H3b & H3c). apply finding_true in H4 as (fs & H4 & H5). unfold lost_run in E. destruct one_version as [[[s' i0'] i']|] eqn:E1; [|discriminate E].
  destruct (over "n" "new" i') as [oA'|] eqn:E2; [|discriminate E]. destruct (over "m" "other" i') as [oB'|] eqn:E3; [|discriminate E]. destruct (loadb jparse _) as [iB'|] eqn:E4; [|discriminate E].
  injection E as -> -> -> -> -> ->. destruct (one_version_true _ _ _ E1) as (P1 & P2 & P3).
  exists jenv, jparse, jdecode, wd, lx0, s, i0, i, (apply_evs (ob_trace oA) s), (ob_inv oA), (apply_evs (ob_trace oB) (apply_evs (ob_trace oA) s)), (ob_inv oB), iB, fs.
  split; [exact Properties11.jenv_faithful|]. split; [exact wd_ok|]. split; [exact P1|]. split; [exact P2|]. split; [exact P3|].
  split; [exact (over_complete _ _ _ _ s E2)|]. split; [exact (over_complete _ _ _ _ _ E3)|]. split; [by apply pathsb_spec|]. split; [exact (loadb_true _ _ _ E4)|]. split; [exact H2|].
  split; [|exact (conj H3c (conj H4 H5))]. intros d. split; intros Hr; [apply H3a|apply H3b]; apply pathsb_spec; by exists d.
Qed.
Print Assumptions C75_lost_update_refuted.

(** Runs of two handles in a given order. *)
Definition two_run (l : storage * inventory * inventory → option (list (list ev))) (ks : list nat) : option (storage * inventory * inventory * list (list ev) * list ev * list (list ev)) :=
  match one_version with
  | Some x => match l x with Some ls => match scheduled ks ls with Some (m, rest) => Some (x, ls, m, rest) | None => None end | None => None end
  | None => None
  end.

(** Both handles are closed at the same time: the inventory of one and the digest of the other. *)
Definition both_over (x : storage * inventory * inventory) : option (list (list ev)) :=
  match over "n" "new" x.2 with Some oA => match over "m" "other" x.2 with Some oB => Some [ob_trace oA; ob_trace oB] | None => None end | None => None end.
Theorem C75_mixed_root_refuted :
  ∃ E parse s i0 i oA oB m iL, hex_hash (e_hash E) ∧ json_ok (λ _, True) (e_json E) parse ∧
    published E (λ _, True) parse s i0 ∧ load_inventory (e_hash E) parse s "" = LInv i [] ∧ supported E i ∧
    (∃ o1 orc, updates E (open_object i) o1 ∧ ob_close E orc o1 = (oA, SOk)) ∧ (∃ o1 orc, updates E (open_object i) o1 ∧ ob_close E orc o1 = (oB, SOk)) ∧
    merged [ob_trace oA; ob_trace oB] m [[]; []] ∧ load_inventory (e_hash E) parse (apply_evs m s) "" = LInv iL ["E060"].
Proof.
  assert (match two_run both_over (replicate 8 0 ++ replicate 12 1 ++ replicate 4 0) with
          | Some (s, _, _, _, m, rest) => (match rest with [[]; []] => true | _ => false end) &&
              match load_inventory hexh jparse (apply_evs m s) "" with LInv _ fs => bool_decide (fs = ["E060"]) | _ => false end
          | None => false end = true) as H by (by vm_compute).
  destruct (two_run both_over _) as [[[[[[s i0] i] ls] m] rest]|] eqn:E; [|discriminate H]. apply andb_prop in H as [H1 H2]. destruct rest as [|[|] [|[|] [|]]]; try discriminate H1.
  destruct (load_inventory hexh jparse (apply_evs m s) "") as [|iL fs] eqn:EL; [discriminate H2|]. apply bool_decide_eq_true in H2 as ->.
  unfold two_run in E. destruct one_version as [[[s' i0'] i']|] eqn:E1; [|discriminate E]. unfold both_over in E. cbn [fst snd] in E.
  destruct (over "n" "new" i') as [oA|] eqn:E2; [|discriminate E]. destruct (over "m" "other" i') as [oB|] eqn:E3; [|discriminate E].
  destruct (scheduled _ _) as [[m' r']|] eqn:E4; [|discriminate E]. injection E as -> -> -> <- -> ->. destruct (one_version_true _ _ _ E1) as (P1 & P2 & P3).
  destruct (over_true _ _ _ _ E2) as (o1 & Q1 & Q2). destruct (over_true _ _ _ _ E3) as (o1' & Q3 & Q4).
  exists jenv, jparse, s, i0, i, oA, oB, m, iL. split; [exact hexh_ok|]. split; [exact jjson_ok|]. split; [exact P1|]. split; [exact P2|]. split; [exact P3|].
  split; [exists o1, dflt; exact (conj Q1 Q2)|]. split; [exists o1', dflt; exact (conj Q3 Q4)|]. split; [exact (scheduled_true _ _ _ _ E4)|exact EL].
Qed.
Print Assumptions C75_mixed_root_refuted.

(** One handle is closed, and afterwards the other one, which is never closed, stores content under the same name: the object is loaded without a
    finding, but its content is that of the handle that was not closed. *)
Definition late_run : option (storage * inventory * inventory * object) :=
  match one_version with Some (s, i0, i) => match over "n" "new" i with Some oA => Some (s, i0, i, oA) | None => None end | None => None end.
Lemma late_true s i0 i oA : late_run = Some (s, i0, i, oA) →
  published jenv (λ _, True) jparse s i0 ∧ load_inventory (e_hash jenv) jparse s "" = LInv i [] ∧ supported jenv i ∧
  ∃ o1 orc, updates jenv (open_object i) o1 ∧ ob_close jenv orc o1 = (oA, SOk).
Proof.
  unfold late_run. destruct one_version as [[[s' i0'] i']|] eqn:E1; [|done]. destruct (over "n" "new" i') as [oA'|] eqn:E2; [|done]. intros [= -> -> -> ->].
  destruct (one_version_true _ _ _ E1) as (P1 & P2 & P3). destruct (over_true _ _ _ _ E2) as (o1 & Q1 & Q2). split; [exact P1|]. split; [exact P2|]. split; [exact P3|].
  exists o1, dflt. exact (conj Q1 Q2).
Qed.
Lemma merged_whole l l' : merged [l; l'] (l ++ l') [[]; []].
Proof.
  induction l as [|e l IH]; [|eapply (merged_step _ 0); [reflexivity|exact IH]]. cbn [app]. induction l' as [|e l' IH]; [constructor|]. eapply (merged_step _ 1); [reflexivity|exact IH].
Qed.
Theorem C75_overwritten_content_refuted :
  ∃ E parse decode w lx s i0 i oA hB m rest iL d fs, Properties11.faithful E parse decode ∧ vorder_ok w ∧
    published E (λ _, True) parse s i0 ∧ load_inventory (e_hash E) parse s "" = LInv i [] ∧ supported E i ∧
    (∃ o1 orc, updates E (open_object i) o1 ∧ ob_close E orc o1 = (oA, SOk)) ∧ hB.1 = i ∧ opened_on E 1 0 "sha512" hB ∧ not_closed hB ∧
    merged [ob_trace oA; trace_of E hB] m rest ∧ rest !! 0 = Some [] ∧
    load_inventory (e_hash E) parse (apply_evs m s) "" = LInv iL [] ∧ e_hash E (inv_alg iL) "n" = Some d ∧ lists (inv_manifest iL) "v2/content/new" d ∧
    apply_evs m s !! "v2/content/new" = Some "m" ∧
    validate_object (e_hash E) decode w lx (apply_evs m s) = VDone fs ∧ reported fs "E092".
Proof.
  assert (match late_run with
          | Some (s, i0, i, oA) =>
              match scheduled (replicate 12 0 ++ [1; 1]) [ob_trace oA; trace_of jenv (i, adds "m" "new")] with
              | Some (m, rest) =>
                  match loadb jparse (apply_evs m s) with
                  | Some iL => openb i && bool_decide (inv_alg iL = "sha512" ∧ inv_manifest iL !! "a6e" = Some ["v2/content/new"]) && bool_decide (apply_evs m s !! "v2/content/new" = Some "m") &&
                      (match rest !! 0 with Some [] => true | _ => false end) && finding (verdict_of (apply_evs m s)) "E092"
                  | None => false
                  end
              | None => false
              end
          | None => false end = true) as H by (by vm_compute).
  destruct late_run as [[[[s i0] i] oA]|] eqn:E; [|discriminate H]. destruct (scheduled _ _) as [[m rest]|] eqn:E1; [|discriminate H].
  destruct (loadb jparse (apply_evs m s)) as [iL|] eqn:E2; [|discriminate H]. apply andb_prop in H as [H H5]. apply andb_prop in H as [H H4]. apply andb_prop in H as [H H3]. apply andb_prop in H as [H1 H2].
  apply bool_decide_eq_true in H2, H3. destruct H2 as [H2a H2b]. assert (rest !! 0 = Some []) as H4' by (destruct (rest !! 0) as [[|]|]; [reflexivity|discriminate H4|discriminate H4]).
  apply finding_true in H5 as (fs & H5 & H6). destruct (late_true _ _ _ _ E) as (P1 & P2 & P3 & P4).
  exists jenv, jparse, jdecode, wd, lx0, s, i0, i, oA, (i, adds "m" "new"), m, rest, iL, "a6e", fs. split; [exact Properties11.jenv_faithful|]. split; [exact wd_ok|].
  split; [exact P1|]. split; [exact P2|]. split; [exact P3|]. split; [exact P4|]. split; [reflexivity|]. split; [by apply openb_true|]. split; [apply adds_not_closed|].
  split; [exact (scheduled_true _ _ _ _ E1)|]. split; [exact H4'|]. split; [exact (loadb_true _ _ _ E2)|]. split; [rewrite H2a; by vm_compute|].
  split; [exists ["v2/content/new"]; split; [exact H2b|by left]|]. exact (conj H3 (conj H5 H6)).
Qed.
Print Assumptions C75_overwritten_content_refuted.

(** The other handle only deletes a file and ends its update, after the first one was closed: the inventory of the published head version is replaced,
    and the object is invalid. *)
Definition del (p d : string) : list (oracle * oop) := [begin_up "2024-05-05"; (dflt, OSimple (SDelete p d)); end_up].
Theorem C75_late_end_refuted :
  ∃ E parse decode w lx s i0 i oA hB m fs, Properties11.faithful E parse decode ∧ vorder_ok w ∧
    published E (λ _, True) parse s i0 ∧ load_inventory (e_hash E) parse s "" = LInv i [] ∧ supported E i ∧
    (∃ o1 orc, updates E (open_object i) o1 ∧ ob_close E orc o1 = (oA, SOk)) ∧ hB.1 = i ∧ not_closed hB ∧
    merged [ob_trace oA; trace_of E hB] m [[]; []] ∧
    apply_evs m s !! "v2/inventory.json" ≠ apply_evs (ob_trace oA) s !! "v2/inventory.json" ∧
    validate_object (e_hash E) decode w lx (apply_evs m s) = VDone fs ∧ reported fs "E064".
Proof.
  assert (match late_run with
          | Some (s, i0, i, oA) => let m := ob_trace oA ++ trace_of jenv (i, del "a" "a78") in
              bool_decide (apply_evs m s !! "v2/inventory.json" ≠ apply_evs (ob_trace oA) s !! "v2/inventory.json") && finding (verdict_of (apply_evs m s)) "E064"
          | None => false end = true) as H by (by vm_compute).
  destruct late_run as [[[[s i0] i] oA]|] eqn:E; [|discriminate H]. cbv zeta in H. apply andb_prop in H as [H1 H2]. apply bool_decide_eq_true in H1.
  apply finding_true in H2 as (fs & H2 & H3). destruct (late_true _ _ _ _ E) as (P1 & P2 & P3 & P4).
  exists jenv, jparse, jdecode, wd, lx0, s, i0, i, oA, (i, del "a" "a78"), (ob_trace oA ++ trace_of jenv (i, del "a" "a78")), fs. split; [exact Properties11.jenv_faithful|]. split; [exact wd_ok|].
  split; [exact P1|]. split; [exact P2|]. split; [exact P3|]. split; [exact P4|]. split; [reflexivity|]. split; [repeat constructor; done|].
  split; [apply merged_whole|]. exact (conj H1 (conj H2 H3)).
Qed.
Print Assumptions C75_late_end_refuted.
