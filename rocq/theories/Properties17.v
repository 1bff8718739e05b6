(** Ingested objects are valid: C58. *)
From Coq Require Import Ascii.
From stdpp Require Import base list strings gmap.
From Coq Require Import ZArith Lia.
From Verif Require Import GoStr PathModel InventoryModel ObjectModel InventorySpec ObjectSpec CrashSpec LoadModel ValidateModel ValidateSpec CheckModel AcceptSpec SessionProofs PublishSpec PublishProofs PublishProofs2
  PublishProofs3 PublishProofs4 JsonModel JsonInvModel JsonInvSpec Properties10 Properties11 Properties12 AreaModel AreaSpec IngestModel IngestSpec IngestProofs6 IngestProofs7 IngestProofs8 Fixtures Fixtures2 Fixtures3 Fixtures5 Fixtures6 Properties3 Fixtures8.

(** Nothing that the area holds is a file and a directory. *)
Definition no_conflict (t : storage) : Prop := ∀ p r, is_Some (t !! p) → is_Some (t !! (p +:+ "/" +:+ r)) → False.
Lemma archived_names E X area P parse ts s i : hex_hash (e_hash E) → json_ok P (e_json E) parse → paths_by E X [] → archived E X area P parse ts s i →
  Forall no_conflict ts → inv_id i ≠ "" → inv_type i ≠ "" → inv_alg i = "sha512" ∨ inv_alg i = "sha256" → proper_names i.
Proof.
  intros Hhex Hj HE Ha Hc H1 H2 H3.
  assert (∀ ver p d, recorded i ver p d → ver ∈ dom (inv_versions i)) as Hdom by (intros ver p d (v & Hv & _); apply elem_of_dom; by exists v).
  split; try done.
  - intros ver p d Hr. destruct (archived_paths E X area P parse ts s i Hhex Hj HE Ha ver (Hdom _ _ _ Hr)) as (t & Ht & H).
    exact (archived_clean E X area P parse ts s i Ha t p Ht (H p d Hr)).
  - intros ver p q d e Hp Hq r ->. destruct (archived_paths E X area P parse ts s i Hhex Hj HE Ha ver (Hdom _ _ _ Hp)) as (t & Ht & H).
    rewrite Forall_forall in Hc. exact (Hc t Ht p r (H _ _ Hp) (H _ _ Hq)).
Qed.

(** * C58: ingested objects are valid *)

(** After any number of requests the validator reports nothing but warnings.  Partial: without path extensions; no version may hold a file
    and a directory of the same name, which an update without echo deletion can bring about (refuted below). *)
Theorem C58_ingested_valid_partial E X P parse decode w lx ts s i :
  hex_hash (e_hash E) → json_ok P (e_json E) parse → (∀ i, decode (e_json E i) = Some (doc_of i)) → paths_by E X [] → vorder_ok w →
  archived E X "content" P parse ts s i → Forall no_conflict ts →
  inv_id i ≠ "" → inv_type i ≠ "" → inv_alg i = "sha512" ∨ inv_alg i = "sha256" → apart (content_name i) →
  only_warnings (validate_object (e_hash E) decode w lx s).
Proof.
  intros Hhex Hj Hdec HE Hw Ha Hc H1 H2 H3 H4. destruct (archived_result E X "content" P parse ts s i Hhex Hj Ha) as (Hp & _).
  exact (C50_published_valid_partial E P parse decode w lx s i Hhex Hj Hdec Hp (archived_names _ _ _ _ _ _ _ _ Hhex Hj HE Ha Hc H1 H2 H3) H4 Hw).
Qed.
(** The same with the JSON text that is really written and read. *)
Theorem C58_text_valid_partial E X fits tm t0 w w' lx lx' ts s i :
  hex_hash (e_hash E) → utf8_hash (e_hash E) → e_json E = inventory_text → paths_by E X [] → vorder_ok w → vorder_ok w' →
  archived E X "content" (storable tm) (parse_text fits tm t0 w lx) ts s i → Forall no_conflict ts →
  inv_id i ≠ "" → inv_type i ≠ "" → inv_alg i = "sha512" ∨ inv_alg i = "sha256" → apart (content_name i) →
  only_warnings (validate_object (e_hash E) (decode_text fits tm t0) w' lx' s).
Proof.
  intros Hhex Hut Hjs HE Hw Hw' Ha Hc H1 H2 H3 H4.
  assert (json_ok (storable tm) (e_json E) (parse_text fits tm t0 w lx)) as Hj by (rewrite Hjs; by apply C51_encoding_ok_partial).
  destruct (archived_result E X "content" _ _ ts s i Hhex Hj Ha) as (Hp & _).
  exact (C51_published_valid_partial E fits tm t0 w w' lx lx' s i Hhex Hut Hjs Hw Hw' Hp (archived_names _ _ _ _ _ _ _ _ Hhex Hj HE Ha Hc H1 H2 H3) H4).
Qed.
(** If every version is the image of a folder, as it is when all updates are made with echo deletion, the condition is met. *)
Theorem C58_mirrored_valid E X P parse decode w lx ts s i :
  hex_hash (e_hash E) → json_ok P (e_json E) parse → (∀ i, decode (e_json E i) = Some (doc_of i)) → paths_by E X [] → vorder_ok w →
  archived E X "content" P parse ts s i → Forall (λ src, ∃ t, good_folder t ∧ folder_of [("content", t)] "content" src) ts →
  inv_id i ≠ "" → inv_type i ≠ "" → inv_alg i = "sha512" ∨ inv_alg i = "sha256" → apart (content_name i) →
  only_warnings (validate_object (e_hash E) decode w lx s).
Proof.
  intros Hhex Hj Hdec HE Hw Ha Hc. apply (C58_ingested_valid_partial E X P parse decode w lx ts s i Hhex Hj Hdec HE Hw Ha).
  eapply stdpp.list.Forall_impl; [exact Hc|]. cbv beta. intros src (t & Hg & Hf). exact (folder_apart "content" t src Hg Hf).
Qed.
Definition no_conflictb (t : storage) : bool :=
  forallb (λ p : string * string, forallb (λ q : string * string, negb (has_prefix (p.1 +:+ "/") q.1)) (map_to_list t)) (map_to_list t).
Lemma no_conflictb_true t : no_conflictb t = true → no_conflict t.
Proof.
  intros H p r [x Hx] [y Hy]. unfold no_conflictb in H. rewrite forallb_forall in H. apply elem_of_map_to_list, elem_of_list_In, H in Hx.
  rewrite forallb_forall in Hx. apply elem_of_map_to_list, elem_of_list_In, Hx in Hy. cbn [fst] in Hy. revert Hy. clear.
  intros H. assert (has_prefix (p +:+ "/") (p +:+ "/" +:+ r) = true) as E; [|by rewrite E in H].
  apply has_prefix_spec. exists r. by rewrite str_app_assoc.
Qed.
Example C58_example : ∃ ts s i,
  hex_hash (e_hash penv) ∧ json_ok (λ _, True) (e_json penv) jparse ∧ (∀ i, jdecode (e_json penv i) = Some (doc_of i)) ∧ paths_by penv px [] ∧ vorder_ok wd ∧
  kept_archive ts s i ∧ length ts = 3 ∧ Forall no_conflict ts ∧ inv_id i ≠ "" ∧ inv_type i ≠ "" ∧ inv_alg i = "sha512" ∧ apart (content_name i) ∧
  only_warnings (validate_object hexh jdecode wd lx0 s).
Proof.
  assert (match arch3 with
          | Some (ts, s, i) => bool_decide (length ts = 3) && forallb no_conflictb ts && bool_decide (inv_id i ≠ "") && bool_decide (inv_type i ≠ "") &&
              bool_decide (inv_alg i = "sha512") && bool_decide (content_name i = "content")
          | None => false end = true) as H by (by vm_compute).
  destruct arch3 as [[[ts s] i]|] eqn:E; [|discriminate H]. apply arch3_archived in E.
  apply andb_prop in H as [H H6]. apply andb_prop in H as [H H5]. apply andb_prop in H as [H H4]. apply andb_prop in H as [H H3]. apply andb_prop in H as [H1 H2].
  apply bool_decide_eq_true in H1, H3, H4, H5, H6.
  assert (Forall no_conflict ts) as Hc.
  { apply Forall_forall. intros t Ht. rewrite forallb_forall in H2. apply no_conflictb_true, H2. by apply elem_of_list_In. }
  assert (apart (content_name i)) as Ha by (rewrite H6; exact apart_content).
  exists ts, s, i. split; [exact hexh_ok|]. split; [exact jjson_ok|]. split; [exact jdecode_ok|]. split; [exact penv_paths|]. split; [exact wd_ok|]. split; [exact E|].
  split; [exact H1|]. split; [exact Hc|]. split; [exact H3|]. split; [exact H4|]. split; [exact H5|]. split; [exact Ha|].
  exact (C58_ingested_valid_partial penv px _ jparse jdecode wd lx0 ts s i hexh_ok jjson_ok jdecode_ok penv_paths wd_ok E Hc H3 H4 (or_introl H5) Ha).
Qed.
(** Two requests with the text that is really written. *)
Definition txenv : env := Env hexh inventory_text (mgr_state_path []) (mgr_state_path []) [("initial/config.json", "{}")].
Lemma txenv_paths : paths_by txenv px [].
Proof. by repeat split. Qed.
Definition tx1 : option (list storage * storage * inventory) :=
  let folders := [("content", t1)] in
  if request_okb txenv fresh0 (req false true) folders then
    o ← ingested txenv (req false true) (given folders) fresh0;
    if storableb tm0 (ob_inv o) then Some ([files_of folders "content"], apply_evs (ob_trace o) store0, ob_inv o) else None
  else None.
Definition tx2 : option (list storage * storage * inventory) :=
  let folders := [("content", t2)] in
  match tx1 with
  | Some (t :: ts, s, _) =>
      i ← loadb tparse s;
      if supportedb i && request_okb txenv i (req true true) folders then
        o ← ingested txenv (req true true) (given folders) i;
        if storableb tm0 (ob_inv o) then Some (area_after true (files_of folders "content") t :: t :: ts, apply_evs (ob_trace o) s, ob_inv o) else None
      else None
  | _ => None
  end.
Lemma tx1_archived ts s i : tx1 = Some (ts, s, i) → archived txenv px "content" (storable tm0) tparse ts s i.
Proof.
  unfold tx1. destruct (request_okb _ _ _ _) eqn:E1; [|done]. destruct (ingested _ _ _ _) as [o|] eqn:E2; [|done]. cbn [mbind option_bind].
  destruct (storableb tm0 (ob_inv o)) eqn:E3; [|done]. intros [= <- <- <-]. pose proof (okb_good _ _ _ _ E1) as Hf.
  eapply (archived_first txenv px "content" _ tparse store0 fresh0 dfl2 default_oracle default_oracle).
  - exact fresh0_fresh.
  - exact store0_declared.
  - by apply supportedb_env; [|vm_compute].
  - exact dfl2_ok.
  - exact dflt_ok.
  - apply request_okb_true; [exact E1|]. apply (plain_placed txenv px _ _ txenv_paths). apply (proj1 (folders_okb_true _ Hf) "content"). left.
  - by apply hexh_no_clashes.
  - exact (plain_served _ _ _ _ _ txenv_paths).
  - by apply files_of_true.
  - by apply ingested_true.
  - exact (storableb_true _ _ E3).
Qed.
Lemma tx2_archived ts s i : tx2 = Some (ts, s, i) → archived txenv px "content" (storable tm0) tparse ts s i.
Proof.
  unfold tx2. destruct tx1 as [[[[|t ts0] s0] i0]|] eqn:E4; [done| |done]. apply tx1_archived in E4.
  destruct (loadb tparse s0) as [i2|] eqn:E0; [|done]. cbn [mbind option_bind].
  destruct (supportedb i2) eqn:E3; [|done]. cbn [andb].
  destruct (request_okb _ _ _ _) eqn:E1; [|done]. destruct (ingested _ _ _ _) as [o|] eqn:E2; [|done]. cbn [mbind option_bind].
  destruct (storableb tm0 (ob_inv o)) eqn:E5; [|done].
  intros [= <- <- <-]. pose proof (okb_good _ _ _ _ E1) as Hf. apply loadb_true in E0.
  refine (archived_next txenv px "content" _ tparse t ts0 s0 i0 i2 dfl2 default_oracle default_oracle (req true true) [("content", t2)]
    (files_of [("content", t2)] "content") o true _ _ _ _ _ _ _ _ _ _ _ _).
  - exact E4.
  - exact E0.
  - by apply supportedb_env.
  - exact dfl2_ok.
  - exact dflt_ok.
  - apply request_okb_true; [exact E1|]. apply (plain_placed txenv px _ _ txenv_paths). apply (proj1 (folders_okb_true _ Hf) "content"). left.
  - by apply hexh_no_clashes.
  - exact (plain_served _ _ _ _ _ txenv_paths).
  - exact (plain_deletes _ _ _ _ _ txenv_paths).
  - by apply files_of_true.
  - by apply ingested_true.
  - exact (storableb_true _ _ E5).
Qed.
Example C58_text_example : ∃ ts s i,
  hex_hash (e_hash txenv) ∧ utf8_hash (e_hash txenv) ∧ e_json txenv = inventory_text ∧ paths_by txenv px [] ∧ vorder_ok wd ∧
  archived txenv px "content" (storable tm0) (parse_text fits0 tm0 zero_time wd lx0) ts s i ∧ length ts = 2 ∧ Forall no_conflict ts ∧
  inv_id i ≠ "" ∧ inv_type i ≠ "" ∧ inv_alg i = "sha512" ∧ apart (content_name i) ∧
  only_warnings (validate_object hexh (decode_text fits0 tm0 zero_time) wd lx0 s).
Proof.
  assert (match tx2 with
          | Some (ts, s, i) => bool_decide (length ts = 2) && forallb no_conflictb ts && bool_decide (inv_id i ≠ "") && bool_decide (inv_type i ≠ "") &&
              bool_decide (inv_alg i = "sha512") && bool_decide (content_name i = "content")
          | None => false end = true) as H by (by vm_compute).
  destruct tx2 as [[[ts s] i]|] eqn:E; [|discriminate H]. apply tx2_archived in E.
  apply andb_prop in H as [H H6]. apply andb_prop in H as [H H5]. apply andb_prop in H as [H H4]. apply andb_prop in H as [H H3]. apply andb_prop in H as [H1 H2].
  apply bool_decide_eq_true in H1, H3, H4, H5, H6.
  assert (Forall no_conflict ts) as Hc.
  { apply Forall_forall. intros t Ht. rewrite forallb_forall in H2. apply no_conflictb_true, H2. by apply elem_of_list_In. }
  assert (apart (content_name i)) as Ha by (rewrite H6; exact apart_content).
  exists ts, s, i. split; [exact hexh_ok|]. split; [exact hexh_utf8|]. split; [reflexivity|]. split; [exact txenv_paths|]. split; [exact wd_ok|]. split; [exact E|].
  split; [exact H1|]. split; [exact Hc|]. split; [exact H3|]. split; [exact H4|]. split; [exact H5|]. split; [exact Ha|].
  exact (C58_text_valid_partial txenv px fits0 tm0 zero_time wd wd lx0 lx0 ts s i hexh_ok hexh_utf8 eq_refl txenv_paths wd_ok wd_ok E Hc H3 H4 (or_introl H5) Ha).
Qed.
(** A file that becomes a directory: without echo deletion the new version has both, and the object is invalid. *)
Definition filedir : option (list storage * storage * inventory) :=
  first_request (false, true, NDir true [("a", F "A")]) ≫= next_request (false, true, NDir true [("a", NDir true [("b", F "B")])]).
Theorem C58_file_directory_refuted :
  ∃ E X P parse decode w lx ts s i fs, hex_hash (e_hash E) ∧ json_ok P (e_json E) parse ∧ (∀ i, decode (e_json E i) = Some (doc_of i)) ∧ paths_by E X [] ∧ vorder_ok w ∧
    archived E X "content" P parse ts s i ∧ inv_id i ≠ "" ∧ inv_type i ≠ "" ∧ inv_alg i = "sha512" ∧ apart (content_name i) ∧
    validate_object (e_hash E) decode w lx s = VDone fs ∧ ∃ l, Finding "E095" l ∈ fs.
Proof.
  assert (match filedir with
          | Some (ts, s, i) => bool_decide (inv_id i ≠ "") && bool_decide (inv_type i ≠ "") &&
              bool_decide (inv_alg i = "sha512") && bool_decide (content_name i = "content") &&
              match validate_object hexh jdecode wd lx0 s with VDone fs => existsb (λ f, bool_decide (f_code f = "E095")) fs | _ => false end
          | None => false end = true) as H by (by vm_compute).
  destruct filedir as [[[ts s] i]|] eqn:E; [|discriminate H].
  assert (kept_archive ts s i) as Ha.
  { revert E. unfold filedir. destruct (first_request _) as [[[ts1 s1] i1]|] eqn:E1; [|done]. exact (next_archived _ _ _ _ _ _ _ (first_archived _ _ _ _ E1)). }
  clear E. apply andb_prop in H as [H H5]. apply andb_prop in H as [H H4]. apply andb_prop in H as [H H3]. apply andb_prop in H as [H1 H2].
  apply bool_decide_eq_true in H1, H2, H3, H4. destruct (validate_object hexh jdecode wd lx0 s) as [fs| |] eqn:Ev; [|discriminate H5..].
  exists penv, px, (λ _, True), jparse, jdecode, wd, lx0, ts, s, i, fs.
  split; [exact hexh_ok|]. split; [exact jjson_ok|]. split; [exact jdecode_ok|]. split; [exact penv_paths|]. split; [exact wd_ok|]. split; [exact Ha|].
  split; [exact H1|]. split; [exact H2|]. split; [exact H3|]. split; [rewrite H4; exact apart_content|]. split; [exact Ev|].
  apply existsb_exists in H5 as ([c l] & Hin & Hc). apply bool_decide_eq_true in Hc. cbn in Hc. subst c. exists l. by apply elem_of_list_In.
Qed.
Print Assumptions C58_ingested_valid_partial.
Print Assumptions C58_text_valid_partial.
Print Assumptions C58_mirrored_valid.
Print Assumptions C58_file_directory_refuted.
