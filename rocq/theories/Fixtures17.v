(** An object with METS and PREMIS documents, for the examples of C73. *)
From Coq Require Import Ascii.
From stdpp Require Import base list strings gmap.
From Coq Require Import ZArith Lia.
From Verif Require Import GoStr PathModel InventoryModel ObjectModel InventorySpec ObjectSpec CrashSpec LoadModel AreaModel ValidateModel PublishSpec
  Fixtures Fixtures2 Fixtures3 Fixtures5 Fixtures8 JsonlModel Fixtures10 MetaModel MigrateModel Fixtures12 Fixtures16 MetsModel MetsSpec.

Definition areas3 : gmap string string := {[ "content" := "data"; "metadata" := "meta" ]}.
Definition subs (a : gmap string string) : list subpaths := if decide (a = ∅) then [] else [SubPaths a "content"].
Definition menv (a : gmap string string) : env := Env hexh jjson (mgr_state_path (subs a)) (mgr_state_path (subs a)) [("initial/config.json", "{}")].
Definition mstart (i : inventory) : option object :=
  match ob_start "2024-01-01T00:00:00Z" "msg" "me" "mailto:me" false (open_object i) with (o, SOk) => Some o | _ => None end.
Definition mrun (a : gmap string string) (ops : list sop) (i : inventory) : option object := o ← mstart i; sopsb (menv a) ops o.
(** Documents are written as the names they contain. *)
Definition shown (l : list string) : string := join_slash l.
Definition mout0 : mout :=
  MOut (λ D, "METS " +:+ shown (named D)) (λ P, "PREMIS " +:+ shown (p_id <$> pd_objects P)) (λ x, "sha:" +:+ x) (λ k, "uuid-" +:+ dec_of_N (N.of_nat k))
    (λ x, x) (λ f, f +:+ "%!(EXTRA ocfl.OCFLVersion=1.1)") [("mets.xsd", "M"); ("premis.xsd", "P"); ("xlink.xsd", "X")].
Definition mview (e : gmap string fview) : fview := default (FView 0 "" None None) (e !! "known").
Definition worders0 : worders := λ _, wd.
Definition mconf0 (type primary : string) : mconf := MConf type "metadata" primary "mets.xml" "premis.xml" "extensions/NNNN-mets".
Definition mknown : list (string * (gmap string fview + string)) :=
  [("known", inl {[ "a41" := FView 1 "2024-01-01" (Some ("text/plain", 1%N)) None; "a42" := FView 1 "2024-01-02" None (Some (MRes "a41" "" "tool")) ]})].
(** Two files of content, one of them migrated from the other, and metadata. *)
Definition mops : list sop := [SAdd "A" "a.txt" "content" true; SAdd "B" "sub/b.txt" "content" true; SAdd "M" "info.xml" "metadata" true; SAdd "S" "schemas/s.xsd" "metadata" true].
Definition mdocs (a : gmap string string) (C : mconf) (ops : list sop) (i : inventory) : option (object * mdoc * pdoc) :=
  o ← mrun a ops i; match documents mview worders0 mout0 (menv a) (subs a) a C mknown (ob_inv o) with inl (D, P) => Some (o, D, P) | inr _ => None end.
Definition mhook (a : gmap string string) (C : mconf) (ops : list sop) (i : inventory) : option (object * object * mdoc * pdoc) :=
  '(o, D, P) ← mdocs a C ops i;
  match mets_after mview worders0 mout0 (menv a) (subs a) a C mknown (λ _, dflt) o with (o', SOk) => Some (o, o', D, P) | _ => None end.
Lemma mdocs_true a C ops i o D P : mdocs a C ops i = Some (o, D, P) →
  mrun a ops i = Some o ∧ documents mview worders0 mout0 (menv a) (subs a) a C mknown (ob_inv o) = inl (D, P).
Proof.
  unfold mdocs. destruct (mrun a ops i) as [o'|]; [|done]. cbn [mbind option_bind]. destruct (documents _ _ _ _ _ _ _ _ _) as [[D' P']|] eqn:Hd; [|done].
  intros [= -> -> ->]. done.
Qed.
Lemma mhook_true a C ops i o o' D P : mhook a C ops i = Some (o, o', D, P) →
  mdocs a C ops i = Some (o, D, P) ∧ mets_after mview worders0 mout0 (menv a) (subs a) a C mknown (λ _, dflt) o = (o', SOk).
Proof.
  unfold mhook. destruct (mdocs a C ops i) as [[[o1 D'] P']|]; [|done]. cbn [mbind option_bind]. destruct (mets_after _ _ _ _ _ _ _ _ _ _) as [o2 []] eqn:Hd; [|done..].
  intros [= -> -> -> ->]. done.
Qed.
Definition eg := mhook areas3 (mconf0 "area" "") mops fresh0.
Definition uniqueb_head (i : inventory) : bool := match inv_versions i !! inv_head i with Some v => upb (v_state v) | None => false end.
Lemma uniqueb_head_true i : uniqueb_head i = true → ∀ v, inv_versions i !! inv_head i = Some v → unique_paths (v_state v).
Proof. unfold uniqueb_head. intros H v Hv. rewrite Hv in H. by apply upb_true. Qed.
Lemma areas3_separate : separate areas3.
Proof.
  intros a b x. unfold areas3. rewrite !lookup_insert_Some, !lookup_singleton_Some. intros [[<- <-]|(_ & <- & <-)] [[<- H]|(_ & <- & H)]; done.
Qed.
Lemma worders0_ok : worders_ok worders0.
Proof. intros ?. exact wd_ok. Qed.
Lemma menv_supported a : supported (menv a) fresh0.
Proof. exact (asup_true fresh0 ltac:(by vm_compute)). Qed.
(** Decisions about the head version. *)
Definition headb (i : inventory) : list (string * list string) := match inv_versions i !! inv_head i with Some v => map_to_list (v_state v) | None => [] end.
Lemma headb_true i p d : current i p d ↔ ∃ ps, (d, ps) ∈ headb i ∧ p ∈ ps.
Proof.
  unfold current, recorded, headb. split.
  - intros (v & -> & ps & Hps & Hp). exists ps. split; [by apply elem_of_map_to_list|done].
  - destruct (inv_versions i !! inv_head i) as [v|]; [|intros (ps & H & _); by apply elem_of_nil in H]. intros (ps & H%elem_of_map_to_list & Hp). exists v. split; [done|]. by exists ps.
Qed.
Definition currentb (i : inventory) (p d : string) : bool := existsb (λ x : string * list string, bool_decide (x.1 = d ∧ p ∈ x.2)) (headb i).
Lemma currentb_true i p d : currentb i p d = true → current i p d.
Proof. unfold currentb. rewrite existsb_exists. intros ([e ps] & Hin%elem_of_list_In & H%bool_decide_eq_true). cbn [fst snd] in H. destruct H as [-> H]. apply headb_true. by exists ps. Qed.
Definition everyb (f : string → string → bool) (i : inventory) : bool := forallb (λ x : string * list string, forallb (f x.1) x.2) (headb i).
Lemma everyb_true f i : everyb f i = true → ∀ p d, current i p d → f d p = true.
Proof.
  unfold everyb. rewrite forallb_forall. intros H p d (ps & Hin & Hp)%headb_true. apply elem_of_list_In in Hin. apply H in Hin. cbn [fst snd] in Hin. rewrite forallb_forall in Hin.
  apply Hin. by apply elem_of_list_In.
Qed.
Definition only_oneb (i : inventory) (p d : string) : bool := everyb (λ e q, negb (bool_decide (e = d)) || bool_decide (q = p)) i.
Lemma only_oneb_true i p d : only_oneb i p d = true → ∀ q, current i q d → q = p.
Proof. intros H q Hq. pose proof (everyb_true _ _ H q d Hq) as H1. cbn beta in H1. rewrite bool_decide_true in H1 by done. by apply bool_decide_eq_true in H1. Qed.
Definition only_digestb (i : inventory) (p d : string) : bool := everyb (λ e q, negb (bool_decide (q = p)) || bool_decide (e = d)) i.
Lemma only_digestb_true i p d : only_digestb i p d = true → ∀ e, current i p e → e = d.
Proof. intros H e He. pose proof (everyb_true _ _ H p e He) as H1. cbn beta in H1. rewrite bool_decide_true in H1 by done. by apply bool_decide_eq_true in H1. Qed.
Definition no_emptyb (i : inventory) : bool := everyb (λ _ q, negb (bool_decide (q = ""))) i.
Lemma no_emptyb_true i : no_emptyb i = true → ¬ ∃ e, current i "" e.
Proof. intros H (e & He). by pose proof (everyb_true _ _ H "" e He) as H1. Qed.
Lemma imap_dflt (l : list sop) : imap (λ k op, HCall ((λ _ : nat, dflt) k) op) l = HCall dflt <$> l.
Proof. induction l as [|x l IH]; [done|]. cbn [imap fmap list_fmap]. f_equal. exact IH. Qed.
Global Instance mloc_eq : EqDecision mloc.
Proof. solve_decision. Defined.
