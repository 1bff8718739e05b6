(** The codes that the validation of an object can record. *)
From Coq Require Import Ascii.
From stdpp Require Import base list strings gmap.
From Coq Require Import ZArith Lia.
From Verif Require Import GoStr PathModel InventoryModel ObjectModel LoadModel ValidateModel CheckModel.

(** All findings of a verdict, also those before an error. *)
Definition found (v : verdict) : list finding := match v with VDone fs => fs | VError fs _ => fs | VPanic => [] end.
(** The codes that occur in inventorybase.go and objectbase.go. *)
Definition used_codes : list string :=
  ["E000"; "E001"; "E008"; "E010"; "E011"; "E012"; "E013"; "E015"; "E017"; "E019"; "E023"; "E025"; "E036"; "E037"; "E040"; "E041"; "E046"; "E049";
   "E050"; "E052"; "E053"; "E054"; "E058"; "E060"; "E061"; "E064"; "E066"; "E092"; "E093"; "E094"; "E095"; "E096"; "E097"; "E099"; "E100"; "E101";
   "E103"; "E104"; "E107"; "W000"; "W001"; "W002"; "W004"; "W005"; "W007"; "W008"; "W009"; "W010"; "W011"].
Definition usual (fs : list finding) : Prop := Forall (λ f, f_code f ∈ used_codes) fs.
Definition tame (v : verdict) : Prop := usual (found v).

Lemma usual_nil : usual [].
Proof. constructor. Qed.
Lemma usual_app a b : usual a → usual b → usual (a ++ b).
Proof. intros. by apply Forall_app. Qed.
Lemma usual_cons c args l : bool_decide (c ∈ used_codes) = true → usual l → usual (Finding c args :: l).
Proof. intros H%bool_decide_eq_true Hl. by constructor. Qed.
Lemma usual_when b c args : bool_decide (c ∈ used_codes) = true → usual (when b (Finding c args)).
Proof. intros H. destruct b; cbn [when]; [by apply usual_cons, usual_nil|constructor]. Qed.
Lemma usual_flat {A} (f : A → list finding) l : (∀ x, usual (f x)) → usual (flat_map f l).
Proof. intros H. induction l as [|x l IH]; [constructor|]. cbn [flat_map]. by apply usual_app. Qed.
Lemma tame_done fs : usual fs → tame (VDone fs).
Proof. done. Qed.
Lemma tame_err fs m : usual fs → tame (VError fs m).
Proof. done. Qed.
Lemma tame_panic : tame VPanic.
Proof. constructor. Qed.
Lemma tame_seq a b : tame a → tame b → tame (vseq a b).
Proof. intros Ha Hb. destruct a as [fs|fs m|]; [|done|done]. destruct b as [gs|gs m|]; cbn [vseq]; [by apply usual_app..|constructor]. Qed.
Lemma tame_all l : Forall tame l → tame (vall l).
Proof. induction 1 as [|v l Hv Hl IH]; cbn [vall]; [constructor|by apply tame_seq]. Qed.
Lemma tame_map {A} (f : A → verdict) l : (∀ x, tame (f x)) → tame (vall (f <$> l)).
Proof. intros H. apply tame_all, Forall_fmap, Forall_true. exact H. Qed.
Ltac codes := repeat (cbv beta; match goal with
  | |- usual [] => apply usual_nil
  | |- usual (_ ++ _) => apply usual_app
  | |- usual (when _ _) => apply usual_when; reflexivity
  | |- usual (_ :: _) => apply usual_cons; [reflexivity|]
  | |- usual (flat_map _ _) => apply usual_flat; intros ?
  | |- tame VPanic => apply tame_panic
  | |- tame (vseq _ _) => apply tame_seq
  | |- tame (vall (_ <$> _)) => apply tame_map; intros ?
  | |- tame (VDone _) => apply tame_done
  | |- tame (VError _ _) => apply tame_err
  | |- _ => case_match
  end).

Lemma tame_path cs ce args p : bool_decide (cs ∈ used_codes) = true → bool_decide (ce ∈ used_codes) = true → tame (check_path cs ce args p).
Proof.
  intros H1 H2. unfold check_path. destruct (str_head p); [|codes]. destruct (str_last p); [|codes]. cbv zeta. apply tame_done, usual_app; [by apply usual_when|].
  apply usual_flat. intros e. by apply usual_when.
Qed.
Lemma usual_e101 l : usual (e101_pairs l).
Proof. induction l as [|a [|b l] IH]; [constructor..|]. cbn [e101_pairs]. apply usual_app; [by apply usual_when|exact IH]. Qed.
Lemma usual_e095 l : usual (e095_pairs l).
Proof. induction l as [|a [|b l] IH]; [constructor..|]. cbn [e095_pairs]. apply usual_app; [by apply usual_when|exact IH]. Qed.
Lemma tame_manifest w d : tame (check_manifest w d).
Proof. unfold check_manifest. destruct (all_some _); [|codes]. cbv zeta. apply tame_seq; [|apply tame_done, usual_e101]. codes. all: by apply tame_path. Qed.
Lemma tame_block alg seen l : tame (check_fixity_block alg seen l).
Proof.
  revert seen. induction l as [|[d ps] l IH]; intros seen; [constructor|]. cbn [check_fixity_block]. cbv zeta.
  apply tame_seq; [codes|]. apply tame_seq; [|apply IH]. apply tame_map. intros p. by apply tame_path.
Qed.
Lemma tame_fixity w d : tame (check_fixity w d).
Proof. unfold check_fixity. apply tame_map. intros p. apply tame_block. Qed.
Lemma usual_padding pad ver : usual (check_padding pad ver).2.
Proof. unfold check_padding. cbv zeta. destruct (zero_name ver); [|destruct (nozero_name ver)]; [destruct (decide (pad = -1)%Z)..|]; cbn [snd]; codes. Qed.
Lemma tame_version w lx m ver v : tame (check_version w lx m ver v).
Proof.
  unfold check_version. destruct (vd_created v) as [cr|]; [|codes]. destruct (vd_user v) as [[ue [na|] [ad|]]|]; [|codes..]. destruct (vd_message v) as [msg|]; [|codes].
  destruct (vd_state v) as [[st ste]|]; [|codes]. apply tame_seq; [codes|]. apply tame_map. intros p. apply tame_seq; [codes|]. apply tame_map. intros q. by apply tame_path.
Qed.
Lemma tame_loop w lx d pad l : tame (check_versions_loop w lx d pad l).2.
Proof.
  revert pad. induction l as [|[ver v] l IH]; intros pad; [constructor|]. cbn [check_versions_loop]. destruct (dc_values d !! ver) as [z|]; [|apply IH].
  pose proof (usual_padding pad ver) as Hp. destruct (check_padding pad ver) as [pad1 fs]. specialize (IH pad1). destruct (check_versions_loop w lx d pad1 l) as [[pad2 zs] r].
  cbn [snd] in *. apply tame_seq; [exact Hp|]. apply tame_seq; [apply tame_version|exact IH].
Qed.
Lemma tame_versions w lx d : tame (check_versions w lx d).2.
Proof.
  unfold check_versions. pose proof (tame_loop w lx d (-1) (vo w 5 (vers d))) as Hl. destruct (check_versions_loop _ _ _ _ _) as [[pad zs] r]. cbn [snd] in *. cbv zeta.
  apply tame_seq; [codes|]. apply tame_seq; [exact Hl|]. apply tame_seq; [codes|]. apply tame_map. intros p. unfold check_logical. destruct (state_of _); [|codes]. apply tame_done, usual_e095.
Qed.
Lemma tame_doc w lx d : tame (check_doc w lx d).2.
Proof.
  unfold check_doc. pose proof (tame_versions w lx d) as Hv. destruct (check_versions w lx d) as [pad r]. cbn [snd] in *.
  apply tame_seq; [exact Hv|]. apply tame_seq; [apply tame_manifest|]. apply tame_seq; [apply tame_fixity|]. codes.
Qed.
Lemma usual_fin ver v : usual (fin_version ver v).1.
Proof. unfold fin_version. destruct (version_value ver); cbn [fst]; codes. Qed.
Lemma tame_finalize w lx b d : tame (finalize w lx b d).2.
Proof.
  unfold finalize. cbv zeta. set (d1 := Doc _ _ _ _ _ _ _ _ _ _ _). pose proof (tame_doc w lx d1) as Hc.
  assert (usual (when (negb b && bool_decide (dc_manifest d = None)) (Finding "E041" ["manifest"]) ++ when (negb b && bool_decide (dc_versions d = None)) (Finding "E041" ["versions"]) ++
    flat_map (λ p : string * vdoc, (fin_version p.1 p.2).1) (vo w 0 (vers d)))) as Hf.
  { apply usual_app; [codes|]. apply usual_app; [codes|]. apply usual_flat. intros p. apply usual_fin. }
  destruct b; [exact Hf|]. destruct (check_doc w lx d1) as [pad r]. cbn [snd] in *. apply tame_seq; [exact Hf|exact Hc].
Qed.
Lemma tame_files w fm d : tame (check_files w fm d).
Proof. unfold check_files. codes. Qed.
Lemma tame_flat w n d : tame (files_flat w n d).2.
Proof. unfold files_flat. cbv zeta. destruct (forallb _ _); cbn [snd]; codes. Qed.
Lemma usual_folder s ver : usual (check_version_folder s ver).
Proof. unfold check_version_folder. codes. Qed.
Lemma usual_root s l : usual (check_root s l).
Proof.
  unfold check_root. apply usual_app; [|codes]. apply usual_flat. intros e. apply usual_app.
  - destruct (decide _); [codes|]. apply usual_cons; [done|]. destruct (version_value e); [|codes]. apply usual_app; [apply usual_folder|codes].
  - destruct (decide _); [apply usual_folder|codes].
Qed.
Lemma usual_specs vinv l : usual (check_specs vinv l).
Proof. induction l as [|a [|b l] IH]; [constructor..|]. cbn [check_specs]. apply usual_app; [codes|exact IH]. Qed.
Lemma tame_physical w all vd name : tame (check_physical w all vd name).
Proof. unfold check_physical. pose proof (tame_flat w 21 vd) as H. destruct (files_flat w 21 vd) as [[fl|] r]; cbn [snd] in H; [|exact H]. apply tame_seq; [exact H|codes]. Qed.
Lemma tame_listed w content cver vd iver : tame (check_listed w content cver vd iver).
Proof.
  unfold check_listed. destruct (version_le _ _ _); [|codes]. pose proof (tame_flat w 21 vd) as H. destruct (files_flat w 21 vd) as [[fl|] r]; cbn [snd] in H; [|exact H].
  apply tame_seq; [exact H|codes].
Qed.
Lemma tame_against w d ver vd : tame (check_against_root w d ver vd).
Proof. unfold check_against_root. codes. Qed.
Lemma tame_inventory w s fm first ver d : tame (check_version_inventory w s fm first ver d).
Proof. unfold check_version_inventory. apply tame_seq; [codes|]. apply tame_seq; [apply tame_files|codes]. Qed.
Lemma tame_content hash w s d vinv : tame (check_files_and_versions hash w s d vinv).
Proof.
  unfold check_files_and_versions. cbv zeta. destruct (all_some _); [|codes]. apply tame_seq.
  { apply tame_done, usual_flat. intros ver. unfold walk_findings. codes. }
  destruct (content_manifest _ _ _ _) as [| |fm]; [codes..|]. apply tame_seq; [apply tame_files|]. destruct (match version_strings w 18 d with [] => Some "" | v0 :: _ => dc_contentdir <$> vinv !! v0 end); [|codes].
  apply tame_seq. { apply tame_map. intros ver. destruct (vinv !! ver); [apply tame_inventory|codes]. }
  apply tame_seq; [apply tame_done, usual_specs|]. apply tame_seq; [codes|].
  apply tame_seq; [apply tame_map; intros p; apply tame_against|]. apply tame_seq; [apply tame_map; intros p; apply tame_physical|].
  apply tame_seq; [apply tame_physical|]. apply tame_map. intros ver. apply tame_seq; [apply tame_map; intros p; apply tame_listed|apply tame_listed].
Qed.
Lemma tame_load hash decode w lx s pre : tame (load_doc hash decode w lx s pre).2.
Proof.
  unfold load_doc. cbv zeta. destruct (s !! _) as [bytes|]; [|constructor]. destruct (decode bytes) as [d0|]; [|constructor].
  pose proof (tame_finalize w lx false d0) as H1. destruct (finalize w lx false d0) as [d1 r1]. pose proof (tame_finalize w lx false d1) as H2. destruct (finalize w lx false d1) as [d2 r2].
  cbn [snd] in *. apply tame_seq; [exact H1|]. apply tame_seq; [codes|exact H2].
Qed.
Lemma tame_loads hash decode w lx s l : tame (load_versions hash decode w lx s l).2.
Proof.
  induction l as [|ver l IH]; [constructor|]. cbn [load_versions]. pose proof (tame_load hash decode w lx s (ver +:+ "/")) as H. destruct (load_doc _ _ _ _ _ _) as [od r].
  destruct (load_versions hash decode w lx s l) as [m r']. cbn [snd] in *. destruct od; cbn [snd]; apply tame_seq; try done. apply tame_seq; [codes|done].
Qed.
Lemma tame_object hash decode w lx s : tame (validate_object hash decode w lx s).
Proof.
  unfold validate_object. pose proof (tame_load hash decode w lx s "") as H. destruct (load_doc hash decode w lx s "") as [[d|] r]; cbn [snd] in H.
  - pose proof (tame_loads hash decode w lx s (version_strings w 16 d)) as Hv. destruct (load_versions _ _ _ _ _ _) as [vinv rv]. cbn [snd] in Hv.
    apply tame_seq; [exact H|]. apply tame_seq; [exact Hv|]. unfold check_object. apply tame_seq; [apply tame_done, usual_root|apply tame_content].
  - destruct r; exact H.
Qed.
