(** Reading back the statistics of an object. *)
From Coq Require Import Ascii.
From stdpp Require Import base list strings gmap.
From Coq Require Import ZArith Lia.
From Verif Require Import GoStr InventoryModel StatModel.

(** * How the statistics are read *)

(** The lines that follow the title of version [ver], up to the next title. *)
Definition is_title (l : line) : bool := match l with LVersion _ | LInitial _ => true | _ => false end.
Fixpoint until_title (ls : list line) : list line :=
  match ls with [] => [] | l :: r => if is_title l then [] else l :: until_title r end.
Fixpoint under (ver : string) (ls : list line) : option (list line) :=
  match ls with
  | [] => None
  | l :: r => if decide (l = LVersion ver) then Some (until_title r) else under ver r
  end.
(** The logical paths, each with the content paths that follow it. *)
Fixpoint contents (ls : list line) : list string :=
  match ls with LContent p :: r => p :: contents r | _ => [] end.
Fixpoint files (ls : list line) : list (string * list string) :=
  match ls with
  | [] => []
  | LFile p :: r => (p, contents r) :: files r
  | _ :: r => files r
  end.

Definition stat_order_ok (o : stat_order) : Prop :=
  (∀ m, so_fixity o m ≡ₚ map_to_list m) ∧ (∀ m, so_manifest o m ≡ₚ map_to_list m) ∧
  (∀ m, so_versions o m ≡ₚ map_to_list m) ∧ (∀ v m, so_state o v m ≡ₚ map_to_list m).

(** * Proofs *)

Lemma until_title_app a b : Forall (λ l, is_title l = false) a → until_title (a ++ b) = a ++ until_title b.
Proof. induction 1 as [|l a Hl Ha IH]; cbn; [done|]. rewrite Hl. by rewrite IH. Qed.
Lemma under_app ver a b : LVersion ver ∉ a → under ver (a ++ b) = under ver b.
Proof.
  induction a as [|l a IH]; cbn; intros H; [done|]. apply not_elem_of_cons in H as [H1 H2].
  rewrite decide_False by congruence. by apply IH.
Qed.

Definition plain (l : line) : Prop := match l with LFile _ | LContent _ => True | _ => False end.
Lemma stat_contents_plain info m cs : Forall plain (stat_contents info m cs).
Proof.
  unfold stat_contents. destruct (wants info ObjectManifest); [|constructor]. destruct (m !! cs); [|constructor].
  apply Forall_fmap, Forall_true. done.
Qed.
Lemma stat_state_plain o info m ver st : Forall plain (stat_state o info m ver st).
Proof.
  unfold stat_state. apply Forall_bind, Forall_true. intros [cs sl]. apply Forall_bind, Forall_true. intros s.
  constructor; [done|]. apply stat_contents_plain.
Qed.
Lemma plain_title l : plain l → is_title l = false.
Proof. by destruct l. Qed.

Definition body (o : stat_order) (info : list stat_info) (m : smap) (p : string * version) : list line :=
  LUser (v_uname p.2) (v_uaddr p.2) :: LCreated (v_created p.2) :: LMessage (v_message p.2) ::
  (if wants info ObjectVersionState then stat_state o info m p.1 (v_state p.2) else []).
Lemma body_plain o info m p : Forall (λ l, is_title l = false) (body o info m p).
Proof.
  unfold body. repeat (constructor; [done|]). destruct (wants info ObjectVersionState); [|constructor].
  eapply Forall_impl; [apply stat_state_plain|]. apply plain_title.
Qed.
Lemma stat_version_body o info m p : stat_version o info m p = LVersion p.1 :: body o info m p.
Proof. done. Qed.

Lemma title_not_body o info m p ver : LVersion ver ∉ body o info m p.
Proof. intros H. pose proof (body_plain o info m p) as F. rewrite Forall_forall in F. by apply F in H. Qed.
Lemma title_in o info m l ver : LVersion ver ∈ (l ≫= stat_version o info m) ↔ ver ∈ l.*1.
Proof.
  induction l as [|[v x] l IH]; [split; intros H; by apply elem_of_nil in H|].
  rewrite bind_cons, elem_of_app, stat_version_body, elem_of_cons, IH, fmap_cons, elem_of_cons. cbn. split.
  - intros [[H|H]|H]; [left; congruence|by apply title_not_body in H|by right].
  - intros [->|H]; [by left; left|by right].
Qed.
Definition closed (b : list line) : Prop := until_title b = [].
Lemma until_versions o info m l b : closed b → until_title ((l ≫= stat_version o info m) ++ b) = [].
Proof. destruct l as [|p l]; [done|]. intros _. done. Qed.
Lemma under_versions o info m l b ver v :
  closed b → NoDup l.*1 → (ver, v) ∈ l → under ver ((l ≫= stat_version o info m) ++ b) = Some (body o info m (ver, v)).
Proof.
  intros Hb. induction l as [|[u x] l IH]; intros Hn H; [by apply elem_of_nil in H|].
  rewrite fmap_cons in Hn. apply NoDup_cons in Hn as [Hu Hn]. rewrite bind_cons, stat_version_body, <- (assoc_L (++)).
  cbn [fst app]. cbn [under].
  apply elem_of_cons in H as [[= <- <-]|H].
  - rewrite decide_True by done. rewrite until_title_app by apply body_plain. rewrite until_versions by done. by rewrite app_nil_r.
  - rewrite decide_False.
    + rewrite under_app by apply title_not_body. by apply IH.
    + intros [= ->]. apply Hu. apply elem_of_list_fmap. by exists (ver, v).
Qed.

Lemma stat_configs_closed info x : closed (stat_configs info x).1 ∧ (∀ ver, LVersion ver ∉ (stat_configs info x).1).
Proof.
  unfold stat_configs. destruct (wants info ObjectExtensionConfigs); [|split; [done|]; intros ver H; by apply elem_of_nil in H].
  destruct (st_initial x) as [j|]; [|split; [done|]; intros ver H; by apply elem_of_nil in H]. split; [done|].
  intros ver H. cbn in H. apply elem_of_cons in H as [[=]|H]. apply elem_of_cons in H as [[=]|H].
  apply elem_of_list_fmap in H as (y & [=] & _).
Qed.
Lemma stat_head_title o i ver : LVersion ver ∉ stat_head o i.
Proof. unfold stat_head. intros H. repeat (apply elem_of_cons in H as [[=]|H]). by apply elem_of_nil in H. Qed.

Lemma object_stat_lines o x info :
  (object_stat o x info).1 = stat_head o (st_inv x) ++ stat_versions o info (st_inv x) ++ (stat_configs info x).1.
Proof. unfold object_stat. by destruct (stat_configs info x). Qed.

Lemma wants_spec info k : wants info k = true ↔ info = [] ∨ k ∈ info.
Proof.
  unfold wants. rewrite orb_true_iff, bool_decide_eq_true. destruct info; naive_solver.
Qed.

Lemma fst_nodup o (i : inventory) : stat_order_ok o → NoDup (so_versions o (inv_versions i)).*1.
Proof. intros (_ & _ & H & _). rewrite (H (inv_versions i)). apply NoDup_fst_map_to_list. Qed.

Lemma files_contents ls b : (match b with LContent _ :: _ => False | _ => True end) → files ((LContent <$> ls) ++ b) = files b ∧ contents ((LContent <$> ls) ++ b) = ls.
Proof.
  intros Hb. induction ls as [|p ls [IH1 IH2]]; cbn.
  - split; [done|]. destruct b as [|[]]; done.
  - split; [done|]. by rewrite IH2.
Qed.
Definition starts (b : list line) : Prop := match b with LContent _ :: _ => False | _ => True end.
Lemma stat_contents_eq info m cs : stat_contents info m cs = LContent <$> (if wants info ObjectManifest then default [] (m !! cs) else []).
Proof. unfold stat_contents. destruct (wants info ObjectManifest); [|done]. by destruct (m !! cs). Qed.
Lemma files_names info m cs sl b :
  starts b → files ((sl ≫= λ s, LFile s :: stat_contents info m cs) ++ b)
    = ((λ s, (s, if wants info ObjectManifest then default [] (m !! cs) else [])) <$> sl) ++ files b.
Proof.
  intros Hb. induction sl as [|s sl IH]; [done|]. rewrite bind_cons, <- (assoc_L (++)), <- app_comm_cons. cbn [files].
  rewrite stat_contents_eq.
  assert (Hs : starts ((sl ≫= λ s, LFile s :: stat_contents info m cs) ++ b)) by (destruct sl; done).
  destruct (files_contents (if wants info ObjectManifest then default [] (m !! cs) else []) _ Hs) as [H1 H2].
  rewrite stat_contents_eq in H1, H2, IH. rewrite H1, H2, fmap_cons. cbn. f_equal. apply IH.
Qed.
Lemma files_state_aux info m (l : list (string * list string)) :
  files (l ≫= λ '(cs, sl), sl ≫= λ s, LFile s :: stat_contents info m cs)
    = l ≫= λ '(cs, sl), (λ s, (s, if wants info ObjectManifest then default [] (m !! cs) else [])) <$> sl.
Proof.
  induction l as [|[cs sl] l IH]; [done|]. rewrite !bind_cons. rewrite files_names; [by rewrite IH|].
  clear IH. induction l as [|[c s] l IH]; [done|]. rewrite bind_cons. destruct s; done.
Qed.

Lemma foldl_count (l : list (string * list string)) n :
  foldl (λ n p, (n + N.of_nat (length p.2))%N) n l = (n + N.of_nat (length (l ≫= snd)))%N.
Proof.
  revert n. induction l as [|[d ps] l IH]; intros n; cbn [foldl]; [cbn; lia|]. rewrite IH, bind_cons, app_length. cbn [snd]. lia.
Qed.
