(** Walking over a source folder. *)
From Coq Require Import Ascii.
From stdpp Require Import base list strings gmap.
From Coq Require Import ZArith Lia.
From Verif Require Import GoStr PathModel InventoryModel ObjectModel InventorySpec ObjectSpec CrashSpec PathProofs AreaModel IngestModel IngestSpec.

Lemma slashed_join n ns : slashed n ns = join_slash (n :: ns).
Proof. revert n. induction ns as [|m ns IH]; intros n; [done|]. cbn [slashed]. by rewrite IH. Qed.

(** The name of a place given by its path elements. *)
Definition place (ns : list string) : string := match ns with [] => "." | n :: ns => slashed n ns end.
Lemma place_snoc ns n : Forall plain_name ns → plain_name n → path_join [place ns; n] = place (ns ++ [n]).
Proof.
  intros Hns Hn. destruct ns as [|m ns].
  - cbn [place app slashed]. rewrite path_join_plain by done. pose proof Hn as (H1 & H2 & H3 & H4). unfold path_clean.
    assert (split_slash (join_slash ["."; n]) = ["."; n]) as -> by (apply split_slash_join; [done|repeat constructor; done]).
    rewrite bool_decide_eq_false_2 by (clear; vm_compute; discriminate). cbn [clean_comps]. rewrite (decide_False (P := "." = "")), (decide_True (P := "." = ".")) by done.
    rewrite (decide_False (P := n = "")), (decide_False (P := n = ".")), (decide_False (P := n = "..")) by done.
    cbn [rev app]. change (join_slash [n]) with n. by rewrite decide_False.
  - cbn [place app]. rewrite !slashed_join. inversion Hns as [|? ? Hm Hr]; subst.
    rewrite path_join_plain by (by apply join_slash_nonempty).
    assert (join_slash [join_slash (m :: ns); n] = join_slash (m :: ns ++ [n])) as ->.
    { clear. revert m. induction ns as [|k ns IH]; intros m; [done|].
      change (join_slash (m :: (k :: ns) ++ [n])) with (m +:+ ("/" +:+ join_slash (k :: ns ++ [n]))). rewrite <- IH.
      change (join_slash (m :: k :: ns)) with (m +:+ ("/" +:+ join_slash (k :: ns))). cbn [join_slash str_join]. by rewrite <- !str_app_assoc. }
    apply path_clean_plain; [done|]. change (m :: ns ++ [n]) with ((m :: ns) ++ [n]). apply Forall_app. split; [done|by constructor].
Qed.
Lemma place_inj ns ns' : Forall plain_name ns → Forall plain_name ns' → place ns = place ns' → ns = ns'.
Proof.
  assert (∀ n l, Forall plain_name (n :: l) → place (n :: l) ≠ ".") as Hd.
  { intros n l H E. cbn [place] in E. rewrite slashed_join in E. apply (f_equal split_slash) in E.
    rewrite split_slash_join in E; [|done|by eapply Forall_impl; [done|intros ? (_ & _ & _ & ?)]].
    change (split_slash ".") with ["."] in E. injection E as -> ->. inversion H as [|? ? (_ & Hx & _) _]. done. }
  destruct ns as [|n ns], ns' as [|n' ns']; intros H1 H2 E; [done|by symmetry in E; apply Hd in E|by apply Hd in E|].
  cbn [place] in E. rewrite !slashed_join in E. apply (f_equal split_slash) in E.
  rewrite !split_slash_join in E; [done|done| |done|]; (eapply Forall_impl; [done|by intros ? (_ & _ & _ & ?)]).
Qed.

(** The list of visits for the entries of a directory. *)
Fixpoint walks (path : string) (l : list (string * node)) : list visit :=
  match l with [] => [] | (name, t) :: l' => walk (path_join [path; name]) t ++ walks path l' end.
Lemma walk_dir path c l : walk path (NDir c l) = VDir path :: (if c then [] else [VDir path]) ++ walks path l.
Proof. cbn [walk]. do 2 f_equal. induction l as [|[n t] l IH]; [done|]. cbn [walks]. by rewrite <- IH. Qed.
Lemma walks_elem path l v : v ∈ walks path l ↔ ∃ n t, (n, t) ∈ l ∧ v ∈ walk (path_join [path; n]) t.
Proof.
  induction l as [|[n t] l IH]; cbn [walks].
  - split; [intros H; by apply elem_of_nil in H|]. intros (n & t & H & _). by apply elem_of_nil in H.
  - rewrite elem_of_app, IH. split.
    + intros [H|(n' & t' & H1 & H2)]; [exists n, t|exists n', t']; (split; [|done]); [left|by right].
    + intros (n' & t' & [[= -> ->]|H1]%elem_of_cons & H2); [by left|right; by exists n', t'].
Qed.

(** Names below a readable node are plain. *)
Lemma file_plain t ns x : readable t → file_at t ns x → Forall plain_name ns.
Proof.
  intros Hr. revert ns. induction Hr as [y|l Hnd Hpl _ IH]; intros ns Hf; inversion Hf as [|? ? n t' ns' ? Hin Hf']; subst; [by constructor|].
  constructor; [|by eapply IH]. rewrite Forall_forall in Hpl. apply Hpl, elem_of_list_fmap. by exists (n, t').
Qed.
Lemma elem_plain (l : list (string * node)) n t : Forall plain_name (fst <$> l) → (n, t) ∈ l → plain_name n.
Proof. intros H Hin. rewrite Forall_forall in H. apply H, elem_of_list_fmap. by exists (n, t). Qed.

Lemma walk_file t : readable t → ∀ ns q c, Forall plain_name ns →
  VFile q c ∈ walk (place ns) t ↔ ∃ ns' x, c = Some x ∧ file_at t ns' x ∧ q = place (ns ++ ns').
Proof.
  induction 1 as [y|l Hnd Hpl _ IH]; intros ns q c Hns.
  - cbn [walk]. rewrite elem_of_list_singleton. split.
    + intros [= -> ->]. exists [], y. rewrite app_nil_r. split; [done|]. split; [constructor|done].
    + intros (ns' & x & -> & Hf & ->). inversion Hf; subst. by rewrite app_nil_r.
  - rewrite walk_dir. rewrite elem_of_cons, app_nil_l, walks_elem. split.
    + intros [?|(n & t & Hin & Hv)]; [done|]. pose proof (elem_plain l n t Hpl Hin) as Hn. rewrite place_snoc in Hv by done.
      apply (IH n t Hin) in Hv as (ns' & x & -> & Hf & ->); [|apply Forall_app; split; [done|by constructor]].
      exists (n :: ns'), x. rewrite <- app_assoc. split; [done|]. split; [by econstructor|done].
    + intros (ns' & x & -> & Hf & ->). right. inversion Hf as [|? ? n t ns2 ? Hin Hf']; subst. exists n, t. split; [done|].
      pose proof (elem_plain l n t Hpl Hin) as Hn. rewrite place_snoc by done. apply (IH n t Hin).
      { apply Forall_app; split; [done|by constructor]. }
      exists ns2, x. rewrite <- app_assoc. done.
Qed.
Lemma walk_dirs t : readable t → ∀ ns q, Forall plain_name ns →
  VDir q ∈ walk (place ns) t → ∃ ns', dir_at t ns' ∧ q = place (ns ++ ns').
Proof.
  induction 1 as [y|l Hnd Hpl _ IH]; intros ns q Hns.
  - cbn [walk]. rewrite elem_of_list_singleton. done.
  - rewrite walk_dir. rewrite elem_of_cons, app_nil_l, walks_elem. intros [[= ->]|(n & t & Hin & Hv)].
    + exists []. rewrite app_nil_r. split; [constructor|done].
    + pose proof (elem_plain l n t Hpl Hin) as Hn. rewrite place_snoc in Hv by done.
      apply (IH n t Hin) in Hv as (ns' & Hf & ->); [|apply Forall_app; split; [done|by constructor]].
      exists (n :: ns'). rewrite <- app_assoc. split; [by econstructor|done].
Qed.

(** No file is visited twice. *)
Definition vfiles (l : list visit) : list string := omap (λ v, match v with VFile p _ => Some p | VDir _ => None end) l.
Lemma vfiles_app l l' : vfiles (l ++ l') = vfiles l ++ vfiles l'.
Proof. apply omap_app. Qed.
Lemma vfiles_elem l p : p ∈ vfiles l ↔ ∃ c, VFile p c ∈ l.
Proof.
  unfold vfiles. rewrite elem_of_list_omap. split.
  - intros ([q c|q] & Hin & Hq); [injection Hq as ->; by exists c|done].
  - intros [c Hc]. exists (VFile p c). done.
Qed.
Lemma walk_nodup t : readable t → ∀ ns, Forall plain_name ns → NoDup (vfiles (walk (place ns) t)).
Proof.
  induction 1 as [y|l Hnd Hpl Hr IH]; intros ns Hns; [by apply NoDup_singleton|].
  rewrite walk_dir. cbn [app vfiles omap list_omap]. change (NoDup (vfiles (walks (place ns) l))).
  assert (∀ n t, (n, t) ∈ l → plain_name n) as Hpn by (intros n t; by apply elem_plain).
  revert Hnd Hr IH Hpn. clear Hpl. induction l as [|[n t] l IHl]; intros Hnd Hr IH Hpn; [by apply NoDup_nil|].
  cbn [walks]. rewrite vfiles_app. cbn [fmap list_fmap fst] in Hnd. apply stdpp.list.NoDup_cons in Hnd as [Hn Hnd].
  assert (plain_name n) as Hpn1 by (eapply Hpn; left).
  assert (Forall plain_name (ns ++ [n])) as Hns1 by (apply Forall_app; split; [done|by constructor]).
  rewrite place_snoc by done. apply NoDup_app. split; [by eapply IH; [left|]|]. split.
  - intros p (c & Hc)%vfiles_elem (c' & Hc')%vfiles_elem.
    apply (walk_file t (Hr n t ltac:(left))) in Hc as (ns1 & x & _ & Hf & ->); [|done].
    apply walks_elem in Hc' as (n' & t' & Hin & Hc'). assert (plain_name n') as Hpn' by (eapply Hpn; by right).
    rewrite place_snoc in Hc' by done.
    apply (walk_file t' (Hr n' t' ltac:(by right))) in Hc' as (ns2 & y & _ & Hf' & Eq); [|apply Forall_app; split; [done|by constructor]].
    apply place_inj in Eq.
    + rewrite <- !app_assoc in Eq. apply app_inv_head in Eq. injection Eq as -> ->. apply Hn, elem_of_list_fmap. by exists (n', t').
    + apply Forall_app. split; [done|]. by eapply file_plain; [eapply Hr; left|].
    + apply Forall_app. split; [apply Forall_app; split; [done|by constructor]|]. by eapply file_plain; [eapply Hr; right|].
  - apply IHl; [done|..]; intros; [eapply Hr|eapply IH|eapply Hpn]; try (by right); done.
Qed.

Lemma same_entry (l : list (string * node)) n t t' : NoDup (fst <$> l) → (n, t) ∈ l → (n, t') ∈ l → t' = t.
Proof.
  induction l as [|[m u] l IH]; intros Hnd H1 H2; [by apply elem_of_nil in H1|]. cbn [fmap list_fmap fst] in Hnd.
  apply stdpp.list.NoDup_cons in Hnd as [Hm Hnd]. apply elem_of_cons in H1 as [[= -> ->]|H1].
  - apply elem_of_cons in H2 as [[= ->]|H2]; [done|]. destruct Hm. apply elem_of_list_fmap. by exists (m, t').
  - apply elem_of_cons in H2 as [[= -> ->]|H2]; [|by apply IH]. destruct Hm. apply elem_of_list_fmap. by exists (m, t).
Qed.
(** The folder as a whole. *)
Lemma folder_files t p c : good_folder t → VFile p c ∈ walk "." t ↔ ∃ x, c = Some x ∧ has_file t p x.
Proof.
  intros [Hr (cc & l & ->)]. change "." with (place []). rewrite (walk_file _ Hr) by constructor. cbn [app]. split.
  - intros (ns & x & -> & Hf & ->). exists x. split; [done|]. inversion Hf as [|? ? n t ns' ? Hin Hf']; subst. exists n, ns'. done.
  - intros (x & -> & n & ns & Hf & ->). by exists (n :: ns), x.
Qed.
Lemma folder_dirs t p : good_folder t → VDir p ∈ walk "." t → has_dir t p.
Proof.
  intros [Hr (cc & l & ->)]. change "." with (place []) at 1. intros H. apply (walk_dirs _ Hr) in H as (ns & Hd & ->); [|constructor].
  destruct ns as [|n ns]; [left; split; [constructor|done]|right; by exists n, ns].
Qed.
Lemma folder_nodup t : good_folder t → NoDup (vfiles (walk "." t)).
Proof. intros [Hr _]. change "." with (place []). by apply walk_nodup. Qed.
Lemma has_file_unique t p x y : good_folder t → has_file t p x → has_file t p y → x = y.
Proof.
  intros [Hr _] (n & ns & Hf & ->) (n' & ns' & Hf' & Eq).
  assert (∀ t, readable t → ∀ ns x y, file_at t ns x → file_at t ns y → x = y) as Hu.
  { clear. induction 1 as [z|l Hnd Hpl _ IH]; intros ns x y H1 H2.
    - inversion H1; inversion H2; by subst.
    - inversion H1 as [|? ? n t ns' ? Hin Hf]; subst. inversion H2 as [|? ? n' t' ns'' ? Hin' Hf']; subst.
      assert (t' = t) as -> by (by eapply same_entry). by eapply IH. }
  change (place (n :: ns) = place (n' :: ns')) in Eq. apply place_inj in Eq; [|by eapply file_plain..]. injection Eq as -> ->. by eapply Hu.
Qed.
