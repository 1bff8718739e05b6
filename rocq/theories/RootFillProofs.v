(** Directory trees and the storages they hold. *)
From Coq Require Import Ascii.
From stdpp Require Import base list strings gmap.
From Coq Require Import ZArith Lia.
From Verif Require Import GoStr PathModel InventoryModel ObjectModel CrashSpec PathProofs AreaProofs LoadModel ValidateModel ValidateSpec CheckModel AcceptSpec
  LayoutSpec RootModel RootSpec RootProofs RootAddModel RootAddSpec RootAddProofs RootCheckModel RootCheckSpec RootCheckProofs RootCheckProofs2 RootFillSpec.

Notation tree := (list (string * RootModel.node)).
Notation pname := CrashSpec.plain_name.

(** * Trees and their files *)
Lemma node_ind' (Q : RootModel.node → Prop) : (∀ d, Q (File d)) → (∀ l, Forall (λ e : string * RootModel.node, Q (snd e)) l → Q (Dir l)) → ∀ n, Q n.
Proof.
  intros HF HD. fix go 1. intros [d|l]; [apply HF|]. apply HD. induction l as [|e l IH]; [constructor|]. constructor; [apply go|exact IH].
Qed.
Definition node_at (name : string) (n : RootModel.node) (names : list string) (data : string) : Prop :=
  match n with File d => names = [name] ∧ data = d | Dir sub => ∃ r, names = name :: r ∧ file_at sub r data end.
Lemma file_at_entry l names data : file_at l names data ↔ ∃ name n, (name, n) ∈ l ∧ node_at name n names data.
Proof.
  split.
  - intros (dirs & name & sub & -> & Hl & Hi). destruct Hl as [l|l nm sub0 nms l' Hi0 Hl].
    + exists name, (File data). split; [done|]. done.
    + exists nm, (Dir sub0). split; [done|]. exists (nms ++ [name]). split; [done|]. by exists nms, name, l'.
  - intros (name & [d|sub] & Hi & Hn).
    + destruct Hn as [-> ->]. exists [], name, l. split; [done|]. split; [constructor|done].
    + destruct Hn as (r & -> & dirs & nm & sub' & -> & Hl & Hi'). exists (name :: dirs), nm, sub'. split; [done|]. split; [by eapply leads_below|done].
Qed.
Lemma go_bind pre (l : tree) :
  (fix go (l : tree) : list (string * string) := match l with [] => [] | e :: l' => node_files pre (fst e) (snd e) ++ go l' end) l = l ≫= λ e, node_files pre (fst e) (snd e).
Proof. induction l as [|e l IH]; [done|]. cbn [mbind list_bind]. by rewrite IH. Qed.
Lemma node_files_dir pre name l : node_files pre name (Dir l) = l ≫= λ e, node_files (pre +:+ name +:+ "/") (fst e) (snd e).
Proof. cbn [node_files]. apply go_bind. Qed.
Lemma join_cons a l : l ≠ [] → join_slash (a :: l) = a +:+ "/" +:+ join_slash l.
Proof. by destruct l. Qed.
Lemma file_at_nonempty l names data : file_at l names data → names ≠ [].
Proof. intros (dirs & name & sub & -> & _). by destruct dirs. Qed.
Lemma app_assoc_str a b c : (a +:+ b) +:+ c = a +:+ b +:+ c.
Proof. by rewrite str_app_assoc. Qed.
Lemma elem_node_files n : ∀ pre name p data, (p, data) ∈ node_files pre name n ↔ ∃ names, node_at name n names data ∧ p = pre +:+ join_slash names.
Proof.
  induction n as [d|l IH] using node_ind'; intros pre name p data.
  - cbn. rewrite elem_of_list_singleton. split.
    + intros [= -> ->]. by exists [name].
    + by intros (names & [-> ->] & ->).
  - rewrite node_files_dir, elem_of_list_bind. cbn [node_at]. split.
    + intros ([nm n'] & Hf & Hi). cbn [fst snd] in Hf. rewrite Forall_forall in IH. apply (IH (nm, n') Hi) in Hf as (names & Hn & ->).
      assert (file_at l names data) as Hfa by (apply file_at_entry; by exists nm, n').
      exists (name :: names). split; [by exists names|]. rewrite (join_cons name) by (by eapply file_at_nonempty). by rewrite !app_assoc_str.
    + intros (names & (r & -> & Hfa) & ->). pose proof (file_at_nonempty _ _ _ Hfa) as Hne. apply file_at_entry in Hfa as (nm & n' & Hi & Hn).
      exists (nm, n'). split; [|done]. cbn [fst snd]. rewrite Forall_forall in IH. apply (IH (nm, n') Hi). exists r. split; [done|].
      rewrite (join_cons name) by done. by rewrite !app_assoc_str.
Qed.
Lemma elem_files (l : tree) p data : (p, data) ∈ (l ≫= λ e, node_files "" (fst e) (snd e)) ↔ ∃ names, file_at l names data ∧ p = join_slash names.
Proof.
  rewrite elem_of_list_bind. split.
  - intros ([nm n] & Hf & Hi). cbn [fst snd] in Hf. apply elem_node_files in Hf as (names & Hn & ->). exists names. split; [|done]. apply file_at_entry. by exists nm, n.
  - intros (names & Hfa & ->). apply file_at_entry in Hfa as (nm & n & Hi & Hn). exists (nm, n). split; [|done]. cbn [fst snd]. apply elem_node_files. by exists names.
Qed.
Lemma tidy_names l names data : tidy l → file_at l names data → Forall pname names.
Proof.
  intros Ht (dirs & name & sub & -> & Hl & Hi). revert Ht Hi. induction Hl as [l|l nm s0 nms l' Hi0 Hl IH]; intros Ht Hi.
  - destruct Ht as [l _ Hp _]. apply Forall_singleton. by eapply Hp.
  - destruct Ht as [l _ Hp Ht]. cbn. apply Forall_cons. split; [by eapply Hp|]. apply IH; [by eapply Ht|done].
Qed.
Lemma elem_unique (l : tree) name n n' : NoDup (fst <$> l) → (name, n) ∈ l → (name, n') ∈ l → n = n'.
Proof.
  intros Hnd [j Hj]%elem_of_list_lookup [k Hk]%elem_of_list_lookup.
  assert (j = k) as ->. { eapply NoDup_lookup; [exact Hnd| |]; rewrite list_lookup_fmap; [rewrite Hj|rewrite Hk]; done. }
  congruence.
Qed.
Lemma leads_unique l names l1 l2 : tidy l → leads l names l1 → leads l names l2 → l1 = l2.
Proof.
  intros Ht H1. revert l2. induction H1 as [l|l nm sub nms l' Hi Hl IH]; intros l2 H2; [by inversion H2|].
  inversion H2 as [|? ? sub2 ? ? Hi2 Hl2]; subst. destruct Ht as [l Hnd _ Ht]. assert (Dir sub = Dir sub2) as [= ->] by (by eapply elem_unique). apply IH; [by eapply Ht|done].
Qed.
Lemma leads_tidy l names l' : tidy l → leads l names l' → tidy l'.
Proof. intros Ht Hl. induction Hl as [|l nm sub nms l' Hi Hl IH]; [done|]. apply IH. destruct Ht as [l _ _ Ht]. by eapply Ht. Qed.
Lemma leads_ordered l names l' : ordered l → leads l names l' → ordered l'.
Proof. intros Ht Hl. induction Hl as [|l nm sub nms l' Hi Hl IH]; [done|]. apply IH. destruct Ht as [l _ Ht]. by eapply Ht. Qed.
Lemma tidy_nodup l : tidy l → NoDup (fst <$> l).
Proof. by intros [? ? _ _]. Qed.
Lemma tidy_plain l name n : tidy l → (name, n) ∈ l → pname name.
Proof. intros [? _ Hp _]. apply Hp. Qed.
Lemma tidy_sub l name sub : tidy l → (name, Dir sub) ∈ l → tidy sub.
Proof. intros [? _ _ Hp]. apply Hp. Qed.
Lemma leads_app l n1 l1 n2 l2 : leads l n1 l1 → leads l1 n2 l2 → leads l (n1 ++ n2) l2.
Proof. intros H1 H2. induction H1 as [|l nm sub nms l' Hi Hl IH]; [done|]. cbn. eapply leads_below; [done|auto]. Qed.
Lemma leads_split l n1 n2 l2 : leads l (n1 ++ n2) l2 → ∃ l1, leads l n1 l1 ∧ leads l1 n2 l2.
Proof.
  revert l. induction n1 as [|nm n1 IH]; intros l H; [exists l; split; [constructor|done]|]. cbn in H. inversion H as [|? ? sub ? ? Hi Hl]; subst.
  destruct (IH _ Hl) as (l1 & H1 & H2). exists l1. split; [by eapply leads_below|done].
Qed.
Lemma file_at_leads l names l' r data : leads l names l' → file_at l' r data → file_at l (names ++ r) data.
Proof. intros Hl (dirs & name & sub & -> & Hd & Hi). exists (names ++ dirs), name, sub. split; [by rewrite (assoc_L (++))|]. split; [by eapply leads_app|done]. Qed.
Lemma leads_names l names l' : tidy l → leads l names l' → Forall pname names.
Proof. intros Ht Hl. induction Hl as [|l nm sub nms l' Hi Hl IH]; [constructor|]. destruct Ht as [l _ Hp Ht]. apply Forall_cons. split; [by eapply Hp|apply IH; by eapply Ht]. Qed.
(** A file below a directory that the names lead to belongs to this directory. *)
Lemma file_at_below l names l' r data : tidy l → leads l names l' → r ≠ [] → file_at l (names ++ r) data → file_at l' r data.
Proof.
  intros Ht Hl Hr (dirs & name & sub & E & Hd & Hi). destruct (exists_last Hr) as (r' & x & ->). rewrite (assoc_L (++)) in E. apply app_inj_tail in E as [<- <-].
  destruct (leads_split _ _ _ _ Hd) as (l1 & H1 & H2). rewrite (leads_unique _ _ _ _ Ht H1 Hl) in H2. by exists r', x, sub.
Qed.
Lemma join_inj l1 l2 : l1 ≠ [] → l2 ≠ [] → Forall pname l1 → Forall pname l2 → join_slash l1 = join_slash l2 → l1 = l2.
Proof.
  intros N1 N2 H1 H2 E. apply (f_equal split_slash) in E. rewrite !split_slash_join in E; try done; (eapply stdpp.list.Forall_impl; [eassumption|]; by intros x (_ & _ & _ & ?)).
Qed.
Lemma join_app l1 l2 : l1 ≠ [] → l2 ≠ [] → join_slash (l1 ++ l2) = join_slash l1 +:+ "/" +:+ join_slash l2.
Proof.
  intros N1 N2. induction l1 as [|x l1 IH]; [done|]. destruct l1 as [|y l1].
  - cbn [app]. by rewrite join_cons.
  - rewrite (join_cons x (y :: l1)) by done. change ((x :: y :: l1) ++ l2) with (x :: ((y :: l1) ++ l2)). rewrite join_cons by done. rewrite IH by done. clear. generalize (join_slash (y :: l1)). intros a. by rewrite app_assoc_str.
Qed.
Lemma files_unique l n1 n2 d1 d2 : tidy l → file_at l n1 d1 → file_at l n2 d2 → join_slash n1 = join_slash n2 → d1 = d2.
Proof.
  intros Ht H1 H2 E. assert (n1 = n2) as <-.
  { apply join_inj; [by eapply file_at_nonempty|by eapply file_at_nonempty|by eapply tidy_names|by eapply tidy_names|done]. }
  destruct H1 as (dirs & name & sub & -> & Hd & Hi), H2 as (dirs2 & name2 & sub2 & E2 & Hd2 & Hi2). apply app_inj_tail in E2 as [<- <-].
  rewrite (leads_unique _ _ _ _ Ht Hd2 Hd) in Hi2. pose proof (tidy_nodup _ (leads_tidy _ _ _ Ht Hd)) as Hnd. pose proof (elem_unique _ _ _ _ Hnd Hi Hi2) as [= ->]. done.
Qed.
Lemma dir_files_lookup l p data : tidy l → dir_files l !! p = Some data ↔ ∃ names, file_at l names data ∧ p = join_slash names.
Proof.
  intros Ht. unfold dir_files. rewrite <- elem_files. split; [apply elem_of_list_to_map_2|].
  intros Hi. destruct (list_to_map (M := storage) (l ≫= λ e, node_files "" (fst e) (snd e)) !! p) as [d|] eqn:E.
  - apply elem_of_list_to_map_2 in E. apply elem_files in E as (n1 & H1 & ->). apply elem_files in Hi as (n2 & H2 & E2). f_equal. by eapply (files_unique l n1 n2).
  - exfalso. apply not_elem_of_list_to_map_2 in E. apply E. apply elem_of_list_fmap. by exists (p, data).
Qed.
Lemma split_join_names names : names ≠ [] → Forall pname names → split_slash (join_slash names) = names.
Proof. intros Hn Hp. apply split_slash_join; [done|]. eapply stdpp.list.Forall_impl; [exact Hp|]. by intros x (_ & _ & _ & ?). Qed.
Lemma join_clean names : names ≠ [] → Forall pname names → clean_rel (join_slash names).
Proof. intros Hn Hp. unfold clean_rel. by rewrite split_join_names. Qed.

(** * A directory and the files below its path *)
Lemma dir_files_sub root s names l : lists root s → leads root names l → names ≠ [] → dir_files l = sub_files (join_slash names) s.
Proof.
  intros [Ht Ho _ Hf] Hl Hn. pose proof (leads_names _ _ _ Ht Hl) as Hp. apply map_eq. intros p. apply option_eq. intros data.
  rewrite (dir_files_lookup l p data (leads_tidy _ _ _ Ht Hl)), sub_lookup by (by apply join_clean). rewrite Hf. split.
  - intros (r & Hr & ->). exists (names ++ r). split; [by eapply file_at_leads|]. rewrite join_app; [done|done|by eapply file_at_nonempty].
  - intros (all & Ha & E). pose proof (tidy_names _ _ _ Ht Ha) as Hpa. pose proof (file_at_nonempty _ _ _ Ha) as Hna.
    assert (all = names ++ split_slash p) as ->.
    { rewrite <- (split_join_names all Hna Hpa), <- E, split_slash_app. by rewrite split_join_names. }
    exists (split_slash p). split; [|symmetry; apply (join_split slash)]. eapply file_at_below; [exact Ht|exact Hl| |exact Ha].
    intros E2. unfold split_slash in E2. by apply split_on_nonempty in E2.
Qed.
