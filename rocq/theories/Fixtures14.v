(** Trees for storage roots, for the examples of Properties24. *)
From Coq Require Import Ascii.
From stdpp Require Import base list strings gmap.
From Coq Require Import ZArith Lia.
From Verif Require Import GoStr PathModel ObjectModel CrashSpec PathProofs RootModel RootSpec RootProofs RootCheckModel RootCheckSpec RootCheckProofs RootCheckProofs2 RootFillSpec RootFillProofs Fixtures13.

(** The directory tree of a storage: one file after the other is put into the listings, which are kept in byte order. *)
Fixpoint put (x : string) (f : option node → node) (l : list (string * node)) : list (string * node) :=
  match l with
  | [] => [(x, f None)]
  | (y, n) :: l' => if decide (x = y) then (y, f (Some n)) :: l' else if decide (str_le x y) then (x, f None) :: l else (y, n) :: put x f l'
  end.
Fixpoint put_file (names : list string) (data : string) (l : list (string * node)) : list (string * node) :=
  match names with
  | [] => l
  | [x] => put x (λ _, File data) l
  | x :: r => put x (λ n, Dir (put_file r data (match n with Some (Dir sub) => sub | _ => [] end))) l
  end.
Definition tree_of (s : storage) : list (string * node) := foldl (λ l e, put_file (split_slash (fst e)) (snd e) l) [] (map_to_list s).

Fixpoint orderedb (l : list (string * node)) : bool :=
  match l with [] => true | e :: l' => forallb (λ e', bool_decide (str_le (fst e) (fst e'))) l' && orderedb l' end.
Fixpoint nodeb (n : node) : bool :=
  match n with
  | File _ => true
  | Dir l => namesb l && orderedb l && (match l with [] => false | _ => true end) && (fix go (l : list (string * node)) : bool := match l with [] => true | (_, n') :: l' => nodeb n' && go l' end) l
  end.
Fixpoint nodesb (l : list (string * node)) : bool := match l with [] => true | (_, n) :: l' => nodeb n && nodesb l' end.
Lemma nodesb_elem l name n : nodesb l = true → (name, n) ∈ l → nodeb n = true.
Proof. induction l as [|[nm n'] l IH]; [intros _ Hi; by apply elem_of_nil in Hi|]. cbn. intros [H1 H2]%andb_prop [[= -> ->]|Hi]%elem_of_cons; auto. Qed.
Lemma nodeb_dir l : nodeb (Dir l) = true → namesb l = true ∧ orderedb l = true ∧ l ≠ [] ∧ nodesb l = true.
Proof.
  cbn [nodeb]. intros [[[H1 H2]%andb_prop H3]%andb_prop H4]%andb_prop. split; [done|]. split; [done|]. split; [by destruct l|].
  revert H4. clear. induction l as [|[nm n] l IH]; [done|]. intros [H1 H2]%andb_prop. cbn [nodesb]. rewrite H1. by apply IH.
Qed.
Lemma orderedb_true l : orderedb l = true → in_order l.
Proof.
  induction l as [|e l IH]; [intros _ i j a b _ Ha; by rewrite lookup_nil in Ha|]. cbn. intros [H1 H2]%andb_prop i j a b Hij Ha Hb.
  destruct j as [|j]; [lia|]. destruct i as [|i].
  - injection Ha as <-. rewrite forallb_forall in H1. apply (elem_of_list_lookup_2 l) in Hb. specialize (H1 b (proj1 (elem_of_list_In _ _) Hb)). by apply bool_decide_eq_true in H1.
  - apply (IH H2 i j); [lia|done|done].
Qed.
Lemma nodeb_true n : nodeb n = true → match n with File _ => True | Dir l => tidy l ∧ ordered l ∧ ∃ r data, file_at l r data end.
Proof.
  induction n as [d|l IH] using node_ind'; [done|]. intros (H1 & H2 & H3 & H4)%nodeb_dir. apply namesb_true in H1 as [H5 H6].
  rewrite stdpp.list.Forall_forall in IH. assert (∀ name sub, (name, Dir sub) ∈ l → tidy sub ∧ ordered sub ∧ ∃ r data, file_at sub r data) as Hs.
  { intros name sub Hi. exact (IH _ Hi (nodesb_elem _ _ _ H4 Hi)). }
  split; [constructor; [done|done|intros name sub Hi; by eapply Hs]|]. split; [constructor; [by apply orderedb_true|intros name sub Hi; by eapply Hs]|].
  destruct l as [|[name [d|sub]] l]; [done| |].
  - exists [name], d. exists [], name, ((name, File d) :: l). split; [done|]. split; [constructor|apply elem_of_list_here].
  - destruct (Hs name sub ltac:(apply elem_of_list_here)) as (_ & _ & r & data & Hr). exists (name :: r), data. apply file_at_entry. exists name, (Dir sub).
    split; [apply elem_of_list_here|by exists r].
Qed.
Definition listsb (tree : list (string * node)) (s : storage) : bool := namesb tree && orderedb tree && nodesb tree && bool_decide (dir_files tree = s).
Lemma listsb_true tree s : listsb tree s = true → lists tree s.
Proof.
  intros [[[H1 H2]%andb_prop H3]%andb_prop H4%bool_decide_eq_true]%andb_prop. apply namesb_true in H1 as [H5 H6].
  assert (∀ name sub, (name, Dir sub) ∈ tree → tidy sub ∧ ordered sub ∧ ∃ r data, file_at sub r data) as Hs.
  { intros name sub Hi. exact (nodeb_true _ (nodesb_elem _ _ _ H3 Hi)). }
  assert (tidy tree) as Ht by (constructor; [done|done|intros name sub Hi; by eapply Hs]). split; [done| | |].
  - constructor; [by apply orderedb_true|intros name sub Hi; by eapply Hs].
  - intros names l Hn Hl. assert (∀ l0 names, nodesb l0 = true → names ≠ [] → leads l0 names l → ∃ r data, file_at l r data) as Hgo; [|by eapply Hgo].
    clear. intros l0 names H3 Hn Hl. induction Hl as [l|l name sub names l' Hi Hl IH]; [done|]. pose proof (nodesb_elem _ _ _ H3 Hi) as Hb.
    destruct names as [|x names]; [inversion Hl; subst; by apply (nodeb_true _ Hb)|]. apply IH; [by apply nodeb_dir|done].
  - intros p data. rewrite <- H4. by apply dir_files_lookup.
Qed.
