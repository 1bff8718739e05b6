From Coq Require Import Ascii.
From stdpp Require Import base list strings gmap.
From Coq Require Import ZArith Lia.
From Verif Require Import GoStr PathModel PathProofs AreaProofs InventoryModel ObjectModel LoadModel CrashSpec ValidateModel CheckModel AreaModel LayoutModel RootModel RootAddModel RootCheckModel
  MetaModel MetaSpec MetaProofs JsonlProofs MetafileProofs RootExtractModel ServerModel ServerSpec ServerProofs ServerProofs2.

(** * Files of extensions *)
Section server.
  Context {A : Type} (hash : string → string → option string) (parse : string → option inventory) (create : list (string * RootModel.node) → option ext).
  Context (ls : list (string → pres)) (exts : string → list (string * (gmap string A + string))).
  Context (tree : list (string * RootModel.node)).
  Lemma serve_extension w id name path s b : worders_ok w → sane hash parse create exts tree s →
    (serve hash parse create ls exts tree w (RqExtension id name path) s).2 = RpData b →
    ∃ folder i st, stored hash parse create tree folder i st ∧ (addressed ls id folder ∨ inv_id i = id) ∧ st !! path_join ["extensions"; name; path] = Some b.
  Proof.
    intros Hw Hs. rewrite serve_spec. destruct (found hash parse create ls exts tree w _ s) as [s' [x|]] eqn:E.
    - intros H. cbn [snd] in H. subst x. exfalso. unfold found, fetch in E. cbn [asked] in E.
      repeat (match type of E with context [match ?x with _ => _ end] => destruct x end; try discriminate E).
    - destruct (found_ok _ _ _ _ _ _ _ _ _ _ Hw Hs E) as (h & m & -> & (st & Hst) & Ht & Hm). cbn [snd given sv_meta sv_object].
      rewrite (stored_files _ _ _ _ _ _ _ _ Hst). destruct (st !! path_join _) as [b'|] eqn:Eb; [|done]. intros [= <-].
      exists (h_folder h), (h_inv h), st. done.
  Qed.
  Lemma extension_join name p : clean_rel name → clean_rel p → path_join ["extensions"; name; "/" +:+ p] = "extensions/" +:+ name +:+ "/" +:+ p.
  Proof.
    intros Hn Hp. destruct (path_join_slash "extensions" name p) as [-> |[H _]]; [|done]. rewrite join_three; [done| |done..].
    unfold clean_rel. cbn. repeat constructor; done.
  Qed.
End server.

(** * Schedules *)
Section schedules.
  Context {A : Type} (hash : string → string → option string) (parse : string → option inventory) (create : list (string * RootModel.node) → option ext).
  Context (ls : list (string → pres)) (exts : string → list (string * (gmap string A + string))) (tree : list (string * RootModel.node)) (w : worders).
  (** A request arrives, or the request with this number makes a step. *)
  Definition act := (request + nat)%type.
  Definition act_step (a : act) (c : server A * list (request * place A)) : server A * list (request * place A) :=
    match a with
    | inl r => (c.1, c.2 ++ [(r, AtStart)])
    | inr k => match c.2 !! k with
               | Some (r, p) => let x := step hash parse create ls exts tree w r c.1 p in (x.1, take k c.2 ++ (r, x.2) :: drop (S k) c.2)
               | None => c
               end
    end.
  Definition acts (l : list act) : server A * list (request * place A) := fold_left (λ c a, act_step a c) l (idle, []).
  Lemma acts_runs l : worders_ok w → runs hash parse create ls exts tree (acts l).1 (acts l).2.
  Proof.
    intros Hw. unfold acts. assert (runs hash parse create ls exts tree (@idle A, @nil (request * place A)).1 (@idle A, @nil (request * place A)).2) as H by apply runs_start.
    revert H. generalize (@idle A, @nil (request * place A)). induction l as [|a l IH]; intros c H; [done|]. cbn [fold_left]. apply IH. destruct a as [r|k]; cbn [act_step].
    - cbn [fst snd]. by apply runs_arrive.
    - destruct (c.2 !! k) as [[r p]|] eqn:E; [|done]. cbn [fst snd]. apply runs_step; [|done]. by rewrite (take_drop_middle _ _ _ E).
  Qed.
End schedules.

(** * All directories of a tree *)
Fixpoint level (k : nat) (l : list (string * RootModel.node)) : list (list string * list (string * RootModel.node)) :=
  match k with
  | 0 => [([], l)]
  | S k' => l ≫= λ e, match e.2 with Dir sub => (λ x, (e.1 :: x.1, x.2)) <$> level k' sub | File _ => [] end
  end.
Lemma find_dir_level names l sub : find_dir names l = Some sub → (names, sub) ∈ level (length names) l.
Proof.
  revert l. induction names as [|n names IH]; intros l; cbn [find_dir length level]; [intros [= ->]; by apply elem_of_list_singleton|].
  destruct (list_find _ l) as [[k [n' [d|l']]]|] eqn:E; [done| |done]. intros H. apply list_find_Some in E as (Hk & Hn & _). cbn [fst] in Hn. subst n'.
  apply elem_of_list_bind. exists (n, Dir l'). split; [|by eapply elem_of_list_lookup_2]. cbn [fst snd]. apply elem_of_list_fmap. exists (names, sub). split; [done|]. by apply IH.
Qed.
Lemma level_empty k l j : level k l = [] → k ≤ j → level j l = [].
Proof.
  revert l j. induction k as [|k IH]; intros l j H Hj; [done|]. destruct j as [|j]; [lia|]. cbn [level] in *.
  apply elem_of_nil_inv. intros x Hx. apply elem_of_list_bind in Hx as ([n [d|sub]] & Hx & He); cbn [fst snd] in Hx; [by apply elem_of_nil in Hx|].
  rewrite (IH sub j) in Hx; [by apply elem_of_nil in Hx| |lia].
  apply elem_of_nil_inv. intros y Hy. apply (not_elem_of_nil (n :: y.1, y.2)). rewrite <- H. apply elem_of_list_bind. exists (n, Dir sub).
  split; [|done]. cbn [fst snd]. apply elem_of_list_fmap. by exists y.
Qed.
Definition dirs (n : nat) (l : list (string * RootModel.node)) : list (list string * list (string * RootModel.node)) := seq 0 n ≫= λ k, level k l.
Lemma find_folder_dirs n folder l sub : level n l = [] → find_folder folder l = Some sub →
  (path_clean folder = "." ∧ sub = l) ∨ ∃ names, split_slash (path_clean folder) = names ∧ (names, sub) ∈ dirs n l.
Proof.
  intros Hn. unfold find_folder. destruct (decide _) as [E|E]; [intros [= <-]; by left|]. intros H. apply find_dir_level in H. right. eexists. split; [done|].
  unfold dirs. apply elem_of_list_bind. exists (length (split_slash (path_clean folder))). split; [done|]. apply elem_of_list_In, in_seq. split; [lia|].
  destruct (decide (n ≤ length (split_slash (path_clean folder)))) as [Hle|]; [|lia]. rewrite (level_empty n l _ Hn Hle) in H. by apply elem_of_nil in H.
Qed.
