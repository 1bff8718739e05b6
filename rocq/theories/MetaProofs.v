From Coq Require Import Ascii.
From stdpp Require Import base list strings gmap.
From Coq Require Import ZArith Lia.
From Verif Require Import GoStr InventoryModel InventorySpec ObjectSpec ValidateModel MetaModel MetaSpec.

(** * Loops over maps *)

Definition put {V B} (g : nat → string → V → option B) (k : nat) (p : string * V) (r : gmap string B) : gmap string B :=
  match g k p.1 p.2 with Some b => <[p.1 := b]> r | None => r end.

Lemma put_other {V B} (g : nat → string → V → option B) k p (r : gmap string B) key : p.1 ≠ key → put g k p r !! key = r !! key.
Proof. intros H. unfold put. destruct (g k p.1 p.2); [|done]. by apply lookup_insert_ne. Qed.

Lemma loop_notin {V B} (g : nat → string → V → option B) l : ∀ k (r : gmap string B) key,
  key ∉ l.*1 → loop (put g) k l r !! key = r !! key.
Proof.
  induction l as [|[a v] l IH]; intros k r key H; [done|]. cbn [loop]. rewrite fmap_cons in H. cbn [fst] in H.
  rewrite IH; [|set_solver]. apply put_other. cbn. set_solver.
Qed.
Lemma loop_at {V B} (g : nat → string → V → option B) l : ∀ k (r : gmap string B) key j v,
  NoDup l.*1 → l !! j = Some (key, v) → r !! key = None → loop (put g) k l r !! key = g (k + j) key v.
Proof.
  induction l as [|[a u] l IH]; intros k r key j v N H R; [done|]. cbn [loop].
  rewrite fmap_cons in N. cbn [fst] in N. apply stdpp.list.NoDup_cons in N as [N1 N2].
  destruct j as [|j].
  - cbn in H. injection H as -> ->. rewrite loop_notin; [|done]. unfold put. cbn [fst snd]. replace (k + 0) with k by lia.
    destruct (g k key v); [by rewrite lookup_insert|done].
  - cbn in H. rewrite (IH (S k) _ key j v N2 H).
    + f_equal. lia.
    + rewrite put_other; [done|]. cbn. intros ->. apply N1. apply elem_of_list_fmap. exists (key, v). split; [done|].
      by eapply elem_of_list_lookup_2.
Qed.

Section Loops.
  Context {V B : Type} (g : nat → string → V → option B) (l : list (string * V)) (m : gmap string V).
  Hypothesis (P : l ≡ₚ map_to_list m).

  Lemma keys_nodup : NoDup l.*1.
  Proof using P. rewrite P. apply NoDup_fst_map_to_list. Qed.
  Lemma key_notin key : m !! key = None → key ∉ l.*1.
  Proof using P.
    intros H [[a v] [-> Hi]]%elem_of_list_fmap. rewrite P in Hi. apply elem_of_map_to_list in Hi. cbn in H. congruence.
  Qed.
  Lemma key_at key v : m !! key = Some v → ∃ j, l !! j = Some (key, v).
  Proof using P. intros H. apply elem_of_list_lookup. rewrite P. by apply elem_of_map_to_list. Qed.

  (** The loop puts one value for every key. *)
  Lemma loop_none key : m !! key = None → loop (put g) 0 l ∅ !! key = None.
  Proof using P. intros H. rewrite loop_notin; [apply lookup_empty|]. by apply key_notin. Qed.
  Lemma loop_some key v : m !! key = Some v → ∃ j, loop (put g) 0 l ∅ !! key = g j key v.
  Proof using P.
    intros H. destruct (key_at key v H) as [j Hj]. exists (0 + j). apply loop_at; [apply keys_nodup|done|apply lookup_empty].
  Qed.
End Loops.

Lemma loop_ext {A B} (f f' : nat → A → B → B) l : ∀ k b, (∀ k a b, f k a b = f' k a b) → loop f k l b = loop f' k l b.
Proof. induction l as [|a l IH]; intros k b H; [done|]. cbn [loop]. rewrite H. by apply IH. Qed.

(** * Searches *)

Lemma first_with_some f l d : first_with f l = Some d → ∃ fs, (d, fs) ∈ l ∧ f ∈ fs.
Proof.
  induction l as [|[a fs] l IH]; cbn [first_with]; [done|]. destruct (decide (f ∈ fs)) as [H|H].
  - injection 1 as <-. exists fs. split; [by left|done].
  - intros Hd. destruct (IH Hd) as (fs' & H1 & H2). exists fs'. split; [by right|done].
Qed.
Lemma first_with_none f l : first_with f l = None → ∀ d fs, (d, fs) ∈ l → f ∉ fs.
Proof.
  induction l as [|[a fs] l IH]; cbn [first_with]; [set_solver|]. destruct (decide (f ∈ fs)) as [H|H]; [done|].
  intros Hn d fs' [[= -> ->]|Hi]%elem_of_cons; [done|]. by eapply IH.
Qed.
Lemma state_entry_some d l : NoDup l.*1 → ∀ ns, (d, ns) ∈ l → state_entry d l = Some ns.
Proof.
  induction l as [|[a fs] l IH]; [set_solver|]. intros N ns. rewrite fmap_cons in N. cbn [fst] in N.
  apply stdpp.list.NoDup_cons in N as [N1 N2]. cbn [state_entry]. intros [[= -> ->]|Hi]%elem_of_cons.
  - by rewrite decide_True.
  - rewrite decide_False; [by apply IH|]. intros ->. apply N1. apply elem_of_list_fmap. by exists (a, ns).
Qed.
Lemma state_entry_none d l : d ∉ l.*1 → state_entry d l = None.
Proof.
  induction l as [|[a fs] l IH]; [done|]. rewrite fmap_cons. cbn [fst state_entry]. intros H.
  rewrite decide_False; [|set_solver]. apply IH. set_solver.
Qed.
Lemma state_entry_map w d (s : smap) : vorder_ok w → state_entry d (vo w 0 s) = s !! d.
Proof.
  intros W. pose proof (W 0 _ s) as P. destruct (s !! d) as [ns|] eqn:Hd.
  - apply state_entry_some; [rewrite P; apply NoDup_fst_map_to_list|]. rewrite P. by apply elem_of_map_to_list.
  - apply state_entry_none. by eapply key_notin.
Qed.

(** * The parts of the report *)

Section Parts.
  Context (w : worders) (W : worders_ok w).

  Lemma checksums_of_put at_ fx f :
    checksums_of w at_ fx f = loop (put (λ k (_ : string) (blk : smap), first_with f (vo (w (k :: 0 :: at_)) 0 blk))) 0 (vo (w at_) 1 fx) ∅.
  Proof using. done. Qed.
  Lemma checksums_of_sound at_ (fx : gmap string smap) f alg x :
    checksums_of w at_ fx f !! alg = Some x → ∃ blk, fx !! alg = Some blk ∧ lists blk f x.
  Proof using W.
    rewrite checksums_of_put. pose proof (W at_ 1 _ fx) as P. destruct (fx !! alg) as [blk|] eqn:Hb.
    - destruct (loop_some (λ k (_ : string) (blk : smap), first_with f (vo (w (k :: 0 :: at_)) 0 blk)) _ _ P alg blk Hb) as [j ->].
      intros Hx. exists blk. split; [done|]. apply first_with_some in Hx as (fs & H1 & H2). rewrite (W _ 0 _ blk) in H1.
      exists fs. by apply elem_of_map_to_list in H1.
    - rewrite (loop_none _ _ _ P alg Hb). done.
  Qed.
  Lemma checksums_of_complete at_ (fx : gmap string smap) f alg blk x :
    fx !! alg = Some blk → lists blk f x → ∃ x', checksums_of w at_ fx f !! alg = Some x'.
  Proof using W.
    intros Hb (fs & H1 & H2). rewrite checksums_of_put. pose proof (W at_ 1 _ fx) as P.
    destruct (loop_some (λ k (_ : string) (blk : smap), first_with f (vo (w (k :: 0 :: at_)) 0 blk)) _ _ P alg blk Hb) as [j ->].
    destruct (first_with f (vo (w (j :: 0 :: at_)) 0 blk)) as [x'|] eqn:Hf; [by exists x'|].
    exfalso. refine (first_with_none _ _ Hf x fs _ H2). rewrite (W _ 0 _ blk). by apply elem_of_map_to_list.
  Qed.

  (** version_names reads the map it builds, but never finds the key. *)
  Lemma version_names_loop at_ d (l : list (string * version)) : ∀ k (r : smap), NoDup l.*1 → (∀ v, v ∈ l.*1 → r !! v = None) →
    loop (λ k (p : string * version) r,
          match state_entry d (vo (w (k :: 1 :: at_)) 0 (v_state p.2)) with
          | Some fnames => <[p.1 := default [] (r !! p.1) ++ fnames]> r
          | None => r
          end) k l r = loop (put (λ (_ : nat) (_ : string) v, v_state v !! d)) k l r.
  Proof using W.
    induction l as [|[a v] l IH]; intros k r N R; [done|]. cbn [loop].
    rewrite fmap_cons in N. cbn [fst] in N. apply stdpp.list.NoDup_cons in N as [N1 N2].
    rewrite state_entry_map by apply W. unfold put at 2. cbn [fst snd].
    rewrite (R a) by (rewrite fmap_cons; by left). cbn [default app].
    apply IH; [done|]. intros v' Hv'. assert (a ≠ v') by (intros ->; by apply N1).
    assert (r !! v' = None) by (apply R; rewrite fmap_cons; by right).
    destruct (v_state v !! d); [by rewrite lookup_insert_ne|done].
  Qed.
  Lemma version_names_exact at_ (vs : gmap string version) d ver ns :
    version_names w at_ vs d !! ver = Some ns ↔ ∃ v, vs !! ver = Some v ∧ v_state v !! d = Some ns.
  Proof using W.
    unfold version_names. pose proof (W at_ 2 _ vs) as P.
    rewrite version_names_loop; [|by eapply keys_nodup|intros; apply lookup_empty].
    destruct (vs !! ver) as [v|] eqn:Hv.
    - destruct (loop_some (λ (_ : nat) (_ : string) v, v_state v !! d) _ _ P ver v Hv) as [j ->]. split; [by exists v|].
      intros (v' & [= <-] & H). done.
    - rewrite (loop_none _ _ _ P ver Hv). split; [done|]. intros (v' & H & _). done.
  Qed.

  (** * Extensions *)
  Context {A : Type}.
  Definition said (em : gmap string (gmap string A)) (d n : string) : option A := default ∅ (em !! d) !! n.
  Lemma said_loop (name : string) (l : list (string * A)) : ∀ k (acc : gmap string (gmap string A)) d n, NoDup l.*1 →
    said (loop (λ _ (p : string * A) acc, <[p.1 := <[name := p.2]> (default ∅ (acc !! p.1))]> acc) k l acc) d n =
    match decide (n = name) with
    | left _ => match snd <$> (list_find (λ p : string * A, p.1 = d) l) with Some p => Some p.2 | None => said acc d n end
    | right _ => said acc d n
    end.
  Proof using.
    induction l as [|[a v] l IH]; intros k acc d n N.
    - cbn. by destruct (decide (n = name)).
    - rewrite fmap_cons in N. cbn [fst] in N. apply stdpp.list.NoDup_cons in N as [N1 N2].
      cbn [loop]. rewrite IH by done. cbn [fst snd]. cbn [list_find fst].
      destruct (decide (a = d)) as [->|Hne].
      + assert (Hl : list_find (λ p : string * A, p.1 = d) l = None).
        { apply list_find_None, stdpp.list.Forall_forall. intros [b u] Hi Hb. cbn in Hb. subst b. apply N1. apply elem_of_list_fmap. by exists (d, u). }
        rewrite Hl. cbn. unfold said. rewrite lookup_insert. cbn. destruct (decide (n = name)) as [->|Hn].
        * by rewrite lookup_insert.
        * by rewrite lookup_insert_ne.
      + unfold said. rewrite lookup_insert_ne by done. destruct (decide (n = name)); [|done].
        destruct (list_find (λ p : string * A, p.1 = d) l) as [[j p]|]; done.
  Qed.
  Lemma said_map (name : string) wd k (acc : gmap string (gmap string A)) (meta : gmap string A) d n : vorder_ok wd →
    said (loop (λ _ (p : string * A) acc, <[p.1 := <[name := p.2]> (default ∅ (acc !! p.1))]> acc) k (vo wd 3 meta) acc) d n =
    match decide (n = name) with
    | left _ => match meta !! d with Some a => Some a | None => said acc d n end
    | right _ => said acc d n
    end.
  Proof using.
    intros Wd. pose proof (Wd 3 _ meta) as P. rewrite said_loop by (by eapply keys_nodup). destruct (decide (n = name)); [|done].
    destruct (list_find (λ p : string * A, p.1 = d) (vo wd 3 meta)) as [[j [b u]]|] eqn:Hf; cbn.
    - apply list_find_Some in Hf as (H1 & H2 & _). cbn in H2. subst b.
      assert (Hi : (d, u) ∈ vo wd 3 meta) by (by eapply elem_of_list_lookup_2). rewrite P in Hi. apply elem_of_map_to_list in Hi. by rewrite Hi.
    - apply list_find_None in Hf. destruct (meta !! d) as [a|] eqn:Hd; [|done]. exfalso.
      rewrite stdpp.list.Forall_forall in Hf. apply (Hf (d, a)); [|done]. rewrite P. by apply elem_of_map_to_list.
  Qed.
  Lemma loop_domain (name : string) (l : list (string * A)) : ∀ k (acc : gmap string (gmap string A)) d,
    (∀ d e, acc !! d = Some e → e ≠ ∅) →
    ∀ e, loop (λ _ (p : string * A) acc, <[p.1 := <[name := p.2]> (default ∅ (acc !! p.1))]> acc) k l acc !! d = Some e → e ≠ ∅.
  Proof using.
    induction l as [|[a v] l IH]; intros k acc d H e; [apply H|]. cbn [loop fst snd]. apply IH. intros d' e' He'.
    destruct (decide (a = d')) as [->|Hne].
    - rewrite lookup_insert in He'. injection He' as <-. apply insert_non_empty.
    - rewrite lookup_insert_ne in He' by done. by eapply H.
  Qed.

  Lemma ext_metadata_inl exts : ∀ k (acc em : gmap string (gmap string A)), ext_metadata w k exts acc = inl em →
    (∀ d e, acc !! d = Some e → e ≠ ∅) →
    (∀ d n a, said em d n = Some a ↔ says exts n d a ∨ said acc d n = Some a ∧ ∀ meta, (n, inl meta) ∈ exts → meta !! d = None) ∧
    (∀ d e, em !! d = Some e → e ≠ ∅).
  Proof using W.
    induction exts as [|[name [meta|e]] exts IH]; intros k acc em; cbn [ext_metadata]; [| |done].
    - intros [= ->] HN. split; [|done]. intros d n a. split.
      + intros H. right. split; [done|]. intros meta Hi. set_solver.
      + intros [(l1 & meta & l2 & H & _)|[H _]]; [|done]. by destruct l1.
    - intros H HN. destruct (IH _ _ _ H) as [IH1 IH2]; [intros d0 e0; by apply loop_domain|]. split; [|done].
      intros d n a. rewrite IH1. rewrite said_map by apply W. split.
      + intros [(l1 & m' & l2 & -> & H1 & H2)|[H1 H2]].
        * left. exists ((name, inl meta) :: l1), m', l2. done.
        * destruct (decide (n = name)) as [->|Hn].
          -- destruct (meta !! d) as [a'|] eqn:Hm.
             ++ injection H1 as ->. left. exists [], meta, exts. split_and!; [done|done|]. intros m' Hm'. by apply H2.
             ++ right. split; [done|]. intros m' [[= ->]|Hi]%elem_of_cons; [done|]. by apply H2.
          -- right. split; [done|]. intros m' [[= -> _]|Hi]%elem_of_cons; [done|]. by apply H2.
      + intros [(l1 & m' & l2 & H0 & H1 & H2)|[H1 H2]].
        * destruct l1 as [|x l1]; injection H0.
          -- intros -> -> ->. right. rewrite decide_True by done. rewrite H1. done.
          -- intros -> <-. left. by exists l1, m', l2.
        * right. split; [|intros m' Hi; apply H2; by right].
          destruct (decide (n = name)) as [->|Hn]; [|done]. rewrite (H2 meta) by (by left). done.
  Qed.
  Lemma ext_metadata_inr exts e : ∀ k (acc : gmap string (gmap string A)), ext_metadata w k exts acc = inr e ↔
    ∃ l1 n l2, exts = l1 ++ (n, inr e) :: l2 ∧ ∀ n' e', (n', inr e') ∉ l1.
  Proof using.
    induction exts as [|[name [meta|e1]] exts IH]; intros k acc; cbn [ext_metadata].
    - split; [done|]. intros (l1 & n & l2 & H & _). by destruct l1.
    - rewrite IH. split.
      + intros (l1 & n & l2 & -> & H). exists ((name, inl meta) :: l1), n, l2. split; [done|].
        intros n' e' [[= ]|Hi]%elem_of_cons. by eapply H.
      + intros (l1 & n & l2 & H0 & H). destruct l1 as [|x l1]; injection H0; [done|]. intros -> <-. exists l1, n, l2. split; [done|].
        intros n' e' Hi. apply (H n' e'). by right.
    - split.
      + intros [= ->]. exists [], name, exts. split; [done|]. intros n' e'. apply not_elem_of_nil.
      + intros (l1 & n & l2 & H0 & H). destruct l1 as [|x l1]; injection H0.
        * by intros _ -> _.
        * intros _ <-. exfalso. eapply H. by left.
  Qed.
End Parts.

(** * The report *)

Section Report.
  Context {A : Type} (w : worders) (W : worders_ok w) (exts : list (string * (gmap string A + string))) (i : inventory).

  Lemma get_metadata_reports m : get_metadata w exts i = inl m → reports i exts m.
  Proof using W.
    unfold get_metadata. destruct (ext_metadata w 0 exts ∅) as [em|e] eqn:He; [|done]. intros [= <-].
    destruct (ext_metadata_inl w W exts 0 ∅ em He) as [H1 H2]; [intros d e; by rewrite lookup_empty|].
    assert (HS : ∀ d n a, said em d n = Some a ↔ says exts n d a).
    { intros d n a. rewrite H1. split; [|by left]. intros [?|[H _]]; [done|]. unfold said in H. rewrite lookup_empty in H. cbn in H.
      by rewrite lookup_empty in H. }
    constructor; cbn [om_id om_alg om_head om_versions om_files om_ext]; try done.
    - intros ver x. pose proof (W [] 4 _ (inv_versions i)) as P.
      change (loop (put (λ (_ : nat) (_ : string) v, Some (version_view v))) 0 (vo (w []) 4 (inv_versions i)) ∅ !! ver = Some x ↔
        ∃ v, inv_versions i !! ver = Some v ∧ x = VersionMeta (v_created v) (v_message v) (v_uname v) (v_uaddr v)).
      destruct (inv_versions i !! ver) as [v|] eqn:Hv.
      + destruct (loop_some (λ (_ : nat) (_ : string) v, Some (version_view v)) _ _ P ver v Hv) as [j ->]. split.
        * intros [= <-]. by exists v.
        * intros (v' & [= <-] & ->). done.
      + rewrite (loop_none _ _ _ P ver Hv). split; [done|]. by intros (v' & ? & _).
    - intros d f. pose proof (W [] 5 _ (inv_manifest i)) as P.
      set (g := λ (k : nat) (d : string) (ps : list string),
             match ps with
             | [] => None
             | f0 :: _ => Some (FileMeta (checksums_of w [k] (inv_fixity i) f0) ps (version_names w [k] (inv_versions i) d) (default ∅ (em !! d)))
             end).
      rewrite (loop_ext _ (put g)) by (intros k [a [|? ?]] b; done). intros Hf.
      destruct (inv_manifest i !! d) as [ps|] eqn:Hd; [|by rewrite (loop_none _ _ _ P d Hd) in Hf].
      destruct (loop_some g _ _ P d ps Hd) as [j Hj]. rewrite Hj in Hf. destruct ps as [|p ps]; [done|]. cbn in Hf. injection Hf as <-.
      exists p, ps. split; [done|]. split; cbn [fm_internal fm_versions fm_checksums fm_ext]; try done.
      + intros ver ns. by apply version_names_exact.
      + intros alg x. apply checksums_of_sound. done.
      + intros alg x (blk & Hb & Hx). by eapply checksums_of_complete.
      + intros n a. apply HS.
    - intros d p ps Hd. pose proof (W [] 5 _ (inv_manifest i)) as P.
      set (g := λ (k : nat) (d : string) (ps : list string),
             match ps with
             | [] => None
             | f0 :: _ => Some (FileMeta (checksums_of w [k] (inv_fixity i) f0) ps (version_names w [k] (inv_versions i) d) (default ∅ (em !! d)))
             end).
      rewrite (loop_ext _ (put g)) by (intros k [a [|? ?]] b; done).
      destruct (loop_some g _ _ P d _ Hd) as [j ->]. by eexists.
    - intros n a. rewrite <- HS. unfold said. destruct (em !! "") as [e|]; cbn; split.
      + by intros (? & [= <-] & ?).
      + intros ?. by exists e.
      + by intros (? & ? & _).
      + by rewrite lookup_empty.
    - intros e. apply H2.
  Qed.
  Lemma get_metadata_error e : get_metadata w exts i = inr e ↔ ∃ l1 n l2, exts = l1 ++ (n, inr e) :: l2 ∧ ∀ n' e', (n', inr e') ∉ l1.
  Proof using.
    rewrite <- (ext_metadata_inr w exts e 0 ∅). unfold get_metadata. destruct (ext_metadata w 0 exts ∅); [|split; by intros [= ->]].
    by split.
  Qed.
End Report.

(** Two reports about the same object are equal. *)
Lemma reports_unique {A} i exts (m1 m2 : object_meta A) : fixity_unique i → reports i exts m1 → reports i exts m2 →
  m1 = m2.
Proof.
  intros F R1 R2.
  cut (om_id m1 = om_id m2 ∧ om_alg m1 = om_alg m2 ∧ om_head m1 = om_head m2 ∧ om_versions m1 = om_versions m2 ∧ om_files m1 = om_files m2 ∧
    om_ext m1 = om_ext m2); [destruct m1, m2; cbn; intros (? & ? & ? & ? & ? & ?); congruence|].
  split_and!.
  - by rewrite (rp_id _ _ _ R1), (rp_id _ _ _ R2).
  - by rewrite (rp_alg _ _ _ R1), (rp_alg _ _ _ R2).
  - by rewrite (rp_head _ _ _ R1), (rp_head _ _ _ R2).
  - apply map_eq. intros ver. apply option_eq. intros x. by rewrite (rp_versions _ _ _ R1), (rp_versions _ _ _ R2).
  - apply map_eq. intros d.
    destruct (om_files m1 !! d) as [f1|] eqn:H1.
    + destruct (rp_files _ _ _ R1 d f1 H1) as (p & ps & Hd & Q1). destruct (rp_files_all _ _ _ R2 d p ps Hd) as [f2 H2].
      rewrite H2. destruct (rp_files _ _ _ R2 d f2 H2) as (p' & ps' & Hd' & Q2). rewrite Hd in Hd'. injection Hd' as <- <-. f_equal.
      assert (fm_internal f1 = fm_internal f2) by by rewrite (fr_internal _ _ _ _ _ _ Q1), (fr_internal _ _ _ _ _ _ Q2).
      assert (fm_versions f1 = fm_versions f2).
      { apply map_eq. intros ver. apply option_eq. intros x. by rewrite (fr_versions _ _ _ _ _ _ Q1), (fr_versions _ _ _ _ _ _ Q2). }
      assert (fm_ext f1 = fm_ext f2).
      { apply map_eq. intros n. apply option_eq. intros x. by rewrite (fr_ext _ _ _ _ _ _ Q1), (fr_ext _ _ _ _ _ _ Q2). }
      assert (fm_checksums f1 = fm_checksums f2).
      { apply map_eq. intros alg. destruct (fm_checksums f1 !! alg) as [x|] eqn:Hx.
        - pose proof (fr_checksums _ _ _ _ _ _ Q1 _ _ Hx) as Hl. destruct (fr_checksums_all _ _ _ _ _ _ Q2 _ _ Hl) as [y Hy].
          rewrite Hy. f_equal. eapply F; [exact Hl|]. by apply (fr_checksums _ _ _ _ _ _ Q2).
        - destruct (fm_checksums f2 !! alg) as [y|] eqn:Hy; [|done].
          pose proof (fr_checksums _ _ _ _ _ _ Q2 _ _ Hy) as Hl. destruct (fr_checksums_all _ _ _ _ _ _ Q1 _ _ Hl) as [x Hx']. congruence. }
      destruct f1, f2. cbn in *. congruence.
    + destruct (om_files m2 !! d) as [f2|] eqn:H2; [|done].
      destruct (rp_files _ _ _ R2 d f2 H2) as (p & ps & Hd & Q2). destruct (rp_files_all _ _ _ R1 d p ps Hd) as [f1 H1']. congruence.
  - assert (Q : ∀ n a, (∃ e, om_ext m1 = Some e ∧ e !! n = Some a) ↔ ∃ e, om_ext m2 = Some e ∧ e !! n = Some a).
    { intros n a. by rewrite (rp_ext _ _ _ R1), (rp_ext _ _ _ R2). }
    destruct (om_ext m1) as [e1|] eqn:H1, (om_ext m2) as [e2|] eqn:H2; [| | |done].
    + f_equal. apply map_eq. intros n. apply option_eq. intros a. split; intros H.
      * destruct (Q n a) as [Q1 _]. destruct Q1 as (? & [= <-] & ?); [by exists e1|done].
      * destruct (Q n a) as [_ Q1]. destruct Q1 as (? & [= <-] & ?); [by exists e2|done].
    + exfalso. destruct (map_choose e1) as (n & a & Hn); [exact (rp_ext_some _ _ _ R1 e1 H1)|].
      destruct (Q n a) as [Q1 _]. destruct Q1 as (? & ? & _); [by exists e1|done].
    + exfalso. destruct (map_choose e2) as (n & a & Hn); [exact (rp_ext_some _ _ _ R2 e2 H2)|].
      destruct (Q n a) as [_ Q1]. destruct Q1 as (? & ? & _); [by exists e2|done].
Qed.

Lemma every_file_reported {A} w exts i (m : object_meta A) : worders_ok w → resolvable i → get_metadata w exts i = inl m →
  ∀ ver p d, recorded i ver p d ↔
    ∃ f ns, om_files m !! d = Some f ∧ fm_versions f !! ver = Some ns ∧ p ∈ ns ∧ fm_internal f ≠ [] ∧ inv_manifest i !! d = Some (fm_internal f).
Proof.
  intros W R H ver p d. pose proof (get_metadata_reports w W exts i m H) as Q. split.
  - intros (v & Hv & ns & Hd & Hp). destruct (R ver v d Hv (mk_is_Some _ _ Hd)) as (q & qs & Hm).
    destruct (rp_files_all _ _ _ Q d q qs Hm) as [f Hf]. destruct (rp_files _ _ _ Q d f Hf) as (q' & qs' & Hm' & F).
    exists f, ns. split_and!; [done| |done| |].
    + apply (fr_versions _ _ _ _ _ _ F). by exists v.
    + by rewrite (fr_internal _ _ _ _ _ _ F).
    + by rewrite (fr_internal _ _ _ _ _ _ F).
  - intros (f & ns & Hf & Hn & Hp & _). destruct (rp_files _ _ _ Q d f Hf) as (q & qs & Hm & F).
    apply (fr_versions _ _ _ _ _ _ F) in Hn as (v & Hv & Hs). exists v. split; [done|]. by exists ns.
Qed.
