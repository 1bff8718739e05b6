(** A request that is made again after interrupted attempts. *)
From Coq Require Import Ascii.
From stdpp Require Import base list strings gmap.
From Coq Require Import ZArith Lia.
From Verif Require Import GoStr PathModel InventoryModel ObjectModel InventorySpec InventoryProofs ObjectSpec ObjectProofs LookupProofs AddProofs
  ClaimsInventory ClaimsInventory2 CrashSpec LoadModel PathProofs CrashProofs LoadProofs SessionProofs PublishSpec PublishProofs PublishProofs2
  PublishProofs3 PublishProofs4 AreaModel IngestModel IngestSpec IngestProofs IngestProofs2 IngestProofs3 IngestProofs4 RetrySpec.

(** * Traces that consist of whole files *)

Definition writes (ws : list (string * string)) : list ev := concat ((λ w : string * string, write_file w.1 w.2) <$> ws).
Lemma writes_app ws ws' : writes (ws ++ ws') = writes ws ++ writes ws'.
Proof. unfold writes. by rewrite fmap_app, concat_app. Qed.
Lemma writes_path ws e : e ∈ writes ws → ev_path e ∈ fst <$> ws.
Proof.
  intros (l & Hl & He)%elem_of_list_In%in_concat. apply elem_of_list_In, elem_of_list_fmap in Hl as (w & -> & Hw). apply elem_of_list_fmap. exists w. split; [|done].
  apply elem_of_list_In in He. unfold write_file in He. by repeat (apply elem_of_cons in He as [-> |He]; [done|]); apply elem_of_nil in He.
Qed.
(** What is written does not depend on the files that it replaces. *)
Lemma writes_same ws : ∀ s s', (∀ p, p ∉ fst <$> ws → s' !! p = s !! p) → apply_evs (writes ws) s' = apply_evs (writes ws) s.
Proof.
  induction ws as [|[p b] ws IH]; intros s s' H.
  - apply map_eq. intros p. apply H. apply not_elem_of_nil.
  - change (writes ((p, b) :: ws)) with (write_file p b ++ writes ws). rewrite !apply_evs_app, !apply_write. apply IH.
    intros q Hq. destruct (decide (q = p)) as [-> |Hne]; [by rewrite !lookup_insert|]. rewrite !lookup_insert_ne by done. apply H. cbn [fmap list_fmap fst].
    by rewrite not_elem_of_cons.
Qed.

(** * AddFile stores the file or not *)

Lemma ob_add_trace E orc data path area dedup o np d mp m :
  oracle_ok orc → head_is (ob_inv o) m → m ≠ 0%N → inv_writeable (ob_inv o) = true →
  e_state_path E path area = Some np → e_manifest_path E path area = Some mp →
  (inv_padding (ob_inv o) <= 0)%Z → newest_single (ob_inv o) np →
  e_hash E (inv_alg (ob_inv o)) data = Some d → d ≠ "" → to_lower d = d →
  (∀ a, a ∈ inv_fixalgs (ob_inv o) → is_Some (e_hash E a data)) →
  let o' := (ob_add E orc data path area dedup o).1 in
  (dedup = true ∧ (newest_record (ob_inv o) np d ∨ get_duplicates (ob_inv o) d ≠ []) ∧ ob_trace o' = ob_trace o) ∨
  ((dedup = true → ¬ newest_record (ob_inv o) np d ∧ get_duplicates (ob_inv o) d = []) ∧
   ob_trace o' = ob_trace o ++ write_file (manifest_name (ob_inv o) mp) data).
Proof.
  intros Ho Hh Hm Hw Hsp Hmp Hp Hns Hd Hne Hlow Hfix. unfold ob_add. rewrite Hw.
  assert (build_names E (ob_inv o) [path] area = Some ([np], manifest_name (ob_inv o) mp)) as ->.
  { unfold build_names. cbn [state_paths]. by rewrite Hsp, Hmp. }
  rewrite Hsp. set (o1 := set_upd _ o).
  destruct (add_reader_single E (shift_oracle orc) data np (manifest_name (ob_inv o) mp) o1 d m)
    as (o2 & R1 & R2 & _ & R4 & _); auto using oracle_ok_shift, manifest_name_nonempty.
  cbv zeta. destruct dedup.
  - rewrite Hd. destruct (already_exists_good orc 0 (ob_inv o) np d m) as (b & Hb1 & Hb2); auto. rewrite Hb1. destruct b.
    + left. split; [done|]. split; [left; by apply Hb2|done].
    + destruct (get_duplicates (ob_inv o) d) as [|q qs] eqn:Hdup.
      * rewrite R1. right. split; [|done]. intros _. split; [|done]. intros Hr. by apply Hb2 in Hr.
      * left. split; [done|]. split; [by right|]. unfold on_inv. by destruct (copy_file np d (ob_inv o1)).
  - rewrite R1. right. by split.
Qed.

(** * The walk over a folder with hidden files *)

Inductive visit_hidden : visit → visit → Prop :=
| vh_same v : visit_hidden v v
| vh_file p x : visit_hidden (VFile p (Some x)) (VFile p None).
Fixpoint walk_hidden t t' (H : hidden t t') {struct H} : ∀ path, Forall2 visit_hidden (walk path t) (walk path t')
with walks_hidden l l' (H : hidden_entries l l') {struct H} : ∀ path, Forall2 visit_hidden (walks path l) (walks path l').
Proof.
  - destruct H as [c|x|c l l' H]; intros path.
    + repeat constructor.
    + repeat constructor.
    + rewrite !walk_dir. constructor; [constructor|]. apply Forall2_app; [destruct c; repeat constructor|]. exact (walks_hidden l l' H path).
  - destruct H as [|n t t' l l' H1 H2]; intros path; [constructor|]. cbn [walks]. apply Forall2_app; [exact (walk_hidden t t' H1 _)|exact (walks_hidden l l' H2 path)].
Qed.
Lemma hidden_refl t : hidden t t.
Proof.
  revert t. fix IH 1. intros [c|c l]; [constructor|]. constructor. induction l as [|[n t] l IHl]; constructor; [apply IH|exact IHl].
Qed.

(** The files of a walk, in its order. *)
Definition walk_files (area : string) (l : list visit) : list file :=
  omap (λ v, match v with VFile p (Some x) => Some (area, p, x) | _ => None end) l.
Definition all_files (folders : list (string * node)) : list file := concat ((λ f : string * node, walk_files f.1 (walk "." f.2)) <$> folders).
Lemma walk_files_elem area l a p x : (a, p, x) ∈ walk_files area l ↔ a = area ∧ VFile p (Some x) ∈ l.
Proof.
  unfold walk_files. rewrite elem_of_list_omap. split.
  - intros ([q [y|]|q] & Hin & [= -> -> ->]). by split.
  - intros [-> Hin]. by exists (VFile p (Some x)).
Qed.
Lemma all_files_elem folders a p x : (∀ a t, (a, t) ∈ folders → good_folder t) → (a, p, x) ∈ all_files folders ↔ offered folders a p x.
Proof.
  intros Hg. unfold all_files. rewrite elem_of_list_In, in_concat. split.
  - intros (l & Hl & Hin). apply elem_of_list_In, elem_of_list_fmap in Hl as ([a' t] & -> & Hf). cbn [fst snd] in Hin. apply elem_of_list_In, walk_files_elem in Hin as [-> Hv].
    apply (folder_files t p _ (Hg _ _ Hf)) in Hv as (y & [= <-] & Hx). by exists t.
  - intros (t & Hf & Hx). exists (walk_files a (walk "." t)). split.
    + apply elem_of_list_In, elem_of_list_fmap. by exists (a, t).
    + apply elem_of_list_In, walk_files_elem. split; [done|]. apply (folder_files t p _ (Hg _ _ Hf)). by exists x.
Qed.

(** * What the adds of a request store *)

Section plan.
  Context (E : env) (Hhex : hex_hash (e_hash E)) (s : storage) (i : inventory) (n : N) (fam : N → inventory) (Hk : kept E s i n n fam).
  Context (Hsup : supported E i) (folders : list (string * node)) (dedup : bool).
  Context (Hpl : placed E folders) (Had : addressed E dedup i folders).

  (** The file is stored if the files [L] were added before. *)
  Definition stores (L : list file) (a p x : string) : Prop :=
    dedup = true → ∃ np d, e_state_path E p a = Some np ∧ e_hash E (inv_alg i) x = Some d ∧ ¬ current i np d ∧ get_duplicates i d = [] ∧
      ∀ a' p' x', (a', p', x') ∈ L → e_hash E (inv_alg i) x' ≠ Some d.
  Definition planned (L : list file) (q : string) : Prop :=
    ∃ L1 a p x L0 m, L = L1 ++ (a, p, x) :: L0 ∧ e_manifest_path E p a = Some m ∧ q = cpath i (n + 1) m ∧ stores L0 a p x.
  Lemma planned_more L' L q : planned L q → planned (L' ++ L) q.
  Proof. intros (L1 & a & p & x & L0 & m & -> & H). exists (L' ++ L1), a, p, x, L0, m. split; [by rewrite <- app_assoc|done]. Qed.
  Lemma planned_cons L a p x m q : e_manifest_path E p a = Some m →
    planned ((a, p, x) :: L) q ↔ planned L q ∨ (q = cpath i (n + 1) m ∧ stores L a p x).
  Proof.
    intros Hm. split.
    - intros ([|f L1] & a' & p' & x' & L0 & m' & [= E1 E2] & Hm' & -> & Hs).
      + subst. right. rewrite Hm in Hm'. by injection Hm' as ->.
      + left. by exists L1, a', p', x', L0, m'.
    - intros [H|[-> H]]; [by apply (planned_more [(a, p, x)])|]. by exists [], a, p, x, L, m.
  Qed.

  Definition traced (L : list file) (o : object) : Prop := ∃ ws, ob_trace o = writes ws ∧ ∀ q, q ∈ fst <$> ws ↔ planned L q.

  Section one.
    Context (echo : bool) (o1 : object) (Hcp : copied E s i n echo o1).
    Notation progress := (progress E s i n folders echo o1).

    (** The newest record of a path that was not added yet is the one of the object as it was. *)
    Lemma newest_before L o a p x np d :
      progress L o → offered folders a p x → (∀ x', (a, p, x') ∉ L) → e_state_path E p a = Some np → e_hash E (inv_alg i) x = Some d →
      newest_record (ob_inv o) np d ↔ current i np d.
    Proof using Hhex Hk Hsup Hcp Hpl Had.
      intros Hp Hoff Hnew Hnp Hd. pose proof (pg_ext _ _ _ _ _ _ _ _ _ Hp) as He.
      pose proof (ext_rel_head_is _ _ _ He (head_o1 E s i n echo o1 Hcp)) as Hh.
      assert (∀ a' p' x', (a', p', x') ∈ L → e_state_path E p' a' ≠ Some np) as Hnd.
      { intros a' p' x' Hin E'. destruct (pl_state _ _ Hpl _ _ _ _ _ _ _ (pg_off _ _ _ _ _ _ _ _ _ Hp _ _ _ Hin) Hoff E' Hnp) as [-> ->]. by apply Hnew in Hin. }
      assert (∀ e, occ (ob_inv o) np e = occ (ob_inv o1) np e) as Hocc by (by apply (pg_rest _ _ _ _ _ _ _ _ _ Hp)).
      assert (∀ e, current (ob_inv o) np e ↔ current i np e) as Hcur.
      { intros e. rewrite <- (cp_current _ _ _ _ _ _ Hcp). rewrite <- !occ_current. by rewrite Hocc. }
      split.
      - intros Hr. assert (newest_record (ob_inv o1) np d) as Hr1.
        { assert (∀ ver e, recorded (ob_inv o) ver np e ↔ recorded (ob_inv o1) ver np e) as Hrec.
          { intros ver e. destruct (decide (ver = inv_head (ob_inv o1))) as [-> |Hv].
            - change (recorded (ob_inv o1) (inv_head (ob_inv o1)) np e) with (current (ob_inv o1) np e). rewrite <- (er_head _ _ He).
              change (current (ob_inv o) np e ↔ current (ob_inv o1) np e). rewrite <- !occ_current. by rewrite Hocc.
            - unfold recorded. by rewrite (er_vers _ _ He). }
          destruct Hr as (k & Hr & Hmax). exists k. rewrite <- (er_pad _ _ He). split; [by apply Hrec|]. intros k' d' H'. apply (Hmax k' d'). by apply Hrec. }
        destruct (cp_newest _ _ _ _ _ _ Hcp _ _ Hr1) as [?|[Hri Hno]]; [done|]. exfalso.
        destruct (as_revived _ _ _ _ Had np d) as [e He']; [|done|by apply Hno in He'].
        exists a, p, x. done.
      - intros Hc. by apply (current_newest _ _ _ _ Hh), Hcur.
    Qed.
    (** Content is a duplicate if the object had it or a file added before has it. *)
    Lemma duplicates_before L o d : d ≠ "" →
      progress L o → get_duplicates (ob_inv o) d = [] ↔ get_duplicates i d = [] ∧ ∀ a p x, (a, p, x) ∈ L → e_hash E (inv_alg i) x ≠ Some d.
    Proof using Hhex Hk Hsup Hcp Hpl Had.
      intros Hne Hp. pose proof (pg_ext _ _ _ _ _ _ _ _ _ Hp) as He. pose proof (pg_working _ _ _ _ _ _ _ _ _ Hp) as ([fam' Hk'] & _ & _).
      unfold get_duplicates. rewrite !(decide_False (P := d = "")) by done. split.
      - intros Hnil. split.
        + destruct (inv_manifest i !! d) as [ps|] eqn:Hm; [|done]. destruct (er_man _ _ He d ps) as [ext Hx]; [by rewrite (cp_man _ _ _ _ _ _ Hcp)|].
          rewrite Hx in Hnil. cbn in Hnil. by apply app_eq_nil in Hnil as [? _].
        + intros a p x Hin Hx. destruct (pl_file _ _ Hpl _ _ _ (pg_off _ _ _ _ _ _ _ _ _ Hp _ _ _ Hin)) as (np & m & Hnp & _).
          destruct (pg_done _ _ _ _ _ _ _ _ _ Hp a p x np d Hin Hnp Hx) as [_ Hocc]. specialize (Hocc d). rewrite decide_True in Hocc by done.
          assert (current (ob_inv o) np d) as (v & Hv & ps & Hps & _) by (apply occ_current; lia).
          destruct (g_states _ _ _ _ (kp_good _ _ _ _ _ _ Hk') _ _ d Hv) as [ps' Hps']; [by exists ps|].
          rewrite Hps' in Hnil. cbn in Hnil. by apply (g_nonempty _ _ _ _ (kp_good _ _ _ _ _ _ Hk') d ps').
      - intros [Hi HL]. destruct (inv_manifest (ob_inv o) !! d) as [[|c cs]|] eqn:Hm; [done| |done]. exfalso.
        destruct (pg_man _ _ _ _ _ _ _ _ _ Hp c d) as [(ps & Hps & Hc)|(a & p & x & m & Hin & _ & _ & Hx & _)].
        + exists (c :: cs). split; [done|left].
        + rewrite Hps in Hi. cbn in Hi. subst ps. by apply elem_of_nil in Hc.
        + by apply (HL a p x).
    Qed.
    Lemma traced_add L o orc a p x :
      progress L o → traced L o → offered folders a p x → (∀ x', (a, p, x') ∉ L) → oracle_ok orc →
      ∃ o', ob_add E orc x p a dedup o = (o', SOk) ∧ progress ((a, p, x) :: L) o' ∧ traced ((a, p, x) :: L) o'.
    Proof using Hhex Hk Hsup Hcp Hpl Had.
      intros Hp (ws & Ht & Hws) Hoff Hnew Horc. pose proof Hoff as Hoff2. apply (pl_file _ _ Hpl) in Hoff2 as (np & m & Hnp & Hm & Hcl).
      destruct (hash_some E Hhex i Hsup x) as (d & Hd & Hdne & Hlow).
      destruct (progress_add E Hhex s i n fam Hk Hsup folders dedup echo o1 Hcp Hpl Had L o orc a p x Hp Hoff Hnew Horc) as (o' & Ha & Hp').
      exists o'. split; [done|]. split; [done|].
      pose proof (pg_ext _ _ _ _ _ _ _ _ _ Hp) as He.
      pose proof (ext_rel_head_is _ _ _ He (head_o1 E s i n echo o1 Hcp)) as Hh.
      pose proof (pg_working _ _ _ _ _ _ _ _ _ Hp) as ([fam' Hk'] & Hsup' & Hw).
      assert (inv_alg (ob_inv o) = inv_alg i) as Halg by (rewrite (er_alg _ _ He); apply Hcp).
      assert (inv_padding (ob_inv o) <= 0)%Z as Hpad by apply (kp_pad _ _ _ _ _ _ Hk').
      assert (newest_single (ob_inv o) np) as Hns by (apply inv09_newest; by apply (progress_09 E Hhex s i n Hsup folders echo o1 Hcp L)).
      assert (e_hash E (inv_alg (ob_inv o)) x = Some d) as Hd' by (by rewrite Halg).
      assert (∀ al, al ∈ inv_fixalgs (ob_inv o) → is_Some (e_hash E al x)) as Hfix.
      { intros al Hal. destruct (Hsup' al x) as [d' Hd2]; [by right|]. by eexists. }
      assert (n + 1 ≠ 0)%N as Hn1 by lia.
      pose proof (ob_add_trace E orc x p a dedup o np d m (n + 1) Horc Hh Hn1 Hw Hnp Hm Hpad Hns Hd' Hdne Hlow Hfix) as Htr.
      rewrite Ha in Htr. cbv zeta in Htr. cbn [fst] in Htr.
      pose proof (newest_before L o a p x np d Hp Hoff Hnew Hnp Hd) as Hnb. pose proof (duplicates_before L o d Hdne Hp) as Hdb.
      assert (stores L a p x ↔ (dedup = true → ¬ newest_record (ob_inv o) np d ∧ get_duplicates (ob_inv o) d = [])) as Hst.
      { unfold stores. rewrite Hnb, Hdb. split.
        - intros H Hde. destruct (H Hde) as (np' & d' & Hnp' & Hd2 & H1 & H2 & H3). rewrite Hnp in Hnp'. injection Hnp' as <-. rewrite Hd in Hd2. by injection Hd2 as <-.
        - intros H Hde. destruct (H Hde) as (H1 & H2 & H3). by exists np, d. }
      destruct Htr as [(Hde & Hor & Ht')|[Hcond Ht']].
      - exists ws. rewrite Ht'. split; [done|]. intros q. rewrite Hws, (planned_cons _ _ _ _ _ _ Hm). split; [by left|]. intros [?|[_ H]]; [done|].
        destruct (proj1 Hst H Hde) as [H1 H2]. by destruct Hor.
      - exists (ws ++ [(cpath i (n + 1) m, x)]). rewrite (manifest_cpath E s i n fam Hk echo o1 Hcp _ _ He Hcl) in Ht'. split.
        + by rewrite Ht', Ht, writes_app.
        + intros q. rewrite fmap_app, elem_of_app, Hws, (planned_cons _ _ _ _ _ _ Hm). cbn [fmap list_fmap fst]. rewrite elem_of_list_singleton.
          split; [intros [?| ->]; [by left|right; split; [done|by apply Hst]]|]. intros [?|[-> _]]; [by left|by right].
    Qed.

    Lemma visits_traced orcs area l l1 : (∀ k, oracle_ok (orcs k)) → Forall2 visit_hidden l l1 → ∀ k L o,
      progress L o → traced L o → (∀ p c, VFile p c ∈ l → ∃ x, c = Some x ∧ offered folders area p x) →
      (∀ p, VDir p ∈ l → is_Some (e_state_path E p area) ∧ is_Some (e_manifest_path E p area)) →
      NoDup (vfiles l) → (∀ p x, p ∈ vfiles l → (area, p, x) ∉ L) →
      ∃ o' st pre post, add_visits E orcs k area dedup l1 o = (o', st) ∧ walk_files area l = pre ++ post ∧ (st = SOk → post = []) ∧
        progress (rev pre ++ L) o' ∧ traced (rev pre ++ L) o'.
    Proof using Hhex Hk Hsup Hcp Hpl Had.
      intros Horc Hall. induction Hall as [|v v1 l l1 Hv Hall IH]; intros k L o Hp Ht Hf Hd Hnd HL.
      { by exists o, SOk, [], []. }
      assert (∀ p c, VFile p c ∈ l → ∃ x, c = Some x ∧ offered folders area p x) as Hf' by (intros q c Hq; apply Hf; by right).
      assert (∀ p, VDir p ∈ l → is_Some (e_state_path E p area) ∧ is_Some (e_manifest_path E p area)) as Hd2 by (intros q Hq; apply Hd; by right).
      destruct v as [p c|p].
      - destruct (Hf p c ltac:(left)) as (x & -> & Hoff). inversion Hv as [v|q y]; subst; cbn [add_visits].
        + destruct (traced_add L o (orcs k) area p x) as (o2 & Ha & Hp2 & Ht2); auto.
          { intros x'. apply HL. apply vfiles_elem. exists (Some x). left. }
          rewrite Ha. cbn [andThen]. change (vfiles (VFile p (Some x) :: l)) with (p :: vfiles l) in Hnd. apply stdpp.list.NoDup_cons in Hnd as [Hn Hnd].
          destruct (IH (S k) ((area, p, x) :: L) o2) as (o' & st & pre & post & Hr & Hw & Hst & Hp' & Ht'); auto.
          { intros q y Hq [[= -> ->]|Hin]%elem_of_cons; [done|]. apply (HL q y); [|done]. change (q ∈ p :: vfiles l). by right. }
          exists o', st, ((area, p, x) :: pre), post. split; [done|]. split; [change ((area, p, x) :: walk_files area l = (area, p, x) :: (pre ++ post)); by rewrite Hw|]. split; [done|].
          change (rev ((area, p, x) :: pre)) with (rev pre ++ [(area, p, x)]). by rewrite <- app_assoc.
        + unfold ob_add_unreadable, ob_add_dir. destruct (pg_working _ _ _ _ _ _ _ _ _ Hp) as (_ & _ & ->).
          destruct (pl_file _ _ Hpl _ _ _ Hoff) as (np & m & Hnp & Hm & _). unfold build_names. cbn [state_paths]. rewrite Hnp, Hm. cbn [andThen].
          eexists o, _, [], _. split; [done|]. split; [done|]. by split.
      - inversion Hv as [v|]; subst. cbn [add_visits].
        destruct (Hd p ltac:(left)) as [[np Hnp] [m Hm]]. unfold ob_add_dir. destruct (pg_working _ _ _ _ _ _ _ _ _ Hp) as (_ & _ & ->).
        unfold build_names. cbn [state_paths]. rewrite Hnp, Hm. cbn [andThen].
        destruct (IH (S k) L o) as (o' & st & pre & post & Hr & Hw & Hst & Hp' & Ht'); eauto 10.
    Qed.
    Lemma folders_traced orcs l l1 : (∀ a t, (a, t) ∈ folders → good_folder t) → (∀ j k, oracle_ok (orcs j k)) → (∀ f, f ∈ l → f ∈ folders) → NoDup (fst <$> l) →
      Forall2 (λ f f1 : string * node, f1.1 = f.1 ∧ hidden f.2 f1.2) l l1 → ∀ j L o,
      progress L o → traced L o → (∀ a p x, (a, p, x) ∈ L → a ∉ fst <$> l) →
      ∃ o' st pre post, add_folders E orcs j dedup (given l1) o = (o', st) ∧ all_files l = pre ++ post ∧ (st = SOk → post = []) ∧
        progress (rev pre ++ L) o' ∧ traced (rev pre ++ L) o'.
    Proof using Hhex Hk Hsup Hcp Hpl Had.
      intros Hgood Horc Hsub Hnd Hall. revert Hsub Hnd. induction Hall as [|[a t] [a1 t1] l l1 [Ea Hh] Hall IH]; intros Hsub Hnd j L o Hp Ht HL.
      { by exists o, SOk, [], []. }
      cbn [fst snd] in Ea, Hh. subst a1. change (given ((a, t1) :: l1)) with ((a, Some t1) :: given l1). cbn [add_folders add_folder].
      assert ((a, t) ∈ folders) as Hin by (apply Hsub; left). pose proof (Hgood _ _ Hin) as Hg.
      cbn [fmap list_fmap fst] in Hnd, HL. apply stdpp.list.NoDup_cons in Hnd as [Hna Hnd].
      destruct (visits_traced (orcs j) a (walk "." t) (walk "." t1) (Horc j) (walk_hidden _ _ Hh ".") 0 L o) as (o2 & st & pre & post & Hr & Hw & Hst & Hp2 & Ht2); auto.
      { intros p c Hv. apply (folder_files t p c Hg) in Hv as (x & -> & Hx). exists x. split; [done|]. by exists t. }
      { intros p Hv. apply (folder_dirs t p Hg) in Hv. by apply (pl_dir _ _ Hpl a t). }
      { by apply folder_nodup. }
      { intros p x Hv Hin'. apply (HL _ _ _ Hin'). left. }
      rewrite Hr. change (all_files ((a, t) :: l)) with (walk_files a (walk "." t) ++ all_files l). rewrite Hw.
      assert (st = SOk ∨ st ≠ SOk) as [-> |Hno] by (destruct st; [by left|by right|by right]).
      - rewrite (Hst eq_refl), app_nil_r in *. cbn [andThen].
        destruct (IH ltac:(intros f Hf; apply Hsub; by right) Hnd (S j) (rev pre ++ L) o2) as (o' & st' & pre' & post' & Hr' & Hw' & Hst' & Hp' & Ht'); auto.
        { intros a' p x [Hl|Hl]%elem_of_app.
          - apply elem_of_list_In, in_rev, elem_of_list_In in Hl. rewrite <- Hw in Hl. by apply walk_files_elem in Hl as [-> _].
          - intros Hl'. apply (HL _ _ _ Hl). by right. }
        exists o', st', (pre ++ pre'), post'. split; [done|]. split; [by rewrite Hw', app_assoc|]. split; [done|]. rewrite rev_app_distr, <- app_assoc. by split.
      - exists o2, st, pre, (post ++ all_files l). split; [by destruct st|]. split; [by rewrite app_assoc|]. split; [done|]. by split.
    Qed.
  End one.
End plan.

(** * The end of an update and Close *)

Definition ext_files (E : env) : list (string * string) := (λ p : string * string, ("extensions/" +:+ p.1, p.2)) <$> e_ext_files E.
(** The other files of a session: inventories, digest files, files of the extensions. *)
Definition rest_files (E : env) (h alg : string) : list string :=
  [h +:+ "/inventory.json"; h +:+ "/" +:+ sidecar_name alg; "inventory.json"; sidecar_name alg] ++ (fst <$> ext_files E).
Lemma echo_keeps E orc o : ob_trace (ob_echo_delete E orc o).1 = ob_trace o ∧ ext_rel (ob_inv o) (ob_inv (ob_echo_delete E orc o).1).
Proof.
  unfold ob_echo_delete. destruct (e_state_path E "." "") as [b|]; [|split; [done|apply ext_rel_refl]]. unfold on_inv.
  pose proof (ext_rel_echo orc (ob_upd o) (if decide (b = ".") then "" else b) (ob_inv o)) as H. by destruct (echo_delete _ _ _ _).
Qed.
Lemma end_traced E orc o :
  ∃ o' st ws, ob_end E orc (HDone []) o = (o', st) ∧ ob_trace o' = ob_trace o ++ writes ws ∧ ext_rel (ob_inv o) (ob_inv o') ∧
    (∀ q, q ∈ fst <$> ws → q ∈ rest_files E (inv_head (ob_inv o)) (inv_alg (ob_inv o))) ∧
    (st = SOk → inv_writeable (ob_inv o) = true → inv_modified (ob_inv o) = true →
      ∀ q, q = inv_head (ob_inv o) +:+ "/inventory.json" ∨ q = inv_head (ob_inv o) +:+ "/" +:+ sidecar_name (inv_alg (ob_inv o)) → q ∈ fst <$> ws).
Proof.
  assert (∀ st : status, ∃ o' st' ws, (o, st) = (o', st') ∧ ob_trace o' = ob_trace o ++ writes ws ∧ ext_rel (ob_inv o) (ob_inv o') ∧
    (∀ q, q ∈ fst <$> ws → q ∈ rest_files E (inv_head (ob_inv o)) (inv_alg (ob_inv o))) ∧ st' = st) as Hstay.
  { intros st. exists o, st, []. split; [done|]. split; [by rewrite app_nil_r|]. split; [apply ext_rel_refl|]. split; [|done]. intros q Hq. by apply elem_of_nil in Hq. }
  rewrite ob_end_unfold. destruct (inv_writeable (ob_inv o)) eqn:Hw; cbn [negb].
  2:{ destruct (Hstay SOk) as (o' & st & ws & H1 & H2 & H3 & H4 & _). exists o', st, ws. repeat (split; [done|]). done. }
  destruct (inv_modified (ob_inv o)) eqn:Hm; cbn [negb].
  2:{ destruct (Hstay SOk) as (o' & st & ws & H1 & H2 & H3 & H4 & _). exists o', st, ws. repeat (split; [done|]). done. }
  assert (∃ o2 st2, (if ob_echo o then ob_echo_delete E orc o else (o, SOk)) = (o2, st2) ∧ ob_trace o2 = ob_trace o ∧ ext_rel (ob_inv o) (ob_inv o2)) as (o2 & st2 & E2 & T2 & X2).
  { destruct (ob_echo o); [|exists o, SOk; split; [done|]; split; [done|apply ext_rel_refl]]. pose proof (echo_keeps E orc o) as [H1 H2].
    destruct (ob_echo_delete E orc o) as [o2 st2]. by exists o2, st2. }
  rewrite E2. destruct st2; cbn [andThen sops_run].
  2-3: eexists o2, _, []; split; [done|]; rewrite T2, app_nil_r; split; [done|]; split; [done|]; split; [intros q Hq; by apply elem_of_nil in Hq|done].
  unfold store_inventory. rewrite (er_wr _ _ X2), Hw, (er_alg _ _ X2), (er_head _ _ X2).
  destruct (e_hash E (inv_alg (ob_inv o)) (e_json E (ob_inv o2))) as [dg|]; cbn [andThen].
  - eexists _, _, [(inv_head (ob_inv o) +:+ "/inventory.json", e_json E (ob_inv o2)); (inv_head (ob_inv o) +:+ "/" +:+ sidecar_name (inv_alg (ob_inv o)), sidecar_text dg)].
    split; [done|]. split; [cbn [emit ob_trace]; by rewrite T2|]. split; [done|]. split.
    + intros q Hq. unfold rest_files. cbn [fmap list_fmap fst] in Hq. apply elem_of_app. left. apply elem_of_cons in Hq as [-> |Hq]; [left|]. apply elem_of_list_singleton in Hq as ->. right. left.
    + intros _ _ _ q [-> | ->]; [left|right; left].
  - eexists o2, _, []. split; [done|]. rewrite T2, app_nil_r. split; [done|]. split; [done|]. split; [intros q Hq; by apply elem_of_nil in Hq|done].
Qed.
Lemma ext_writes E : flat_map (λ p : string * string, write_file ("extensions/" +:+ p.1) p.2) (e_ext_files E) = writes (ext_files E).
Proof. unfold writes, ext_files. rewrite flat_map_concat_map. f_equal. induction (e_ext_files E) as [|x l IH]; [done|]. cbn [map fmap list_fmap]. by f_equal. Qed.
Lemma close_traced E orc o :
  ∃ o' st ws, ob_close E orc o = (o', st) ∧ ob_trace o' = ob_trace o ++ writes ws ∧
    (∀ q, q ∈ fst <$> ws → q ∈ rest_files E (inv_head (ob_inv o)) (inv_alg (ob_inv o))) ∧
    (st = SOk → inv_writeable (ob_inv o) = true → inv_modified (ob_inv o) = true →
      ∀ q, q = "inventory.json" ∨ q = sidecar_name (inv_alg (ob_inv o)) ∨ q ∈ fst <$> ext_files E → q ∈ fst <$> ws).
Proof.
  assert (∀ st : status, ∃ o' st' ws, (o, st) = (o', st') ∧ ob_trace o' = ob_trace o ++ writes ws ∧
    (∀ q, q ∈ fst <$> ws → q ∈ rest_files E (inv_head (ob_inv o)) (inv_alg (ob_inv o))) ∧ st' = st) as Hstay.
  { intros st. exists o, st, []. split; [done|]. split; [by rewrite app_nil_r|]. split; [|done]. intros q Hq. by apply elem_of_nil in Hq. }
  unfold ob_close. destruct (inv_writeable (ob_inv o)) eqn:Hw; cbn [negb].
  2:{ destruct (Hstay SOk) as (o' & st & ws & H1 & H2 & H4 & _). exists o', st, ws. repeat (split; [done|]). done. }
  destruct (inv_modified (ob_inv o)) eqn:Hm; cbn [negb].
  2:{ destruct (Hstay SOk) as (o' & st & ws & H1 & H2 & H4 & _). exists o', st, ws. repeat (split; [done|]). done. }
  rewrite clean_ob by done. cbn [andThen]. unfold store_inventory. rewrite Hw.
  destruct (e_hash E (inv_alg (ob_inv o)) (e_json E (ob_inv o))) as [dg|]; cbn [andThen].
  - unfold store_extensions. rewrite ext_writes. eexists _, _, ([("inventory.json", e_json E (ob_inv o)); (sidecar_name (inv_alg (ob_inv o)), sidecar_text dg)] ++ ext_files E).
    split; [done|]. split; [|split].
    + cbn [emit ob_trace]. rewrite (writes_app [_; _] (ext_files E)), <- !app_assoc. cbn [app]. done.
    + intros q Hq. unfold rest_files. rewrite fmap_app in Hq. apply elem_of_app in Hq as [Hq|Hq]; apply elem_of_app; [left|by right]. right. right.
      cbn [fmap list_fmap fst] in Hq. apply elem_of_cons in Hq as [-> |Hq]; [left|]. apply elem_of_list_singleton in Hq as ->. right. left.
    + intros _ _ _ q Hq. rewrite fmap_app, elem_of_app. destruct Hq as [-> |[-> |Hq]]; [left; left|left; right; left|by right].
  - destruct (Hstay (SErr "invalid digest algorithm")) as (o' & st & ws & H1 & H2 & H4 & H5). exists o', st, ws. split; [done|]. split; [done|]. split; [done|]. intros H. by rewrite H5 in H.
Qed.

(** * The whole request *)

Section request.
  Context (E : env) (Hhex : hex_hash (e_hash E)) (s : storage) (i : inventory) (n : N) (fam : N → inventory) (Hk : kept E s i n n fam).
  Context (Hsup : supported E i) (Hu : ∀ ver v, inv_versions i !! ver = Some v → unique_paths (v_state v)) (folders : list (string * node)) (dedup : bool).
  Context (Hpl : placed E folders) (Had : addressed E dedup i folders).
  Context (Hgood : ∀ a t, (a, t) ∈ folders → good_folder t) (Hnd : NoDup (fst <$> folders)).

  (** Every file that an attempt or the whole request writes. *)
  Definition target (q : string) : Prop :=
    planned E i n dedup (rev (all_files folders)) q ∨ q ∈ rest_files E (version_name (inv_padding i) (n + 1)) (inv_alg i).
  Lemma request_traced orcs orc1 orc2 r folders1 :
    (∀ j k, oracle_ok (orcs j k)) → oracle_ok orc1 → rq_dedup r = dedup →
    Forall2 (λ f f1 : string * node, f1.1 = f.1 ∧ hidden f.2 f1.2) folders folders1 →
    ∃ o st ws, ingest E orcs orc1 orc2 r (given folders1) (HDone []) (open_object i) = (o, st) ∧ ob_trace o = writes ws ∧
      (∀ q, q ∈ fst <$> ws → target q) ∧
      (st = SOk → changes E i folders → ∀ q, target q → q ∈ fst <$> ws).
  Proof using Hhex Hk Hsup Hu Hpl Had Hgood Hnd.
    intros Horcs Horc1 Hde Hall.
    destruct (start_copied E s i n fam (rq_now r) (rq_msg r) (rq_name r) (rq_addr r) (rq_echo r) Hk Hsup Hu) as (o1 & Hst & Hcp).
    unfold ingest. rewrite Hst, Hde. cbn [andThen].
    destruct (folders_traced E Hhex s i n fam Hk Hsup folders dedup Hpl Had (rq_echo r) o1 Hcp orcs folders folders1 Hgood Horcs ltac:(done) Hnd Hall 0 [] o1)
      as (o2 & st2 & pre & post & Hr & Hw & Hok & Hp & (ws & Ht & Hws)).
    { by eapply progress_start. }
    { exists []. split; [apply Hcp|]. intros q. split; [intros Hq; by apply elem_of_nil in Hq|]. intros (L1 & a & p & x & L0 & m & H & _). by destruct L1. }
    { intros a p x Hin. by apply elem_of_nil in Hin. }
    rewrite app_nil_r in *. rewrite Hr.
    assert (∀ q, planned E i n dedup (rev pre) q → planned E i n dedup (rev (all_files folders)) q) as Hmono.
    { intros q Hq. rewrite Hw, rev_app_distr. by apply planned_more. }
    assert (st2 = SOk ∨ st2 ≠ SOk) as [-> |Hno] by (destruct st2; [by left|by right|by right]).
    2:{ exists o2, st2, ws. split; [by destruct st2|]. split; [done|]. split; [|done]. intros q Hq. left. by apply Hmono, Hws. }
    specialize (Hok eq_refl). subst post. rewrite app_nil_r in Hw. cbn [andThen].
    pose proof (pg_ext _ _ _ _ _ _ _ _ _ Hp) as Hx2.
    assert (inv_head (ob_inv o2) = version_name (inv_padding i) (n + 1)) as Hh2 by (rewrite (er_head _ _ Hx2); apply Hcp).
    assert (inv_alg (ob_inv o2) = inv_alg i) as Ha2 by (rewrite (er_alg _ _ Hx2); apply Hcp).
    destruct (end_traced E orc1 o2) as (o3 & st3 & ws3 & Hend & Ht3 & Hx3 & Hsub3 & Hsup3). rewrite Hend. rewrite Hh2, Ha2 in *.
    assert (∀ q, q ∈ fst <$> (ws ++ ws3) → target q) as Htg.
    { intros q Hq. rewrite fmap_app in Hq. apply elem_of_app in Hq as [Hq|Hq]; [left; by apply Hmono, Hws|right; by apply Hsub3]. }
    assert (ob_trace o3 = writes (ws ++ ws3)) as Ht3' by (by rewrite writes_app, Ht3, Ht).
    assert (st3 = SOk ∨ st3 ≠ SOk) as [-> |Hno] by (destruct st3; [by left|by right|by right]).
    2:{ exists o3, st3, (ws ++ ws3). split; [by destruct st3|]. done. }
    cbn [andThen]. destruct (close_traced E orc2 o3) as (o4 & st4 & ws4 & Hcl & Ht4 & Hsub4 & Hsup4).
    assert (inv_head (ob_inv o3) = version_name (inv_padding i) (n + 1)) as Hh3 by (by rewrite (er_head _ _ Hx3)).
    assert (inv_alg (ob_inv o3) = inv_alg i) as Ha3 by (by rewrite (er_alg _ _ Hx3)). rewrite Hh3, Ha3 in *.
    exists o4, st4, ((ws ++ ws3) ++ ws4). split; [done|]. split; [by rewrite Ht4, Ht3', (writes_app (ws ++ ws3))|]. split.
    { intros q Hq. rewrite fmap_app in Hq. apply elem_of_app in Hq as [Hq|Hq]; [by apply Htg|right; by apply Hsub4]. }
    intros -> (np0 & d0 & (a0 & p0 & x0 & Ho0 & Hnp0 & Hd0) & Hnc0) q Hq.
    assert (inv_modified (ob_inv o2) = true) as Hm2.
    { apply (pg_mod _ _ _ _ _ _ _ _ _ Hp a0 p0 x0 np0 d0); auto. apply elem_of_list_In. rewrite <- in_rev. apply elem_of_list_In. rewrite <- Hw. by apply all_files_elem. }
    pose proof (pg_working _ _ _ _ _ _ _ _ _ Hp) as (_ & _ & Hw2).
    rewrite !fmap_app, !elem_of_app. destruct Hq as [Hq|Hq]; [left; left; apply Hws; by rewrite <- Hw|].
    unfold rest_files in Hq. apply elem_of_app in Hq as [Hq|Hq].
    - apply elem_of_cons in Hq as [-> |Hq]; [left; right; apply Hsup3; auto|]. apply elem_of_cons in Hq as [-> |Hq]; [left; right; apply Hsup3; auto|].
      right. apply Hsup4; [done|by rewrite (er_wr _ _ Hx3)|by apply (er_mod _ _ Hx3)|].
      apply elem_of_cons in Hq as [-> |Hq]; [by left|]. apply elem_of_list_singleton in Hq as ->. right. by left.
    - right. apply Hsup4; [done|by rewrite (er_wr _ _ Hx3)|by apply (er_mod _ _ Hx3)|]. right. by right.
  Qed.
  Lemma given_same : Forall2 (λ f f1 : string * node, f1.1 = f.1 ∧ hidden f.2 f1.2) folders folders.
  Proof using. clear. induction folders as [|f l IH]; constructor; [|done]. split; [done|apply hidden_refl]. Qed.
  Lemma interrupted_target parse s1 s2 q : interrupted E parse i dedup folders s1 s2 → ¬ target q → s2 !! q = s1 !! q.
  Proof using Hhex Hk Hsup Hu Hpl Had Hgood Hnd.
    induction 1 as [|s1 s2 s3 orcs orc1 orc2 r folders1 _ Horcs Horc1 Hde Hall Hc _ IH]; intros Hq; [done|]. rewrite IH by done.
    destruct (request_traced orcs orc1 orc2 r folders1 Horcs Horc1 Hde Hall) as (o & st & ws & Hi & Ht & Hsub & _). rewrite Hi in Hc. cbn [fst] in Hc. rewrite Ht in Hc.
    eapply crash_other; [exact Hc|]. apply stdpp.list.Forall_forall. intros e He Eq. apply Hq. rewrite <- Eq. by apply Hsub, writes_path.
  Qed.
  Lemma retry_same parse orcs orc1 orc2 r o s1 s2 :
    (∀ j k, oracle_ok (orcs j k)) → oracle_ok orc1 → rq_dedup r = dedup → changes E i folders →
    ingest E orcs orc1 orc2 r (given folders) (HDone []) (open_object i) = (o, SOk) →
    interrupted E parse i dedup folders s1 s2 → apply_evs (ob_trace o) s2 = apply_evs (ob_trace o) s1.
  Proof using Hhex Hk Hsup Hu Hpl Had Hgood Hnd.
    intros Horcs Horc1 Hde Hch Hi Hint. destruct (request_traced orcs orc1 orc2 r folders Horcs Horc1 Hde given_same) as (o' & st & ws & Hi' & Ht & _ & Hsupw).
    rewrite Hi in Hi'. injection Hi' as <- <-. rewrite Ht. apply writes_same. intros p Hp. eapply interrupted_target; [exact Hint|]. intros Htg. by apply Hp, Hsupw.
  Qed.
End request.
