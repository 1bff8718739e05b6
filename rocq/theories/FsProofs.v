(** Proofs about the filesystem extension: what is recorded, and one session. *)
From Coq Require Import Ascii.
From stdpp Require Import base list strings gmap.
From Coq Require Import ZArith Lia.
From Verif Require Import GoStr PathModel PathProofs InventoryModel InventorySpec InventoryProofs LookupProofs ClaimsInventory2 AddProofs ObjectModel ObjectSpec ObjectProofs CrashSpec CrashProofs
  LoadModel LoadProofs AreaModel AreaSpec AreaProofs ValidateModel PublishSpec PublishProofs PublishProofs2 PublishProofs3 PublishProofs4 InheritProofs IngestProofs6
  JsonlModel JsonlSpec JsonlProofs JsonlProofs2 JsonlProofs3 FsModel FsSpec.
From Verif Require ThumbProofs3.

(** * What is recorded *)
Section recorded.
  Context {R : Type} (E : env) (folders : string).
  Implicit Types (x : ixst (string * R)).
  (** Lines carry the version they belong to. *)
  Definition stamped x : Prop := (∀ v lines, ix_buf x !! v = Some lines → Forall (λ e, e.2.1 = v) lines) ∧ running x.
  Definition keeps x x' : Prop := ∀ v lines, ix_buf x !! v = Some lines → ∃ more, ix_buf x' !! v = Some (lines ++ more).
  Lemma keeps_refl x : keeps x x.
  Proof using. intros v lines H. exists []. by rewrite app_nil_r. Qed.
  Lemma keeps_trans x y z : keeps x y → keeps y z → keeps x z.
  Proof using. intros H1 H2 v lines H. destruct (H1 _ _ H) as [m1 Q1]. destruct (H2 _ _ Q1) as [m2 Q2]. exists (m1 ++ m2). by rewrite app_assoc. Qed.
  Lemma new_stamped : stamped ix_new.
  Proof using. split; [intros v lines H|intros v H]; cbn in H; rewrite lookup_empty in H; [done|by destruct H]. Qed.

  Lemma mark_buf head x : ix_buf (fs_mark head x) = <[head := default [] (ix_buf x !! head)]> (ix_buf x).
  Proof using. unfold fs_mark. by destruct (decide _). Qed.
  Lemma mark_cur head x : ix_cur (fs_mark head x) = head.
  Proof using. unfold fs_mark. by destruct (decide _). Qed.
  Lemma mark_ok head x : head ≠ "" → stamped x → stamped (fs_mark head x) ∧ keeps x (fs_mark head x).
  Proof using.
    intros Hh [H1 H2]. split; [split|].
    - intros v lines. rewrite mark_buf. intros [[<- <-]|[_ H]]%lookup_insert_Some; [|by eapply H1].
      destruct (ix_buf x !! head) as [ls|] eqn:Hl; [by eapply H1|constructor].
    - intros v _. by rewrite mark_cur.
    - intros v lines H. exists []. rewrite app_nil_r, mark_buf. destruct (decide (head = v)) as [-> |Hne]; [|by rewrite lookup_insert_ne].
      by rewrite lookup_insert, H.
  Qed.
  Lemma line_ok path head (r : R) x x' st : fs_line path head r x = (x', st) → head ≠ "" → ix_cur x = head → stamped x → stamped x' ∧ keeps x x' ∧
    (st = SOk → ∃ lines, ix_buf x' !! head = Some (lines ++ [(path, (head, r))])).
  Proof using.
    unfold fs_line. intros H Hh Hc [H1 H2]. destruct (ix_open x); [|injection H as <- <-; split; [done|split; [apply keeps_refl|done]]].
    injection H as <- <-. cbn [ix_buf]. split; [split|split].
    - intros v lines. cbn [ix_buf]. intros [[<- <-]|[_ H]]%lookup_insert_Some; [|by eapply H1]. apply Forall_app. split; [|by repeat constructor].
      destruct (ix_buf x !! head) as [ls|] eqn:Hl; [by eapply H1|constructor].
    - intros v _. cbn [ix_cur]. by rewrite Hc.
    - intros v lines H. cbn [ix_buf]. destruct (decide (head = v)) as [-> |Hne].
      + rewrite lookup_insert, H. by eexists.
      + exists []. by rewrite lookup_insert_ne, app_nil_r.
    - intros _. exists (default [] (ix_buf x !! head)). by rewrite lookup_insert.
  Qed.

  Lemma file_sop orc data src area dedup (st : fstat R) o x o' x' :
    fs_add_file E orc data src area dedup st o x = (o', x', SOk) → sop_step E orc (SAdd data src area dedup) o = (o', SOk).
  Proof using.
    unfold fs_add_file. destruct (sop_step E orc _ o) as [o1 st1]. destruct st1; [|done..]. destruct (streamed E orc _ o).
    - destruct (fs_file_after E src area st o1 x). by intros [= -> _ _].
    - by intros [= -> _].
  Qed.
  Lemma file_lines orc data src area dedup (st : fstat R) o x o' x' :
    fs_add_file E orc data src area dedup st o x = (o', x', SOk) → inv_head (ob_inv o) ≠ "" → stamped x → stamped x' ∧ keeps x x' ∧
    ∀ r, st = StatOk r → is_Some (streamed E orc (SAdd data src area dedup) o) →
      ∃ np lines, e_state_path E src area = Some np ∧ ix_buf x' !! inv_head (ob_inv o) = Some (lines ++ [(np, (inv_head (ob_inv o), r))]).
  Proof using.
    intros H Hh Hst. pose proof (file_sop _ _ _ _ _ _ _ _ _ _ H) as Hs. pose proof (ef_ext _ _ _ _ (sop_effect E orc (SAdd data src area dedup) o)) as He.
    rewrite Hs in He. cbn [fst] in He. unfold fs_add_file in H. rewrite Hs in H.
    destruct (streamed E orc _ o) as [q|]; [|injection H as <-; split; [done|]; split; [apply keeps_refl|]; intros r _ []; discriminate].
    unfold fs_file_after in H. rewrite (er_head _ _ He) in H. destruct (mark_ok _ x Hh Hst) as [M1 M2].
    destruct st as [| |r].
    - injection H as <-. split; [done|]. split; [done|]. intros r Hr. discriminate Hr.
    - discriminate H.
    - destruct (e_state_path E src area) as [np|]; [|discriminate H].
      destruct (fs_line np (inv_head (ob_inv o)) r (fs_mark (inv_head (ob_inv o)) x)) as [x2 st2] eqn:Hl. injection H as <- ->.
      destruct (line_ok _ _ _ _ _ _ Hl Hh (mark_cur _ _) M1) as (L1 & L2 & L3). split; [done|]. split; [by eapply keeps_trans|].
      intros r' [= <-] _. destruct (L3 eq_refl) as [lines L]. by exists np, lines.
  Qed.

  (** A folder is nothing, a file that is stored, or a logical copy. *)
  Lemma dir_sop orc src area (st : fstat R) o x o' x' :
    fs_add_dir E orc folders src area st o x = (o', x', SOk) →
    o' = o ∨ ((∀ d, e_hash E (inv_alg (ob_inv o)) "" = Some d → inv_manifest (ob_inv o) !! d = None) ∧
              sop_step E orc (SAddReader "" [path_join [src; folders]] area) o = (o', SOk)) ∨
    ∃ p d, sop_step E orc (SCopy p d) o = (o', SOk).
  Proof using.
    unfold fs_add_dir. destruct (inv_writeable _); [|done]. destruct (build_names E (ob_inv o) [src] area) as [bn|]; [|done]. clear bn.
    unfold fs_dir_after. destruct (decide (folders = "")); [intros [= -> _]; by left|]. destruct (e_hash E _ "") as [d|] eqn:Hd; [|done].
    destruct st as [| |r]; [intros [= -> _]; by left|done|]. destruct (e_state_path E src area); [|done].
    destruct (inv_manifest (ob_inv o) !! d) as [ps|] eqn:Hm.
    - destruct (build_names E (ob_inv o) [path_join [src; folders]] area) as [[[|q ps'] m]|]; [done| |done].
      destruct (ob_copy q d o) as [o1 st1] eqn:Hc. destruct st1; [|done..]. destruct (fs_line _ _ _ _). intros [= -> _ _]. right. right. exists q, d. exact Hc.
    - destruct (ob_add_reader E orc "" [path_join [src; folders]] area o) as [o1 st1] eqn:Hc. destruct st1; [|done..]. destruct (fs_line _ _ _ _). intros [= -> _ _]. right. left.
      split; [|exact Hc]. intros d' [= <-]. done.
  Qed.
  Lemma dir_lines orc src area (st : fstat R) o x o' x' :
    fs_add_dir E orc folders src area st o x = (o', x', SOk) → inv_head (ob_inv o) ≠ "" → stamped x → stamped x' ∧ keeps x x' ∧
    ∀ r, st = StatOk r → folders ≠ "" →
      ∃ d p q lines, e_hash E (inv_alg (ob_inv o)) "" = Some d ∧ e_state_path E (path_join [src; folders]) area = Some p ∧
        ix_buf x' !! inv_head (ob_inv o) = Some (lines ++ [(q, (inv_head (ob_inv o), r))]) ∧
        (is_Some (inv_manifest (ob_inv o) !! d) ∧ q = p ∧ current (ob_inv o') p d ∨
         inv_manifest (ob_inv o) !! d = None ∧ q = path_join [src; folders] ∧
         ob_add_reader E orc "" [path_join [src; folders]] area o = (o', SOk)).
  Proof using.
    unfold fs_add_dir. destruct (inv_writeable _) eqn:Hw; [|done]. destruct (build_names E (ob_inv o) [src] area) as [bn|]; [|done]. clear bn.
    unfold fs_dir_after. intros H Hh Hst. destruct (decide (folders = "")) as [Hf|Hf].
    { injection H as <- <-. split; [done|]. split; [apply keeps_refl|]. done. }
    destruct (e_hash E _ "") as [d|] eqn:Hd; [|done]. destruct (mark_ok _ x Hh Hst) as [M1 M2].
    destruct st as [| |r]; [injection H as <- <-; split; [done|]; split; [done|]; intros r Hr; discriminate Hr|done|]. destruct (e_state_path E src area); [|done].
    destruct (inv_manifest (ob_inv o) !! d) as [ps|] eqn:Hm.
    - destruct (build_names E (ob_inv o) [path_join [src; folders]] area) as [[[|p ps'] m]|] eqn:Hn; [done| |done].
      apply build_names_one in Hn as (p' & Hp & Heq). injection Heq as -> ->.
      destruct (ob_copy p' d o) as [o1 st1] eqn:Hc. destruct st1; [|done..].
      destruct (fs_line p' (inv_head (ob_inv o)) r (fs_mark (inv_head (ob_inv o)) x)) as [x2 st2] eqn:Hl. injection H as <- <- ->.
      destruct (line_ok _ _ _ _ _ _ Hl Hh (mark_cur _ _) M1) as (L1 & L2 & L3). split; [done|]. split; [by eapply keeps_trans|].
      intros r' [= <-] _. destruct (L3 eq_refl) as [lines L]. exists d, p', p', lines. split; [done|]. split; [done|]. split; [done|]. left. rewrite Hm. split; [by eexists|]. split; [done|].
      unfold ob_copy in Hc. rewrite Hw in Hc. unfold on_inv in Hc. destruct (copy_file p' d (ob_inv o)) as [i1 st1] eqn:Hcf. injection Hc as <- ->.
      apply copy_file_spec in Hcf as [Hcf _]. cbn [ob_inv set_inv]. apply Hcf. by right.
    - destruct (ob_add_reader E orc "" [path_join [src; folders]] area o) as [o1 st1] eqn:Hc. destruct st1; [|done..].
      destruct (fs_line (path_join [src; folders]) (inv_head (ob_inv o)) r (fs_mark (inv_head (ob_inv o)) x)) as [x2 st2] eqn:Hl. injection H as <- <- ->.
      destruct (line_ok _ _ _ _ _ _ Hl Hh (mark_cur _ _) M1) as (L1 & L2 & L3). split; [done|]. split; [by eapply keeps_trans|].
      intros r' [= <-] _. destruct (L3 eq_refl) as [lines L].
      assert (∃ p, e_state_path E (path_join [src; folders]) area = Some p) as [p Hp].
      { unfold ob_add_reader in Hc. rewrite Hw in Hc. destruct (build_names E (ob_inv o) [path_join [src; folders]] area) as [[ps m]|] eqn:Hn; [|done].
        apply build_names_one in Hn as (p' & Hp & _). by exists p'. }
      exists d, p, (path_join [src; folders]), lines. split; [done|]. split; [done|]. split; [done|]. right. done.
  Qed.

  Lemma fcalls_calls o x o' x' : fcalls E folders o x o' x' → PublishSpec.calls E o o'.
  Proof using.
    induction 1 as [o x|orc data src area dedup st o x o1 x1 o2 x2 Hp Hs _ IH|orc src area st o x o1 x1 o2 x2 Ho Hp Hs _ IH|orc op o x o1 st o2 x2 H1 H2 H3 H4 _ IH].
    - constructor.
    - eapply (calls_more E orc (OSimple (SAdd data src area dedup)) o o1 SOk o2); [done|exact Hp|by eapply file_sop|done|done].
    - destruct (dir_sop _ _ _ _ _ _ _ _ Hs) as [-> |[[Hm Hr]|(p & d & Hc)]]; [done|..].
      + eapply (calls_more E orc (OSimple _) o o1 SOk o2); [done|exact (Hp Hm)|exact Hr|done|done].
      + eapply (calls_more E orc (OSimple (SCopy p d)) o o1 SOk o2); [done| |exact Hc|done|done]. split; [done|]. done.
    - by eapply calls_more.
  Qed.
  Lemma fcalls_lines o x o' x' : fcalls E folders o x o' x' → inv_head (ob_inv o) ≠ "" → stamped x → stamped x' ∧ keeps x x' ∧ inv_head (ob_inv o') = inv_head (ob_inv o).
  Proof using.
    induction 1 as [o x|orc data src area dedup st o x o1 x1 o2 x2 Hp Hs _ IH|orc src area st o x o1 x1 o2 x2 Ho Hp Hs _ IH|orc op o x o1 st o2 x2 H1 H2 H3 H4 _ IH]; intros Hh Hst.
    - split; [done|]. split; [apply keeps_refl|done].
    - destruct (file_lines _ _ _ _ _ _ _ _ _ _ Hs Hh Hst) as (Q1 & Q2 & _). apply file_sop in Hs. pose proof (ef_ext _ _ _ _ (sop_effect E orc (SAdd data src area dedup) o)) as He.
      rewrite Hs in He. cbn [fst] in He. rewrite <- (er_head _ _ He) in Hh |- *. destruct (IH Hh Q1) as (P1 & P2 & P3). split; [done|]. split; [by eapply keeps_trans|done].
    - destruct (dir_lines _ _ _ _ _ _ _ _ Hs Hh Hst) as (Q1 & Q2 & _).
      assert (inv_head (ob_inv o1) = inv_head (ob_inv o)) as Eh.
      { destruct (dir_sop _ _ _ _ _ _ _ _ Hs) as [-> |[[Hm Hr]|(p & d & Hc)]]; [done|..].
        - pose proof (ef_ext _ _ _ _ (sop_effect E orc (SAddReader "" [path_join [src; folders]] area) o)) as He. rewrite Hr in He. apply (er_head _ _ He).
        - pose proof (ef_ext _ _ _ _ (sop_effect E orc (SCopy p d) o)) as He. rewrite Hc in He. apply (er_head _ _ He). }
      rewrite <- Eh in Hh |- *. destruct (IH Hh Q1) as (P1 & P2 & P3). split; [done|]. split; [by eapply keeps_trans|done].
    - assert (ext_rel (ob_inv o) (ob_inv o1)) as He.
      { apply (ThumbProofs3.calls_ext E). eapply calls_more; [done..|constructor]. }
      rewrite <- (er_head _ _ He) in Hh |- *. by apply IH.
  Qed.
  Lemma file_head orc data src area dedup (st : fstat R) o x o' x' :
    fs_add_file E orc data src area dedup st o x = (o', x', SOk) → inv_head (ob_inv o') = inv_head (ob_inv o).
  Proof using.
    intros Hs%file_sop. pose proof (ef_ext _ _ _ _ (sop_effect E orc (SAdd data src area dedup) o)) as He. rewrite Hs in He. apply (er_head _ _ He).
  Qed.
  Lemma dir_head orc src area (st : fstat R) o x o' x' : fs_add_dir E orc folders src area st o x = (o', x', SOk) → inv_head (ob_inv o') = inv_head (ob_inv o).
  Proof using.
    intros Hs. destruct (dir_sop _ _ _ _ _ _ _ _ Hs) as [-> |[[Hm Hr]|(p & d & Hc)]]; [done|..].
    - pose proof (ef_ext _ _ _ _ (sop_effect E orc (SAddReader "" [path_join [src; folders]] area) o)) as He. rewrite Hr in He. apply (er_head _ _ He).
    - pose proof (ef_ext _ _ _ _ (sop_effect E orc (SCopy p d) o)) as He. rewrite Hc in He. apply (er_head _ _ He).
  Qed.
End recorded.
