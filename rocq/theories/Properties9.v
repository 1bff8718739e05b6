(** Properties C46 and C47: automatic follow-up versions, streams. *)
From Coq Require Import Ascii ZArith Lia.
From stdpp Require Import base list strings gmap relations.
From Verif Require Import GoStr InventoryModel InventorySpec InventoryProofs ObjectModel ObjectSpec ObjectProofs Fixtures ClaimsInventory
  Properties1
  FollowModel FollowSpec FollowProofs StreamModel StreamSpec StreamProofs.

(** * C46: automatic follow-up versions *)

(** EndUpdate finishes, whatever the extensions do inside their hooks, and adds at most one version.  The result is the
    same for every larger bound on the recursion depth. *)
Theorem C46_terminates {X} E (M : manager X) clk : all_flagged M → ∀ orc s o,
  ∃ s' o' st, (∀ n, 2 ≤ n → fend E M clk n orc s o = Some (s', o', st)) ∧ nversions o' ≤ nversions o + 1.
Proof.
  intros [d Hd] orc s o. destruct (fend_two E M clk d Hd 0 orc s o) as (s' & o' & st & H & Hv & _).
  exists s', o', st. split; [|lia]. intros n Hn. destruct n as [|[|n]]; [lia..|].
  rewrite <- H. by apply (fend_same E M clk d Hd).
Qed.
(** Over the life of a handle, with any calls of the client in between: apart from the versions the client started there
    is at most one follow-up version, and one more for every EndUpdate that returned an error. *)
Theorem C46_once_per_handle_partial {X} E (M : manager X) clk : all_flagged M → ∀ n ops s o, 2 ≤ n →
  ∃ s' o' l, frun E M clk n ops s o = Some (s', o', l) ∧
    nversions o' ≤ nversions o + starts ops + failed_ends ops l + 1.
Proof.
  intros [d Hd] n ops s o Hn. destruct n as [|[|n]]; [lia..|]. exact (frun_two E M clk d Hd n ops s o).
Qed.
(** The extensions of the project have such flags. *)
Theorem C46_project_extensions (M : manager mig) :
  (∀ k, k ∈ mg_new M → (∃ meta todo, mg_ext M k = mig_ext meta todo) ∨ (∃ after, mg_ext M k = fs_ext after)) →
  all_flagged M.
Proof.
  intros H. exists (λ k x, m_done x = true ∨ ∀ s o, x_need (mg_ext M k) s o = Some false).
  intros k Hk. destruct (H k Hk) as [(meta & todo & Hx)|[after Hx]]; rewrite Hx.
  - destruct (mig_flagged meta todo) as [H1 H2 H3 H4]. split.
    + intros s o [Hd|Hd]; [by apply H1|]. by rewrite Hd.
    + intros s o. left. apply H2.
    + intros s o [Hd|Hd]; [left; by apply H3|by right].
    + intros s o [Hd|Hd]; [left; by apply H4|by right].
  - split; simpl; auto.
Qed.
(** Histories with extensions are histories of the model with explicit hooks, whose calls are those of the client and of
    the extensions: what is proved for all histories holds with every set of extensions. *)
Theorem C46_same_histories {X} E (M : manager X) clk G G0 n ops s o s' o' l :
  ext_calls M G → Forall (λ p, all_fop G G0 p.1 p.2) ops → frun E M clk n ops s o = Some (s', o', l) →
  ∃ ops', all_ops G G0 ops' ∧ orun E ops' o = o'.
Proof. exact (frun_history E M clk G G0 n ops s o s' o' l). Qed.

(** A manager with the migration extension: it migrates content x of file a to content y of file a.new; the second
    extension stores a file. *)
Definition xmeta (o : object) : option (list string * list string) :=
  Some ([], if currentb (ob_inv o) "b" "sb" then ["sx"; "sb"] else ["sx"]).
Definition xtodo (files : list string) (o : object) : list hcall :=
  flat_map (λ d, if decide (d = "sx") then [HTry dflt (SAddReader "y" ["a.new"] "content")] else
                 [HTry dflt (SAddReader "c" ["b.new"] "content")]) files.
Definition xman : manager mig :=
  Manager (λ k, if decide (k = 0) then mig_ext xmeta xtodo else fs_ext (λ o, [HCall dflt (SAddReader "f" ["fs"] "content")]))
    [1; 0] [1; 0].
Definition xstart : oracle * fop := (dflt, FStart "2024-01-01" "msg" "me" "mailto:me" false).
Definition xadd (data path : string) : oracle * fop := (dflt, FSimple (SAdd data path "" true)).
Definition xhist : list (oracle * fop) := [xstart; xadd "x" "a"; (dflt, FEnd); (dflt, FClose)].
Lemma xman_flagged : all_flagged xman.
Proof.
  apply C46_project_extensions. intros k _. unfold xman. cbn [mg_ext]. destruct (decide (k = 0)); [left|right]; eauto.
Qed.
Example C46_example :
  all_flagged xman ∧
  match frun xenv xman (λ _, "2024-01-01") 2 xhist (λ _, mig_new) (open_object fresh0) with
  | Some (s', o', l) =>
      l = [SOk; SOk; SOk; SOk] ∧ nversions o' = 2 ∧ inv_head (ob_inv o') = "v2" ∧
      currentb (ob_inv o') "a.new" "sy" = true ∧ currentb (ob_inv o') "fs" "sf" = true
  | None => False
  end.
Proof. split; [exact xman_flagged|]. by vm_compute. Qed.
Example C46_histories_example :
  ext_calls xman (λ _ op, match op with SAddReader _ _ _ => True | SAdd _ _ _ true => True | _ => False end) ∧
  Forall (λ p, all_fop (λ _ op, match op with SAddReader _ _ _ => True | SAdd _ _ _ true => True | _ => False end)
                 (λ _, True) p.1 p.2) xhist.
Proof.
  split.
  - intros k s o. unfold xman. cbn [mg_ext]. destruct (decide (k = 0)); simpl.
    + split; [constructor|]. split; [constructor|]. unfold xtodo. induction (m_files s) as [|f l IH]; simpl; [constructor|].
      destruct (decide (f = "sx")); simpl; (apply Forall_cons; split; [done|exact IH]).
    + split; [constructor|]. split; [apply Forall_cons; split; [done|constructor]|constructor].
  - repeat (apply Forall_cons; split; [done|]). constructor.
Qed.
Print Assumptions C46_terminates.
Print Assumptions C46_once_per_handle_partial.
Print Assumptions C46_project_extensions.
Print Assumptions C46_same_histories.

(** Without a flag EndUpdate need not finish: an extension that keeps asking. *)
Theorem C46_without_flag_refuted :
  ∃ E (M : manager unit) clk orc s o,
    inv_writeable (ob_inv o) = true ∧ (∀ k x o, (mg_ext M k).(x_do) x o = (x, [])) ∧
    ∀ n, fend E M clk n orc s o = None.
Proof.
  exists (Env (λ _ d, Some ("s" +:+ d)) (λ i, "json") (λ p _, Some p) (λ p _, Some p) []), greedy, (λ _, "2024-01-01"), dflt,
    (λ _, tt), (orun xenv [(dflt, OStart "2024-01-01" "msg" "me" "mailto:me" false); (dflt, OSimple (SAdd "x" "a" "" true))]
                  (open_object inv2)).
  split; [by vm_compute|]. split; [done|]. intros n. apply greedy_never; [eauto| |by vm_compute..].
  apply head_newest_run, inv2_newest.
Qed.
Print Assumptions C46_without_flag_refuted.

(** Each extension triggers at most one version: not if another one fails while the version is filled.  The first
    extension fails whenever it is called, so the second is never called, its flag stays down, and it triggers a version
    at every EndUpdate. *)
Definition broken_ext : ext mig := Ext (λ x _, (x, [])) (λ x _, (x, [])) (λ _ _, Some false) (λ x _, (x, [HFail "broken"])).
Definition xman2 : manager mig :=
  Manager (λ k, if decide (k = 0) then broken_ext else mig_ext xmeta xtodo) [0; 1] [0; 1].
Lemma xman2_flagged : all_flagged xman2.
Proof.
  exists (λ k x, k = 0 ∨ m_done x = true). intros k _. unfold xman2. cbn [mg_ext]. destruct (decide (k = 0)) as [->|Hk].
  - split; simpl; auto.
  - destruct (mig_flagged xmeta xtodo) as [H1 H2 H3 H4].
    split; [intros s o [|]; [done|by apply H1] | intros s o; right; apply H2 |
            intros s o [|]; [done|right; by apply H3] | intros s o [|]; [done|right; by apply H4]].
Qed.
Definition xhist2 : list (oracle * fop) := [xstart; xadd "x" "a"; (dflt, FEnd); (dflt, FEnd); (dflt, FEnd)].
Lemma computed {A} (x : option A) (P : A → Prop) :
  match x with Some a => P a | None => False end → ∃ a, x = Some a ∧ P a.
Proof. destruct x as [a|]; [|done]. intros H. by exists a. Qed.
Theorem C46_failing_refuted :
  ∃ E (M : manager mig) clk ops s o s' o' l,
    all_flagged M ∧ frun E M clk 2 ops s o = Some (s', o', l) ∧ starts ops = 1 ∧ nversions o = 0 ∧ nversions o' = 4 ∧
    inv_head (ob_inv o') = "v4".
Proof.
  destruct (computed (frun xenv xman2 (λ _, "2024-01-01") 2 xhist2 (λ _, mig_new) (open_object fresh0))
    (λ r, nversions r.1.2 = 4 ∧ inv_head (ob_inv r.1.2) = "v4")) as ([[s' o'] l] & Hf & H); [by vm_compute|].
  exists xenv, xman2, (λ _, "2024-01-01"), xhist2, (λ _, mig_new), (open_object fresh0), s', o', l.
  split.
  - exact xman2_flagged.
  - split; [exact Hf|]. split; [reflexivity|]. split; [reflexivity|]. exact H.
Qed.
Print Assumptions C46_failing_refuted.

(** A file that becomes due after the one follow-up version is not migrated on this handle, although the update succeeds:
    the flag is never taken down. *)
Definition xhist3 : list (oracle * fop) :=
  [xstart; xadd "x" "a"; (dflt, FEnd); xstart; xadd "b" "b"; (dflt, FEnd); (dflt, FClose)].
Theorem C46_second_update_refuted :
  ∃ ops s' o' l,
    frun xenv xman (λ _, "2024-01-01") 2 ops (λ _, mig_new) (open_object fresh0) = Some (s', o', l) ∧
    Forall (λ st, st = SOk) l ∧ starts ops = 2 ∧ nversions o' = 3 ∧ "sb" ∈ m_files (s' 0) ∧
    absentb (ob_inv o') "b.new" = true.
Proof.
  destruct (computed (frun xenv xman (λ _, "2024-01-01") 2 xhist3 (λ _, mig_new) (open_object fresh0))
    (λ r, r.2 = [SOk; SOk; SOk; SOk; SOk; SOk; SOk] ∧ nversions r.1.2 = 3 ∧ m_files (r.1.1 0) = ["sb"] ∧
        absentb (ob_inv r.1.2) "b.new" = true)) as ([[s' o'] l] & Hf & H1 & H2 & H3 & H4); [by vm_compute|].
  cbn [fst snd] in H1, H2, H3, H4.
  exists xhist3, s', o', l. split; [exact Hf|]. split; [rewrite H1; repeat (apply Forall_cons; split; [done|]); constructor|].
  split; [done|]. split; [exact H2|]. split; [|exact H4]. rewrite H3. apply elem_of_list_here.
Qed.
Print Assumptions C46_second_update_refuted.

(** * C47: streams *)

(** Every schedule, chunking, number of extensions, buffer size: what an extension has read is a prefix of the content, and
    all of it once it has seen the end of file.  [chunks] is what the source delivered. *)
Theorem C47_in_order {X} (exts : list (sext X)) dsize cap src_err chunks s i r :
  reachable exts dsize cap src_err chunks s → s_rd s !! i = Some r →
  (∃ rest, r_got r ++ rest = concat chunks) ∧ (r_eof r = true → r_got r = concat chunks).
Proof.
  intros Hs Hr. destruct (iv_rd _ _ _ _ (reachable_inv _ _ _ _ _ _ Hs) i r Hr) as (H1 & H2 & _). split.
  - destruct (r_phase r); [destruct H1 as [H1 _]; eauto|done..].
  - intros He. by destruct (H2 He).
Qed.
(** No schedule ends in a deadlock, also if extensions stop reading early or return an error. *)
Theorem C47_no_deadlock {X} (exts : list (sext X)) dsize cap src_err chunks s :
  reachable exts dsize cap src_err chunks s → (∀ s', ¬ step exts dsize src_err s s') → finished s.
Proof.
  intros Hs Hn. destruct (progress exts dsize src_err chunks s (reachable_inv _ _ _ _ _ _ Hs)) as [[s' H]|H]; [|done].
  by destruct (Hn s').
Qed.
(** No schedule goes on for ever, if each extension returns on this content. *)
Theorem C47_terminates {X} (exts : list (sext X)) dsize cap src_err chunks :
  (∀ e, e ∈ exts → finishes e (sx_init e) (concat chunks)) →
  ∃ n, ∀ k s, nsteps (step exts dsize src_err) k (sinit exts cap chunks) s → k ≤ n.
Proof. exact (terminates exts dsize cap src_err chunks). Qed.
(** If the source was read to the end the call waits for all extensions, and its result is exactly the errors they
    returned. *)
Theorem C47_errors_reported {X} (exts : list (sext X)) dsize cap chunks s res :
  reachable exts dsize cap false chunks s → s_main s = MRet res →
  ∃ l, res = OErrors l ∧ l ≡ₚ errors_of (s_rd s) ∧ length (s_rd s) = length exts ∧ finished s.
Proof.
  intros Hs Hm. pose proof (reachable_inv _ _ _ _ _ _ Hs) as Hi. pose proof (iv_src _ _ _ _ Hi) as H. rewrite Hm in H.
  destruct res as [|l]; [done|]. destruct H as (_ & H1 & H2). exists l. split; [done|]. split; [done|].
  split; [exact (iv_len _ _ _ _ Hi)|]. split; eauto.
Qed.
(** If reading the source failed the call returns an error. *)
Theorem C47_source_error {X} (exts : list (sext X)) dsize cap chunks s res :
  reachable exts dsize cap true chunks s → s_main s = MRet res → res = OCopyError.
Proof.
  intros Hs Hm. pose proof (iv_src _ _ _ _ (reachable_inv _ _ _ _ _ _ Hs)) as H. rewrite Hm in H.
  destruct res as [|l]; [done|]. by destruct H.
Qed.

(** Three extensions, buffers of 4 bytes: the first reads everything in portions of 2, the second returns at once with an
    error, the third reads everything and then fails. *)
Definition xexts : list (sext bool) := [reader_ext 1 None; stopper_ext (Some "second"); reader_ext 2 (Some "third")].
Definition bs (s : string) : bytes := String.list_ascii_of_string s.
Definition xchunks : list bytes := [bs "abc"; bs "defghijk"; bs "l"].
Fixpoint rounds (n : nat) : list nat := match n with O => [] | S n' => [3; 2; 1; 0] ++ rounds n' end.
Definition xfinal : sst bool := execs xexts 3 false (rounds 60) (sinit xexts 4 xchunks).
Example C47_example :
  (∀ e, e ∈ xexts → finishes e (sx_init e) (concat xchunks)) ∧
  reachable xexts 3 4 false xchunks xfinal ∧
  s_main xfinal = MRet (OErrors ["second"; "third"]) ∧
  (r_got <$> s_rd xfinal) = [bs "abcdefghijkl"; []; bs "abcdefghijkl"] ∧ (r_eof <$> s_rd xfinal) = [true; false; true] ∧
  length (all_puts 4 3 xchunks) = 9.
Proof.
  split.
  - intros e He. unfold xexts in He. rewrite !elem_of_cons, elem_of_nil in He.
    destruct He as [->|[->|[->|[]]]]; [apply reader_finishes|apply stopper_finishes|apply reader_finishes].
  - split; [apply execs_rtc|]. by vm_compute.
Qed.
Print Assumptions C47_in_order.
Print Assumptions C47_no_deadlock.
Print Assumptions C47_terminates.
Print Assumptions C47_errors_reported.
Print Assumptions C47_source_error.

(** If reading the source failed, the extensions see the end of file as after complete content, and an error an extension
    returned is not reported. *)
Theorem C47_source_error_refuted :
  ∃ (exts : list (sext bool)) dsize cap chunks s r1 r2,
    reachable exts dsize cap true chunks s ∧ finished s ∧ s_main s = MRet OCopyError ∧
    s_rd s = [r1; r2] ∧ r_eof r1 = true ∧ r_err r1 = None ∧ r_err r2 = Some "second".
Proof.
  set (exts := [reader_ext 1 None; stopper_ext (Some "second")]).
  exists exts, 3, 4, xchunks, (execs exts 3 true (rounds 60) (sinit exts 4 xchunks)), (Rd PDone (bs "abcdefghijkl") true None),
    (Rd PDone [] false (Some "second")).
  split; [apply execs_rtc|]. split; [|by vm_compute].
  assert (s_rd (execs exts 3 true (rounds 60) (sinit exts 4 xchunks)) =
    [Rd PDone (bs "abcdefghijkl") true None; Rd PDone [] false (Some "second")]) as H by (by vm_compute).
  split; [exists OCopyError; by vm_compute|]. rewrite H. intros r. rewrite !elem_of_cons, elem_of_nil.
  by intros [->|[->|[]]].
Qed.
Print Assumptions C47_source_error_refuted.

(** An extension that does not return when it has seen the end of file keeps the call from returning: for every [n] there
    is a schedule of [n] steps. *)
Theorem C47_hanging_refuted :
  ∃ (e : sext unit) dsize cap chunks, ∀ n, ∃ s,
    reachable [e] dsize cap false chunks s ∧ ∃ s', nsteps (step [e] dsize false) n s s' ∧ s_main s' = MWait.
Proof.
  exists (Sext (λ _, ARead 0) (λ x _, x) tt), 0, 1, []. intros n.
  exists (Sst [] MWait [Rd (PRun tt) [] true None] []). split.
  - apply (execs_rtc [Sext (λ _, ARead 0) (λ x _, x) tt] 0 false [0; 0; 0; 1]).
  - exists (Sst [] MWait [Rd (PRun tt) [] true None] []). split; [|done]. induction n as [|n IH]; [constructor|].
    eapply nsteps_l; [|exact IH].
    apply (st_eof [Sext (λ _, ARead 0) (λ x _, x) tt] 0 false 0 (Sext (λ _, ARead 0) (λ x _, x) tt) tt [] true None 0 [] MWait
             [Rd (PRun tt) [] true None] []); done.
Qed.
Print Assumptions C47_hanging_refuted.
