(** The automated version in a history: how it starts, and the calls it makes. *)
From Coq Require Import Ascii.
From stdpp Require Import base list strings gmap.
From Coq Require Import ZArith Lia.
From Verif Require Import GoStr PathModel InventoryModel InventorySpec ObjectModel ObjectSpec InventoryProofs ObjectProofs RunProofs CrashProofs ClaimsInventory
  FollowProofs AreaModel ValidateModel JsonlModel MigrateModel MigrateSpec.

Lemma started_automated now msg un ua echo o k :
  contiguous (ob_inv o) k → (1 <= k)%N → (inv_padding (ob_inv o) <= 0)%Z →
  (∀ ver v, inv_versions (ob_inv o) !! ver = Some v → unique_paths (v_state v)) →
  ∃ o', ob_start now msg un ua echo o = (o', SOk) ∧ automated (ob_inv o') (k + 1) ∧ earlier (ob_inv o') (k + 1) = inv_head (ob_inv o).
Proof.
  intros Hc Hk Hp Hu. pose proof (contiguous_start k now msg un ua echo o Hc) as Hc'.
  destruct Hc as [Hh Hv]. pose proof (next_head_name _ _ Hh) as Hnext. rewrite decide_False in Hh by lia.
  assert (is_Some (inv_versions (ob_inv o) !! inv_head (ob_inv o))) as [old Hold]. { rewrite Hh. apply Hv. exists k. split; [lia|done]. }
  assert (inv_head (ob_inv o) ≠ version_name (inv_padding (ob_inv o)) (k + 1)) as Hne.
  { rewrite Hh. intros H%version_name_inj. lia. }
  unfold ob_start, on_inv in Hc' |- *. change (ob_inv (set_echo echo o)) with (ob_inv o) in *. unfold new_version in *. rewrite Hnext in *.
  assert (inv_head (ob_inv o) ≠ "") as Hne0. { rewrite Hh. apply version_name_nonempty. }
  rewrite (decide_False _ _ Hne0) in Hc' |- *. cbv zeta in Hc' |- *. cbn [inv_versions set_versions set_head] in Hc' |- *.
  rewrite lookup_insert_ne, Hold in Hc' |- * by done. cbn [fst ob_inv set_inv] in Hc'. rewrite insert_insert in *.
  eexists. split; [done|]. cbn [ob_inv set_inv]. set (j := set_writeable _ _) in *.
  assert (earlier j (k + 1) = inv_head (ob_inv o)) as He. { unfold earlier. cbn. rewrite Hh. f_equal. lia. }
  assert (inv_versions j = <[inv_head j := Version now msg un ua (v_state old)]> (inv_versions (ob_inv o))) as Hvers by done.
  assert (inv_head j ≠ inv_head (ob_inv o)) as Hne' by (by apply not_eq_sym).
  split; [|done]. split; [done|lia|done| |done|].
  - intros ver v. rewrite Hvers. destruct (decide (ver = inv_head j)) as [->|Hn'].
    + rewrite lookup_insert. intros [= <-]. cbn. by eapply Hu.
    + rewrite lookup_insert_ne by done. apply Hu.
  - intros p d. rewrite He. unfold current, recorded. rewrite Hvers, lookup_insert, lookup_insert_ne, Hold by done. split.
    + intros (v & [= <-] & H). eauto.
    + intros (v & [= <-] & H). eauto.
Qed.

Section calls.
  Context (E : env).
  Lemma sops_ext cs : ∀ o, ext_rel (ob_inv o) (ob_inv (sops_run E cs o).1).
  Proof.
    induction cs as [|[orc op|orc op|msg] cs IH]; intros o; cbn [sops_run]; [done| | |done];
      destruct (sop_effect E orc op o) as [He _ _]; destruct (sop_step E orc op o) as [o1 st]; cbn [fst] in He; destruct st; cbn [andThen];
      try done; (etransitivity; [exact He|apply IH]).
  Qed.
  Lemma originals_calls orcs act mk : (∀ orc n o, act orc n o = sop_step E orc (mk n) o) → ∀ srcs k o,
    ∃ cs, sops_run E cs o = originals orcs k act srcs o.
  Proof.
    intros Hact. induction srcs as [|n srcs IH]; intros k o; [by exists []|]. cbn [originals]. rewrite Hact.
    destruct (sop_step E (orcs k) (mk n) o) as [o1 st] eqn:Hs. destruct (IH (S k) o1) as [cs Hcs].
    exists (HCall (orcs k) (mk n) :: cs). cbn [sops_run]. rewrite Hs. unfold andThen. by destruct st.
  Qed.
  Lemma run_job_calls orcs isM cs f srcs targets exts from data o : ∃ l,
    sops_run E l o = (let '(o', _, st) := run_job E orcs isM cs f srcs targets exts from data o in (o', st)).
  Proof.
    unfold run_job. destruct (mf_run f from (default "" (head exts)) data) as [y|]; [|by exists []].
    destruct (ob_add_reader E (orcs 0) y exts "content" o) as [o1 st] eqn:Ha.
    assert (sop_step E (orcs 0) (SAddReader y exts "content") o = (o1, st)) as Hs by done.
    destruct st as [|e|].
    - assert (∃ l, sops_run E l o1 = on_originals orcs (mf_strategy f) isM cs (filter (λ n, n ∉ targets) srcs) o1) as [l Hl].
      { unfold on_originals. destruct (mf_strategy f).
        - by apply originals_calls with (mk := λ n, SDelete n cs).
        - by exists [].
        - by apply originals_calls with (mk := λ n, SRename n (moved_name isM n) cs). }
      exists (HTry (orcs 0) (SAddReader y exts "content") :: l). cbn [sops_run]. rewrite Hs, Hl. by destruct (on_originals _ _ _ _ _ _).
    - exists [HTry (orcs 0) (SAddReader y exts "content")]. cbn [sops_run]. by rewrite Hs.
    - exists [HTry (orcs 0) (SAddReader y exts "content")]. cbn [sops_run]. by rewrite Hs.
  Qed.
  Lemma loop_calls Sr orcs prev metas todo : ∀ k mig lines o o' mig' lines' st,
    mi_loop E Sr orcs k prev metas todo mig lines o = (o', mig', lines', st) → st ≠ SPanic → ∃ l, sops_run E l o = (o', st).
  Proof.
    induction todo as [|[cs f] todo IH]; intros k mig lines o o' mig' lines' st; cbn [mi_loop].
    { intros [= <- <- <- <-] _. by exists []. }
    destruct (already_migrated mig cs); [by apply IH|]. cbv zeta.
    set (q := match job E Sr prev _ _ cs f with JUnmarked s => _ | JMarked v s => _ end). destruct q as [mig1 s].
    destruct s as [|e| |srcs targets exts from path data]; [by apply IH| | |].
    - intros [= <- <- <- <-] _. by exists [HFail e].
    - intros [= <- <- <- <-] H. done.
    - destruct (run_job_calls (orcs k) (bool_decide (cs ∈ metas)) cs f srcs targets exts from data o) as [l1 Hl1].
      destruct (run_job E (orcs k) _ cs f srcs targets exts from data o) as [[o1 err] st1]. destruct st1 as [|e|].
      + intros Hl Hst. destruct (IH _ _ _ _ _ _ _ _ Hl Hst) as [l2 Hl2]. exists (l1 ++ l2). by rewrite sops_run_app, Hl1.
      + intros [= <- <- <- <-] _. by exists l1.
      + intros [= <- <- <- <-] H. done.
  Qed.
  Lemma migration_calls Z L l J Sr w orc orcs meta o x o' x' st :
    (∀ p, write_target l J (inv_head (ob_inv o)) ≠ JFile p) →
    do_new_version Z L E l J Sr w orc orcs meta o x = (o', x', st) → st ≠ SPanic → ∃ cs, sops_run E cs o = (o', st).
  Proof.
    intros Hj. unfold do_new_version. cbv zeta. destruct meta as [meta|].
    2:{ intros [= <- _ <-] _. by eexists [HFail _]. }
    destruct (rev _) as [|h [|prev r]]; [intros [= <- _ <-] _; by eexists [HFail _]..|].
    destruct (mi_loop E Sr orcs 0 prev _ _ _ [] o) as [[[o1 mig] lines] st1] eqn:Hl.
    destruct st1 as [|e|].
    - destruct (loop_calls _ _ _ _ _ _ _ _ _ _ _ _ _ Hl ltac:(done)) as [l1 Hl1].
      assert (inv_head (ob_inv o1) = inv_head (ob_inv o)) as Hh.
      { pose proof (sops_ext l1 o) as He. rewrite Hl1 in He. apply (er_head _ _ He). }
      destruct (write_jsonl _ _ _ _ _ _ o1) as [o2 st2] eqn:Hw. intros [= <- _ <-] _.
      assert (∃ l2, sops_run E l2 o1 = (o2, st2)) as [l2 Hl2].
      { unfold write_jsonl in Hw. rewrite Hh in Hw. destruct (write_target l J (inv_head (ob_inv o))) as [fs a|p|e]; [|by destruct (Hj p)|].
        - destruct (repack _ _ _) as [data|]; [|injection Hw as <- <-; by eexists [HFail _]].
          exists [HCall (shift_oracle orc) (SAddReader data fs a)]. cbn [sops_run sop_step]. rewrite Hw. by destruct st2.
        - injection Hw as <- <-. by eexists [HFail _]. }
      exists (l1 ++ l2). by rewrite sops_run_app, Hl1.
    - intros [= <- _ <-] _. by apply (loop_calls _ _ _ _ _ _ _ _ _ _ _ _ _ Hl).
    - intros [= <- _ <-] H. done.
  Qed.
End calls.
