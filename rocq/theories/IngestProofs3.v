(** Adding the offered files one after the other. *)
From Coq Require Import Ascii.
From stdpp Require Import base list strings gmap.
From Coq Require Import ZArith Lia.
From Verif Require Import GoStr PathModel InventoryModel ObjectModel InventorySpec InventoryProofs ObjectSpec ObjectProofs LookupProofs AddProofs
  ClaimsInventory ClaimsInventory2 CrashSpec LoadModel PathProofs CrashProofs LoadProofs SessionProofs PublishSpec PublishProofs PublishProofs2
  PublishProofs3 PublishProofs4 AreaModel IngestModel IngestSpec IngestProofs IngestProofs2.

(** Area, path and bytes of a file. *)
Notation file := (string * string * string)%type.

Section adds.
  Context (E : env) (Hhex : hex_hash (e_hash E)) (s : storage) (i : inventory) (n : N) (fam : N → inventory) (Hk : kept E s i n n fam).
  Context (Hsup : supported E i) (folders : list (string * node)) (dedup echo : bool) (o1 : object) (Hcp : copied E s i n echo o1).
  Context (Hpl : placed E folders) (Had : addressed E dedup i folders).

  Record progress (L : list file) (o : object) : Prop := Progress {
    pg_calls : calls E o1 o;
    pg_ext : ext_rel (ob_inv o1) (ob_inv o);
    pg_echo : ob_echo o = echo;
    pg_off : ∀ a p x, (a, p, x) ∈ L → offered folders a p x;
    pg_done : ∀ a p x np d, (a, p, x) ∈ L → e_state_path E p a = Some np → e_hash E (inv_alg i) x = Some d →
      np ∈ ob_upd o ∧ ∀ e, occ (ob_inv o) np e = if decide (e = d) then 1 else 0;
    pg_rest : ∀ np, (∀ a p x, (a, p, x) ∈ L → e_state_path E p a ≠ Some np) → ∀ e, occ (ob_inv o) np e = occ (ob_inv o1) np e;
    pg_upd : ∀ np, np ∈ ob_upd o → ∃ a p x, (a, p, x) ∈ L ∧ e_state_path E p a = Some np;
    pg_keys : ∀ d, is_Some (inv_manifest (ob_inv o) !! d) → is_Some (inv_manifest i !! d) ∨ ∃ a p x, (a, p, x) ∈ L ∧ e_hash E (inv_alg i) x = Some d;
    pg_man : ∀ c d, lists (inv_manifest (ob_inv o)) c d → lists (inv_manifest i) c d ∨
      ∃ a p x m, (a, p, x) ∈ L ∧ e_manifest_path E p a = Some m ∧ c = cpath i (n + 1) m ∧ e_hash E (inv_alg i) x = Some d ∧ now s o !! c = Some x;
    pg_mod : ∀ a p x np d, (a, p, x) ∈ L → e_state_path E p a = Some np → e_hash E (inv_alg i) x = Some d → ¬ current i np d →
      inv_modified (ob_inv o) = true;
    pg_working : working E s n o;
    pg_frame : ∀ p, (∀ r, p ≠ cpath i (n + 1) r) → now s o !! p = s !! p
  }.

  Lemma hash_some x : ∃ d, e_hash E (inv_alg i) x = Some d ∧ d ≠ "" ∧ to_lower d = d.
  Proof using Hsup Hhex.
    destruct (Hsup (inv_alg i) x) as [d Hd]; [by left|]. exists d. split; [done|]. destruct (Hhex _ _ _ Hd) as [[H _] H2]. done.
  Qed.
  Lemma progress_start : progress [] o1.
  Proof using Hcp.
    split.
    - constructor.
    - apply ext_rel_refl.
    - apply Hcp.
    - intros a p x H. by apply elem_of_nil in H.
    - intros a p x np d H. by apply elem_of_nil in H.
    - done.
    - intros np H. rewrite (cp_upd _ _ _ _ _ _ Hcp) in H. by apply elem_of_nil in H.
    - intros d. rewrite (cp_man _ _ _ _ _ _ Hcp). by left.
    - intros c d. rewrite (cp_man _ _ _ _ _ _ Hcp). by left.
    - intros a p x np d H. by apply elem_of_nil in H.
    - apply Hcp.
    - intros p _. unfold now. by rewrite (cp_trace _ _ _ _ _ _ Hcp).
  Qed.

  Lemma is_done (L : list file) np :
    (∃ a p x, (a, p, x) ∈ L ∧ e_state_path E p a = Some np) ∨ ∀ a p x, (a, p, x) ∈ L → e_state_path E p a ≠ Some np.
  Proof using.
    clear. destruct (decide (Exists (λ f : file, e_state_path E f.1.2 f.1.1 = Some np) L)) as [H|H].
    - left. apply Exists_exists in H as ([[a p] x] & Hin & H). by exists a, p, x.
    - right. intros a p x Hin Hs. apply H, Exists_exists. by exists (a, p, x).
  Qed.
  Lemma progress_09 L o : progress L o → inv09 (ob_inv o).
  Proof using Hcp Hsup Hhex.
    intros Hp. pose proof (cp_09 _ _ _ _ _ _ Hcp) as H09. destruct (inv09_head _ H09) as [Hs1 Ho1].
    apply (inv09_ext (ob_inv o1)); [apply Hp| |done].
    assert (∀ np, (∀ e, occ (ob_inv o) np e = occ (ob_inv o1) np e) ∨ ∃ d, ∀ e, occ (ob_inv o) np e = if decide (e = d) then 1 else 0) as Hcase.
    { intros np. destruct (is_done L np) as [(a & p & x & Hin & Hnp)|Hr].
      - right. destruct (hash_some x) as (d & Hd & _). exists d. by apply (pg_done _ _ Hp a p x np d).
      - left. by apply (pg_rest _ _ Hp). }
    split.
    - intros np d1 d2 C1 C2. apply occ_current in C1, C2. destruct (Hcase np) as [H|[d H]]; rewrite H in C1, C2.
      + apply (Hs1 np); by apply occ_current.
      + repeat destruct (decide _); try lia. congruence.
    - intros np e. destruct (Hcase np) as [H|[d H]]; rewrite H; [apply Ho1|]. destruct (decide _); lia.
  Qed.
  Lemma head_o1 : head_is (ob_inv o1) (n + 1).
  Proof using Hcp.
    destruct (cp_09 _ _ _ _ _ _ Hcp) as (m & Hh & _ & _ & _). pose proof Hh as (H1 & H2 & H3). rewrite (cp_head _ _ _ _ _ _ Hcp) in H1.
    rewrite (cp_pad _ _ _ _ _ _ Hcp) in H1. destruct (decide (m = 0%N)) as [-> |Hm].
    - by apply version_name_nonempty in H1.
    - apply version_name_inj in H1 as <-. done.
  Qed.
  Lemma manifest_cpath i' m : ext_rel (ob_inv o1) i' → clean_rel m → manifest_name i' m = cpath i (n + 1) m.
  Proof using Hcp Hk.
    intros He Hm. rewrite manifest_name_clean; [| | |done].
    - unfold cpath, content_name. by rewrite (er_head _ _ He), (er_cdir _ _ He), (cp_head _ _ _ _ _ _ Hcp), (cp_cdir _ _ _ _ _ _ Hcp).
    - rewrite (er_head _ _ He), (cp_head _ _ _ _ _ _ Hcp). apply version_name_plain.
    - unfold content_name. rewrite (er_cdir _ _ He), (cp_cdir _ _ _ _ _ _ Hcp). apply (kp_cdir _ _ _ _ _ _ Hk).
  Qed.
  Lemma cpath_rest k r r' : cpath i k r = cpath i k r' → r = r'.
  Proof using. clear. unfold cpath. intros H. apply str_app_inv_l in H. apply (str_app_inv_l "/") in H. apply str_app_inv_l in H. by apply (str_app_inv_l "/") in H. Qed.

  (** One more file. *)
  Lemma progress_add L o orc a p x :
    progress L o → offered folders a p x → (∀ x', (a, p, x') ∉ L) → oracle_ok orc →
    ∃ o', ob_add E orc x p a dedup o = (o', SOk) ∧ progress ((a, p, x) :: L) o'.
  Proof using Hhex Hk Hsup Hcp Hpl Had.
    intros Hp Hoff Hnew Horc. destruct (pl_file _ _ Hpl _ _ _ Hoff) as (np & m & Hnp & Hm & Hcl). destruct (hash_some x) as (d & Hd & Hdne & Hlow).
    pose proof (pg_ext _ _ Hp) as He. pose proof (progress_09 _ _ Hp) as H09. pose proof (ext_rel_head_is _ _ _ He head_o1) as Hh.
    pose proof (pg_working _ _ Hp) as Hwk. pose proof Hwk as ([fam' Hk'] & Hsup' & Hw).
    assert (inv_alg (ob_inv o) = inv_alg i) as Halg by (rewrite (er_alg _ _ He); apply Hcp).
    assert (∀ a' p' x', (a', p', x') ∈ L → e_state_path E p' a' ≠ Some np) as Hnd.
    { intros a' p' x' Hin E'. destruct (pl_state _ _ Hpl _ _ _ _ _ _ _ (pg_off _ _ Hp _ _ _ Hin) Hoff E' Hnp) as [-> ->]. by apply Hnew in Hin. }
    assert (inv_padding (ob_inv o) <= 0)%Z as Hpad by apply (kp_pad _ _ _ _ _ _ Hk').
    assert (newest_single (ob_inv o) np) as Hns by (by apply inv09_newest).
    assert (e_hash E (inv_alg (ob_inv o)) x = Some d) as Hd' by (by rewrite Halg).
    assert (∀ al, al ∈ inv_fixalgs (ob_inv o) → is_Some (e_hash E al x)) as Hfix.
    { intros al Hal. destruct (Hsup' al x) as [d' Hd2]; [by right|]. by eexists. }
    assert (n + 1 ≠ 0)%N as Hn1 by lia.
    destruct (ob_add_spec E orc x p a dedup o np d (n + 1)) as (o' & Hadd & Hothers & Hin' & Hcases); auto.
    pose proof (ob_add_man E orc x p a dedup o np d m (n + 1) Horc Hh Hn1 Hw Hnp Hm Hpad Hns Hd' Hdne Hlow Hfix) as Hman.
    rewrite Hadd in Hman. cbv zeta in Hman. cbn [fst] in Hman. destruct Hman as (Hecho & Hupd1 & Hupd2 & Hman).
    exists o'. split; [done|].
    assert (manifest_name (ob_inv o) m = cpath i (n + 1) m) as Hmn by (by apply manifest_cpath).
    (* the current record of the path is the old one *)
    assert (∀ e, occ (ob_inv o) np e = occ (ob_inv o1) np e) as Hocc by (by apply (pg_rest _ _ Hp)).
    assert (∀ e, current (ob_inv o) np e ↔ current i np e) as Hcur.
    { intros e. rewrite <- (cp_current _ _ _ _ _ _ Hcp). rewrite <- !occ_current. by rewrite Hocc. }
    assert (newest_record (ob_inv o) np d → current i np d) as Hnew2.
    { intros Hr. assert (newest_record (ob_inv o1) np d) as Hr1.
      { assert (∀ ver e, recorded (ob_inv o) ver np e ↔ recorded (ob_inv o1) ver np e) as Hrec.
        { intros ver e. destruct (decide (ver = inv_head (ob_inv o1))) as [-> |Hv].
          - change (recorded (ob_inv o1) (inv_head (ob_inv o1)) np e) with (current (ob_inv o1) np e). rewrite <- (er_head _ _ He).
            change (current (ob_inv o) np e ↔ current (ob_inv o1) np e). rewrite <- !occ_current. by rewrite Hocc.
          - unfold recorded. by rewrite (er_vers _ _ He). }
        destruct Hr as (k & Hr & Hmax). exists k. rewrite <- (er_pad _ _ He). split; [by apply Hrec|]. intros k' d' H'. apply (Hmax k' d'). by apply Hrec. }
      destruct (cp_newest _ _ _ _ _ _ Hcp _ _ Hr1) as [?|[Hri Hno]]; [done|]. exfalso.
      destruct (as_revived _ _ _ _ Had np d) as [e He']; [|done|by apply Hno in He'].
      exists a, p, x. done. }
    assert (proper E orc (SAdd x p a dedup) o) as Hprop.
    { split; [done|]. split.
      - cbn [clean_target]. intros m' Hm'. rewrite Hm in Hm'. by injection Hm' as <-.
      - cbn [fresh_target]. intros m' Hm'. rewrite Hm in Hm'. injection Hm' as <-. rewrite Hmn. intros d' Hl.
        destruct (pg_man _ _ Hp _ _ Hl) as [Hl'|(a' & p' & x' & m' & Hin & Hm' & Ec & _)].
        + destruct (g_paths _ _ _ _ (kp_good _ _ _ _ _ _ Hk) _ _ Hl') as (k & r & Hkn & _ & Ec). apply cpath_inj in Ec. lia.
        + apply cpath_rest in Ec as ->. destruct (pl_content _ _ Hpl _ _ _ _ _ _ _ (pg_off _ _ Hp _ _ _ Hin) Hoff Hm' Hm) as [-> ->]. by apply Hnew in Hin. }
    assert (ostep E orc (OSimple (SAdd x p a dedup)) o = (o', SOk)) as Hstep by done.
    pose proof (sop_ok E s Hhex (n + 1) orc (SAdd x p a dedup) o Hn1 Hpad (kp_cdir _ _ _ _ _ _ Hk') Hsup' Hprop (kp_good _ _ _ _ _ _ Hk')) as Hsok.
    cbn [sop_step] in Hsok. rewrite Hadd in Hsok. cbn [fst] in Hsok. destruct Hsok as (_ & He2 & _ & Hfr).
    pose proof (ext_rel_trans _ _ _ He He2) as He'.
    assert (∀ r, cpath (ob_inv o) (n + 1) r = cpath i (n + 1) r) as Hcps.
    { intros r. apply cpath_same; [rewrite (er_pad _ _ He); apply Hcp|rewrite (er_cdir _ _ He); apply Hcp]. }
    assert (occ (ob_inv o) np d <= 1) as Hle by (by apply inv09_head).
    assert (∀ e, occ (ob_inv o') np e = if decide (e = d) then 1 else 0) as Hocc'.
    { destruct Hcases as [(Hr & Hsame & _)|[(Hr & -> & Hdup & Hplus & _)|(Hr & _ & Hval & _)]]; [| |done].
      - intros e. rewrite Hsame. pose proof (Hnew2 Hr) as Hc. apply Hcur in Hc. destruct (decide (e = d)) as [-> |Hne].
        + apply occ_current in Hc. lia.
        + apply occ_0. intros Hc'. apply Hne. destruct (inv09_head _ H09) as [Hsg _]. by apply (Hsg np).
      - intros e. rewrite Hplus. assert (occ (ob_inv o) np e = 0) as ->; [|done]. apply occ_0. rewrite Hcur. intros Hce.
        destruct (decide (e = d)) as [-> |Hne]; [by apply Hr, (current_newest _ _ _ _ Hh), Hcur|].
        assert (brings E i folders np d) as Hb by (by exists a, p, x).
        destruct (as_changed _ _ _ _ Had eq_refl np d e Hb Hce Hne) as [Hnone Honly].
        unfold get_duplicates in Hdup. rewrite decide_False in Hdup by done.
        destruct (pg_keys _ _ Hp d) as [[? Hy]|(a' & p' & x' & Hin & Hx')].
        + destruct (inv_manifest (ob_inv o) !! d); [by eexists|done].
        + by rewrite Hnone in Hy.
        + destruct (pl_file _ _ Hpl _ _ _ (pg_off _ _ Hp _ _ _ Hin)) as (np' & m' & Hnp' & _ & _).
          rewrite (Honly np') in Hnp'; [by apply (Hnd _ _ _ Hin) in Hnp'|]. exists a', p', x'. split; [by apply (pg_off _ _ Hp)|done]. }
    assert (∀ q, (∀ r, q ≠ cpath i (n + 1) r) → now s o' !! q = now s o !! q) as Hfr'.
    { intros q Hq. apply Hfr. intros r. rewrite Hcps. apply Hq. }
    assert (∀ q, q ≠ cpath i (n + 1) m → now s o' !! q = now s o !! q) as Hfr2.
    { intros q Hq. unfold now. destruct Hman as [(_ & -> & _)|[_ ->]]; [done|]. rewrite apply_evs_app, apply_write, Hmn. by rewrite lookup_insert_ne. }
    split.
    - eapply calls_trans; [apply Hp|]. apply (calls_more E orc (OSimple (SAdd x p a dedup)) o o' SOk o'); [done|exact Hprop|exact Hstep|done|constructor].
    - done.
    - rewrite Hecho. apply Hp.
    - intros a' p' x' [[= -> -> ->]|Hin]%elem_of_cons; [done|by apply (pg_off _ _ Hp)].
    - intros a' p' x' np' d' [[= -> -> ->]|Hin]%elem_of_cons Hnp' Hx'.
      + rewrite Hnp in Hnp'. injection Hnp' as <-. rewrite Hd in Hx'. injection Hx' as <-. done.
      + destruct (pg_done _ _ Hp _ _ _ _ _ Hin Hnp' Hx') as [H1 H2]. split; [by apply Hupd2|].
        intros e. rewrite Hothers; [apply H2|]. intros ->. by apply (Hnd _ _ _ Hin) in Hnp'.
    - intros np' Hr e. rewrite Hothers.
      + apply (pg_rest _ _ Hp). intros a' p' x' Hin. eapply Hr. right. exact Hin.
      + intros ->. by apply (Hr a p x); [left|].
    - intros np' [Hu| ->]%Hupd1.
      + destruct (pg_upd _ _ Hp _ Hu) as (a' & p' & x' & Hin & Hs). exists a', p', x'. split; [by right|done].
      + exists a, p, x. split; [left|done].
    - intros e Hx. assert (is_Some (inv_manifest (ob_inv o) !! e) ∨ e = d) as [H| ->].
      { destruct Hman as [(Hmm & _)|[Hmm _]]; rewrite Hmm in Hx; [by left|]. by apply is_Some_insert in Hx. }
      + destruct (pg_keys _ _ Hp _ H) as [?|(a' & p' & x' & Hin & Hx')]; [by left|]. right. exists a', p', x'. split; [by right|done].
      + right. exists a, p, x. split; [left|done].
    - intros c e Hl.
      assert (lists (inv_manifest (ob_inv o)) c e ∨ (c = cpath i (n + 1) m ∧ e = d ∧ now s o' !! c = Some x)) as [H|(-> & -> & Hx)].
      { destruct Hman as [(Hmm & _)|[Hmm Ht]]; rewrite Hmm in Hl; [by left|]. destruct Hl as (ps & Hps & Hc).
        apply lookup_insert_Some in Hps as [[<- <-]|[Hne Hps]]; [|left; by exists ps].
        apply elem_of_app in Hc as [Hc| ->%elem_of_list_singleton].
        - left. destruct (inv_manifest (ob_inv o) !! d) as [l|] eqn:El; [|by apply elem_of_nil in Hc]. by exists l.
        - right. split; [done|]. split; [done|]. unfold now. rewrite Ht, apply_evs_app, apply_write. apply lookup_insert. }
      + destruct (pg_man _ _ Hp _ _ H) as [?|(a' & p' & x' & m' & Hin & Hm' & -> & Hx' & Hst)]; [by left|]. right. exists a', p', x', m'.
        split; [by right|]. split; [done|]. split; [done|]. split; [done|]. rewrite Hfr2; [done|]. intros Ec. apply cpath_rest in Ec as ->.
        destruct (pl_content _ _ Hpl _ _ _ _ _ _ _ (pg_off _ _ Hp _ _ _ Hin) Hoff Hm' Hm) as [-> ->]. by apply Hnew in Hin.
      + right. exists a, p, x, m. split; [left|]. done.
    - intros a' p' x' np' d' [[= -> -> ->]|Hin]%elem_of_cons Hnp' Hx' Hnc.
      + rewrite Hnp in Hnp'. injection Hnp' as <-. rewrite Hd in Hx'. injection Hx' as <-.
        destruct Hcases as [(Hr & _)|[(_ & _ & _ & _ & _ & ?)|(_ & _ & _ & ?)]]; [|done|done]. by apply Hnew2 in Hr.
      + apply (er_mod _ _ He2). by eapply (pg_mod _ _ Hp).
    - pose proof (sop_working E s Hhex n orc (SAdd x p a dedup) o Hprop Hwk) as H. cbn [sop_step] in H. by rewrite Hadd in H.
    - intros q Hq. rewrite Hfr' by done. by apply (pg_frame _ _ Hp).
  Qed.
End adds.
