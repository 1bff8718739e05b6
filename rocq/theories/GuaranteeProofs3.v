(** An object for which nothing but warnings is reported. *)
From Coq Require Import Ascii ZArith Lia.
From stdpp Require Import base list strings gmap sorting.
From Verif Require Import GoStr InventoryModel InventorySpec InventoryProofs ObjectModel CrashSpec LoadModel PathProofs LoadProofs
  ValidateModel ValidateSpec ValidateProofs ValidateProofs2 ValidateProofs3
  ValidateProofs4 CheckModel CheckSpec EqualProofs CheckProofs CheckProofs2 AcceptSpec AcceptProofs AcceptProofs2 AcceptProofs3
  GuaranteeSpec GuaranteeProofs GuaranteeProofs2.

Lemma ws_sub (f g : list finding) : f ⊆ g → ws g → ws f.
Proof. intros H1 H2 x Hx. by apply H2, H1. Qed.

(** * Loading *)
Lemma ascii_app a b : list_ascii_of_string (a +:+ b) = list_ascii_of_string a ++ list_ascii_of_string b.
Proof. induction a as [|x a IH]; [done|]. rewrite str_app_cons. cbn [list_ascii_of_string app]. by rewrite IH. Qed.
Lemma load_doc_signed hash decode w lx s pre od fs b : load_doc hash decode w lx s pre = (od, VDone fs) → ws fs →
  s !! (pre +:+ "inventory.json") = Some b →
  ∃ d f, decode b = Some d ∧ validated w lx d f ∧ ws f ∧ signed hash decode s pre d.
Proof.
  unfold load_doc. intros H Hc Hb. rewrite Hb in H. destruct (decode b) as [d0|] eqn:Hd; [|done].
  destruct (finalize w lx false d0) as [d1 r1] eqn:E1. destruct (finalize w lx false d1) as [d2 r2] eqn:E2.
  apply (f_equal snd) in H. cbn [snd] in H. apply vseq_done in H as (f1 & f2 & -> & H & ->).
  apply vseq_done in H as (f3 & f4 & H & -> & ->). exists d0, f1. split; [done|].
  split; [unfold validated; by rewrite E1|]. split; [eapply ws_sub; [|exact Hc]; set_solver|].
  assert (ws f3) as H3 by (eapply ws_sub; [|exact Hc]; set_solver).
  assert ((pre +:+ "inventory.json") +:+ "." +:+ dc_alg d0 = pre +:+ "inventory.json." +:+ dc_alg d0) as Hp by (by rewrite <- str_app_assoc).
  rewrite Hp in H. destruct (s !! (pre +:+ "inventory.json." +:+ dc_alg d0)) as [t|] eqn:Et.
  2:{ exfalso. injection H as <-. apply (clean_not _ "E058" H3); [|done]. exists [pre]. by left. }
  destruct (sidecar_parse t) as [dg|] eqn:Es.
  2:{ exfalso. injection H as <-. apply (clean_not _ "E061" H3); [|done]. exists [pre]. by left. }
  destruct (hash (dc_alg d0) b) as [dg'|] eqn:Eh; [|done]. injection H as <-.
  assert (dg = dg') as <-.
  { destruct (decide (dg = dg')) as [|Hne]; [done|]. exfalso. apply (clean_not _ "E060" H3); [|done]. exists [pre].
    apply when_in. split; [|done]. by rewrite bool_decide_false. }
  exists b, dg, t. split; [done|]. split; [done|]. split; [done|]. split; [done|].
  apply sidecar_accepts in Es as (Hx & p1 & w1 & c & p2 & A & B & C & D & E). split; [done|].
  exists p1, w1, c, p2. split; [|done]. intros x. rewrite !ascii_app, !elem_of_app. intros [?|[?|?]]; auto.
Qed.
Lemma load_versions_signed hash decode w lx s l m fs ver b : load_versions hash decode w lx s l = (m, VDone fs) → ws fs → ver ∈ l →
  s !! (ver +:+ "/inventory.json") = Some b →
  ∃ d f, decode b = Some d ∧ validated w lx d f ∧ ws f ∧ signed hash decode s (ver +:+ "/") d.
Proof.
  intros H Hc Hin Hb. revert m fs H Hc. induction l as [|v l IH]; [by apply elem_of_nil in Hin|]. intros m fs. cbn [load_versions].
  destruct (load_doc hash decode w lx s (v +:+ "/")) as [od r] eqn:E. destruct (load_versions hash decode w lx s l) as [m' r'] eqn:E'. intros H Hc.
  assert (∃ f1 f2, r = VDone f1 ∧ r' = VDone f2 ∧ f1 ⊆ fs ∧ f2 ⊆ fs) as (f1 & f2 & -> & -> & S1 & S2).
  { destruct od.
    - injection H as _ H. apply vseq_done in H as (? & ? & ? & ? & ->). eexists _, _. split; [done|]. split; [done|]. split; set_solver.
    - injection H as _ H. apply vseq_done in H as (? & ? & ? & H & ->). destruct r' as [f2| |]; [|done..]. injection H as <-. eexists _, _. split; [done|]. split; [done|]. split; set_solver. }
  apply elem_of_cons in Hin as [->|Hin].
  - assert (v +:+ "/inventory.json" = (v +:+ "/") +:+ "inventory.json") as Hv by (by rewrite <-str_app_assoc). rewrite Hv in Hb.
    eapply load_doc_signed; [exact E|by eapply ws_sub|done].
  - eapply IH; [done|done|by eapply ws_sub].
Qed.
Lemma validate_clean hash decode w lx s fs : validate_object hash decode w lx s = VDone fs → ws fs →
  ∃ d f vinv fc, signed hash decode s "" d ∧ validated w lx d f ∧ ws f ∧
    check_object hash w s (twice w lx d) vinv = VDone fc ∧ ws fc ∧
    (∀ ver, vinv !! ver = if decide (ver ∈ version_strings w 16 (twice w lx d)) then
      match s !! (ver +:+ "/inventory.json") with None => None | Some b => twice w lx <$> decode b end else None) ∧
    ∀ ver b, ver ∈ version_strings w 16 (twice w lx d) → s !! (ver +:+ "/inventory.json") = Some b →
      ∃ e f, decode b = Some e ∧ validated w lx e f ∧ ws f ∧ signed hash decode s (ver +:+ "/") e.
Proof.
  unfold validate_object. destruct (load_doc hash decode w lx s "") as [[D|] r] eqn:E; [|by destruct r].
  destruct (load_versions _ _ _ _ _ _) as [vinv rv] eqn:E'. intros (f1 & f2 & -> & H & ->)%vseq_done Hc.
  apply vseq_done in H as (f3 & f4 & -> & H & ->). pose proof E as Hl. apply load_doc_done in E as [Hod Hdec].
  change ("" +:+ "inventory.json") with "inventory.json" in Hod, Hdec.
  destruct (s !! "inventory.json") as [b|] eqn:Eb; [|done].
  destruct (load_doc_signed _ _ _ _ _ _ _ _ b Hl) as (d & f & Hd & HV & Hf & Hs); [eapply ws_sub; [|exact Hc]; set_solver|done|].
  rewrite Hd in Hod. cbn [fmap option_fmap option_map] in Hod. apply (inj Some) in Hod. subst D.
  exists d, f, vinv, f4. split; [done|]. split; [done|]. split; [done|]. split; [done|]. split; [eapply ws_sub; [|exact Hc]; set_solver|].
  split; [exact (load_versions_done _ _ _ _ _ _ _ _ E')|]. intros ver vb Hv Hb. eapply load_versions_signed; [exact E'| |exact Hv|exact Hb].
  eapply ws_sub; [|exact Hc]; set_solver.
Qed.

Lemma clean_at fs c args : ws fs → Finding c args ∈ fs → str_head c ≠ Some "W"%char → False.
Proof. intros H Hf Hc. apply (clean_not fs c H); [by exists args|done]. Qed.
Lemma clean_when b c args : ws (when b (Finding c args)) → str_head c ≠ Some "W"%char → b = false.
Proof. intros H Hc. destruct b; [|done]. exfalso. apply (clean_at _ c args H); [by left|done]. Qed.

(** * Decidability *)
Global Instance stored_as_dec hash alg s dg p : Decision (stored_as hash alg s dg p).
Proof.
  destruct (s !! p) as [x|] eqn:E.
  2:{ right. intros (y & Hy & _). by rewrite E in Hy. }
  destruct (decide (hash alg x = Some dg)) as [H|H]; [left; by exists x|]. right. intros (y & Hy & Hh). rewrite E in Hy. by injection Hy as <-.
Defined.
Global Instance below_dec vs p : Decision (below vs p).
Proof.
  destruct (decide (Exists (λ ver, has_prefix (ver +:+ "/") p = true) vs)) as [H|H].
  - left. apply Exists_exists in H as (ver & Hv & Hp). apply has_prefix_slash in Hp as [r Hr]. by exists ver, r.
  - right. intros (ver & r & Hv & Hr). apply H, Exists_exists. exists ver. split; [done|]. apply has_prefix_slash. by exists r.
Defined.

(** * Names *)
Lemma digits1_digits a : digits1 a = true → digits a.
Proof.
  unfold digits1. intros [H1 H2]%andb_true_iff. apply negb_true_iff, bool_decide_eq_false in H2. split; [done|].
  clear H2. induction a as [|x a IH]; [by intros y ?%elem_of_nil|]. simpl in H1. apply andb_true_iff in H1 as [H1 H3].
  intros y. cbn [list_ascii_of_string]. intros [->|Hy]%elem_of_cons; [|by apply IH].
  revert H1. clear. destruct x as [[] [] [] [] [] [] [] []]; vm_compute; intros H; try discriminate H; split; intros H'; discriminate H'.
Qed.
Lemma allowed_name p : allowed_file p = true → root_name p.
Proof.
  unfold allowed_file. intros [H|H]%orb_true_iff.
  - left. unfold allowed_inventory in H. destruct (drop_prefix "inventory" p) as [[|c r]|] eqn:E; [done| |done].
    apply drop_prefix_some in E. apply andb_true_iff in H as [_ H]. apply bool_decide_eq_true in H.
    destruct H as [->|[->|[->|[->|[->| ->]]]]]; eexists c, _; (split; [exact E|]); set_solver.
  - right. destruct (drop_prefix "0=ocfl_object_" p) as [r|] eqn:E; [|done]. apply drop_prefix_some in E.
    destruct (split_on "."%char r) as [|a [|b [|]]] eqn:Es; try done. apply andb_true_iff in H as [H1 H2].
    exists a, b. split; [|split; by apply digits1_digits].
    pose proof (join_split "."%char r) as Hj. rewrite Es in Hj. rewrite E, <- Hj. done.
Qed.

(** * The checks *)
Lemma flat_clean w n e fl r : vorder_ok w → files_flat w n e = (Some fl, VDone r) → ws r →
  (∀ p, p ∈ fl ↔ ∃ dg ps, man e !! dg = Some ps ∧ p ∈ ps) ∧
  ∀ p, p ∈ fl → ∃ ver a b, ver ∈ version_strings w (S n) e ∧ p = ver +:+ "/" +:+ a +:+ "/" +:+ b.
Proof.
  intros Hw. unfold files_flat. set (files := flat_map snd (vo w n (man e))). destruct (forallb _ _) eqn:E1; [|done]. intros [= <- <-] [H1 H2]%ws_app.
  apply clean_when in H2; [|done]. apply negb_false_iff in H2. split.
  - intros p. unfold files. rewrite flat_map_in. split.
    + intros ([dg ps] & Hin & Hp). apply vo_in in Hin; [|done]. by exists dg, ps.
    + intros (dg & ps & Hin & Hp). exists (dg, ps). split; [by apply vo_in|done].
  - intros p Hp. rewrite forallb_forall in H2. specialize (H2 p (proj1 (elem_of_list_In _ _) Hp)). apply bool_decide_eq_true in H2.
    destruct (decide (length (split_slash p) < 3)) as [Hlt|Hge].
    { exfalso. eapply (clean_at _ "E000" [p] H1); [|done]. apply flat_map_in. exists p. split; [done|]. apply when_in. split; [|done].
      by rewrite bool_decide_true. }
    destruct (split_slash p) as [|ver [|a [|b l]]] eqn:Es; [simpl in Hge; lia..|]. cbn in H2. exists ver, a, (str_join "/" (b :: l)). split; [done|].
    pose proof (join_split slash p) as Hj. unfold split_slash in Es. rewrite Es in Hj. symmetry. exact Hj.
Qed.
Section object.
  Context (hash : string → string → option string) (decode : string → option doc) (w : vorder) (lx : lexicon) (s : storage).
  Context (d : doc) (f0 : list finding) (vinv : gmap string doc) (fc : list finding).
  Context (Hw : vorder_ok w) (HS : signed hash decode s "" d) (HV : validated w lx d f0) (Hf : ws f0).
  Context (HC : check_object hash w s (twice w lx d) vinv = VDone fc) (Hc : ws fc).
  Context (Hvinv : ∀ ver, vinv !! ver = if decide (ver ∈ version_strings w 16 (twice w lx d)) then
      match s !! (ver +:+ "/inventory.json") with None => None | Some b => twice w lx <$> decode b end else None).
  Context (Hload : ∀ ver b, ver ∈ version_strings w 16 (twice w lx d) → s !! (ver +:+ "/inventory.json") = Some b →
      ∃ e f, decode b = Some e ∧ validated w lx e f ∧ ws f ∧ signed hash decode s (ver +:+ "/") e).
  Let D := twice w lx d.
  Lemma all_num : all_numbered d.
  Proof using Hw HV Hf. by eapply clean_numbered. Qed.
  Lemma all_dist : distinct_numbers d.
  Proof using Hw HV Hf. by eapply clean_distinct. Qed.
  Lemma names_in n ver : ver ∈ version_strings w n D ↔ ∃ v, has_version d ver v.
  Proof using Hw HV Hf. apply twice_strings; [done|apply all_num|apply all_dist]. Qed.
  Lemma vinv_is ver e2 : vinv !! ver = Some e2 ↔
    ∃ v e b, has_version d ver v ∧ s !! (ver +:+ "/inventory.json") = Some b ∧ decode b = Some e ∧ e2 = twice w lx e.
  Proof using Hw HV Hf Hvinv.
    rewrite Hvinv. case_decide as Hin.
    - split.
      + intros H. apply names_in in Hin as [v Hv]. destruct (s !! _) as [b|] eqn:Eb; [|done].
        destruct (decode b) as [e|] eqn:Ee; [|done]. injection H as <-. by exists v, e, b.
      + intros (v & e & b & _ & -> & He & ->). by rewrite He.
    - split; [done|]. intros (v & e & b & Hv & _). destruct Hin. apply names_in. by exists v.
  Qed.
  Lemma check_is : steps hash w s D vinv fc.
  Proof using HC. by apply check_steps. Qed.

  (** The version inventory of [ver]. *)
  Definition version_inventory (ver : string) (e : doc) : Prop :=
    ∃ v b f, has_version d ver v ∧ s !! (ver +:+ "/inventory.json") = Some b ∧ decode b = Some e ∧ validated w lx e f ∧ ws f ∧
      signed hash decode s (ver +:+ "/") e.
  Lemma stored_inventory ver v b : has_version d ver v → s !! (ver +:+ "/inventory.json") = Some b → ∃ e, decode b = Some e ∧ version_inventory ver e.
  Proof using Hw HV Hf Hload.
    intros Hv Hb. destruct (Hload ver b) as (e & f & H1 & H2 & H3 & H4); [apply names_in; by exists v|done|].
    exists e. split; [done|]. by exists v, b, f.
  Qed.
  Lemma inventory_vinv ver e : version_inventory ver e → vinv !! ver = Some (twice w lx e).
  Proof using Hw HV Hf Hvinv. intros (v & b & f & Hv & Hb & He & _). apply vinv_is. by exists v, e, b. Qed.
  Lemma vinv_inventory ver e2 : vinv !! ver = Some e2 → ∃ e, version_inventory ver e ∧ e2 = twice w lx e.
  Proof using Hw HV Hf Hvinv Hload.
    intros (v & e & b & Hv & Hb & He & ->)%vinv_is. destruct (stored_inventory ver v b Hv Hb) as (e' & He' & Hi).
    rewrite He in He'. injection He' as <-. by exists e.
  Qed.
  (** The comparison with the root inventory. *)
  Lemma against ver e : version_inventory ver e →
    dc_id e = dc_id d ∧ os_val (dc_head e) = ver ∧
    ∀ k v, has_version e k v → ∃ v', has_version d k v' ∧ ∀ p, (∃ dg, state_lists e k dg p) ↔ ∃ dg, state_lists d k dg p.
  Proof using Hw HV Hf Hvinv HC Hc.
    intros Hi. pose proof (inventory_vinv ver e Hi) as Hvi. destruct check_is as [vs walks fm cd f1 f2 f3 f4 f5 f6 f7 -> Hwk Hfm Hr Hcd Hin Hl Ha Hp Hpr Hli Hfs].
    destruct (proj1 (vall_map_ok _ _) (ex_intro _ _ Ha) (ver, twice w lx e)) as [fv Hfv]; [by apply vo_in|]. cbn [fst snd] in Hfv.
    assert (ws fv) as Hwv.
    { intros x Hx. apply Hc. rewrite Hfs, !elem_of_app. do 6 right. left. apply (vall_map_done _ _ _ Ha). exists (ver, twice w lx e), fv.
      split; [by apply vo_in|done]. }
    unfold check_against_root in Hfv. apply vseq_done in Hfv as (fa & fb & Hfa & Hfb & ->). injection Hfa as <-.
    rewrite !ws_app in Hwv. destruct Hwv as ((H1 & H2 & _) & H3).
    destruct (twice_fields w lx e) as (e1 & _ & _ & e4 & _). destruct (twice_fields w lx d) as (d1 & _ & _ & d4 & _).
    fold D in d1, d4. rewrite e1, e4, d1 in *. apply clean_when in H1; [|done]. apply clean_when in H2; [|done].
    apply negb_false_iff, bool_decide_eq_true in H1. apply bool_decide_eq_false in H2.
    destruct Hi as (v0 & b & f & Hv0 & Hb & He & HVe & Hfe & _). destruct (clean_head w lx Hw e f HVe Hfe) as [_ Hnew].
    split; [done|]. split.
    { destruct (decide (os_val (dc_head e) = ver)) as [|Hne]; [done|]. exfalso. apply H2. split; [|done].
      destruct Hnew as (v & n & Hv & Hn & _). intros E. rewrite E in Hn. destruct Hn as (_ & k & Hk). done. }
    intros k v Hv. destruct (proj2 (has_version_twice w lx e k)) as [v2 Hv2]; [by exists v|]. apply has_version_vers in Hv2.
    destruct (proj1 (vall_map_ok _ _) (ex_intro _ _ Hfb) (k, v2)) as [fk Hfk]; [by apply vo_in|]. cbn [fst snd] in Hfk.
    assert (ws fk) as Hwk2.
    { intros x Hx. apply H3. apply (vall_map_done _ _ _ Hfb). exists (k, v2), fk. split; [by apply vo_in|done]. }
    destruct (vers D !! k) as [tv|] eqn:Etv; [|done]. destruct (equal_state_doc tv v2) as [es|] eqn:Ees; [|done].
    destruct (equal_meta tv v2) as [em|]; [|done]. injection Hfk as <-. apply ws_app in Hwk2 as [Hwk2 _].
    apply clean_when in Hwk2; [|done]. apply negb_false_iff in Hwk2. subst es.
    apply has_version_vers in Etv. destruct (proj1 (has_version_twice w lx d k)) as [v' Hv']; [by exists tv|]. exists v'. split; [done|].
    unfold equal_state_doc in Ees. destruct (state_of tv) as [st|] eqn:Es; [|done]. destruct (state_of v2) as [st2|] eqn:Es2; [|done].
    apply (inj Some) in Ees. apply equal_state_iff in Ees as [_ Hpath]. intros p.
    assert (∀ x dv ds, has_version (twice w lx x) k dv → state_of dv = Some ds → (∃ dg, state_lists x k dg p) ↔ has_path ds p) as Hgen.
    { intros x dv ds Hdv%has_version_vers Hds. setoid_rewrite <- (twice_state_lists w lx x). setoid_rewrite state_lists_state. split.
      - intros (dg & v3 & st3 & ps & H5 & H6 & H7 & H8). rewrite Hdv in H5. injection H5 as <-. rewrite Hds in H6. injection H6 as <-. by exists dg, ps.
      - intros (dg & ps & H7 & H8). by exists dg, dv, ds, ps. }
    apply has_version_vers in Hv2. rewrite (Hgen e v2 st2 Hv2 Es2), (Hgen d tv st Etv Es). symmetry. apply Hpath.
  Qed.
  Lemma version_names ver e : version_inventory ver e →
    ∀ k, (∃ v, has_version e k v) ↔ ∃ v n m, has_version d k v ∧ numbered k n ∧ numbered ver m ∧ (n <= m)%N.
  Proof using Hw HV Hf Hvinv HC Hc.
    intros Hi k. destruct (against ver e Hi) as (_ & Hhead & Hsub). destruct Hi as (v0 & b & f & Hv0 & Hb & He & HVe & Hfe & _).
    destruct (clean_head w lx Hw e f HVe Hfe) as [_ (vh & m & Hvh & Hm & Hmax)]. rewrite Hhead in Hvh, Hm.
    destruct (clean_upto w lx Hw e f HVe Hfe) as (n0 & U1 & U2 & U3). split.
    - intros [v Hv]. destruct (Hsub k v Hv) as (v' & Hv' & _). destruct (U2 k v Hv) as (n & Hn & _). exists v', n, m. split; [done|].
      split; [done|]. split; [done|]. by eapply Hmax.
    - intros (v & n & m' & Hv & Hn & Hm' & Hle). rewrite (numbered_fun _ _ _ Hm' Hm) in Hle. clear m' Hm'.
      destruct (U2 _ _ Hvh) as (m2 & Hm2 & Hle2). rewrite (numbered_fun _ _ _ Hm2 Hm) in Hle2.
      destruct (U1 n) as (k' & v' & Hv' & Hn'); [split; [apply Hn|lia]|]. destruct (Hsub k' v' Hv') as (v'' & Hv'' & _).
      rewrite (all_dist k v k' v'' n Hv Hv'' Hn Hn'). by exists v'.
  Qed.
  Lemma inventory_kept ver e : version_inventory ver e → kept_inventory hash decode s d ver e.
  Proof using Hw HV Hf Hvinv HC Hc.
    intros Hi. destruct (against ver e Hi) as (H1 & H2 & H3). pose proof (version_names ver e Hi) as H4.
    destruct Hi as (v0 & b & f & Hv0 & Hb & He & HVe & Hfe & Hsg). constructor; try done.
    - intros Hcf. by eapply (clean_sound w lx Hw e f HVe Hfe).
    - intros k v Hv. by destruct (H3 k v Hv) as (v' & _ & H).
  Qed.
  Lemma kept_is ver v e : has_version d ver v → kept_inventory hash decode s d ver e → version_inventory ver e.
  Proof using Hw HV Hf Hload.
    intros Hv Hk. destruct (ki_signed _ _ _ _ _ _ Hk) as (b & dg & t & Hb & He & _). rewrite <- str_app_assoc in Hb.
    change ("/" +:+ "inventory.json") with "/inventory.json" in Hb. destruct (stored_inventory ver v b Hv Hb) as (e' & He' & Hi).
    rewrite He in He'. by injection He' as <-.
  Qed.

  (** The inventories. *)
  Lemma one_inventory e : inventory_in decode s d e → inventory_of w D vinv (twice w lx e) ∧ ∃ f, validated w lx e f ∧ ws f.
  Proof using Hw HV Hf Hvinv Hload.
    intros [->|(ver & v & b & Hv & Hb & He)]; [split; [by left|by exists f0]|].
    destruct (stored_inventory ver v b Hv Hb) as (e' & He' & Hi). rewrite He in He'. injection He' as <-. split.
    - right. exists ver. split; [apply names_in; by exists v|by apply inventory_vinv].
    - destruct Hi as (_ & _ & f & _ & _ & _ & H1 & H2 & _). by exists f.
  Qed.
  Lemma names_ne : version_strings w 18 D ≠ [].
  Proof using Hw HV Hf.
    destruct (clean_head w lx Hw d f0 HV Hf) as [_ (v & n & Hv & _)]. intros E.
    assert (os_val (dc_head d) ∈ version_strings w 18 D) as Hin by (apply names_in; by exists v). rewrite E in Hin. by apply elem_of_nil in Hin.
  Qed.
  Lemma names_below p : below (version_strings w 18 D) p → ∃ ver v r, has_version d ver v ∧ p = ver +:+ "/" +:+ r.
  Proof using Hw HV Hf. intros (ver & r & [v Hv]%names_in & ->). by exists ver, v, r. Qed.
  Lemma content_stored e dg p : inventory_in decode s d e → man_lists e dg p → intact hash (dc_alg e) s dg p.
  Proof using Hw HV Hf Hvinv Hload HC Hc.
    intros He Hm. destruct (one_inventory e He) as [Hi _]. destruct (twice_fields w lx e) as (_ & _ & Halg & _).
    destruct (decide (intact hash (dc_alg e) s dg p)) as [|Hn]; [done|]. exfalso.
    apply (clean_not fc "E092" Hc); [|done]. apply (corrupted_reported hash w s D vinv fc Hw HC (twice w lx e) dg p Hi).
    - by apply twice_man_lists.
    - intros [H _]. rewrite Halg in H. done.
  Qed.
  Lemma fixity_stored e alg dg p : inventory_in decode s d e → fix_lists e alg dg p →
    (stored_as hash alg s dg p ∨ stored_as hash alg s (to_lower dg) p) ∧ ∃ ver v r, has_version d ver v ∧ p = ver +:+ "/" +:+ r.
  Proof using Hw HV Hf Hvinv Hload HC Hc.
    intros He Hm. destruct (one_inventory e He) as [Hi _].
    destruct (decide ((stored_as hash alg s dg p ∨ stored_as hash alg s (to_lower dg) p) ∧ below (version_strings w 18 D) p)) as [[H1 H2]|Hn].
    { split; [done|]. by apply names_below. }
    exfalso. apply (clean_not fc "E093" Hc); [|done]. apply (fixity_reported hash w s D vinv fc Hw HC (twice w lx e) alg dg p Hi).
    - by apply twice_fix_lists.
    - apply names_ne.
    - exact Hn.
  Qed.
  Lemma physical_clean e : inventory_in decode s d e → ∃ name all fr, check_physical w all (twice w lx e) name = VDone fr ∧ ws fr.
  Proof using Hw HV Hf Hvinv Hload HC Hc.
    intros He. destruct (one_inventory e He) as [Hi _]. destruct check_is as [vs walks fm cd f1 f2 f3 f4 f5 f6 f7 -> Hwk Hfm Hr Hcd Hin Hl Ha Hp Hpr Hli Hfs].
    destruct Hi as [Hi|(ver & Hver & Hi)].
    - rewrite Hi. exists "root", (concat walks), f6. split; [exact Hpr|]. eapply ws_sub; [|exact Hc]. rewrite Hfs. clear. set_solver.
    - destruct (proj1 (vall_map_ok _ _) (ex_intro _ _ Hp) (ver, twice w lx e)) as [fv Hfv]; [by apply vo_in|]. cbn [fst snd] in Hfv.
      exists ver, (concat walks), fv. split; [exact Hfv|]. intros x Hx. apply Hc. rewrite Hfs, !elem_of_app. do 7 right. left.
      apply (vall_map_done _ _ _ Hp). exists (ver, twice w lx e), fv. split; [by apply vo_in|done].
  Qed.
  Lemma content_place e dg p : inventory_in decode s d e → man_lists e dg p →
    ∃ ver v a b, has_version e ver v ∧ p = ver +:+ "/" +:+ a +:+ "/" +:+ b.
  Proof using Hw HV Hf Hvinv Hload HC Hc.
    intros He Hm. destruct (physical_clean e He) as (name & all & fr & Hp & Hwf). destruct (one_inventory e He) as (_ & f & HVe & Hfe).
    unfold check_physical in Hp. destruct (files_flat w 21 (twice w lx e)) as [[fl|] r] eqn:E.
    2:{ unfold files_flat in E. destruct (forallb _ _); [done|]. injection E as <-. done. }
    apply vseq_done in Hp as (fa & fb & -> & _ & ->). apply ws_app in Hwf as [Hwa _].
    destruct (flat_clean w 21 _ fl fa Hw E Hwa) as [H1 H2]. apply (twice_man_lists w lx), man_lists_man in Hm as (ps & Hm & Hin).
    destruct (H2 p) as (ver & a & b & Hv & ->); [apply H1; by exists dg, ps|]. apply twice_strings in Hv as [v Hv].
    - by exists ver, v, a, b.
    - done.
    - by eapply clean_numbered.
    - by eapply clean_distinct.
  Qed.

  (** The content files. *)
  Lemma walk_is ver v : has_version d ver v → ∃ l, walk s ver = Some l.
  Proof using Hw HV Hf HC.
    intros Hv. destruct check_is as [vs walks fm cd f1 f2 f3 f4 f5 f6 f7 -> Hwk Hfm Hr Hcd Hin Hl Ha Hp Hpr Hli Hfs].
    assert (ver ∈ version_strings w 18 D) as Hin' by (apply names_in; by exists v). apply all_some_eq in Hwk.
    apply (elem_of_list_fmap_1 (walk s)) in Hin'. rewrite Hwk in Hin'. apply elem_of_list_fmap in Hin' as (l & -> & _). by exists l.
  Qed.
  Lemma folder_there ver v : has_version d ver v → ∃ r x, s !! (ver +:+ "/" +:+ r) = Some x.
  Proof using Hw HV Hf HC.
    intros Hv. destruct (walk_is ver v Hv) as [l Hl]. pose proof (walk_nonempty _ _ _ Hl) as Hne. destruct l as [|p l]; [done|].
    destruct (proj1 (walk_in s ver (p :: l) p Hl)) as [[x Hx] [r ->]]; [by left|]. by exists r, x.
  Qed.
  Lemma content_cdir c : content_folder d c → cdir D = c.
  Proof using.
    unfold D. destruct (twice_fields w lx d) as (_ & _ & _ & _ & E & _). unfold cdir. rewrite E.
    intros [[H1 ->]|[H1 ->]]; [by rewrite decide_True|by rewrite decide_False].
  Qed.
  Lemma listed_clean e fl ver c r x content iver fr n m v1 v2 :
    check_listed w content ver (twice w lx e) iver = VDone fr → ws fr → (∃ f, validated w lx e f ∧ ws f) →
    fl = ver +:+ "/" +:+ c +:+ "/" +:+ r → fl ∈ content → has_version e ver v1 → has_version e iver v2 → numbered ver n → numbered iver m → (n <= m)%N →
    s !! fl = Some x → ∃ dg, man_lists e dg fl.
  Proof using Hw.
    intros H Hwf (f & HVe & Hfe) Hfl Hin Hv1 Hv2 Hn Hm Hle Hx. unfold check_listed in H.
    assert (version_le (dc_values (twice w lx e)) ver iver = true) as Hvl.
    { unfold version_le. rewrite (twice_values w lx e ver n v1 Hv1 Hn), (twice_values w lx e iver m v2 Hv2 Hm).
      apply bool_decide_eq_true. unfold as_uint. rewrite !decide_False by lia. lia. }
    rewrite Hvl in H. destruct (files_flat w 21 (twice w lx e)) as [[fl'|] r'] eqn:E.
    2:{ unfold files_flat in E. destruct (forallb _ _); [done|]. injection E as <-. done. }
    apply vseq_done in H as (fa & fb & -> & H & ->). injection H as <-. apply ws_app in Hwf as [Hwa Hwb].
    destruct (flat_clean w 21 _ fl' fa Hw E Hwa) as [H1 _].
    destruct (decide (fl ∈ fl')) as [Hi|Hi].
    - apply H1 in Hi as (dg & ps & Hm1 & Hp). exists dg. apply (twice_man_lists w lx), man_lists_man. by exists ps.
    - exfalso. apply (clean_at _ "E023" [fl; iver] Hwb); [|done]. apply flat_map_in. exists fl. split; [done|]. apply when_in.
      split; [by rewrite bool_decide_false|done].
  Qed.
  Lemma file_listed c ver v r x : content_folder d c → has_version d ver v → s !! (ver +:+ "/" +:+ c +:+ "/" +:+ r) = Some x →
    (∃ dg, man_lists d dg (ver +:+ "/" +:+ c +:+ "/" +:+ r)) ∧
    ∀ ver2 e n m, (∃ v, has_version d ver2 v) → kept_inventory hash decode s d ver2 e → numbered ver n → numbered ver2 m → (n <= m)%N →
      ∃ dg, man_lists e dg (ver +:+ "/" +:+ c +:+ "/" +:+ r).
  Proof using Hw HV Hf Hvinv Hload HC Hc.
    intros Hcf Hv Hx. destruct (walk_is ver v Hv) as [l Hl].
    set (content := filter (λ f, has_prefix (ver +:+ "/" +:+ cdir D) f = true) (default [] (walk s ver))).
    assert (ver +:+ "/" +:+ c +:+ "/" +:+ r ∈ content) as Hin.
    { unfold content. apply elem_of_list_filter. split.
      - apply has_prefix_spec. exists ("/" +:+ r). rewrite (content_cdir c Hcf). by rewrite <- !str_app_assoc.
      - rewrite Hl. cbn [default]. apply (walk_in s ver l _ Hl). split; [by exists x|]. by exists (c +:+ "/" +:+ r). }
    destruct check_is as [vs walks fm cd f1 f2 f3 f4 f5 f6 f7 -> Hwk Hfm Hr Hcd Hi Hla Ha Hp Hpr Hli Hfs].
    assert (ver ∈ version_strings w 18 D) as Hver by (apply names_in; by exists v).
    destruct (proj1 (vall_map_ok _ _) (ex_intro _ _ Hli) ver Hver) as [fv Hfv]. cbn beta in Hfv.
    assert (ws fv) as Hwv.
    { intros y Hy. apply Hc. rewrite Hfs, !elem_of_app. do 9 right. apply (vall_map_done _ _ _ Hli). exists ver, fv. split; [done|]. split; [exact Hfv|done]. }
    apply vseq_done in Hfv as (fa & fb & Hfa & Hfb & ->). apply ws_app in Hwv as [Hwa Hwb]. fold content in Hfa, Hfb. split.
    - destruct (clean_head w lx Hw d f0 HV Hf) as [_ (vh & m & Hvh & Hm & Hmax)]. destruct (all_num ver v Hv) as [n Hn].
      assert (os_val (dc_head D) = os_val (dc_head d)) as E by (unfold D; by destruct (twice_fields w lx d) as (_ & _ & _ & -> & _)).
      rewrite E in Hfb. eapply (listed_clean d _ ver c r x content _ fb n m v vh Hfb Hwb); try done.
      + by exists f0.
      + exact (Hmax _ _ _ Hv Hn).
    - intros ver2 e n m [v2 Hv2] Hk Hn Hm Hle. pose proof (kept_is ver2 v2 e Hv2 Hk) as Hie. pose proof (inventory_vinv ver2 e Hie) as Hvi.
      destruct (proj1 (vall_map_ok _ _) (ex_intro _ _ Hfa) (ver2, twice w lx e)) as [fe Hfe]; [by apply vo_in|]. cbn [fst snd] in Hfe.
      assert (ws fe) as Hwe.
      { intros y Hy. apply Hwa. apply (vall_map_done _ _ _ Hfa). exists (ver2, twice w lx e), fe. split; [by apply vo_in|]. split; [exact Hfe|done]. }
      destruct (proj2 (version_names ver2 e Hie ver)) as [v1 Hv1]; [by exists v, n, m|].
      destruct (proj2 (version_names ver2 e Hie ver2)) as [v3 Hv3]; [exists v2, m, m; (split; [done|]; split; [done|]; split; [done|lia])|].
      eapply (listed_clean e _ ver c r x content ver2 fe n m v1 v3 Hfe Hwe); try done.
      destruct Hie as (_ & _ & f & _ & _ & _ & H1 & H2 & _). by exists f.
  Qed.

  (** The files of the object. *)
  Lemma inventory_checked ver e : version_inventory ver e → ∃ fm cd fv,
    (∀ ver' e', version_inventory ver' e' → dc_contentdir e' = cd) ∧ check_version_inventory w s fm cd ver (twice w lx e) = VDone fv ∧ ws fv.
  Proof using Hw HV Hf Hvinv Hload HC Hc.
    intros Hie. destruct check_is as [vs walks fm cd f1 f2 f3 f4 f5 f6 f7 -> Hwk Hfm Hr Hcd Hi Hla Ha Hp Hpr Hli Hfs].
    assert (∀ ver e, version_inventory ver e → ∃ fv, check_version_inventory w s fm cd ver (twice w lx e) = VDone fv ∧ ws fv) as H.
    { clear ver e Hie. intros ver e Hie. pose proof (inventory_vinv ver e Hie) as Hvi. destruct Hie as (v & _ & _ & Hv & _).
      destruct (proj1 (vall_map_ok _ _) (ex_intro _ _ Hi) ver) as [fv Hfv]; [apply names_in; by exists v|].
      pose proof Hfv as Hfv'. rewrite Hvi in Hfv. exists fv. split; [exact Hfv|]. intros y Hy. apply Hc. rewrite Hfs, !elem_of_app. do 3 right. left.
      apply (vall_map_done _ _ _ Hi). exists ver, fv. split; [apply names_in; by exists v|]. split; [exact Hfv'|done]. }
    destruct (H ver e Hie) as (fv & H1 & H2). exists fm, cd, fv. split; [|done]. intros ver' e' Hie'.
    destruct (H ver' e' Hie') as (fv' & H3 & H4). unfold check_version_inventory in H3. apply vseq_done in H3 as (fa & fb & H3 & _ & ->).
    injection H3 as <-. apply ws_app in H4 as [H4 _]. apply clean_when in H4; [|done]. apply negb_false_iff, bool_decide_eq_true in H4.
    destruct (twice_fields w lx e') as (_ & _ & _ & _ & E & _). by rewrite E in H4.
  Qed.
  Lemma first_inventory : ∃ ver v e, has_version d ver v ∧ numbered ver 1 ∧ version_inventory ver e.
  Proof using Hw HV Hf Hvinv Hload HC Hc.
    destruct check_is as [vs walks fm cd f1 f2 f3 f4 f5 f6 f7 -> Hwk Hfm Hr Hcd Hi Hla Ha Hp Hpr Hli Hfs].
    destruct (clean_upto w lx Hw d f0 HV Hf) as (n & U1 & U2 & U3). destruct (clean_head w lx Hw d f0 HV Hf) as [_ (vh & m & Hvh & Hm & _)].
    destruct (U2 _ _ Hvh) as (m' & Hm' & Hle). assert (1 <= n)%N as Hn1 by (destruct Hm'; lia).
    destruct (U1 1%N) as (ver & v & Hv & Hone); [lia|]. exists ver, v.
    assert (∃ l, version_strings w 18 D = ver :: l) as [l El].
    { destruct (strings_sorted w 18 D Hw) as (ns & F & S & N).
      - apply twice_numbered, all_num.
      - apply twice_distinct, all_dist.
      - assert (ver ∈ version_strings w 18 D) as Hin by (apply names_in; by exists v). destruct (version_strings w 18 D) as [|v0 l] eqn:El; [by apply elem_of_nil in Hin|].
        exists l. f_equal. destruct ns as [|n0 ns]; [by inversion F|]. apply Forall2_cons in F as [F0 F]. apply elem_of_cons in Hin as [->|Hin]; [done|].
        destruct (forall2_in _ _ _ _ F Hin) as (n2 & Hn2 & Hv2). rewrite (numbered_fun _ _ _ Hv2 Hone) in Hn2.
        apply StronglySorted_inv in S as [_ S]. rewrite Forall_forall in S. specialize (S _ Hn2).
        assert (n0 = 1%N) as -> by (destruct F0; lia). destruct (proj1 (names_in 18 v0)) as [w0 Hw0]; [rewrite El; by left|].
        symmetry. by eapply (all_dist ver v v0 w0 1%N). }
    rewrite El in Hcd. destruct (vinv !! ver) as [e2|] eqn:E2; [|done]. destruct (vinv_inventory ver e2 E2) as (e & He & _). by exists e.
  Qed.
  Lemma all_files p x : s !! p = Some x →
    root_name p ∨ (∃ r, p = "logs/" +:+ r) ∨ (∃ r, p = "extensions/" +:+ r) ∨
    ∃ ver v r, has_version d ver v ∧ p = ver +:+ "/" +:+ r ∧
      ((∃ a b, r = a +:+ "/" +:+ b) ∨
       root_name r ∧ ∀ e, kept_inventory hash decode s d ver e → r = "inventory.json" ∨ r = "inventory.json." +:+ dc_alg e).
  Proof using Hw HV Hf Hvinv Hload HC Hc.
    intros Hx. assert (ws (check_root s (version_strings w 17 D))) as Hroot.
    { destruct check_is as [vs walks fm cd f1 f2 f3 f4 f5 f6 f7 -> Hwk Hfm Hr Hcd Hi Hla Ha Hp Hpr Hli Hfs]. eapply ws_sub; [|exact Hc]. rewrite Hfs. clear. set_solver. }
    assert (∀ e, inventory_in decode s d e → True) as _ by done.
    unfold check_root in Hroot. rewrite !ws_app in Hroot. destruct Hroot as (Hdirs & Hfiles & _).
    assert ((p, x) ∈ map_to_list s) as Hpx by (by apply elem_of_map_to_list). pose proof (join_split slash p) as Hj. fold (split_slash p) in Hj.
    destruct (split_slash p) as [|e [|e' l]] eqn:Es; [by apply split_ne in Es|..].
    - left. simpl in Hj. subst e. apply allowed_name. destruct (allowed_file p) eqn:Ea; [done|]. exfalso.
      apply (clean_at _ "E001" [p] Hfiles); [|done]. apply flat_map_in. exists p. split; [|apply when_in; by rewrite Ea].
      unfold root_files. apply flat_map_in. exists (p, x). split; [done|]. cbn [fst]. rewrite Es. by left.
    - right. assert (p = e +:+ "/" +:+ str_join "/" (e' :: l)) as Hp by (symmetry; exact Hj). set (r := str_join "/" (e' :: l)) in *. clearbody r. clear Hj.
      assert (e ∈ root_dirs s) as He.
      { unfold root_dirs. apply elem_of_remove_dups, flat_map_in. exists (p, x). split; [done|]. cbn [fst]. rewrite Es. by left. }
      assert (∀ y, y ∈ (if decide (e ∈ version_strings w 17 D ∨ e = "logs" ∨ e = "extensions") then [] else Finding "E001" [e] :: match version_value e with
          | Some _ => check_version_folder s e ++ [Finding "E046" [e]] | None => [] end) ++
          (if decide (e ∈ version_strings w 17 D) then check_version_folder s e else []) → warning y) as He2.
      { intros y Hy. apply Hdirs. apply flat_map_in. exists e. by split. }
      apply ws_app in He2 as [H1 H2]. destruct (decide (e ∈ version_strings w 17 D ∨ e = "logs" ∨ e = "extensions")) as [Hin|Hin].
      2:{ exfalso. eapply (clean_at _ "E001" [e] H1); [by left|done]. }
      clear H1. destruct Hin as [Hin|[->| ->]]; [|left; by exists r|right; left; by exists r]. right. right.
      rewrite decide_True in H2 by done. apply names_in in Hin as [v Hv]. exists e, v, r. split; [done|]. split; [done|].
      pose proof (join_split slash r) as Hjr. fold (split_slash r) in Hjr. destruct (split_slash r) as [|a [|b l']] eqn:Er; [by apply split_ne in Er|..].
      2:{ left. exists a, (str_join "/" (b :: l')). symmetry. exact Hjr. }
      right. simpl in Hjr. subst a. assert (r ∈ sub_files s e) as Hsub.
      { unfold sub_files. apply flat_map_in. exists (p, x). split; [done|]. cbn [fst].
        assert (drop_prefix (e +:+ "/") p = Some r) as ->; [|rewrite Er; by left]. apply drop_prefix_spec. by rewrite Hp, str_app_assoc. }
      split.
      + apply allowed_name. destruct (allowed_file r) eqn:Ea; [done|]. exfalso. apply (clean_at _ "E015" [r; e] H2); [|done].
        unfold check_version_folder. apply flat_map_in. exists r. split; [done|]. apply when_in. by rewrite Ea.
      + intros i Hk. pose proof (kept_is e v i Hv Hk) as Hie. destruct (inventory_checked e i Hie) as (fm & cd & fv & _ & Hck & Hwv).
        unfold check_version_inventory in Hck. apply vseq_done in Hck as (fa & fb & _ & Hck & ->). apply vseq_done in Hck as (fa' & fb' & _ & Hck & ->).
        injection Hck as <-. rewrite !ws_app in Hwv. destruct Hwv as (_ & _ & _ & Hwv).
        destruct (twice_fields w lx i) as (_ & _ & Halg & _). rewrite Halg in Hwv.
        destruct (decide (r = "inventory.json" ∨ r = "inventory.json." +:+ dc_alg i)) as [|Hn]; [done|]. exfalso.
        apply (clean_at _ "E015" [r; e] Hwv); [|done]. apply flat_map_in. exists r. split; [done|]. apply when_in. by rewrite bool_decide_false.
  Qed.
  Lemma object_assured : assured hash decode s d.
  Proof using Hw HS HV Hf Hvinv Hload HC Hc.
    constructor.
    - done.
    - intros Hcf. by eapply (clean_sound w lx Hw d f0 HV Hf).
    - destruct first_inventory as (ver & v & e & Hv & Hn & Hi). exists ver, v, e. split; [done|]. split; [done|]. by apply inventory_kept.
    - apply folder_there.
    - intros ver v b Hv Hb. destruct (stored_inventory ver v b Hv Hb) as (e & He & Hi). exists e. split; [done|]. by apply inventory_kept.
    - intros ver1 ver2 e1 e2 K1 K2 [v1 H1] [v2 H2]. apply (kept_is _ _ _ H1) in K1. apply (kept_is _ _ _ H2) in K2.
      destruct (inventory_checked ver1 e1 K1) as (fm & cd & fv & H & _). by rewrite (H ver1 e1 K1), (H ver2 e2 K2).
    - intros e ver dg p He (v & st & er & ps & Hv & Hst & Hl & _). destruct (one_inventory e He) as (_ & f & HVe & Hfe).
      destruct (clean_states w lx Hw e f HVe Hfe ver v st er dg Hv Hst) as (m & Hm & [ps' Hps]); [by exists ps|]. by exists m, ps'.
    - intros e dg p He Hm. split; [by apply content_stored|]. by eapply content_place.
    - apply fixity_stored.
    - apply file_listed.
    - apply all_files.
  Qed.
End object.

Theorem accepted_assured hash decode w lx s : vorder_ok w → only_warnings (validate_object hash decode w lx s) → ∃ d, assured hash decode s d.
Proof.
  intros Hw (fs & H & Hc). destruct (validate_clean _ _ _ _ _ _ H Hc) as (d & f & vinv & fc & H1 & H2 & H3 & H4 & H5 & H6 & H7).
  exists d. by eapply object_assured.
Qed.

(** * Files outside of the content directory *)
Theorem other_folder_warned hash decode w lx s fs b d ver v vb e a r x :
  vorder_ok w → validate_object hash decode w lx s = VDone fs → s !! "inventory.json" = Some b → decode b = Some d →
  all_numbered d → distinct_numbers d → has_version d ver v → s !! (ver +:+ "/inventory.json") = Some vb → decode vb = Some e →
  str_mem slash a = false → s !! (ver +:+ "/" +:+ a +:+ "/" +:+ r) = Some x → ¬ content_folder e a → Finding "W002" [a; ver] ∈ fs.
Proof.
  intros Hw H Hb Hd Hn Hdist Hv Hvb He Ha Hx Hc.
  destruct (validate_steps _ _ _ _ _ _ H) as (b' & d' & vinv & fc & Hb' & Hd' & HC & Hsub & Hvinv).
  rewrite Hb in Hb'. injection Hb' as <-. rewrite Hd in Hd'. injection Hd' as <-. apply Hsub.
  assert (∀ n, ver ∈ version_strings w n (twice w lx d)) as Hin by (intros n; apply twice_strings; [done..|]; by exists v).
  assert (vinv !! ver = Some (twice w lx e)) as Hvi by (rewrite Hvinv, decide_True by apply Hin; by rewrite Hvb, He).
  destruct (check_steps _ _ _ _ _ _ HC) as [vs walks fm cd f1 f2 f3 f4 f5 f6 f7 -> Hwk Hfm Hr Hcd Hi Hla Hag Hp Hpr Hli Hfs].
  destruct (proj1 (vall_map_ok _ _) (ex_intro _ _ Hi) ver (Hin 18)) as [fv Hfv]. pose proof Hfv as Hfv'. rewrite Hvi in Hfv.
  rewrite Hfs, !elem_of_app. do 3 right. left. apply (vall_map_done _ _ _ Hi). exists ver, fv. split; [apply Hin|]. split; [exact Hfv'|].
  unfold check_version_inventory in Hfv. apply vseq_done in Hfv as (fa & fb & _ & Hck & ->). apply vseq_done in Hck as (fa' & fb' & _ & Hck & ->).
  injection Hck as <-. rewrite !elem_of_app. right. right. left. apply flat_map_in. exists a. split.
  - unfold sub_dirs. apply elem_of_remove_dups, flat_map_in. exists (ver +:+ "/" +:+ a +:+ "/" +:+ r, x).
    split; [by apply elem_of_map_to_list|]. cbn [fst].
    assert (drop_prefix (ver +:+ "/") (ver +:+ "/" +:+ a +:+ "/" +:+ r) = Some (a +:+ "/" +:+ r)) as ->
      by (apply drop_prefix_spec; by rewrite <- str_app_assoc).
    rewrite split_folder by done. pose proof (split_ne r) as Hne. destruct (split_slash r); [done|]. by left.
  - apply when_in. split; [|done]. apply negb_true_iff, bool_decide_eq_false. intros E. apply Hc. rewrite E. unfold cdir, content_folder.
    destruct (twice_fields w lx e) as (_ & _ & _ & _ & -> & _). case_decide; [by left|by right].
Qed.

(** * Retrieval *)
Theorem accepted_retrievable hash decode w lx s : vorder_ok w → only_warnings (validate_object hash decode w lx s) →
  ∃ b d, s !! "inventory.json" = Some b ∧ decode b = Some d ∧ (no_empty_entry d →
    ∀ ver dg p, state_lists d ver dg p → ∃ q, man_lists d dg q ∧ intact hash (dc_alg d) s dg q).
Proof.
  intros Hw H. destruct (accepted_assured _ _ _ _ _ Hw H) as [d Hd]. destruct (as_root _ _ _ _ Hd) as (b & dg & t & Hb & He & _).
  rewrite str_app_nil_l in Hb. exists b, d. split; [done|]. split; [done|]. intros Hne ver dg' p Hs.
  destruct (as_states _ _ _ _ Hd d ver dg' p (or_introl eq_refl) Hs) as (m & ps & Hm & Hl). pose proof (Hne m dg' ps Hm Hl) as Hps.
  destruct ps as [|q ps]; [done|]. assert (man_lists d dg' q) as Hq by (exists m, (q :: ps); split; [done|]; split; [done|by left]).
  exists q. split; [done|]. by destruct (as_content _ _ _ _ Hd d dg' q (or_introl eq_refl) Hq).
Qed.
