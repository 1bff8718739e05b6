(** Descriptive metadata of an object: C70. *)
From Coq Require Import Ascii.
From stdpp Require Import base list strings gmap.
From Coq Require Import ZArith Lia.
From Verif Require Import GoStr PathModel PathProofs InventoryModel ObjectModel InventorySpec ObjectSpec CrashSpec CrashProofs LoadModel AreaModel AreaSpec ValidateModel ValidateSpec CheckModel AcceptSpec
  PublishSpec JsonlModel JsonlSpec MetafileModel MetafileSpec MetafileProofs MetafileProofs2 Fixtures Fixtures2 Fixtures3 Fixtures5 Fixtures8 Fixtures10 Fixtures15.

(** * C70: the descriptive metadata that was given last is reported *)

(** Files in the versions: an object that was created and updated with the extension reports the metadata of the last session that was
    given some, whatever the map orders; nothing is reported only if none was ever given.  Partial: sessions that change something,
    storage configurations for which the reader means the file of the writer, see the refutations. *)
Theorem C70_reported_partial {A} W E P parse (dec : string → option A) l M q s i latest i' w u :
  hex_hash (e_hash E) → json_ok P (e_json E) parse → manifest_by E l → matching l M q → described W E P parse l M q s i latest →
  load_inventory (e_hash E) parse s "" = LInv i' [] → vorder_ok w →
  mf_metadata dec l M w (mf_new u) i' s = match latest with
                                          | Some t => match dec t with Some a => MfOk a | None => MfErr end
                                          | None => MfErr
                                          end.
Proof. intros Hhex Hj HE HM Hd Hl Hw. by eapply described_metadata. Qed.
(** Such an object is one of those of C50: it was made by complete sessions. *)
Theorem C70_published_partial W E P parse l M q s i latest :
  hex_hash (e_hash E) → json_ok P (e_json E) parse → manifest_by E l → matching l M q → described W E P parse l M q s i latest → published E P parse s i.
Proof. intros Hhex Hj HE HM Hd. by eapply described_newest in Hd as [H _]. Qed.
(** The folder of the extension: after the hook the file holds what the source gave, whatever else is done with the handle, and it is
    reported for every inventory with versions. *)
Theorem C70_folder_session_partial {A} W E (dec : string → option A) l M p i n now msg un ua echo u orc0 o1 o2 x ops s i' w u' :
  in_folder E M p → head_number i n → CrashSpec.plain_name (content_name i) → str_mem slash (inv_alg i) = false →
  ob_start now msg un ua echo (open_object i) = (o1, SOk) → mf_before W E l M orc0 o1 (mf_new (Some u)) = (o2, x, SOk) → u_path u ≠ "" → clean_names E ops →
  vorder_ok w → inv_versions i' ≠ ∅ → (∀ v, is_Some (inv_versions i' !! v) → ∃ k, numbered v k) →
  ∃ t, mf_fetch W (inv_id i) u = Some t ∧
    mf_metadata dec l M w (mf_new u') i' (apply_evs (ob_trace (orun E ops o2)) s) = match dec t with Some a => MfOk a | None => MfErr end.
Proof.
  intros HM Hn Hc Ha Hst Hb Hu Hcl Hw Hne Hnum.
  destruct (folder_session W E l M p i n now msg un ua echo u orc0 o1 o2 x ops s HM Hn Hc Ha Hst Hb Hu Hcl) as (t & Ht & Hs).
  exists t. split; [done|]. by rewrite (folder_metadata dec E l M p), Hs.
Qed.
(** It stays with every handle that is not given a source, also if the calls fail or are interrupted: the report is the same before and after. *)
Theorem C70_folder_stays_partial {A} E (dec : string → option A) l M p i n ops s s' i1 i2 w1 w2 u1 u2 :
  in_folder E M p → head_number i n → CrashSpec.plain_name (content_name i) → str_mem slash (inv_alg i) = false → clean_names E ops →
  crash s (ob_trace (orun E ops (open_object i))) s' →
  vorder_ok w1 → inv_versions i1 ≠ ∅ → (∀ v, is_Some (inv_versions i1 !! v) → ∃ k, numbered v k) →
  vorder_ok w2 → inv_versions i2 ≠ ∅ → (∀ v, is_Some (inv_versions i2 !! v) → ∃ k, numbered v k) →
  mf_metadata dec l M w2 (mf_new u2) i2 s' = mf_metadata dec l M w1 (mf_new u1) i1 s.
Proof.
  intros HM Hn Hc Ha Hcl Hcr Hw1 Hne1 Hnum1 Hw2 Hne2 Hnum2. rewrite !(folder_metadata dec E l M p) by done.
  by rewrite (folder_stays E M p i n ops s s').
Qed.

(** Created with metadata, updated without, updated with other metadata: what is reported after each session. *)
Definition dfirst := drunb srcs aenv [areas2] marea "meta/xml/info.json" from_disk [SAdd "A" "a" "content" true] store0 fresh0.
Definition dnext (u : murl) (ops : list sop) (x : option (storage * inventory * option string)) : option (storage * inventory * option string) :=
  '(s, _, old) ← x; i ← aload s;
  if asup i then '(s', i', given) ← drunb srcs aenv [areas2] marea "meta/xml/info.json" u ops s i; Some (s', i', match given with Some t => Some t | None => old end) else None.
Notation ddescribed := (described srcs aenv (λ _, True) jparse [areas2] marea "meta/xml/info.json").
Lemma dfirst_true s i g : dfirst = Some (s, i, g) → ddescribed s i g.
Proof.
  intros H. assert (asup fresh0 = true) as Ha by (by vm_compute). unfold dfirst in H. apply drunb_true in H.
  eapply described_first; [exact fresh0_fresh|exact store0_declared|exact (asup_true fresh0 Ha)|exact H|exact I].
Qed.
Lemma dnext_true u ops x s i g : (∀ s i g, x = Some (s, i, g) → ddescribed s i g) → dnext u ops x = Some (s, i, g) → ddescribed s i g.
Proof.
  intros Hx. unfold dnext. destruct x as [[[s1 i1] old]|]; [|done]. cbn [mbind option_bind]. destruct (aload s1) as [i2|] eqn:E2; [|done]. cbn [mbind option_bind].
  destruct (asup i2) eqn:E3; [|done]. destruct (drunb _ _ _ _ _ u ops s1 i2) as [[[s2 i3] given]|] eqn:E4; [|done]. cbn [mbind option_bind]. intros [= <- <- <-].
  apply drunb_true in E4. eapply described_next; [exact (Hx s1 i1 old eq_refl)|exact (aload_true s1 i2 E2)|exact (asup_true i2 E3)|exact E4|exact I].
Qed.
Definition dtwo := dnext nothing [SAdd "B" "b" "content" true] dfirst.
Definition dthree := dnext from_net [SDelete "data/a" ("a" +:+ hex_str "A")] dtwo.
Lemma dthree_true s i g : dthree = Some (s, i, g) → ddescribed s i g.
Proof.
  unfold dthree. apply dnext_true. intros s1 i1 g1. unfold dtwo. apply dnext_true. exact dfirst_true.
Qed.
Definition dreport (x : option (storage * inventory * option string)) : option (mfres string) :=
  '(s, _, _) ← x; i ← aload s; Some (mf_metadata as_object [areas2] marea wd (mf_new (Some nothing)) i s).
Lemma dreport_one : dreport dfirst = Some (MfOk "one}").
Proof. vm_compute. reflexivity. Qed.
Lemma dreport_two : dreport dtwo = Some (MfOk "one}").
Proof. vm_compute. reflexivity. Qed.
Example C70_example :
  ∃ s i i', ddescribed s i (Some "{two}") ∧ load_inventory (e_hash aenv) jparse s "" = LInv i' [] ∧ inv_head i' = "v3" ∧
    s !! "v1/content/meta/xml/info.json" = Some "{one}" ∧ s !! "v2/content/meta/xml/info.json" = None ∧
    hex_hash (e_hash aenv) ∧ json_ok (λ _, True) (e_json aenv) jparse ∧ manifest_by aenv [areas2] ∧ matching [areas2] marea "meta/xml/info.json" ∧
    dreport dfirst = Some (MfOk "one}") ∧ dreport dtwo = Some (MfOk "one}") ∧
    mf_metadata as_object [areas2] marea wd (mf_new (Some nothing)) i' s = MfOk "two}".
Proof.
  assert (match dthree with
          | Some (s, i, g) => bool_decide (g = Some "{two}") && bool_decide (s !! "v1/content/meta/xml/info.json" = Some "{one}") && bool_decide (s !! "v2/content/meta/xml/info.json" = None) &&
              match aload s with
              | Some i' => bool_decide (inv_head i' = "v3") && match mf_metadata as_object [areas2] marea wd (mf_new (Some nothing)) i' s with MfOk t => bool_decide (t = "two}") | _ => false end
              | None => false
              end
          | None => false end = true) as H by (vm_compute; reflexivity).
  destruct dthree as [[[s i] g]|] eqn:E3; [|discriminate]. destruct (aload s) as [i'|] eqn:Ea; [|rewrite andb_false_r in H; discriminate].
  apply andb_prop in H as [H H4]. apply andb_prop in H as [H H3]. apply andb_prop in H as [H1 H2]. apply andb_prop in H4 as [H4 H5].
  apply bool_decide_eq_true in H1, H2, H3, H4. subst g. destruct (mf_metadata _ _ _ _ _ i' s) as [| |t] eqn:Em; [done..|]. apply bool_decide_eq_true in H5. subst t.
  exists s, i, i'. split; [exact (dthree_true s i _ E3)|]. split; [exact (aload_true s i' Ea)|].
  split; [exact H4|]. split; [exact H2|]. split; [exact H3|]. split; [exact hexh_ok|]. split; [exact jjson_ok|]. split; [exact aenv_by|]. split; [exact marea_matching|].
  exact (conj dreport_one (conj dreport_two Em)).
Qed.

(** The folder of the extension. *)
Definition started0 : object := (ob_start "2024-01-01T00:00:00Z" "msg" "me" "mailto:me" false (open_object fresh0)).1.
Definition told : object := (mf_before srcs aenv [areas2] mext dflt started0 (mf_new (Some from_disk))).1.1.
Definition later : list (oracle * oop) := [(dflt, OSimple (SAdd "A" "a" "content" true)); (dflt, OEnd (HDone [])); (dflt, OClose)].
Example C70_folder_example :
  in_folder aenv mext "extensions/NNNN-metafile/metadata/info.json" ∧ head_number fresh0 0 ∧ CrashSpec.plain_name (content_name fresh0) ∧ str_mem slash (inv_alg fresh0) = false ∧
  ob_start "2024-01-01T00:00:00Z" "msg" "me" "mailto:me" false (open_object fresh0) = (started0, SOk) ∧
  (∃ x, mf_before srcs aenv [areas2] mext dflt started0 (mf_new (Some from_disk)) = (told, x, SOk)) ∧ u_path from_disk ≠ "" ∧ clean_names aenv later ∧
  inv_head (ob_inv (orun aenv later told)) = "v1" ∧
  mf_metadata as_object [areas2] mext wd (mf_new None) (ob_inv (orun aenv later told)) (apply_evs (ob_trace (orun aenv later told)) store0) = MfOk "one}".
Proof.
  split; [exact mext_folder|]. split.
  { split; [|by vm_compute]. exists 0%N. split; [by vm_compute|]. split; [done|]. intros v [x Hx]. change (inv_versions fresh0) with (∅ : gmap string version) in Hx. by rewrite lookup_empty in Hx. }
  split; [repeat split; by vm_compute|]. split; [by vm_compute|]. split; [by vm_compute|]. split; [eexists; unfold told; by vm_compute|]. split; [done|]. split.
  { repeat constructor. intros m Hm. vm_compute in Hm. injection Hm as <-. apply clean_relb_true. by vm_compute. }
  split; by vm_compute.
Qed.

(** The object that this makes; the next handle has no source, changes a file, and is interrupted while it writes. *)
Definition efirst : option (storage * inventory) :=
  '(_, _, o5, _) ← handle srcs aenv [areas2] mext from_disk [SAdd "A" "a" "content" true] fresh0; let s := apply_evs (ob_trace o5) store0 in i ← aload s; Some (s, i).
Definition eops : list (oracle * oop) := (dflt, OStart "2024-02-02" "next" "me" "mailto:me" false) :: (dflt, OSimple (SAdd "A3" "a" "content" true)) :: later.
Lemma crash_take k s l : crash s l (apply_evs (take k l) s).
Proof.
  revert s l. induction k as [|k IH]; intros s l; [constructor|]. destruct l as [|e l]; [constructor|]. apply crash_step, IH.
Qed.
Example C70_stays_example :
  ∃ s i, efirst = Some (s, i) ∧ in_folder aenv mext "extensions/NNNN-metafile/metadata/info.json" ∧ head_number i 1 ∧ CrashSpec.plain_name (content_name i) ∧
    str_mem slash (inv_alg i) = false ∧ clean_names aenv eops ∧
    crash s (ob_trace (orun aenv eops (open_object i))) (apply_evs (take 3 (ob_trace (orun aenv eops (open_object i)))) s) ∧
    (∀ v, is_Some (inv_versions i !! v) → ∃ k, numbered v k) ∧ inv_versions i ≠ ∅ ∧ 3 < length (ob_trace (orun aenv eops (open_object i))) ∧
    mf_metadata as_object [areas2] mext wd (mf_new None) i s = MfOk "one}".
Proof.
  assert (match efirst with
          | Some (s, i) => bool_decide (fst <$> map_to_list (inv_versions i) = ["v1"]) && bool_decide (inv_head i = "v1" ∧ inv_padding i = 0%Z ∧ inv_contentdir i = "" ∧ inv_alg i = "sha512") &&
              match mf_metadata as_object [areas2] mext wd (mf_new None) i s with MfOk t => bool_decide (t = "one}") | _ => false end &&
              bool_decide (3 < length (ob_trace (orun aenv eops (open_object i))))
          | None => false end = true) as H by (vm_compute; reflexivity).
  destruct efirst as [[s i]|]; [|discriminate]. apply andb_prop in H as [H H4]. apply andb_prop in H as [H H3]. apply andb_prop in H as [H1 H2].
  apply bool_decide_eq_true in H1, H2, H4. destruct H2 as (Ha & Hb & Hc & Hd). exists s, i.
  assert (∀ v, is_Some (inv_versions i !! v) → v = "v1") as Hv.
  { intros v [y Hy]. apply elem_of_map_to_list, (elem_of_list_fmap_1 fst) in Hy. rewrite H1 in Hy. by apply elem_of_list_singleton in Hy. }
  assert (is_Some (inv_versions i !! "v1")) as Hv1.
  { assert ("v1" ∈ fst <$> map_to_list (inv_versions i)) as Hin by (rewrite H1; by left).
    apply elem_of_list_fmap in Hin as ([v' y] & -> & Hin). apply elem_of_map_to_list in Hin. by exists y. }
  split; [reflexivity|]. split; [exact mext_folder|]. split.
  { split; [|rewrite Ha, Hb; by vm_compute]. exists 1%N. rewrite Ha, Hb. split; [by vm_compute|]. split; [intros _; split; [by vm_compute|exact Hv1]|].
    intros v Hy. rewrite (Hv v Hy). exists 1%N. by vm_compute. }
  unfold content_name. rewrite Hc, Hd. split; [repeat split; by vm_compute|]. split; [by vm_compute|]. split.
  { repeat constructor; intros m Hm; vm_compute in Hm; injection Hm as <-; apply clean_relb_true; by vm_compute. }
  split.
  { apply crash_take. }
  split; [intros v Hy; rewrite (Hv v Hy); exists 1%N; split; [done|]; exists 0; by vm_compute|].
  split; [intros He; rewrite He, lookup_empty in Hv1; by destruct Hv1|]. split; [exact H4|].
  destruct (mf_metadata _ _ _ _ _ i s) as [| |t]; [discriminate..|]. apply bool_decide_eq_true in H3. by rewrite H3.
Qed.

(** An update with an empty source is not disturbed, and the object does not change. *)
Theorem C70_empty_source W E l M orc o u o' x st :
  u_path u = "" → mf_before W E l M orc o (mf_new (Some u)) = (o', x, st) → st = SOk ∧ o' = o.
Proof. intros Hu. unfold mf_before. cbn [mf_new mf_source]. rewrite decide_True by exact Hu. by intros [= <- _ <-]. Qed.
Example C70_empty_source_example :
  u_path nothing = "" ∧ ∃ x, mf_before srcs aenv [areas2] mext dflt started0 (mf_new (Some nothing)) = (started0, x, SOk) ∧
  (mf_before srcs aenv [areas2] mext dflt started0 (mf_new (Some from_disk))).1.1 ≠ started0.
Proof.
  split; [done|]. eexists. split; [reflexivity|]. intros H. apply (f_equal (λ o, length (ob_trace o))) in H. vm_compute in H. discriminate H.
Qed.
Print Assumptions C70_empty_source.
(** An update with a handle that was not given the parameter panics. *)
Theorem C70_no_source_refuted : ∃ W E l M i o1, ob_start "2024-01-01T00:00:00Z" "msg" "me" "mailto:me" false (open_object i) = (o1, SOk) ∧
  (mf_before W E l M dflt o1 (mf_new None)).2 = SPanic.
Proof. exists srcs, aenv, [areas2], mext, fresh0, started0. split; by vm_compute. Qed.
(** A second update with the same handle: the source has changed, but nothing is stored, and the old text is reported. *)
Definition srcs2 : sources := Sources (so_net srcs) (λ n, if decide (n = "/meta/id:1.JSON") then Some "{new}" else None) (so_decode srcs).
Theorem C70_second_update_refuted : ∃ o x o1 o2 x2,
  mf_before srcs aenv [areas2] marea dflt started0 (mf_new (Some from_disk)) = (o, x, SOk) ∧
  ob_start "2024-01-02T00:00:00Z" "msg" "me" "mailto:me" false (orun aenv later o) = (o1, SOk) ∧
  mf_before srcs2 aenv [areas2] marea dflt o1 x = (o2, x2, SOk) ∧ mf_fetch srcs2 (inv_id (ob_inv o1)) from_disk = Some "{new}" ∧
  o2 = o1 ∧ mf_metadata as_object [areas2] marea wd x2 (ob_inv o2) (apply_evs (ob_trace o2) store0) = MfOk "one}".
Proof.
  destruct (mf_before srcs aenv [areas2] marea dflt started0 (mf_new (Some from_disk))) as [[o x] st] eqn:E1.
  destruct (ob_start "2024-01-02T00:00:00Z" "msg" "me" "mailto:me" false (orun aenv later o)) as [o1 st1] eqn:E2.
  destruct (mf_before srcs2 aenv [areas2] marea dflt o1 x) as [[o2 x2] st2] eqn:E3.
  assert (let '(o, x, st) := mf_before srcs aenv [areas2] marea dflt started0 (mf_new (Some from_disk)) in
          let '(o1, st1) := ob_start "2024-01-02T00:00:00Z" "msg" "me" "mailto:me" false (orun aenv later o) in
          let '(o2, x2, st2) := mf_before srcs2 aenv [areas2] marea dflt o1 x in
          match st, st1, st2 with SOk, SOk, SOk => true | _, _, _ => false end && bool_decide (mf_fetch srcs2 (inv_id (ob_inv o1)) from_disk = Some "{new}") &&
          match mf_source x with Some u => bool_decide (u_path u ≠ "") | None => false end && mf_stored x &&
          match mf_metadata as_object [areas2] marea wd x2 (ob_inv o2) (apply_evs (ob_trace o2) store0) with MfOk t => bool_decide (t = "one}") | _ => false end = true) as H by (clear; by vm_compute).
  rewrite E1, E2, E3 in H. apply andb_prop in H as [H H5]. apply andb_prop in H as [H H4]. apply andb_prop in H as [H H3]. apply andb_prop in H as [H1 H2].
  destruct st, st1, st2; try discriminate. exists o, x, o1, o2, x2. split; [reflexivity|]. split; [exact E2|]. split; [exact E3|].
  split; [by apply bool_decide_eq_true in H2|]. split.
  - unfold mf_before in E3. destruct (mf_source x) as [u|]; [|discriminate]. apply bool_decide_eq_true in H3. rewrite decide_False, H4 in E3 by exact H3. congruence.
  - destruct (mf_metadata _ _ _ _ _ _ _) as [| |t]; [discriminate..|]. apply bool_decide_eq_true in H5. by rewrite H5.
Qed.
(** The metadata that is there already is given again in an update without other changes: every call succeeds and no version is made, but a
    file is left in the folder of the next version, and the object that was valid is invalid from then on. *)
Definition bare0 : inventory := new_inventory "id:1" "https://ocfl.io/1.1/spec/#inventory" "sha512" [].
Definition dbare := drunb srcs aenv [areas2] marea "meta/xml/info.json" from_disk [SAdd "A" "a" "content" true] store0 bare0.
Theorem C70_given_again_refuted : ∃ s i o1 o3 o5 g fs,
  validate_object hexh jdecode wd lx0 s = VDone [] ∧ load_inventory hexh jparse s "" = LInv i [] ∧
  handle srcs aenv [areas2] marea from_disk [] i = Some (o1, o3, o5, g) ∧ inv_modified (ob_inv o3) = false ∧
  apply_evs (ob_trace o5) s !! "inventory.json" = s !! "inventory.json" ∧
  apply_evs (ob_trace o5) s !! "v2/content/meta/xml/info.json" = Some "{one}" ∧
  validate_object hexh jdecode wd lx0 (apply_evs (ob_trace o5) s) = VDone fs ∧ reported fs "E001" ∧ reported fs "E046".
Proof.
  assert (match dbare with
          | Some (s, _, _) =>
              match aload s with
              | Some i =>
                  match handle srcs aenv [areas2] marea from_disk [] i with
                  | Some (o1, o3, o5, g) =>
                      negb (inv_modified (ob_inv o3)) && bool_decide (apply_evs (ob_trace o5) s !! "inventory.json" = s !! "inventory.json") &&
                      bool_decide (apply_evs (ob_trace o5) s !! "v2/content/meta/xml/info.json" = Some "{one}") &&
                      match validate_object hexh jdecode wd lx0 s with VDone [] => true | _ => false end &&
                      match validate_object hexh jdecode wd lx0 (apply_evs (ob_trace o5) s) with
                      | VDone [Finding c1 _; Finding c2 _] => bool_decide (c1 = "E001") && bool_decide (c2 = "E046")
                      | _ => false
                      end
                  | None => false
                  end
              | None => false
              end
          | None => false
          end = true) as H by (by vm_compute).
  destruct dbare as [[[s i0] g0]|]; [|discriminate]. destruct (aload s) as [i|] eqn:Ei; [|discriminate]. destruct (handle _ _ _ _ _ _ i) as [[[[o1 o3] o5] g]|] eqn:Eh; [|discriminate].
  apply andb_prop in H as [H H5]. apply andb_prop in H as [H H4]. apply andb_prop in H as [H H3]. apply andb_prop in H as [H1 H2].
  destruct (validate_object hexh jdecode wd lx0 s) as [[|]| |] eqn:E1; try discriminate.
  destruct (validate_object hexh jdecode wd lx0 (apply_evs (ob_trace o5) s)) as [[|[c1 a1] [|[c2 a2] [|]]]| |] eqn:E2; try discriminate.
  apply andb_prop in H5 as [H5 H6]. apply bool_decide_eq_true in H2, H3, H5, H6. subst c1 c2. apply negb_true_iff in H1.
  exists s, i, o1, o3, o5, g, [Finding "E001" a1; Finding "E046" a2].
  split; [exact E1|]. split; [exact (aload_true s i Ei)|]. split; [exact Eh|]. split; [exact H1|]. split; [exact H2|]. split; [exact H3|]. split; [exact E2|].
  split; [exists a1; left|exists a2; right; left].
Qed.
(** The writer compares the storage type in lower case, the reader as it is: metadata that is stored without error is never reported. *)
Theorem C70_capital_type_refuted : ∃ W E l M o o' x, manifest_by E l ∧ mf_before W E l M dflt o (mf_new (Some from_disk)) = (o', x, SOk) ∧
  mf_fetch W (inv_id (ob_inv o)) from_disk = Some "{one}" ∧ ∀ i s v, mf_read l M i s v = None.
Proof.
  set (M := MStore "info.json" "Area" "metadata" ""). destruct (mf_before srcs aenv [areas2] M dflt started0 (mf_new (Some from_disk))) as [[o x] st] eqn:E.
  assert (st = SOk) as -> by (apply (f_equal snd) in E; vm_compute in E; by symmetry).
  exists srcs, aenv, [areas2], M, started0, o, x. split; [exact aenv_by|]. split; [exact E|]. split; [by vm_compute|done].
Qed.
(** With content areas and the storage type path the folder of the area is put in front twice. *)
Theorem C70_path_twice_refuted : ∃ W E l M o o' x, manifest_by E l ∧ mf_before W E l M dflt o (mf_new (Some from_disk)) = (o', x, SOk) ∧
  apply_evs (ob_trace o') ∅ !! "v1/content/data/data/side/info.json" = Some "{one}" ∧
  mf_read_target l M (ob_inv o') "v1" = Some "v1/content/data/side/info.json" ∧ mf_metadata as_object l M wd (mf_new None) (ob_inv o') (apply_evs (ob_trace o') ∅) = MfErr.
Proof.
  set (M := MStore "info.json" "path" "side" ""). destruct (mf_before srcs aenv [areas2] M dflt started0 (mf_new (Some from_disk))) as [[o x] st] eqn:E.
  assert (st = SOk) as -> by (apply (f_equal snd) in E; vm_compute in E; by symmetry).
  exists srcs, aenv, [areas2], M, started0, o, x. split; [exact aenv_by|]. split; [exact E|].
  assert (o = (mf_before srcs aenv [areas2] M dflt started0 (mf_new (Some from_disk))).1.1) as -> by (by rewrite E). clear E.
  split; [by vm_compute|]. split; by vm_compute.
Qed.
(** Metadata that is no JSON object is stored and then cannot be reported. *)
Theorem C70_no_object_refuted : ∃ s i g, drunb srcs aenv [areas2] marea "meta/xml/info.json" a_list [SAdd "A" "a" "content" true] store0 fresh0 = Some (s, i, g) ∧
  g = Some "[list]" ∧ mf_metadata as_object [areas2] marea wd (mf_new None) i s = MfErr.
Proof.
  assert (match drunb srcs aenv [areas2] marea "meta/xml/info.json" a_list [SAdd "A" "a" "content" true] store0 fresh0 with
          | Some (s, i, g) => bool_decide (g = Some "[list]") && match mf_metadata as_object [areas2] marea wd (mf_new None) i s with MfErr => true | _ => false end
          | None => false end = true) as H by (by vm_compute).
  destruct (drunb _ _ _ _ _ _ _ _ _) as [[[s i] g]|]; [|discriminate]. apply andb_prop in H as [H1 H2]. apply bool_decide_eq_true in H1.
  exists s, i, g. split; [reflexivity|]. split; [exact H1|]. by destruct (mf_metadata _ _ _ _ _ _ _).
Qed.
(** A name on the net with a query: the file name extension is taken from the whole text, the source is refused. *)
Theorem C70_query_refuted : ∃ W id u body, so_net W (u_text u) = Some body ∧ u_path u = "/two.json" ∧ is_Some (so_decode W ".json" body) ∧ mf_fetch W id u = None.
Proof.
  exists (Sources (λ n, if decide (n = "https://example.org/two.json?x=1") then Some "{two}" else None) (λ _, None) (λ _ d, Some d)), "id:1",
    (MUrl "https" "/two.json" "https://example.org/two.json?x=1"), "{two}". split; [by vm_compute|]. split; [done|]. split; [by eexists|by vm_compute].
Qed.
(** In the folder of the extension the file is written at once: metadata of an update that is never closed is reported for the versions
    that are there, and their own is lost. *)
Theorem C70_folder_abandoned_refuted : ∃ s i o1 o2 x i',
  efirst = Some (s, i) ∧ mf_metadata as_object [areas2] mext wd (mf_new None) i s = MfOk "one}" ∧
  ob_start "2024-01-02T00:00:00Z" "msg" "me" "mailto:me" false (open_object i) = (o1, SOk) ∧
  mf_before srcs aenv [areas2] mext dflt o1 (mf_new (Some from_net)) = (o2, x, SOk) ∧
  load_inventory hexh jparse (apply_evs (ob_trace o2) s) "" = LInv i' [] ∧ inv_head i' = inv_head i ∧ inv_head i' = "v1" ∧
  mf_metadata as_object [areas2] mext wd (mf_new None) i' (apply_evs (ob_trace o2) s) = MfOk "two}" ∧
  ∀ p, apply_evs (ob_trace o2) s !! p ≠ Some "{one}".
Proof.
  assert (match efirst with
          | Some (s, i) =>
              let '(o1, st1) := ob_start "2024-01-02T00:00:00Z" "msg" "me" "mailto:me" false (open_object i) in
              let '(o2, x, st2) := mf_before srcs aenv [areas2] mext dflt o1 (mf_new (Some from_net)) in
              match aload (apply_evs (ob_trace o2) s) with
              | Some i' =>
                  match st1, st2 with SOk, SOk => true | _, _ => false end &&
                  match mf_metadata as_object [areas2] mext wd (mf_new None) i s with MfOk t => bool_decide (t = "one}") | _ => false end &&
                  match mf_metadata as_object [areas2] mext wd (mf_new None) i' (apply_evs (ob_trace o2) s) with MfOk t => bool_decide (t = "two}") | _ => false end &&
                  forallb (λ q : string * string, bool_decide (q.2 ≠ "{one}")) (map_to_list (apply_evs (ob_trace o2) s)) &&
                  bool_decide (inv_head i' = inv_head i ∧ inv_head i' = "v1")
              | None => false
              end
          | None => false end = true) as H by (vm_compute; reflexivity).
  destruct efirst as [[s i]|]; [|discriminate].
  destruct (ob_start "2024-01-02T00:00:00Z" "msg" "me" "mailto:me" false (open_object i)) as [o1 st1] eqn:E2.
  destruct (mf_before srcs aenv [areas2] mext dflt o1 (mf_new (Some from_net))) as [[o2 x] st2] eqn:E3.
  destruct (aload (apply_evs (ob_trace o2) s)) as [i'|] eqn:E4; [|discriminate].
  apply andb_prop in H as [H H5]. apply andb_prop in H as [H H4]. apply andb_prop in H as [H H3]. apply andb_prop in H as [H1 H2].
  destruct st1, st2; try discriminate. apply bool_decide_eq_true in H5 as [H5 H6]. exists s, i, o1, o2, x, i'. split; [reflexivity|].
  split; [destruct (mf_metadata _ _ _ _ _ i s) as [| |t]; [discriminate..|]; apply bool_decide_eq_true in H2; by rewrite H2|].
  split; [exact E2|]. split; [exact E3|]. split; [exact (aload_true _ i' E4)|]. split; [exact H5|]. split; [exact H6|]. split.
  - destruct (mf_metadata _ _ _ _ _ i' _) as [| |t]; [discriminate..|]; apply bool_decide_eq_true in H3; by rewrite H3.
  - intros p Hp. rewrite forallb_forall in H4. apply elem_of_map_to_list, elem_of_list_In in Hp. apply H4 in Hp. apply bool_decide_eq_true in Hp. by apply Hp.
Qed.
Print Assumptions C70_reported_partial.
Print Assumptions C70_published_partial.
Print Assumptions C70_folder_session_partial.
Print Assumptions C70_folder_stays_partial.
Print Assumptions C70_no_source_refuted.
Print Assumptions C70_second_update_refuted.
Print Assumptions C70_given_again_refuted.
Print Assumptions C70_capital_type_refuted.
Print Assumptions C70_path_twice_refuted.
Print Assumptions C70_no_object_refuted.
Print Assumptions C70_query_refuted.
Print Assumptions C70_folder_abandoned_refuted.

(** ** Sources on the disk *)
Lemma split_on_last c a b : str_mem c b = false → ∃ l, l ≠ [] ∧ split_on c (a +:+ String c b) = l ++ [b].
Proof.
  intros Hb. induction a as [|d a (l & Hl & IH)].
  - exists [""]. split; [done|]. change ("" +:+ String c b) with (String c b). rewrite ValidateProofs.split_on_cons_sep. by rewrite (split_on_no_sep c b Hb).
  - change (String d a +:+ String c b) with (String d (a +:+ String c b)). cbn [split_on].
    destruct (decide (d = c)).
    + exists ("" :: l). split; [done|]. by rewrite IH.
    + rewrite IH. destruct l as [|w l]; [done|]. exists (String d w :: l). done.
Qed.
Lemma replace_id_none id s : str_mem "$"%char s = false → replace_id id s = s.
Proof.
  induction s as [|c s IH]; [done|]. cbn [str_mem]. destruct (decide ("$"%char = c)) as [|Hne]; [done|]. intros Hs.
  rewrite <- (IH Hs) at 2. destruct c as [[] [] [] [] [] [] [] []]; try reflexivity. by exfalso.
Qed.
(** A file on the disk is decoded by the extension of its name, which may be json, yaml or toml in small or capital letters, and by no other.  The hypotheses
    keep out $ID, which is replaced. *)
Theorem C70_disk_source_partial W id name ext text :
  str_mem slash name = false → str_mem slash ext = false → str_mem "."%char ext = false → str_mem "$"%char name = false → str_mem "$"%char ext = false → name ≠ "" →
  mf_fetch W id (MUrl "" ("/" +:+ name +:+ "." +:+ ext) text) =
    if decide (to_lower ext ∈ ["json"; "yaml"; "toml"]) then data ← so_disk W ("/" +:+ name +:+ "." +:+ ext); so_decode W ("." +:+ to_lower ext) data else None.
Proof.
  intros H1 H2 H3 H4 H5 Hne.
  assert (str_mem slash (name +:+ "." +:+ ext) = false) as Hsl by (rewrite !str_mem_app, H1, H2; done).
  assert (str_mem "$"%char ("/" +:+ name +:+ "." +:+ ext) = false) as Hd by (rewrite !str_mem_app, H4, H5; done).
  assert (String slash (trim_left (replace_id id ("/" +:+ name +:+ "." +:+ ext)) "/") = "/" +:+ name +:+ "." +:+ ext) as Hf.
  { rewrite (replace_id_none id _ Hd). change ("/" +:+ ?x) with (String slash x). f_equal. cbn [trim_left]. change (str_mem slash "/") with true. cbv iota.
    apply AreaProofs.trim_left_id. destruct name as [|c name]; [done|]. cbn. intros [= ->]. cbn in H1. discriminate H1. }
  assert (file_ext ("/" +:+ name +:+ "." +:+ ext) = "." +:+ ext) as He.
  { unfold file_ext. assert (split_slash ("/" +:+ name +:+ "." +:+ ext) = [""; name +:+ "." +:+ ext]) as ->.
    { change ("/" +:+ ?x) with (String slash x). unfold split_slash. rewrite ValidateProofs.split_on_cons_sep. by rewrite split_on_no_sep. }
    transitivity (match rev (split_on "."%char (name +:+ String "."%char ext)) with e :: _ :: _ => String "."%char e | _ => "" end); [reflexivity|].
    destruct (split_on_last "."%char name ext H3) as (l & Hl & ->). rewrite rev_app_distr. cbn [rev app].
    destruct (rev l) as [|w r] eqn:E; [|done]. apply (f_equal (@rev _)) in E. rewrite rev_involutive in E. by subst l. }
  assert (∀ f, String slash (trim_left (replace_id id ("/" +:+ name +:+ "." +:+ ext)) "/") = f →
    mf_open W id (MUrl "" ("/" +:+ name +:+ "." +:+ ext) text) = pair f <$> so_disk W f) as Ho by (intros f <-; reflexivity).
  unfold mf_fetch. rewrite (Ho _ Hf). destruct (so_disk W _) as [data|]; cbn [fmap option_fmap option_map]; [|by destruct (decide _)].
  rewrite He. rewrite InventoryProofs.to_lower_app. change (to_lower ".") with ".". cbn [mbind option_bind].
  destruct (decide (to_lower ext ∈ ["json"; "yaml"; "toml"])) as [Hi|Hi].
  - rewrite decide_True; [done|]. rewrite !elem_of_cons, elem_of_nil in Hi. destruct Hi as [-> |[-> |[-> |[]]]]; tauto.
  - rewrite decide_False; [done|]. rewrite !elem_of_cons, elem_of_nil in Hi. intros [H|[H|H]]; apply Hi; injection H; tauto.
Qed.
Example C70_disk_source_example : ∃ W data, mf_fetch W "id:1" (MUrl "" "/my.info.TOML" "") = Some data ∧ data = "decoded" ∧
  str_mem slash "my.info" = false ∧ str_mem slash "TOML" = false ∧ str_mem "."%char "TOML" = false.
Proof.
  exists (Sources (λ _, None) (λ n, if decide (n = "/my.info.TOML") then Some "d" else None) (λ e _, if decide (e = ".toml") then Some "decoded" else None)), "decoded".
  split; [by vm_compute|]. done.
Qed.
(** If the source cannot be read, the update fails; a second update of the same object in the same run succeeds without the metadata, although the source
    can be read by then. *)
Theorem C70_failed_once_refuted : ∃ W1 W2 E l M o x e t,
  mf_before W1 E l M dflt o (mf_new (Some from_disk)) = (o, x, SErr e) ∧ mf_fetch W2 (inv_id (ob_inv o)) from_disk = Some t ∧
  mf_before W2 E l M dflt o x = (o, x, SOk).
Proof.
  exists (Sources (λ _, None) (λ _, None) (λ _ _, None)), srcs, aenv, [areas2], marea, started0, (MfSt (Some from_disk) true ∅), "cannot read info file", "{one}".
  split; [reflexivity|]. split; [by vm_compute|reflexivity].
Qed.
Print Assumptions C70_disk_source_partial.
Print Assumptions C70_failed_once_refuted.
