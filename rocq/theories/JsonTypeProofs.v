(** Decoding of members by name, and the findings for wrong types. *)
From Coq Require Import Ascii.
From stdpp Require Import base list strings gmap.
From Coq Require Import ZArith Lia.
From Verif Require Import GoStr InventoryModel ObjectModel CrashSpec ValidateModel ValidateSpec ValidateProofs ValidateProofs2 ValidateProofs3 CheckModel CheckSpec CheckProofs AcceptSpec
  JsonModel JsonInvModel JsonTypeSpec.

(** * Names *)

Definition is_ascii (s : string) : bool := forallb (λ c, (N_of_ascii c <? 128)%N) (list_ascii_of_string s).
Lemma fold_step b k : (∃ k', b = "197"%char ∧ k = String "191" k' ∧ fold_name (String b k) = String "s" (fold_name k')) ∨
  (¬ (∃ k', b = "197"%char ∧ k = String "191" k') ∧ fold_name (String b k) = String (lower_ascii b) (fold_name k)).
Proof.
  destruct k as [|c k]; [right; split; [by intros (? & _ & ?)|done]|].
  change (fold_name (String b (String c k))) with
    (if (N_of_ascii b =? 197)%N && (N_of_ascii c =? 191)%N then String "s" (fold_name k) else String (lower_ascii b) (fold_name (String c k))).
  destruct (N.eqb_spec (N_of_ascii b) 197) as [Hb|Hb]; [destruct (N.eqb_spec (N_of_ascii c) 191) as [Hc|Hc]|]; cbn [andb].
  - left. exists k. split; [by rewrite <-(ascii_N_embedding b), Hb|]. split; [by rewrite <-(ascii_N_embedding c), Hc|done].
  - right. split; [|done]. intros (? & _ & [= -> ->]). by apply Hc.
  - right. split; [|done]. intros (? & -> & _). by apply Hb.
Qed.
Lemma lower_197 a : lower_ascii a = "197"%char → a = "197"%char.
Proof. destruct a as [[] [] [] [] [] [] [] []]; intros H; vm_compute in H; try discriminate H; reflexivity. Qed.
Lemma field_spelled name k : is_ascii name = true → field name k = true ↔ spelled name k.
Proof.
  unfold field. rewrite bool_decide_eq_true. revert k. induction name as [|a name IH]; intros k Ha.
  - destruct k as [|b k]; [split; [intros _; constructor|done]|]. split; [|by inversion 1].
    destruct (fold_step b k) as [(k' & _ & _ & ->)|[_ ->]]; done.
  - cbn in Ha. apply andb_prop in Ha as [Ha Hn]. apply N.ltb_lt in Ha. specialize (λ k, IH k Hn).
    destruct k as [|b k]; [split; [done|by inversion 1]|]. cbn [to_lower].
    destruct (fold_step b k) as [(k' & -> & -> & ->)|[Hno ->]].
    + split.
      * intros [= H1 H2]. apply spelled_long; [done|by apply IH].
      * inversion 1 as [|? ? ? ? Hl ?|? ? ? Hl Hs]; subst; [|f_equal; [done|by apply IH]].
        exfalso. change (lower_ascii "197") with "197"%char in Hl. apply lower_197 in Hl. subst a. vm_compute in Ha. discriminate Ha.
    + split.
      * intros [= H1 H2]. apply spelled_letter; [done|by apply IH].
      * inversion 1 as [|? ? ? ? Hl ?|? ? ? Hl Hs]; subst; [f_equal; [done|by apply IH]|].
        exfalso. apply Hno. eauto.
Qed.

(** * One field of a struct *)

Section fields.
Context {A B : Type} (step : A → string * json → A) (proj : A → B) (dec : B → json → B) (name : string).
Context (Hname : is_ascii name = true).
Context (Hother : ∀ a k j, field name k = false → proj (step a (k, j)) = proj a).
Context (Hthis : ∀ a k j, field name k = true → proj (step a (k, j)) = dec (proj a) j).
Lemma fold_none l a : (∀ j, ¬ has name l j) → proj (foldl step a l) = proj a.
Proof using Hname Hother.
  revert a. induction l as [|[k j] l IH]; intros a H; [done|]. cbn [foldl]. rewrite IH.
  - apply Hother. apply not_true_iff_false. intros Hf%field_spelled; [|done]. apply (H j). exists k. split; [done|left].
  - intros j' (k' & Hk & Hin). apply (H j'). exists k'. split; [done|by right].
Qed.
Lemma fold_once l a j : once name l → has name l j → proj (foldl step a l) = dec (proj a) j.
Proof using Hname Hother Hthis.
  intros Ho (k & Hk & (l1 & l2 & ->)%elem_of_list_split). pose proof (Ho l1 k j l2 eq_refl Hk) as Hno.
  rewrite foldl_app. cbn [foldl]. rewrite fold_none.
  - rewrite Hthis by (by apply field_spelled). f_equal. apply fold_none. intros j' (k' & Hk' & Hin). apply (Hno j'). exists k'.
    split; [done|]. apply elem_of_app. by left.
  - intros j' (k' & Hk' & Hin). apply (Hno j'). exists k'. split; [done|]. apply elem_of_app. by right.
Qed.
End fields.

(** Only one name is spelled like the key. *)
Ltac one_field :=
  intros ? k ?; unfold field; rewrite bool_decide_eq_true; intros Hk; rewrite Hk;
  repeat match goal with |- context [bool_decide (to_lower ?x = to_lower ?y)] =>
    let b := eval vm_compute in (bool_decide (to_lower x = to_lower y)) in change (bool_decide (to_lower x = to_lower y)) with b; cbn iota end;
  repeat match goal with |- context [let '(_, _) := ?e in _] => destruct e end; reflexivity.
Ltac other_field :=
  intros ? k ? Hk; repeat match goal with
  | |- context [if field ?n k then _ else _] => destruct (field n k) eqn:?
  | |- context [let '(_, _) := ?e in _] => destruct e
  end; first [reflexivity | congruence].

Section decoding.
Context (tm : string → option string) (t0 : string).

Definition reads {A B} (step : A → string * json → A) (proj : A → B) (dec : B → json → B) (name : string) : Prop := ∀ l a,
  (once name l → ∀ j, has name l j → proj (foldl step a l) = dec (proj a) j) ∧
  ((∀ j, ¬ has name l j) → proj (foldl step a l) = proj a).
Lemma reads_intro {A B} (step : A → string * json → A) (proj : A → B) (dec : B → json → B) (name : string) :
  is_ascii name = true → (∀ a k j, field name k = false → proj (step a (k, j)) = proj a) →
  (∀ a k j, field name k = true → proj (step a (k, j)) = dec (proj a) j) → reads step proj dec name.
Proof.
  intros H0 H1 H2 l a. split; [intros Ho j; exact (fold_once _ _ dec _ H0 H1 H2 l a j Ho)|exact (fold_none _ _ _ H0 H1 l a)].
Qed.
Ltac reads_field f := apply reads_intro; [reflexivity|unfold f; cbn [fst snd]; other_field|unfold f; cbn [fst snd]; one_field].
Lemma reads_created : reads (dec_version_member tm t0) vd_created (dec_time tm t0) "created".
Proof. reads_field dec_version_member. Qed.
Lemma reads_message : reads (dec_version_member tm t0) vd_message dec_ostr "message".
Proof. reads_field dec_version_member. Qed.
Lemma reads_state : reads (dec_version_member tm t0) vd_state dec_state "state".
Proof. reads_field dec_version_member. Qed.
Lemma reads_user : reads (dec_version_member tm t0) vd_user dec_user "user".
Proof. reads_field dec_version_member. Qed.
Lemma reads_name : reads dec_user_member snd dec_ostr "name".
Proof. reads_field dec_user_member. Qed.
Lemma reads_address : reads dec_user_member fst dec_ostr "address".
Proof. reads_field dec_user_member. Qed.
Lemma reads_id : reads (dec_member tm t0) r_id (λ c j, (dec_string c j).1) "id".
Proof. reads_field dec_member. Qed.
Lemma reads_type : reads (dec_member tm t0) r_type (λ c j, (dec_string c j).1) "type".
Proof. reads_field dec_member. Qed.
Lemma reads_alg : reads (dec_member tm t0) r_alg (λ c j, (dec_string c j).1) "digestAlgorithm".
Proof. reads_field dec_member. Qed.
Lemma reads_head : reads (dec_member tm t0) r_head dec_ostr "head".
Proof. reads_field dec_member. Qed.
Lemma reads_manifest : reads (dec_member tm t0) r_manifest (λ _, dec_manifest) "manifest".
Proof. reads_field dec_member. Qed.
Lemma reads_versions : reads (dec_member tm t0) r_versions (λ _, dec_versions tm t0) "versions".
Proof. reads_field dec_member. Qed.
End decoding.

(** * Findings *)

Section findings.
Context (w : vorder) (lx : lexicon) (d : doc) (fs : list finding).
Context (Hw : vorder_ok w) (HV : validated w lx d fs).
Lemma rest_reported f : f ∈ rest_findings lx d → f ∈ fs.
Proof using HV. intros Hf. openparts2 HV HP pad zs fr fl fm ff El Hlog Hman Hfix. apply HP. by do 8 right. Qed.
Lemma id_reported : dc_id d = "" → reported fs "E036".
Proof using HV. intros H. exists ["id"]. apply rest_reported. unfold rest_findings. rewrite !elem_of_app, !when_in. left. by rewrite H. Qed.
Lemma type_reported : dc_type d = "" → reported fs "E036".
Proof using HV. intros H. exists ["type"]. apply rest_reported. unfold rest_findings. rewrite !elem_of_app, !when_in. do 3 right. left. by rewrite H. Qed.
Lemma alg_reported : dc_alg d = "" → reported fs "E036".
Proof using HV.
  intros H. exists ["digestAlgorithm"]. apply rest_reported. unfold rest_findings. rewrite !elem_of_app, !when_in. do 4 right. left. by rewrite H.
Qed.
Lemma unknown_alg_reported : dc_alg d ≠ "sha512" → dc_alg d ≠ "sha256" → reported fs "E025".
Proof using HV.
  intros H1 H2. exists [dc_alg d]. apply rest_reported. unfold rest_findings. rewrite !elem_of_app, !when_in. do 5 right. left.
  rewrite decide_False by (by intros [?|?]). left.
Qed.
Lemma head_reported : os_err (dc_head d) = true → reported fs "E040".
Proof using HV. intros H. exists ["head"]. apply rest_reported. unfold rest_findings. rewrite !elem_of_app, !when_in. do 2 right. left. rewrite H. left. Qed.
Lemma no_head_reported : os_err (dc_head d) = false → os_val (dc_head d) = "" → reported fs "E036".
Proof using HV.
  intros H1 H2. exists ["head"]. apply rest_reported. unfold rest_findings. rewrite !elem_of_app, !when_in. do 2 right. left.
  rewrite H1, when_in. by rewrite H2.
Qed.
Lemma no_manifest_reported : dc_manifest d = None → reported fs "E041".
Proof using HV.
  intros H. openparts2 HV HP pad zs fr fl fm ff El Hlog Hman Hfix. exists ["manifest"]. apply HP. left. unfold start_findings.
  rewrite !elem_of_app, !when_in. left. by rewrite H.
Qed.
Lemma no_versions_reported : vers d = ∅ → reported fs "E008".
Proof using HV. intros H. openparts2 HV HP pad zs fr fl fm ff El Hlog Hman Hfix. exists []. apply HP. right. by left. Qed.

Lemma version_checked ver v z : has_version d ver v → version_value ver = Some z →
  ∃ fv, check_version w lx (man d) ver (fin_version ver v).2 = VDone fv ∧ fv ⊆ fs.
Proof using Hw HV.
  intros Hv%has_version_vers Hz. openparts2 HV HP pad zs fr fl fm ff El Hlog Hman Hfix.
  assert ((ver, (fin_version ver v).2) ∈ valued (fdoc w d) (vo w 5 (vers (fdoc w d)))) as Hin.
  { apply valued_in; [done|]. exists v. split; [done|]. split; [by eexists|done]. }
  destruct (loop_spec _ _ _ _ _ _ _ _ El) as (_ & _ & _ & Hok).
  destruct (proj1 Hok (ex_intro _ _ eq_refl) _ _ Hin) as [fv Hfv]. rewrite fdoc_man in Hfv. exists fv. split; [done|].
  intros f Hf. apply HP. do 3 right. left. by exists ver, (fin_version ver v).2, fv.
Qed.
Lemma version_reported ver v z : has_version d ver v → version_value ver = Some z →
  (∃ c, vd_created v = Some c ∧ (os_err c = true → reported fs "E049")) ∧
  (∀ m, vd_message v = Some m → os_err m = true → reported fs "E094") ∧
  (∀ u, vd_user v = Some u → u_err u = true → reported fs "E054") ∧
  (∀ u n, vd_user v = Some u → u_name u = Some n → os_err n = true → reported fs "E054") ∧
  (∀ u a, vd_user v = Some u → u_addr u = Some a → os_err a = true → reported fs "E054") ∧
  (∀ st, vd_state v = Some (st, true) → reported fs "E050").
Proof using Hw HV.
  intros Hv Hz. destruct (version_checked ver v z Hv Hz) as (fv & Hfv & Hsub). revert Hfv. unfold fin_version. rewrite Hz. cbn [snd].
  unfold check_version. cbn [vd_created vd_user vd_message vd_state fin_user].
  destruct (vd_created v) as [c|]; [|done]. destruct (default (∅, false) (vd_state v)) as [st e] eqn:Est.
  intros (fa & fb & Ha & _ & ->)%vseq_done. injection Ha as <-.
  assert (∀ code args, Finding code args ∈ fs → reported fs code) as Hr by (intros; by eexists).
  split; [|split; [|split; [|split; [|split]]]].
  - exists c. split; [done|]. intros H. eapply Hr, Hsub. rewrite !elem_of_app. do 2 left. rewrite when_in. split; [exact H|reflexivity].
  - intros m Hm H. rewrite Hm in Hsub. cbn [default] in Hsub. eapply Hr, Hsub. rewrite !elem_of_app, !when_in. left. do 5 right. left. split; [exact H|reflexivity].
  - intros u Hu H. rewrite Hu in Hsub. eapply Hr, Hsub. rewrite !elem_of_app, !when_in. left. right. left. split; [exact H|reflexivity].
  - intros u n Hu Hn H. rewrite Hu in Hsub. unfold default, from_option, id in Hsub. rewrite Hn in Hsub.
    eapply Hr, Hsub. rewrite !elem_of_app, !when_in. left. do 2 right. left. split; [exact H|reflexivity].
  - intros u n Hu Hn H. rewrite Hu in Hsub. unfold default, from_option, id in Hsub. rewrite Hn in Hsub.
    eapply Hr, Hsub. rewrite !elem_of_app, !when_in. left. do 3 right. left. split; [exact H|reflexivity].
  - intros st' Hst'. rewrite Hst' in Est. injection Est as -> <-. eapply Hr, Hsub. rewrite !elem_of_app, !when_in. left. do 6 right.
    split; [done|reflexivity].
Qed.
End findings.

(** * Members *)

Lemma spelled_refl name : spelled name name.
Proof. induction name; [constructor|by constructor]. Qed.
Lemma has_unique name l j j' : once name l → has name l j → has name l j' → j = j'.
Proof.
  intros Ho (k & Hk & (l1 & l2 & ->)%elem_of_list_split) (k' & Hk' & Hin). pose proof (Ho l1 k j l2 eq_refl Hk j') as Hno.
  apply elem_of_app in Hin as [Hin|Hin]; [|apply elem_of_cons in Hin as [Hin|Hin]]; [|congruence|].
  - exfalso. apply Hno. exists k'. split; [done|]. apply elem_of_app. by left.
  - exfalso. apply Hno. exists k'. split; [done|]. apply elem_of_app. by right.
Qed.
Lemma has_dec name l : is_ascii name = true → (∃ j, has name l j) ∨ (∀ j, ¬ has name l j).
Proof.
  intros Ha. induction l as [|[k j] l IH]; [right; intros j (k & _ & H); by apply elem_of_nil in H|].
  destruct (field name k) eqn:E.
  - left. exists j, k. split; [by apply field_spelled|left].
  - destruct IH as [(j' & k' & Hk & Hin)|IH]; [left; exists j', k'; split; [done|by right]|]. right.
    intros j' (k' & Hk & Hin). apply elem_of_cons in Hin as [[= -> ->]|Hin]; [|by apply (IH j'); exists k'].
    apply field_spelled in Hk; [|done]. congruence.
Qed.
Lemma member_has k l j : member k l = Some j → (k, j) ∈ l.
Proof.
  unfold member. assert (∀ r, foldl (λ r p, if bool_decide (p.1 = k) then Some p.2 else r) r l = Some j → (k, j) ∈ l ∨ r = Some j) as H.
  { induction l as [|[k' j'] l IH]; intros r; cbn [foldl fst snd]; [by right|]. intros [Hin|Hr]%IH; [left; by right|].
    case_bool_decide; [|by right]. subst k'. injection Hr as ->. left. left. }
  intros [Hin|Hr]%H; done.
Qed.
Lemma dec_members_lookup {A} (f : json → A * bool) l k j : NoDup l.*1 → (k, j) ∈ l → (dec_members f ∅ l).1 !! k = Some (f j).1.
Proof.
  unfold dec_members. cbn [fst]. generalize (∅ : gmap string A). induction l as [|[k' j'] l IH]; intros m; [intros _ H; by apply elem_of_nil in H|].
  cbn [fmap list_fmap fst foldl snd]. intros [Hno Hnd]%NoDup_cons Hin. apply elem_of_cons in Hin as [[= -> ->]|Hin]; [|by apply IH].
  clear IH. assert (∀ m : gmap string A, m !! k' = Some (f j').1 → foldl (λ m p, <[p.1 := (f p.2).1]> m) m l !! k' = Some (f j').1) as H.
  { clear Hnd m. induction l as [|[k2 j2] l IH]; intros m Hm; [done|]. cbn [foldl fst snd]. cbn [fmap list_fmap fst] in Hno.
    apply not_elem_of_cons in Hno as [Hne Hno]. apply IH; [done|]. by rewrite lookup_insert_ne. }
  apply H. by rewrite lookup_insert.
Qed.
Lemma dec_members_inv {A} (f : json → A * bool) l k a : (dec_members f ∅ l).1 !! k = Some a → ∃ j, (k, j) ∈ l ∧ a = (f j).1.
Proof.
  unfold dec_members. cbn [fst].
  assert (∀ m : gmap string A, foldl (λ m p, <[p.1 := (f p.2).1]> m) m l !! k = Some a → m !! k = Some a ∨ ∃ j, (k, j) ∈ l ∧ a = (f j).1) as H.
  { induction l as [|[k' j'] l IH]; intros m; [by left|]. cbn [foldl fst snd]. intros [Hm|(j & Hj & ->)]%IH; [|right; exists j; split; [by right|done]].
    destruct (decide (k' = k)) as [->|Hne]; [|rewrite lookup_insert_ne in Hm by done; by left].
    rewrite lookup_insert in Hm. injection Hm as <-. right. exists j'. split; [left|done]. }
  intros [Hm|Hm]%H; [by rewrite lookup_empty in Hm|done].
Qed.

(** The document that is read from the members. *)
Section members.
Context (fits : string → bool) (tm : string → option string) (t0 : string) (text : string) (l : list (string * json)) (d : doc).
Context (Hread : read text = Some (JObj l)) (Hdec : decode_text fits tm t0 text = Some d).
Lemma decoded : ∃ t h, has "type" l (JStr t) ∧
  let r := dec_inventory tm t0 (spec_of t) l in
  r_head r = Some h ∧ dc_id d = r_id r ∧ dc_type d = r_type r ∧ dc_alg d = r_alg r ∧ dc_head d = h ∧ dc_manifest d = r_manifest r ∧
  (∀ ver v, has_version d ver v ↔ ∃ vs, r_versions r = Some vs ∧ vs !! ver = Some (Some v)) ∧
  (∀ vs ver, r_versions r = Some vs → vs !! ver ≠ Some None).
Proof using Hread Hdec.
  revert Hdec. unfold decode_text, load_text. rewrite Hread. unfold load_json. destruct (negb _); [done|].
  destruct (member "type" l) as [jt|] eqn:Et; [|done]. destruct jt as [| | |t| |]; try done.
  set (r := dec_inventory tm t0 (spec_of t) l). destruct (no_nil r) as [d'|] eqn:En; [|done]. intros [= ->]. exists t.
  revert En. unfold no_nil. destruct (r_head r) as [h|] eqn:Eh; [|done]. exists h.
  assert (map_Forall (λ (_ : string) (v : option vdoc), is_Some v) (default ∅ (r_versions r)) ∧
    d = Doc (r_id r) (r_type r) (r_alg r) h (r_cdir r) (r_manifest r)
          ((λ m : gmap string (option vdoc), (omap (λ v : option vdoc, v) m : gmap string vdoc)) <$> r_versions r) (r_fixity r) ∅ [] 0) as [Hsome Hd].
  { revert En. case_bool_decide as Hb; [|done]. intros [= <-]. split; [exact Hb|reflexivity]. }
  rewrite Hd. cbv zeta. fold r. split; [exists "type"; split; [apply spelled_refl|by apply member_has]|]. cbn [dc_id dc_type dc_alg dc_head dc_manifest].
  split; [exact Eh|]. split; [done|]. split; [done|]. split; [done|]. split; [done|]. split; [done|]. split.
  - intros ver v. unfold has_version. cbn [dc_versions]. destruct (r_versions r) as [vs|]; cbn [fmap option_fmap option_map].
    + split.
      * intros (m & [= <-] & Hv). exists vs. split; [done|]. rewrite lookup_omap in Hv. by destruct (vs !! ver) as [[]|]; simpl in Hv; [injection Hv as ->| |].
      * intros (vs' & [= <-] & Hv). eexists. split; [reflexivity|]. rewrite lookup_omap, Hv. done.
    + split; [by intros (? & ? & _)|by intros (? & ? & _)].
  - intros vs ver Hvs Hv. rewrite Hvs in Hsome. apply Hsome in Hv. by apply is_Some_None in Hv.
Qed.
End members.
