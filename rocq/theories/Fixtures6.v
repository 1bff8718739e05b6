(** Objects stored with the JSON text that the program writes. *)
From Coq Require Import Ascii.
From stdpp Require Import base list strings gmap.
From Coq Require Import ZArith Lia.
From Verif Require Import GoStr Utf8Model InventoryModel InventorySpec ObjectModel ObjectSpec CrashSpec LoadModel ValidateModel ValidateSpec CheckModel
  PublishSpec LayoutSpec JsonModel JsonSpec JsonInvModel JsonInvSpec Fixtures Fixtures2 Fixtures3 Fixtures5.

Definition utf8b (s : string) : bool :=
  forallb (λ n, bool_decide (scalar n)) (runes s) && bool_decide (encode (runes s) = s).
Lemma utf8b_true s : utf8b s = true → valid_utf8 s.
Proof.
  intros [H1 H2]%andb_prop. apply bool_decide_eq_true in H2. exists (runes s). split; [|done]. apply Forall_forall. intros n Hn.
  rewrite forallb_forall in H1. apply elem_of_list_In, H1 in Hn.
  by apply bool_decide_eq_true in Hn.
Qed.
Definition utf8_mapb (m : smap) : bool := forallb (λ x : string * list string, utf8b x.1 && forallb utf8b x.2) (map_to_list m).
Lemma utf8_mapb_true m : utf8_mapb m = true → utf8_map m.
Proof.
  intros H d l Hd. unfold utf8_mapb in H. rewrite forallb_forall in H. apply elem_of_map_to_list, elem_of_list_In, H in Hd. cbn [fst snd] in Hd.
  apply andb_prop in Hd as [H1 H2]. split; [by apply utf8b_true|]. intros p Hp. rewrite forallb_forall in H2. by apply elem_of_list_In, H2, utf8b_true in Hp.
Qed.
Definition namedb (m : smap) : bool := forallb (λ x : string * list string, bool_decide ("" ∉ x.2)) (map_to_list m).
Lemma namedb_true m : namedb m = true → named m.
Proof.
  intros H d l Hd. unfold namedb in H. rewrite forallb_forall in H. apply elem_of_map_to_list, elem_of_list_In, H in Hd.
  by apply bool_decide_eq_true in Hd.
Qed.
Definition storableb (tm : string → option string) (i : inventory) : bool :=
  forallb utf8b [inv_id i; inv_type i; inv_alg i; inv_head i; inv_contentdir i] && utf8_mapb (inv_manifest i) && namedb (inv_manifest i) &&
  forallb (λ x : string * version, let v := x.2 in
    forallb utf8b [x.1; v_created v; v_message v; v_uname v; v_uaddr v] && utf8_mapb (v_state v) && namedb (v_state v) &&
    bool_decide (tm (v_created v) = Some (v_created v)) &&
    existsb (λ k, bool_decide (x.1 = version_name (inv_padding i) (N.of_nat k))) (seq 1 20)) (map_to_list (inv_versions i)) &&
  forallb (λ x : string * smap, utf8b x.1 && utf8_mapb x.2 && namedb x.2) (map_to_list (inv_fixity i)) &&
  bool_decide (inv_padding i = 0%Z) && bool_decide (inv_versions i ≠ ∅).
Lemma storableb_true tm i : storableb tm i = true → storable tm i.
Proof.
  intros [[[[[[H1 H2]%andb_prop H3]%andb_prop H4]%andb_prop H5]%andb_prop H6]%andb_prop H7]%andb_prop.
  apply bool_decide_eq_true in H6, H7. rewrite forallb_forall in H1, H4, H5.
  assert (∀ x, x ∈ [inv_id i; inv_type i; inv_alg i; inv_head i; inv_contentdir i] → valid_utf8 x) as Hs.
  { intros x Hx. by apply elem_of_list_In, H1, utf8b_true in Hx. }
  assert (∀ ver v, inv_versions i !! ver = Some v → (valid_utf8 ver ∧ utf8_version v) ∧ tm (v_created v) = Some (v_created v) ∧ named (v_state v) ∧
    ∃ k, (1 <= k)%N ∧ ver = version_name (inv_padding i) k) as Hv.
  { intros ver v Hv. apply elem_of_map_to_list, elem_of_list_In, H4 in Hv. cbv zeta in Hv. cbn [fst snd] in Hv.
    apply andb_prop in Hv as [[[[A B]%andb_prop C]%andb_prop D]%andb_prop F]. rewrite forallb_forall in A.
    assert (∀ x, x ∈ [ver; v_created v; v_message v; v_uname v; v_uaddr v] → valid_utf8 x) as Hx.
    { intros x Hx. by apply elem_of_list_In, A, utf8b_true in Hx. }
    split; [split|split; [|split]].
    - apply Hx. left.
    - split; [apply Hx; set_solver..|by apply utf8_mapb_true].
    - by apply bool_decide_eq_true in D.
    - by apply namedb_true.
    - apply existsb_exists in F as (k & Hk & Hb). apply in_seq in Hk. apply bool_decide_eq_true in Hb. exists (N.of_nat k). split; [lia|done]. }
  assert (∀ a m, inv_fixity i !! a = Some m → valid_utf8 a ∧ utf8_map m ∧ named m) as Hf.
  { intros a m Ha. apply elem_of_map_to_list, elem_of_list_In, H5 in Ha. cbn [fst snd] in Ha. apply andb_prop in Ha as [[A B]%andb_prop C].
    split; [by apply utf8b_true|]. split; [by apply utf8_mapb_true|by apply namedb_true]. }
  split; [|split; [|split]].
  - split; try (apply Hs; set_solver).
    + by apply utf8_mapb_true.
    + intros ver v Hver. by apply Hv.
    + intros a m Ha. by destruct (Hf a m Ha) as (? & ? & _).
  - intros ver v Hver. by destruct (Hv ver v Hver) as (_ & ? & _).
  - split; [by apply namedb_true| |].
    + intros ver v Hver. by destruct (Hv ver v Hver) as (_ & _ & ? & _).
    + intros a m Ha. by destruct (Hf a m Ha) as (_ & _ & ?).
  - split; [done|]. split; [by rewrite H6|]. intros ver v Hver. destruct (Hv ver v Hver) as (_ & _ & _ & k & Hk & ->). exists k. split; [done|].
    split; [done|]. by left.
Qed.

(** Every number is in range; times are printed with twenty characters. *)
Definition fits0 (_ : string) : bool := true.
Definition tm0 (s : string) : option string := if decide (String.length s = 20) then Some s else None.
Definition zero_time : string := "0001-01-01T00:00:00Z".
Definition tparse : string → option inventory := parse_text fits0 tm0 zero_time wd lx0.
Definition tdecode : string → option doc := decode_text fits0 tm0 zero_time.
Definition tenv : env := Env hexh inventory_text (λ p _, Some p) (λ p _, Some p) [("initial/config.json", "{}")].
Lemma hexh_utf8 : utf8_hash hexh.
Proof.
  intros alg x d. unfold hexh. destruct (decide (alg = "sha512")) as [->|]; [intros _; by apply utf8b_true; vm_compute|].
  destruct (decide (alg = "md5")) as [->|]; [intros _; by apply utf8b_true; vm_compute|done].
Qed.

(** File names with an umlaut, characters that are escaped in HTML, a quote and a backslash, a line feed, a line separator and a character outside
    the basic plane. *)
Definition umlaut : string := String "195" (String "188" ""). 
Definition quoted : string := String "034" "q\".
Definition feed : string := String "b" (String "010" "c").
Definition odd : string := String "226" (String "128" (String "168" (String "240" (String "159" (String "152" (String "128" "")))))).
Definition tmade1 : option (storage * inventory) :=
  completeb inventory_text [("2024-01-01T00:00:00Z", [SAdd "x" (umlaut +:+ "/<&>") "" true; SAdd "y" quoted "" false])] store0 fresh0.
Definition tmade2 : option (storage * inventory) :=
  '(s, i) ← tmade1; i' ← loadb tparse s;
  if supportedb i' then
    completeb inventory_text [("2024-02-02T00:00:00Z", [SDelete quoted "a79"; SAdd "z" feed "" true; SRename (umlaut +:+ "/<&>") odd "a78"]);
               ("2024-03-03T00:00:00Z", [SAdd "x" "e" "" true; SDelete odd "a78"; SAddReader "w" ["f"; "g"] ""])] s i'
  else None.
Definition tchecks : bool :=
  match tmade1, tmade2 with
  | Some (s1, i1), Some (s, i) => storableb tm0 i1 && storableb tm0 i && proper_namesb i && bool_decide (inv_head i = "v3") && bool_decide (content_name i = "content") &&
      bool_decide (size (inv_manifest i) = 4) && bool_decide (size s = 14)
  | _, _ => false
  end.
Lemma tmade_checked : tchecks = true.
Proof. by vm_compute. Qed.
Lemma tmade_published s i : tmade2 = Some (s, i) → published tenv (storable tm0) tparse s i.
Proof.
  pose proof tmade_checked as Hc. unfold tchecks in Hc. intros H2. rewrite H2 in Hc. revert Hc H2. unfold tmade2.
  destruct tmade1 as [[s1 i1]|] eqn:E1; [|done]. simpl.
  intros [[[[[[Hs1 Hs2]%andb_prop _]%andb_prop _]%andb_prop _]%andb_prop _]%andb_prop _]%andb_prop.
  destruct (loadb tparse s1) as [i2|] eqn:E2; [|done]. simpl.
  destruct (supportedb i2) eqn:E3; [|done]. intros H. eapply (published_next _ _ _ s1 i1 i2).
  - eapply published_first; [exact fresh0_fresh|exact store0_declared|apply supportedb_true; by vm_compute|by eapply completeb_true|].
    by apply storableb_true.
  - exact (loadb_true _ _ _ E2).
  - exact (supportedb_true _ _ E3).
  - exact (completeb_true _ _ _ _ _ _ H).
  - by apply storableb_true.
Qed.
