(** The reader takes nothing but JSON texts. *)
From Coq Require Import Ascii.
From stdpp Require Import base list strings sets.
From Coq Require Import ZArith Lia ZifyN.
From Verif Require Import GoStr Utf8Model Utf8Proofs LayoutSpec JsonModel JsonSpec JsonProofs JsonTextSpec JsonTextProofs.

Local Notation sp := (spells True).
Local Notation one c := (String c "").

(** * What has been read, by state *)
(** [opened stk p]: after [p] the frames [stk] are open and a value is expected; [openedk l stk p]: a key is expected. *)
Inductive opened : list frame → string → Prop :=
| op_top w : ws w → opened [] w
| op_first stk p w : opened stk p → ws w → opened (FArr [] :: stk) (p +:+ "[" +:+ w)
| op_item l stk p t j w1 w2 : opened (FArr l :: stk) p → jtext sp t j → ws w1 → ws w2 → opened (FArr (j :: l) :: stk) (p +:+ t +:+ w1 +:+ "," +:+ w2)
| op_member l stk p k key w1 w2 : openedk l stk p → sp k key → ws w1 → ws w2 → opened (FObj l key :: stk) (p +:+ dq +:+ k +:+ dq +:+ w1 +:+ ":" +:+ w2)
with openedk : list (string * json) → list frame → string → Prop :=
| ok_first stk p w : opened stk p → ws w → openedk [] stk (p +:+ "{" +:+ w)
| ok_more l key stk p t j w1 w2 : opened (FObj l key :: stk) p → jtext sp t j → ws w1 → ws w2 → openedk ((key, j) :: l) stk (p +:+ t +:+ w1 +:+ "," +:+ w2).
Scheme opened_ind' := Minimality for opened Sort Prop
  with openedk_ind' := Minimality for openedk Sort Prop.
Combined Scheme opened_mutind from opened_ind', openedk_ind'.

Lemma opened_ws stk p w : opened stk p → ws w → opened stk (p +:+ w).
Proof. intros [] Hw; rewrite <- ?str_app_assoc; constructor; try done; by apply ws_app. Qed.
Lemma openedk_ws l stk p w : openedk l stk p → ws w → openedk l stk (p +:+ w).
Proof. intros [] Hw; rewrite <- ?str_app_assoc; econstructor; try done; by apply ws_app. Qed.
Lemma items_ws w t l : ws w → items sp t l → items sp (w +:+ t) l.
Proof. intros Hw []; rewrite str_app_assoc; constructor; try done; by apply ws_app. Qed.
Lemma members_ws w t l : ws w → members sp t l → members sp (w +:+ t) l.
Proof. intros Hw []; rewrite str_app_assoc; constructor; try done; by apply ws_app. Qed.
Lemma ws_nil : ws "".
Proof. constructor. Qed.

Definition closes (stk : list frame) (p : string) : Prop :=
  match stk with
  | [] => True
  | FArr l :: stk => ∃ p0 r, opened stk p0 ∧ p = p0 +:+ "[" +:+ r ∧ ∀ t l', items sp t l' → items sp (r +:+ t) (rev l ++ l')
  | FObj l key :: stk => ∃ p0 r, opened stk p0 ∧ p = p0 +:+ "{" +:+ r ∧ ∀ t j w, jtext sp t j → ws w →
      members sp (r +:+ t +:+ w) (rev l ++ [(key, j)]) ∧
      ∀ r' l', members sp r' l' → members sp (r +:+ t +:+ w +:+ "," +:+ r') (rev l ++ (key, j) :: l')
  end.
Lemma all_close :
  (∀ stk p, opened stk p → closes stk p) ∧
  (∀ l stk p, openedk l stk p → ∃ p0 r, opened stk p0 ∧ p = p0 +:+ "{" +:+ r ∧ ∀ t l', members sp t l' → members sp (r +:+ t) (rev l ++ l')).
Proof.
  apply (opened_mutind (λ stk p, closes stk p)
    (λ l stk p, ∃ p0 r, opened stk p0 ∧ p = p0 +:+ "{" +:+ r ∧ ∀ t l', members sp t l' → members sp (r +:+ t) (rev l ++ l'))).
  - done.
  - intros stk p w Hp _ Hw. exists p, w. split; [done|]. split; [done|]. intros t l'. by apply items_ws.
  - intros l stk p t j w1 w2 _ (p0 & r & H0 & -> & H) Hj Hw1 Hw2. exists p0, (r +:+ t +:+ w1 +:+ "," +:+ w2). split; [done|]. split; [by rewrite <- !str_app_assoc|].
    intros u l' Hu. cbn [rev]. rewrite <- app_assoc, <- !str_app_assoc. apply H. change (t +:+ ?y) with ("" +:+ t +:+ y). apply items_more; [apply ws_nil|done|done|]. by apply items_ws.
  - intros l stk p k key w1 w2 _ (p0 & r & H0 & -> & H) Hk Hw1 Hw2. exists p0, (r +:+ dq +:+ k +:+ dq +:+ w1 +:+ ":" +:+ w2). split; [done|]. split; [by rewrite <- !str_app_assoc|].
    intros t j w Hj Hw. split.
    + rewrite <- !str_app_assoc. apply H. change (dq +:+ k +:+ ?y) with ("" +:+ dq +:+ k +:+ y). apply members_one; try done; apply ws_nil.
    + intros r' l' Hr. rewrite <- !str_app_assoc. apply H. change (dq +:+ k +:+ ?y) with ("" +:+ dq +:+ k +:+ y). apply members_more; try done; apply ws_nil.
  - intros stk p w Hp _ Hw. exists p, w. split; [done|]. split; [done|]. intros t l'. by apply members_ws.
  - intros l key stk p t j w1 w2 _ (p0 & r & H0 & -> & H) Hj Hw1 Hw2. exists p0, (r +:+ t +:+ w1 +:+ "," +:+ w2). split; [done|]. split; [by rewrite <- !str_app_assoc|].
    intros u l' Hu. cbn [rev]. rewrite <- app_assoc, <- !str_app_assoc. apply (H t j w1 Hj Hw1). by apply members_ws.
Qed.

(** * Numbers *)
Definition big (w : string) : Prop := ∃ c s, w = String c s ∧ (49 <= code c <= 57)%N ∧ all_in dig s.
Definition numpart (ns : nstate) (t : string) : Prop :=
  match ns with
  | NNeg => t = "-"
  | NZero => ∃ m, m ∈ [""; "-"] ∧ t = m +:+ "0"
  | NInt => ∃ m w, m ∈ [""; "-"] ∧ big w ∧ t = m +:+ w
  | NDot => ∃ m w, m ∈ [""; "-"] ∧ whole w ∧ t = m +:+ w +:+ "."
  | NFrac => ∃ m w s, m ∈ [""; "-"] ∧ whole w ∧ digs s ∧ t = m +:+ w +:+ "." +:+ s
  | NExp => ∃ m w f e, m ∈ [""; "-"] ∧ whole w ∧ fraction f ∧ e ∈ ["e"; "E"] ∧ t = m +:+ w +:+ f +:+ e
  | NSign => ∃ m w f e g, m ∈ [""; "-"] ∧ whole w ∧ fraction f ∧ e ∈ ["e"; "E"] ∧ g ∈ [""; "+"; "-"] ∧ t = m +:+ w +:+ f +:+ e +:+ g
  | NExpInt => ∃ m w f e g s, m ∈ [""; "-"] ∧ whole w ∧ fraction f ∧ e ∈ ["e"; "E"] ∧ g ∈ [""; "+"; "-"] ∧ digs s ∧ t = m +:+ w +:+ f +:+ e +:+ g +:+ s
  end.
Lemma is_char_true n c : is_char n c = true → c = ascii_of_N n.
Proof. unfold is_char. intros H%N.eqb_eq. by apply ascii_code. Qed.
Lemma digit_dig c : digit c = true → dig c.
Proof. unfold digit, dig, code. intros [?%N.leb_le ?%N.leb_le]%andb_prop. done. Qed.
Lemma all_in_snoc s c : all_in dig s → dig c → all_in dig (s +:+ one c).
Proof. intros. unfold all_in. rewrite list_ascii_app. apply Forall_app. split; [done|]. by constructor. Qed.
Lemma digs_snoc s c : digs s → dig c → digs (s +:+ one c).
Proof. intros [H1 H2] Hc. split; [|by apply all_in_snoc]. destruct s; [done|by rewrite str_app_cons]. Qed.
Lemma digs_one c : dig c → digs (one c).
Proof. intros Hc. split; [done|]. by constructor. Qed.
Lemma big_snoc w c : big w → dig c → big (w +:+ one c).
Proof. intros (a & s & -> & H1 & H2) Hc. exists a, (s +:+ one c). split; [done|]. split; [done|by apply all_in_snoc]. Qed.
Lemma big_whole w : big w → whole w.
Proof. intros (a & s & -> & H1 & H2). by constructor. Qed.
Lemma exp_char c : is_char 101 c || is_char 69 c = true → one c ∈ ["e"; "E"].
Proof. intros [->%is_char_true| ->%is_char_true]%orb_true_iff; apply elem_of_list_In; vm_compute; tauto. Qed.
Lemma sign_char c : is_char 43 c || is_char 45 c = true → one c ∈ [""; "+"; "-"].
Proof. intros [->%is_char_true| ->%is_char_true]%orb_true_iff; apply elem_of_list_In; vm_compute; tauto. Qed.
Lemma dig_one c : digit c = true → is_char 48 c = false → (49 <= code c <= 57)%N.
Proof. intros H%digit_dig E. unfold is_char in E. apply N.eqb_neq in E. unfold dig, code in *. lia. Qed.
Lemma numpart_begin c ns : (is_char 45 c = true ∧ ns = NNeg) ∨ (is_char 48 c = true ∧ ns = NZero) ∨ (digit c = true ∧ is_char 48 c = false ∧ ns = NInt) → numpart ns (one c).
Proof.
  intros [[->%is_char_true ->]|[[->%is_char_true ->]|(H & E & ->)]]; cbn [numpart].
  - done.
  - exists "". split; [apply elem_of_list_In; cbn; tauto|done].
  - exists "", (one c). split; [apply elem_of_list_In; cbn; tauto|]. split; [|done]. exists c, "". split; [done|]. split; [by apply dig_one|constructor].
Qed.
Lemma numpart_step ns t c ns' : numpart ns t → num_step ns c = Some ns' → numpart ns' (t +:+ one c).
Proof.
  destruct ns; cbn [numpart num_step].
  - intros ->. destruct (is_char 48 c) eqn:E1; [intros [= <-]; apply is_char_true in E1 as ->; exists "-"; split; [apply elem_of_list_In; cbn; tauto|done]|].
    destruct (digit c) eqn:E2; [|done]. intros [= <-]. exists "-", (one c). split; [apply elem_of_list_In; cbn; tauto|]. split; [|done]. exists c, "". split; [done|]. split; [by apply dig_one|constructor].
  - intros (m & Hm & ->). destruct (is_char 46 c) eqn:E1; [intros [= <-]; apply is_char_true in E1 as ->; exists m, "0"; split; [done|]; split; [constructor|by rewrite <- !str_app_assoc]|].
    destruct (is_char 101 c || is_char 69 c) eqn:E2; [|done]. intros [= <-]. exists m, "0", "", (one c). split; [done|]. split; [constructor|]. split; [constructor|]. split; [by apply exp_char|by rewrite <- !str_app_assoc].
  - intros (m & w & Hm & Hw & ->). destruct (digit c) eqn:E0; [intros [= <-]; exists m, (w +:+ one c); split; [done|]; split; [apply big_snoc; [done|by apply digit_dig]|by rewrite <- !str_app_assoc]|].
    apply big_whole in Hw. destruct (is_char 46 c) eqn:E1; [intros [= <-]; apply is_char_true in E1 as ->; exists m, w; split; [done|]; split; [done|by rewrite <- !str_app_assoc]|].
    destruct (is_char 101 c || is_char 69 c) eqn:E2; [|done]. intros [= <-]. exists m, w, "", (one c). split; [done|]. split; [done|]. split; [constructor|]. split; [by apply exp_char|by rewrite <- !str_app_assoc].
  - intros (m & w & Hm & Hw & ->). destruct (digit c) eqn:E0; [|done]. intros [= <-]. exists m, w, (one c). split; [done|]. split; [done|]. split; [by apply digs_one, digit_dig|by rewrite <- !str_app_assoc].
  - intros (m & w & s & Hm & Hw & Hs & ->). destruct (digit c) eqn:E0; [intros [= <-]; exists m, w, (s +:+ one c); split; [done|]; split; [done|]; split; [apply digs_snoc; [done|by apply digit_dig]|by rewrite <- !str_app_assoc]|].
    destruct (is_char 101 c || is_char 69 c) eqn:E2; [|done]. intros [= <-]. exists m, w, ("." +:+ s), (one c). split; [done|]. split; [done|]. split; [by constructor|]. split; [by apply exp_char|by rewrite <- !str_app_assoc].
  - intros (m & w & f & e & Hm & Hw & Hf & He & ->). destruct (is_char 43 c || is_char 45 c) eqn:E1.
    { intros [= <-]. exists m, w, f, e, (one c). split_and!; try done; [by apply sign_char|by rewrite <- !str_app_assoc]. }
    destruct (digit c) eqn:E0; [|done]. intros [= <-]. exists m, w, f, e, "", (one c). split; [done|]. split; [done|]. split; [done|]. split; [done|]. split; [apply elem_of_list_In; cbn; tauto|]. split; [by apply digs_one, digit_dig|by rewrite <- !str_app_assoc].
  - intros (m & w & f & e & g & Hm & Hw & Hf & He & Hg & ->). destruct (digit c) eqn:E0; [|done]. intros [= <-]. exists m, w, f, e, g, (one c).
    split; [done|]. split; [done|]. split; [done|]. split; [done|]. split; [done|]. split; [by apply digs_one, digit_dig|by rewrite <- !str_app_assoc].
  - intros (m & w & f & e & g & s & Hm & Hw & Hf & He & Hg & Hs & ->). destruct (digit c) eqn:E0; [|done]. intros [= <-]. exists m, w, f, e, g, (s +:+ one c).
    split; [done|]. split; [done|]. split; [done|]. split; [done|]. split; [done|]. split; [apply digs_snoc; [done|by apply digit_dig]|by rewrite <- !str_app_assoc].
Qed.
Lemma numpart_ends ns t : numpart ns t → num_ends ns = true → number t.
Proof.
  destruct ns; cbn [numpart num_ends]; try done.
  - intros (m & Hm & ->) _. apply (Number m "0" "" ""); [done|constructor|constructor|constructor].
  - intros (m & w & Hm & Hw & ->) _. replace (m +:+ w) with (m +:+ w +:+ "" +:+ "") by (by rewrite !str_app_nil_r). apply Number; [done|by apply big_whole|constructor|constructor].
  - intros (m & w & s & Hm & Hw & Hs & ->) _. replace (m +:+ w +:+ "." +:+ s) with (m +:+ w +:+ ("." +:+ s) +:+ "") by (by rewrite !str_app_nil_r). apply Number; [done|done|by constructor|constructor].
  - intros (m & w & f & e & g & s & Hm & Hw & Hf & He & Hg & Hs & ->) _. apply Number; [done|done|done|by constructor].
Qed.

(** * The invariant *)
Definition awaits (d : dest) (p : string) : Prop := match d with DVal stk => opened stk p | DKey l stk => openedk l stk p end.
Definition hexes (s : string) : Prop := all_in (λ c, is_Some (hexv c)) s.
Definition reach (st : state) (p : string) : Prop :=
  match st with
  | SValue stk => opened stk p
  | SFirst stk => ∃ p0 w, opened stk p0 ∧ ws w ∧ p = p0 +:+ "[" +:+ w
  | SFirstKey stk => ∃ p0 w, opened stk p0 ∧ ws w ∧ p = p0 +:+ "{" +:+ w
  | SKey l stk => openedk l stk p
  | SColon l key stk => ∃ p0 k w, openedk l stk p0 ∧ sp k key ∧ ws w ∧ p = p0 +:+ dq +:+ k +:+ dq +:+ w
  | SEnd v stk => ∃ p0 t w, opened stk p0 ∧ jtext sp t v ∧ ws w ∧ p = p0 +:+ t +:+ w
  | SStr raw d => ∃ p0, awaits d p0 ∧ string_text (text raw) ∧ p = p0 +:+ dq +:+ text raw
  | SEsc raw d => ∃ p0 t, awaits d p0 ∧ string_text t ∧ text raw = t +:+ "\" ∧ p = p0 +:+ dq +:+ text raw
  | SHex n raw d => ∃ p0 t h, awaits d p0 ∧ string_text t ∧ hexes h ∧ String.length h + n = 3 ∧ text raw = t +:+ "\u" +:+ h ∧ p = p0 +:+ dq +:+ text raw
  | SNum raw ns stk => ∃ p0, opened stk p0 ∧ numpart ns (text raw) ∧ p = p0 +:+ text raw
  | SLit rest v stk => ∃ p0 t, opened stk p0 ∧ jtext sp (t +:+ rest) v ∧ rest ≠ "" ∧ p = p0 +:+ t
  end.
Lemma ws_one c : is_space c = true → ws (one c).
Proof. intros H. constructor; [by apply space_code|constructor]. Qed.
Lemma reach_begin stk p c st : opened stk p → begin_value stk c = Some st → reach st (p +:+ one c).
Proof.
  intros Hp. unfold begin_value.
  destruct (is_char 123 c) eqn:E1; [apply is_char_true in E1 as ->; destruct (room stk); [|done]; intros [= <-]; exists p, ""; split; [done|]; split; [apply ws_nil|by rewrite str_app_nil_r]|].
  destruct (is_char 91 c) eqn:E2; [apply is_char_true in E2 as ->; destruct (room stk); [|done]; intros [= <-]; exists p, ""; split; [done|]; split; [apply ws_nil|by rewrite str_app_nil_r]|].
  destruct (is_char 34 c) eqn:E3; [apply is_char_true in E3 as ->; intros [= <-]; exists p; split; [done|]; split; [constructor|done]|].
  destruct (is_char 45 c) eqn:E4; [intros [= <-]; exists p; split; [done|]; split; [apply numpart_begin; tauto|done]|].
  destruct (is_char 48 c) eqn:E5; [intros [= <-]; exists p; split; [done|]; split; [apply numpart_begin; tauto|done]|].
  destruct (digit c) eqn:E6; [intros [= <-]; exists p; split; [done|]; split; [apply numpart_begin; tauto|done]|].
  destruct (is_char 116 c) eqn:E7; [apply is_char_true in E7 as ->; intros [= <-]; exists p, "t"; split; [done|]; split; [constructor|done]|].
  destruct (is_char 102 c) eqn:E8; [apply is_char_true in E8 as ->; intros [= <-]; exists p, "f"; split; [done|]; split; [constructor|done]|].
  destruct (is_char 110 c) eqn:E9; [apply is_char_true in E9 as ->; intros [= <-]; exists p, "n"; split; [done|]; split; [constructor|done]|done].
Qed.
Lemma reach_end v stk p c st : reach (SEnd v stk) p → end_value v stk c = Some st → reach st (p +:+ one c).
Proof.
  intros (p0 & t & w & Hp & Ht & Hw & ->). unfold end_value. destruct (is_space c) eqn:E.
  { intros [= <-]. exists p0, t, (w +:+ one c). split; [done|]. split; [done|]. split; [apply ws_app; [done|by apply ws_one]|by rewrite <- !str_app_assoc]. }
  destruct stk as [|[l|l key] stk]; [done| |].
  - destruct (is_char 44 c) eqn:E1; [apply is_char_true in E1 as ->; intros [= <-]|].
    { cbn [reach]. rewrite <- !str_app_assoc. change (one (ascii_of_N 44)) with ("," +:+ ""). apply op_item; try done. apply ws_nil. }
    destruct (is_char 93 c) eqn:E2; [|done]. apply is_char_true in E2 as ->. intros [= <-]. destruct (proj1 all_close _ _ Hp) as (q & r & Hq & -> & H).
    exists q, ("[" +:+ (r +:+ t +:+ w) +:+ "]"), "". split; [done|]. split; [|split; [apply ws_nil|by rewrite <- !str_app_assoc]]. apply jt_array. cbn [rev]. apply H.
    change (t +:+ w) with ("" +:+ t +:+ w). apply items_one; [apply ws_nil|done|done].
  - destruct (is_char 44 c) eqn:E1; [apply is_char_true in E1 as ->; intros [= <-]|].
    { cbn [reach]. rewrite <- !str_app_assoc. change (one (ascii_of_N 44)) with ("," +:+ ""). apply ok_more; try done. apply ws_nil. }
    destruct (is_char 125 c) eqn:E2; [|done]. apply is_char_true in E2 as ->. intros [= <-]. destruct (proj1 all_close _ _ Hp) as (q & r & Hq & -> & H).
    exists q, ("{" +:+ (r +:+ t +:+ w) +:+ "}"), "". split; [done|]. split; [|split; [apply ws_nil|by rewrite <- !str_app_assoc]]. apply jt_object. cbn [rev]. by apply (H t v w).
Qed.
Lemma reach_num raw ns stk p : reach (SNum raw ns stk) p → num_ends ns = true → reach (SEnd (JNum (text raw)) stk) p.
Proof.
  intros (p0 & Hp & Hn & ->) He. exists p0, (text raw), "". split; [done|]. split; [constructor; by eapply numpart_ends|]. split; [apply ws_nil|by rewrite str_app_nil_r].
Qed.
Lemma hexes_snoc h c : hexes h → is_Some (hexv c) → hexes (h +:+ one c).
Proof. intros. unfold hexes, all_in. rewrite list_ascii_app. apply Forall_app. split; [done|]. by constructor. Qed.
Lemma hexes_unit h : hexes h → String.length h = 4 → ∃ n, hex_unit h n.
Proof.
  intros Hh Hl. destruct h as [|a [|b [|c [|d [|]]]]]; try done. do 4 (apply Forall_cons in Hh as [[? ?%v_hex_value] Hh]). eexists. by constructor.
Qed.
Lemma reach_step st p c st' : reach st p → step st c = Some st' → reach st' (p +:+ one c).
Proof.
  destruct st as [stk|stk|stk|l stk|l key stk|v stk|raw d|raw d|n raw d|raw ns stk|rest v stk]; unfold step.
  - intros Hp. destruct (is_space c) eqn:E; [intros [= <-]; apply opened_ws; [done|by apply ws_one]|]. by apply reach_begin.
  - intros (p0 & w & Hp & Hw & ->). destruct (is_space c) eqn:E.
    { intros [= <-]. exists p0, (w +:+ one c). split; [done|]. split; [apply ws_app; [done|by apply ws_one]|by rewrite <- !str_app_assoc]. }
    destruct (is_char 93 c) eqn:E1; [apply is_char_true in E1 as ->; intros [= <-]; exists p0, ("[" +:+ w +:+ "]"), ""; split; [done|]; split; [by constructor|]; split; [apply ws_nil|by rewrite <- !str_app_assoc]|].
    apply reach_begin. by apply op_first.
  - intros (p0 & w & Hp & Hw & ->). destruct (is_space c) eqn:E.
    { intros [= <-]. exists p0, (w +:+ one c). split; [done|]. split; [apply ws_app; [done|by apply ws_one]|by rewrite <- !str_app_assoc]. }
    destruct (is_char 125 c) eqn:E1; [apply is_char_true in E1 as ->; intros [= <-]; exists p0, ("{" +:+ w +:+ "}"), ""; split; [done|]; split; [by constructor|]; split; [apply ws_nil|by rewrite <- !str_app_assoc]|].
    destruct (is_char 34 c) eqn:E2; [|done]. apply is_char_true in E2 as ->. intros [= <-]. exists (p0 +:+ "{" +:+ w). split; [by apply ok_first|]. split; [constructor|done].
  - intros Hp. destruct (is_space c) eqn:E; [intros [= <-]; apply openedk_ws; [done|by apply ws_one]|].
    destruct (is_char 34 c) eqn:E2; [|done]. apply is_char_true in E2 as ->. intros [= <-]. exists p. split; [done|]. split; [constructor|done].
  - intros (p0 & k & w & Hp & Hk & Hw & ->). destruct (is_space c) eqn:E.
    { intros [= <-]. exists p0, k, (w +:+ one c). split; [done|]. split; [done|]. split; [apply ws_app; [done|by apply ws_one]|by rewrite <- !str_app_assoc]. }
    destruct (is_char 58 c) eqn:E2; [|done]. apply is_char_true in E2 as ->. intros [= <-]. cbn [reach]. rewrite <- !str_app_assoc. change (one (ascii_of_N 58)) with (":" +:+ ""). apply op_member; try done. apply ws_nil.
  - apply reach_end.
  - intros (p0 & Hp & Hr & ->). destruct (is_char 34 c) eqn:E1.
    { apply is_char_true in E1 as ->. intros [= <-]. apply string_text_spells in Hr. unfold end_string. destruct d as [stk|l stk].
      - exists p0, (dq +:+ text raw +:+ dq), "". split; [done|]. split; [by constructor|]. split; [apply ws_nil|by rewrite <- !str_app_assoc].
      - exists p0, (text raw), "". split; [done|]. split; [done|]. split; [apply ws_nil|by rewrite <- !str_app_assoc]. }
    destruct (is_char 92 c) eqn:E2; [apply is_char_true in E2 as ->; intros [= <-]; exists p0, (text raw); split; [done|]; split; [done|]; rewrite text_snoc; split; [done|by rewrite <- !str_app_assoc]|].
    destruct (N_of_ascii c <? 32)%N eqn:E3; [done|]. intros [= <-]. exists p0. rewrite text_snoc. split; [done|]. split; [|by rewrite <- !str_app_assoc].
    apply string_text_app; [done|]. apply N.ltb_ge in E3. unfold is_char in E1, E2. apply N.eqb_neq in E1, E2. apply string_plain; [done..|constructor].
  - intros (p0 & t & Hp & Ht & Hr & ->). destruct (is_char 117 c) eqn:E1.
    { apply is_char_true in E1 as ->. intros [= <-]. exists p0, t, "". rewrite text_snoc, Hr. split; [done|]. split; [done|]. split; [constructor|]. split; [done|]. split; by rewrite <- !str_app_assoc. }
    destruct (unesc c) as [c'|] eqn:E2; [|done]. intros [= <-]. destruct (unesc_short c c' E2) as (n & Hn & _). exists p0. rewrite text_snoc, Hr. split; [done|]. split; [|by rewrite <- !str_app_assoc].
    rewrite <- str_app_assoc. apply string_text_app; [done|]. eapply string_short; [done|constructor].
  - intros (p0 & t & h & Hp & Ht & Hh & Hl & Hr & ->). destruct (hexv c) as [x|] eqn:E; [|done]. intros [= <-].
    assert (hexes (h +:+ one c)) as Hh' by (apply hexes_snoc; [done|by eexists]). assert (String.length (h +:+ one c) = S (String.length h)) as Hl' by (rewrite str_length_app; cbn; lia).
    destruct n as [|n].
    + exists p0. rewrite text_snoc, Hr. split; [done|]. split; [|by rewrite <- !str_app_assoc]. rewrite <- !str_app_assoc. apply string_text_app; [done|].
      destruct (hexes_unit (h +:+ one c)) as [m Hm]; [done|lia|]. replace ("\u" +:+ h +:+ one c) with ("\u" +:+ (h +:+ one c) +:+ "") by (by rewrite str_app_nil_r). eapply string_hex; [done|constructor].
    + exists p0, t, (h +:+ one c). rewrite text_snoc, Hr. split; [done|]. split; [done|]. split; [done|]. split; [lia|]. split; by rewrite <- !str_app_assoc.
  - intros Hp. destruct (num_step ns c) as [ns'|] eqn:E.
    { intros [= <-]. destruct Hp as (p0 & Hp & Hn & ->). exists p0. rewrite text_snoc. split; [done|]. split; [by eapply numpart_step|by rewrite <- !str_app_assoc]. }
    destruct (num_ends ns) eqn:E2; [|done]. apply reach_end. by apply (reach_num raw ns).
  - intros (p0 & t & Hp & Ht & Hne & ->). destruct rest as [|x [|y r]]; [done| |].
    + destruct (bool_decide (x = c)) eqn:E; [|done]. apply bool_decide_eq_true in E as <-. intros [= <-]. exists p0, (t +:+ one x), "". split; [done|]. split; [done|]. split; [apply ws_nil|by rewrite <- !str_app_assoc].
    + destruct (bool_decide (x = c)) eqn:E; [|done]. apply bool_decide_eq_true in E as <-. intros [= <-]. exists p0, (t +:+ one x). split; [done|]. split; [by rewrite <- str_app_assoc|]. split; [done|by rewrite <- !str_app_assoc].
Qed.
Lemma reach_run s st p st' : reach st p → run st s = Some st' → reach st' (p +:+ s).
Proof.
  revert st p. induction s as [|c s IH]; intros st p Hp; [intros [= <-]; by rewrite str_app_nil_r|]. rewrite run_cons. destruct (step st c) as [st1|] eqn:E; [|done].
  intros H. replace (p +:+ String c s) with ((p +:+ one c) +:+ s) by (by rewrite <- str_app_assoc). eapply IH; [|done]. by eapply reach_step.
Qed.
Lemma read_document t j : read t = Some j → document sp t j.
Proof.
  unfold read. destruct (run (SValue []) t) as [st|] eqn:E; [|done]. pose proof (reach_run t (SValue []) "" st (op_top "" ws_nil) E) as H. change ("" +:+ t) with t in H.
  assert (∀ v, reach (SEnd v []) t → document sp t v) as Hend.
  { intros v (p0 & u & w & Hp & Hu & Hw & ->). inversion Hp; subst. by apply Document. }
  destruct st as [stk|stk|stk|l stk|l key stk|v stk|raw d|raw d|n raw d|raw ns stk|rest v stk]; try done; cbn [finish].
  - destruct stk; [|done]. intros [= <-]. by apply Hend.
  - destruct stk; [|done]. destruct (num_ends ns) eqn:En; [|done]. intros [= <-]. apply Hend. by apply (reach_num raw ns).
Qed.

(** * Depth *)
Definition all_within (n : nat) (l : list json) : Prop := Forall (λ j, depth j + n ≤ N.to_nat 10000) l.
Fixpoint fits (stk : list frame) : Prop :=
  match stk with
  | [] => True
  | FArr l :: stk => length stk < N.to_nat 10000 ∧ all_within (S (length stk)) l ∧ fits stk
  | FObj l _ :: stk => length stk < N.to_nat 10000 ∧ all_within (S (length stk)) (snd <$> l) ∧ fits stk
  end.
Definition dfits (d : dest) : Prop :=
  match d with DVal stk => fits stk | DKey l stk => fits (FObj l "" :: stk) end.
Definition shallow (st : state) : Prop :=
  match st with
  | SValue stk => fits stk
  | SFirst stk | SFirstKey stk => fits stk ∧ length stk < N.to_nat 10000
  | SKey l stk => fits (FObj l "" :: stk)
  | SColon l k stk => fits (FObj l k :: stk)
  | SEnd v stk => fits stk ∧ depth v + length stk ≤ N.to_nat 10000
  | SStr _ d | SEsc _ d | SHex _ _ d => dfits d
  | SNum _ _ stk => fits stk
  | SLit _ v stk => fits stk ∧ depth v = 0
  end.
Lemma fits_length stk : fits stk → length stk ≤ N.to_nat 10000.
Proof. destruct stk as [|[l|l k] stk]; cbn [fits length]; lia. Qed.
Lemma max_list n (l : list json) : S n ≤ N.to_nat 10000 → all_within (S n) l → S (foldr (λ j m, Nat.max (depth j) m) 0 l) + n ≤ N.to_nat 10000.
Proof. intros Hn. induction 1 as [|j l H _ IH]; cbn [foldr]; lia. Qed.
Lemma max_members n (l : list (string * json)) : S n ≤ N.to_nat 10000 → all_within (S n) (snd <$> l) → S (foldr (λ (p : string * json) m, Nat.max (depth p.2) m) 0 l) + n ≤ N.to_nat 10000.
Proof. intros Hn. induction l as [|[k j] l IH]; cbn [foldr fmap list_fmap]; [lia|]. intros [H1 H2]%Forall_cons. specialize (IH H2). cbn [snd] in *. lia. Qed.
Lemma all_within_rev n l : all_within n l → all_within n (rev l).
Proof. unfold all_within. intros H. apply List.Forall_rev. exact H. Qed.
Lemma fmap_rev {A B} (f : A → B) (l : list A) : f <$> rev l = rev (f <$> l).
Proof. apply (List.map_rev f). Qed.
Lemma room_lt stk : room stk = true → length stk < N.to_nat 10000.
Proof. unfold room. intros H%N.ltb_lt. lia. Qed.
Lemma shallow_begin stk c st : fits stk → begin_value stk c = Some st → shallow st.
Proof.
  intros Hf. unfold begin_value. destruct (is_char 123 c); [destruct (room stk) eqn:E; [|done]; intros [= <-]; split; [done|by apply room_lt]|].
  destruct (is_char 91 c); [destruct (room stk) eqn:E; [|done]; intros [= <-]; split; [done|by apply room_lt]|].
  destruct (is_char 34 c); [by intros [= <-]|]. destruct (is_char 45 c); [by intros [= <-]|]. destruct (is_char 48 c); [by intros [= <-]|]. destruct (digit c); [by intros [= <-]|].
  destruct (is_char 116 c); [by intros [= <-]|]. destruct (is_char 102 c); [by intros [= <-]|]. destruct (is_char 110 c); [by intros [= <-]|done].
Qed.
Lemma shallow_end v stk c st : fits stk → depth v + length stk ≤ N.to_nat 10000 → end_value v stk c = Some st → shallow st.
Proof.
  intros Hf Hv. unfold end_value. destruct (is_space c); [by intros [= <-]|]. destruct stk as [|[l|l k] stk]; [done| |]; cbn [fits length] in Hf, Hv; destruct Hf as (H1 & H2 & H3).
  - destruct (is_char 44 c); [intros [= <-]; split; [done|]; split; [by constructor|done]|]. destruct (is_char 93 c); [|done]. intros [= <-]. split; [done|]. cbn [depth]. apply max_list; [lia|]. apply (all_within_rev _ (v :: l)). by constructor.
  - destruct (is_char 44 c); [intros [= <-]; split; [done|]; split; [by constructor|done]|]. destruct (is_char 125 c); [|done]. intros [= <-]. split; [done|]. cbn [depth]. apply max_members; [lia|]. change (rev l ++ [(k, v)]) with (rev ((k, v) :: l)). rewrite (fmap_rev snd ((k, v) :: l)). apply all_within_rev. by constructor.
Qed.
Lemma shallow_step st c st' : shallow st → step st c = Some st' → shallow st'.
Proof.
  destruct st as [stk|stk|stk|l stk|l key stk|v stk|raw d|raw d|n raw d|raw ns stk|rest v stk]; unfold step.
  - intros H. destruct (is_space c); [by intros [= <-]|]. by apply shallow_begin.
  - intros [H Hl]. destruct (is_space c); [by intros [= <-]|]. destruct (is_char 93 c); [intros [= <-]; split; [done|cbn; lia]|]. apply shallow_begin. split; [done|]. split; [constructor|done].
  - intros [H Hl]. destruct (is_space c); [by intros [= <-]|]. destruct (is_char 125 c); [intros [= <-]; split; [done|cbn; lia]|]. destruct (is_char 34 c); [|done]. intros [= <-]. split; [done|]. split; [constructor|done].
  - intros H. destruct (is_space c); [by intros [= <-]|]. destruct (is_char 34 c); [by intros [= <-]|done].
  - intros H. destruct (is_space c); [by intros [= <-]|]. destruct (is_char 58 c); [by intros [= <-]|done].
  - intros [H1 H2]. by apply shallow_end.
  - intros H. destruct (is_char 34 c).
    { intros [= <-]. destruct d as [stk|l stk]; [|done]. split; [done|]. cbn [depth]. by apply fits_length. }
    destruct (is_char 92 c); [by intros [= <-]|]. destruct (N_of_ascii c <? 32)%N; [done|by intros [= <-]].
  - intros H. destruct (is_char 117 c); [by intros [= <-]|]. destruct (unesc c); [by intros [= <-]|done].
  - intros H. destruct (hexv c); [|done]. intros [= <-]. by destruct n.
  - intros H. destruct (num_step ns c); [by intros [= <-]|]. destruct (num_ends ns); [|done]. apply shallow_end; [done|]. cbn [depth]. by apply fits_length.
  - intros [H1 H2]. destruct rest as [|x [|y r]].
    + apply shallow_end; [done|]. rewrite H2. by apply fits_length.
    + destruct (bool_decide (x = c)); [|done]. intros [= <-]. split; [done|]. rewrite H2. by apply fits_length.
    + destruct (bool_decide (x = c)); [|done]. by intros [= <-].
Qed.
Lemma read_depth t j : read t = Some j → depth j ≤ N.to_nat 10000.
Proof.
  unfold read. assert (∀ s st st', shallow st → run st s = Some st' → shallow st') as Hrun.
  { induction s as [|c s IH]; intros st st' Hs; [by intros [= <-]|]. rewrite run_cons. destruct (step st c) eqn:E; [|done]. apply IH. by eapply shallow_step. }
  destruct (run (SValue []) t) as [st|] eqn:E; [|done]. apply Hrun in E; [|done].
  destruct st as [stk|stk|stk|l stk|l key stk|v stk|raw d|raw d|n raw d|raw ns stk|rest v stk]; try done; cbn [finish].
  - destruct stk; [|done]. intros [= <-]. destruct E as [_ E]. cbn [length] in E. lia.
  - destruct stk; [|done]. destruct (num_ends ns); [|done]. intros [= <-]. cbn [depth]. lia.
Qed.
