From Coq Require Import Ascii ZArith Lia.
From stdpp Require Import base list strings gmap.
From Verif Require Import GoStr PathModel InventoryModel ObjectModel CrashSpec PathProofs AreaProofs RootModel RootSpec.

(** * object folders *)
Lemma join_slash_app l1 l2 : l1 ≠ [] → l2 ≠ [] → join_slash (l1 ++ l2) = join_slash l1 +:+ "/" +:+ join_slash l2.
Proof. apply str_join_app. Qed.
Lemma path_join_name bs name : bs ≠ [] → Forall plain_name bs → plain_name name →
  path_join [join_slash bs; name] = join_slash (bs ++ [name]).
Proof.
  intros Hne Hp Hn. rewrite path_join_plain by (by apply join_slash_nonempty).
  assert (join_slash [join_slash bs; name] = join_slash (bs ++ [name])) as ->.
  { rewrite join_slash_app by done. done. }
  apply path_clean_plain; [by destruct bs|]. apply Forall_app. split; [done|]. by apply Forall_singleton.
Qed.
Lemma join_inj l1 l2 : l1 ≠ [] → l2 ≠ [] → Forall plain_name l1 → Forall plain_name l2 → join_slash l1 = join_slash l2 → l1 = l2.
Proof.
  intros H1 H2 F1 F2 E.
  assert (∀ l, Forall plain_name l → Forall (λ w, str_mem slash w = false) l) as HF.
  { intros l F. eapply Forall_impl; [exact F|]. by intros w (_ & _ & _ & ?). }
  rewrite <- (split_slash_join l1), <- (split_slash_join l2) by auto. by rewrite E.
Qed.
Definition go (base : string) : list (string * node) → list string :=
  fix go (l : list (string * node)) : list string :=
    match l with
    | [] => []
    | e :: l' =>
        match snd e with
        | Dir _ => recurse (path_join [base; fst e]) (snd e) ++ go l'
        | File _ => if decide (fst e = "." ∨ fst e = "..") then go l' else [base]
        end
    end.
Lemma recurse_dir base l : recurse base (Dir l) = go base l.
Proof. done. Qed.
Lemma object_at_plain l names : hierarchy l → object_at l names → Forall plain_name names.
Proof.
  intros H. revert names. induction H as [l name data l' Hd -> Hn|l Hin Hnd Hsub IH]; intros names Ho.
  - inversion Ho; subst; [by apply Forall_nil|done].
  - inversion Ho as [|? name sub names' Hnd' Hi Ho']; subst; [by apply Forall_nil|]. apply Forall_cons. split.
    + by apply (Hin _ _ Hi).
    + by apply (IH _ _ Hi).
Qed.
Lemma folders_found l : hierarchy l → ∀ bs, bs ≠ [] → Forall plain_name bs →
  NoDup (recurse (join_slash bs) (Dir l)) ∧
  ∀ p, p ∈ recurse (join_slash bs) (Dir l) ↔ ∃ names, object_at l names ∧ p = join_slash (bs ++ names).
Proof.
  induction 1 as [l name data l' Hd -> Hn|l Hin Hnd Hsub IH]; intros bs Hbs Hp.
  - rewrite recurse_dir. cbn [go snd fst]. destruct (decide (name = "." ∨ name = "..")) as [[E|E]|_].
    { by destruct Hn as (_ & ? & _). } { by destruct Hn as (_ & _ & ? & _). }
    split; [apply NoDup_singleton|]. intros p. rewrite elem_of_list_singleton. split.
    + intros ->. exists []. split; [by constructor|by rewrite app_nil_r].
    + intros (names & Ho & ->). inversion Ho; subst; [by rewrite app_nil_r|done].
  - rewrite recurse_dir.
    assert (¬ declares l) as Hnodecl.
    { intros (v & data & Hi). by destruct (Hin _ _ Hi) as [_ [sub ?]]. }
    assert (∀ k, k ⊆ l → NoDup (fst <$> k) → NoDup (go (join_slash bs) k) ∧
      ∀ p, p ∈ go (join_slash bs) k ↔ ∃ name sub names, (name, Dir sub) ∈ k ∧ object_at sub names ∧ p = join_slash (bs ++ name :: names)) as Hgo.
    { induction k as [|[name n] k IHk]; intros Hk Hndk.
      { cbn. split; [apply NoDup_nil_2|]. intros p. split; [intros H; by apply elem_of_nil in H|]. intros (? & ? & ? & H & _). by apply elem_of_nil in H. }
      rewrite fmap_cons in Hndk. apply NoDup_cons in Hndk as [Hname Hndk].
      destruct (IHk) as [IH1 IH2]; [intros x Hx; apply Hk; by apply elem_of_list_further|done|].
      assert ((name, n) ∈ l) as Hnl by (apply Hk, elem_of_list_here).
      destruct (Hin _ _ Hnl) as [Hpn [sub ->]].
      assert (Forall plain_name (bs ++ [name])) as Hp' by (apply Forall_app; split; [done|by apply Forall_singleton]).
      assert (bs ++ [name] ≠ []) as Hbs' by (by destruct bs).
      destruct (IH name sub Hnl (bs ++ [name]) Hbs' Hp') as [J1 J2].
      cbn [go fst snd]. rewrite path_join_name by done. split.
      + apply NoDup_app. split; [exact J1|]. split; [|exact IH1]. intros p Hp1 Hp2.
        apply J2 in Hp1 as (names1 & Ho1 & ->). apply IH2 in Hp2 as (name2 & sub2 & names2 & Hi2 & Ho2 & E).
        rewrite <- app_assoc in E. cbn [app] in E.
        assert ((name2, Dir sub2) ∈ l) as Hi2' by (apply Hk; by apply elem_of_list_further).
        destruct (Hin _ _ Hi2') as [Hpn2 _].
        apply join_inj in E; [| by destruct bs | by destruct bs | |].
        * apply app_inv_head in E. injection E as <- _. apply Hname. apply elem_of_list_fmap. by exists (name, Dir sub2).
        * apply Forall_app. split; [done|]. apply Forall_cons. split; [done|]. by apply (object_at_plain sub); [eapply Hsub|].
        * apply Forall_app. split; [done|]. apply Forall_cons. split; [done|]. by apply (object_at_plain sub2); [eapply Hsub|].
      + intros p. rewrite elem_of_app, J2, IH2. split.
        * intros [(names & Ho & ->)|(name2 & sub2 & names2 & Hi2 & Ho2 & ->)].
          -- exists name, sub, names. split; [apply elem_of_list_here|]. split; [done|]. by rewrite <- app_assoc.
          -- exists name2, sub2, names2. split; [by apply elem_of_list_further|done].
        * intros (name2 & sub2 & names2 & Hi2 & Ho2 & ->). apply elem_of_cons in Hi2 as [[= -> ->]|Hi2].
          -- left. exists names2. split; [done|]. by rewrite <- app_assoc.
          -- right. by exists name2, sub2, names2. }
    destruct (Hgo l ltac:(done) Hnd) as [G1 G2]. split; [exact G1|]. intros p. rewrite G2. split.
    + intros (name & sub & names & Hi & Ho & ->). exists (name :: names). split; [|done]. by apply (object_below _ _ sub).
    + intros (names & Ho & ->). inversion Ho as [|? name sub names' ? Hi Ho']; subst; [done|]. by exists name, sub, names'.
Qed.
Lemma root_found root : tidy_root root →
  NoDup (get_object_folders root) ∧ ∀ p, p ∈ get_object_folders root ↔ object_in root p.
Proof.
  intros [Hnd Hdir]. unfold get_object_folders.
  set (f := λ e : string * node, if decide (fst e = "extensions") then [] else recurse (fst e) (snd e)).
  assert (∀ name sub, (name, Dir sub) ∈ root → name ≠ "extensions" → NoDup (recurse name (Dir sub)) ∧
    ∀ p, p ∈ recurse name (Dir sub) ↔ ∃ names, object_at sub names ∧ p = join_slash (name :: names)) as Hone.
  { intros name sub Hi Hx. destruct (Hdir _ _ Hi) as [Hp Hh].
    apply (folders_found sub (Hh Hx) [name]); [done|by apply Forall_singleton]. }
  assert (∀ k, k ⊆ root → NoDup (fst <$> k) → NoDup (get_folders k ≫= f) ∧
    ∀ p, p ∈ get_folders k ≫= f ↔ ∃ name sub names, (name, Dir sub) ∈ k ∧ name ≠ "extensions" ∧ object_at sub names ∧ p = join_slash (name :: names)) as Hgo.
  { induction k as [|[name n] k IHk]; intros Hk Hndk.
    { cbn. split; [apply NoDup_nil_2|]. intros p. split; [intros H; by apply elem_of_nil in H|]. intros (? & ? & ? & H & _). by apply elem_of_nil in H. }
    rewrite fmap_cons in Hndk. apply NoDup_cons in Hndk as [Hname Hndk].
    destruct (IHk) as [IH1 IH2]; [intros x Hx; apply Hk; by apply elem_of_list_further|done|].
    assert ((name, n) ∈ root) as Hnl by (apply Hk, elem_of_list_here).
    unfold get_folders. rewrite filter_cons. fold (get_folders k). cbn [fst snd].
    destruct n as [data|sub].
    { destruct (decide _) as [[? _]|_]; [done|]. split; [done|]. intros p. rewrite IH2. split.
      - intros (name2 & sub2 & names2 & Hi2 & H). exists name2, sub2, names2. split; [by apply elem_of_list_further|done].
      - intros (name2 & sub2 & names2 & Hi2 & H). apply elem_of_cons in Hi2 as [?|Hi2]; [done|]. by exists name2, sub2, names2. }
    destruct (Hdir _ _ Hnl) as [Hpn Hh]. destruct (decide _) as [_|Hnot].
    2:{ exfalso. apply Hnot. destruct Hpn as (_ & ? & ? & _). done. }
    rewrite bind_cons. unfold f at 1 3. cbn [fst snd]. destruct (decide (name = "extensions")) as [->|Hx].
    { cbn [app]. split; [done|]. intros p. rewrite IH2. split.
      - intros (name2 & sub2 & names2 & Hi2 & H). exists name2, sub2, names2. split; [by apply elem_of_list_further|done].
      - intros (name2 & sub2 & names2 & Hi2 & Hx & H). apply elem_of_cons in Hi2 as [[= -> ->]|Hi2]; [done|]. by exists name2, sub2, names2. }
    destruct (Hone name sub Hnl Hx) as [J1 J2]. split.
    - apply NoDup_app. split; [exact J1|]. split; [|exact IH1]. intros p Hp1 Hp2.
      apply J2 in Hp1 as (names1 & Ho1 & ->). apply IH2 in Hp2 as (name2 & sub2 & names2 & Hi2 & Hx2 & Ho2 & E).
      assert ((name2, Dir sub2) ∈ root) as Hi2' by (apply Hk; by apply elem_of_list_further).
      destruct (Hdir _ _ Hi2') as [Hpn2 Hh2].
      apply join_inj in E; [|done|done| |].
      + injection E as <- _. apply Hname. apply elem_of_list_fmap. by exists (name, Dir sub2).
      + apply Forall_cons. split; [done|]. by apply (object_at_plain sub); [apply Hh|].
      + apply Forall_cons. split; [done|]. by apply (object_at_plain sub2); [apply Hh2|].
    - intros p. rewrite elem_of_app, J2, IH2. split.
      + intros [(names & Ho & ->)|(name2 & sub2 & names2 & Hi2 & H)].
        * exists name, sub, names. split; [apply elem_of_list_here|done].
        * exists name2, sub2, names2. split; [by apply elem_of_list_further|done].
      + intros (name2 & sub2 & names2 & Hi2 & Hx2 & Ho2 & ->). apply elem_of_cons in Hi2 as [[= -> ->]|Hi2].
        * left. by exists names2.
        * right. by exists name2, sub2, names2. }
  destruct (Hgo root ltac:(done) Hnd) as [G1 G2]. split; [exact G1|]. intros p. rewrite G2. done.
Qed.
Lemma first_is_file l : declares l → in_order l → object_folders_only l → NoDup (fst <$> l) →
  ∃ name data l', l = (name, File data) :: l'.
Proof.
  intros (v & data & Hi) Ho Hf Hnd. destruct l as [|[name n] l]; [by apply elem_of_nil in Hi|].
  destruct n as [d|sub]; [by exists name, d, l|]. exfalso.
  apply elem_of_list_lookup in Hi as [j Hj]. destruct j as [|j]; [done|].
  specialize (Ho 0 (S j) _ _ ltac:(lia) eq_refl Hj). cbn [fst] in Ho.
  destruct (Hf name sub (elem_of_list_here _ _)) as [[r ->]|[-> | ->]];
    apply str_le_cons_inv in Ho as [Ho|[Ho _]]; try done; by vm_compute in Ho.
Qed.

(** * declarations *)
Lemma is_digit_spec c : is_digit c = true ↔ (48 <= N_of_ascii c <= 57)%N.
Proof. unfold is_digit. rewrite andb_true_iff, !N.leb_le. done. Qed.
Definition all_digits (s : string) : Prop := ∀ c, c ∈ list_ascii_of_string s → is_digit c = true.
Lemma digits_all s : digits s ↔ s ≠ "" ∧ all_digits s.
Proof. unfold digits, all_digits. split; intros [H1 H2]; (split; [done|]); intros c Hc; apply is_digit_spec; auto. Qed.
Lemma all_digits_cons c s : all_digits (String c s) ↔ is_digit c = true ∧ all_digits s.
Proof.
  unfold all_digits. cbn [list_ascii_of_string]. split.
  - intros H. split; [apply H, elem_of_list_here|]. intros d Hd. by apply H, elem_of_list_further.
  - intros [H1 H2] d Hd. apply elem_of_cons in Hd as [-> |Hd]; auto.
Qed.
Definition no_digit_first (s : string) : Prop := match s with "" => True | String c _ => is_digit c = false end.
Lemma span_spec s : ∀ a r, span_digits s = (a, r) → s = a +:+ r ∧ all_digits a ∧ no_digit_first r.
Proof.
  induction s as [|c s IH]; intros a r; cbn [span_digits].
  - intros [= <- <-]. split; [done|]. split; [|done]. intros d Hd. by apply elem_of_nil in Hd.
  - destruct (is_digit c) eqn:Hc.
    + destruct (span_digits s) as [a' r'] eqn:Hs. intros [= <- <-]. destruct (IH a' r' eq_refl) as (-> & Ha & Hr).
      split; [done|]. split; [|done]. by apply all_digits_cons.
    + intros [= <- <-]. split; [done|]. split; [|done]. intros d Hd. by apply elem_of_nil in Hd.
Qed.
Lemma span_app a r : all_digits a → no_digit_first r → span_digits (a +:+ r) = (a, r).
Proof.
  induction a as [|c a IH]; intros Ha Hr.
  - rewrite str_app_nil_l. destruct r as [|c r]; [done|]. cbn [span_digits]. cbn in Hr. by rewrite Hr.
  - apply all_digits_cons in Ha as [Hc Ha]. rewrite str_app_cons. cbn [span_digits]. by rewrite Hc, (IH Ha Hr).
Qed.
(** Digits followed by anything: the span begins with them. *)
Lemma span_more a r : all_digits a → ∃ x y, span_digits (a +:+ r) = (a +:+ x, y) ∧ all_digits x.
Proof.
  intros Ha. induction a as [|c a IH].
  - rewrite str_app_nil_l. destruct (span_digits r) as [x y] eqn:E. destruct (span_spec _ _ _ E) as (_ & Hx & _). by exists x, y.
  - apply all_digits_cons in Ha as [Hc Ha]. destruct (IH Ha) as (x & y & E & Hx). exists x, y. split; [|done].
    rewrite str_app_cons. cbn [span_digits]. by rewrite Hc, E.
Qed.
Lemma match_sound prefix s v : match_at prefix s = Some v → version_number v ∧ ∃ b, s = declaration prefix v +:+ b.
Proof.
  unfold match_at. destruct (drop_prefix _ s) as [r|] eqn:Hd; [|done]. apply drop_prefix_spec in Hd.
  destruct (span_digits r) as [a r1] eqn:H1. destruct (span_spec _ _ _ H1) as (-> & Ha & _).
  destruct a as [|ca a]; [done|]. destruct r1 as [|c r1]; [done|].
  destruct (decide (c = "."%char)) as [->|Hc].
  2:{ destruct c as [[] [] [] [] [] [] [] []]; try done; by contradiction Hc. }
  destruct (span_digits r1) as [b r2] eqn:H2. destruct (span_spec _ _ _ H2) as (-> & Hb & _).
  destruct b as [|cb b]; [done|]. intros [= <-]. split.
  - exists (String ca a), (String cb b). split; [by apply digits_all|]. split; [by apply digits_all|done].
  - exists r2. rewrite Hd. unfold declaration. by rewrite <- !str_app_assoc.
Qed.
Lemma drop_declaration prefix x y b :
  drop_prefix ("0=" +:+ prefix) (declaration prefix (x +:+ "." +:+ y) +:+ b) = Some (x +:+ String "." (y +:+ b)).
Proof. apply drop_prefix_spec. unfold declaration. by rewrite <- !str_app_assoc. Qed.
Lemma match_complete prefix v b : version_number v → match_at prefix (declaration prefix v +:+ b) ≠ None.
Proof.
  intros (x & y & Hx & Hy & ->). apply digits_all in Hx as [Hx1 Hx2]. apply digits_all in Hy as [Hy1 Hy2].
  unfold match_at. rewrite drop_declaration, span_app by done. destruct x as [|cx x]; [done|].
  destruct (span_more y b Hy2) as (z & r & -> & Hz). by destruct y as [|cy y].
Qed.
Lemma match_exact prefix v : version_number v → match_at prefix (declaration prefix v) = Some v.
Proof.
  intros (x & y & Hx & Hy & ->). apply digits_all in Hx as [Hx1 Hx2]. apply digits_all in Hy as [Hy1 Hy2].
  rewrite <- (str_app_nil_r (declaration _ _)). unfold match_at. rewrite drop_declaration, span_app by done.
  destruct x as [|cx x]; [done|]. rewrite span_app by done. by destruct y as [|cy y].
Qed.
Lemma find_sound prefix s : ∀ v, find_version prefix s = Some v → version_number v ∧ ∃ a b, s = a +:+ declaration prefix v +:+ b.
Proof.
  induction s as [|c s IH]; intros v; cbn [find_version].
  - destruct (match_at prefix "") as [w|] eqn:E; [|done]. intros [= ->]. apply match_sound in E as [H [b ->]].
    split; [done|]. by exists "", b.
  - destruct (match_at prefix (String c s)) as [w|] eqn:E.
    + intros [= ->]. apply match_sound in E as [H [b ->]]. split; [done|]. by exists "", b.
    + intros Hv. destruct (IH v Hv) as [H (a & b & ->)]. split; [done|]. by exists (String c a), b.
Qed.
Lemma find_complete prefix a v b : version_number v → find_version prefix (a +:+ declaration prefix v +:+ b) ≠ None.
Proof.
  intros Hv. induction a as [|c a IH].
  - rewrite str_app_nil_l. pose proof (match_complete prefix v b Hv) as H.
    destruct (declaration prefix v +:+ b); cbn [find_version]; by destruct (match_at _ _).
  - rewrite str_app_cons. cbn [find_version]. by destruct (match_at _ _).
Qed.
Lemma find_exact prefix v : version_number v → find_version prefix (declaration prefix v) = Some v.
Proof.
  intros Hv. pose proof (match_exact prefix v Hv) as H.
  destruct (declaration prefix v); cbn [find_version]; by rewrite H.
Qed.

(** The files that are taken for a declaration, in the order of the listing: version and content. *)
Definition hits (prefix : string) (l : list (string * node)) : list (string * string) :=
  omap (λ e : string * node, match snd e with Dir _ => None | File data => (λ v, (v, data)) <$> find_version prefix (fst e) end) l.
Definition content_ok (prefix : string) (h : string * string) : Prop := declared prefix (fst h) (snd h).
Global Instance content_ok_dec prefix h : Decision (content_ok prefix h).
Proof. unfold content_ok, declared. apply _. Defined.
Lemma hits_cons prefix name n l : hits prefix ((name, n) :: l) =
  match n with
  | Dir _ => hits prefix l
  | File data => match find_version prefix name with Some v => (v, data) :: hits prefix l | None => hits prefix l end
  end.
Proof. unfold hits. cbn [omap list_omap fst snd]. destruct n as [data|]; [|done]. by destruct (find_version prefix name). Qed.
Lemma gv_loop_some prefix c l : gv_loop prefix (Some c) l = match hits prefix l with [] => GOk c | _ => GMultiple end.
Proof.
  induction l as [|[name n] l IH]; [done|]. rewrite hits_cons. cbn [gv_loop]. destruct n as [data|]; [|done].
  by destruct (find_version prefix name).
Qed.
Lemma gv_hits prefix l : get_version prefix l =
  match hits prefix l with
  | [] => GNone
  | h :: r => if decide (content_ok prefix h) then match r with [] => GOk (fst h) | _ => GMultiple end else GInvalid (fst h)
  end.
Proof.
  unfold get_version. induction l as [|[name n] l IH]; [done|]. rewrite hits_cons. cbn [gv_loop].
  destruct n as [data|]; [|done]. destruct (find_version prefix name) as [v|]; [|done].
  rewrite gv_loop_some. cbn [fst].
  assert (content_ok prefix (v, data) ↔ (data = prefix +:+ v +:+ String "010" "" ∨ data = prefix +:+ v +:+ String "013" (String "010" ""))) as HC by done.
  destruct (decide (content_ok prefix (v, data))) as [H|H]; destruct (decide _) as [H'|H'].
  - done.
  - by contradiction H'.
  - by contradiction H.
  - done.
Qed.
Lemma elem_hits prefix l v data : (v, data) ∈ hits prefix l ↔ ∃ name, (name, File data) ∈ l ∧ find_version prefix name = Some v.
Proof.
  unfold hits. rewrite elem_of_list_omap. split.
  - intros ([name n] & Hi & H). cbn [fst snd] in H. destruct n as [d|]; [|done].
    destruct (find_version prefix name) as [w|] eqn:E; [|done]. cbn in H. injection H as -> ->. by exists name.
  - intros (name & Hi & H). exists (name, File data). split; [done|]. cbn [fst snd]. by rewrite H.
Qed.
Lemma gv_sound prefix l v : get_version prefix l = GOk v →
  version_number v ∧ ∃ a b data, (a +:+ declaration prefix v +:+ b, File data) ∈ l ∧ declared prefix v data.
Proof.
  rewrite gv_hits. destruct (hits prefix l) as [|[w data] r] eqn:E; [done|]. cbn [fst].
  destruct (decide _) as [Hc|]; [|done]. destruct r; [|done]. intros [= ->].
  assert ((v, data) ∈ hits prefix l) as Hi by (rewrite E; apply elem_of_list_here).
  apply elem_hits in Hi as (name & Hi & Hf). apply find_sound in Hf as [Hv (a & b & ->)]. split; [done|]. by exists a, b, data.
Qed.
Lemma gv_none prefix l : get_version prefix l = GNone ↔
  ∀ a v b data, version_number v → (a +:+ declaration prefix v +:+ b, File data) ∉ l.
Proof.
  rewrite gv_hits. split.
  - intros H a v b data Hv Hi. destruct (find_version prefix (a +:+ declaration prefix v +:+ b)) as [w|] eqn:E.
    2:{ by apply (find_complete prefix a v b Hv). }
    assert ((w, data) ∈ hits prefix l) as Hh by (apply elem_hits; by eexists).
    destruct (hits prefix l) as [|h r]; [by apply elem_of_nil in Hh|].
    destruct (decide _); [by destruct r|done].
  - intros H. destruct (hits prefix l) as [|[w data] r] eqn:E; [done|]. exfalso.
    assert ((w, data) ∈ hits prefix l) as Hi by (rewrite E; apply elem_of_list_here).
    apply elem_hits in Hi as (name & Hi & Hf). apply find_sound in Hf as [Hv (a & b & ->)]. by apply (H a w b data Hv).
Qed.
(** Two files taken for declarations are never accepted. *)
Lemma gv_two prefix l i j x y u w : i ≠ j → l !! i = Some (x, File u) → l !! j = Some (y, File w) →
  find_version prefix x ≠ None → find_version prefix y ≠ None → ∀ v, get_version prefix l ≠ GOk v.
Proof.
  intros Hij Hi Hj Hx Hy v. rewrite gv_hits.
  assert (2 ≤ length (hits prefix l)) as Hlen.
  { revert i j Hij Hi Hj. induction l as [|[name n] l IH]; intros i j Hij Hi Hj; [done|]. rewrite hits_cons.
    assert (∀ k z d, l !! k = Some (z, File d) → find_version prefix z ≠ None → 1 ≤ length (hits prefix l)) as Hone.
    { intros k z d Hk Hz. destruct (find_version prefix z) as [t|] eqn:E; [|done].
      assert ((t, d) ∈ hits prefix l) as Hh by (apply elem_hits; exists z; split; [by eapply elem_of_list_lookup_2|done]).
      destruct (hits prefix l); [by apply elem_of_nil in Hh|cbn; lia]. }
    destruct i as [|i], j as [|j]; [done| | |].
    - cbn in Hi. injection Hi as -> ->. destruct (find_version prefix x); [|done]. specialize (Hone _ _ _ Hj Hy). cbn [length]. lia.
    - cbn in Hj. injection Hj as -> ->. destruct (find_version prefix y); [|done]. specialize (Hone _ _ _ Hi Hx). cbn [length]. lia.
    - assert (i ≠ j) as Hij' by lia. specialize (IH i j Hij' Hi Hj). destruct n as [d|]; [|done].
      destruct (find_version prefix name); cbn [length]; lia. }
  destruct (hits prefix l) as [|h [|h' r]]; cbn in Hlen; try lia. by destruct (decide _).
Qed.
Lemma gv_exact prefix l v : NoDup (fst <$> l) → well_named prefix l → get_version prefix l = GOk v ↔ one_declaration prefix v l.
Proof.
  intros Hnd Hw.
  assert (∀ w data, (w, data) ∈ hits prefix l ↔ version_number w ∧ (declaration prefix w, File data) ∈ l) as Hh.
  { intros w data. rewrite elem_hits. split.
    - intros (name & Hi & Hf). pose proof Hf as Hf'. apply find_sound in Hf' as [Hv (a & b & E)].
      destruct (Hw _ _ Hi a w b E Hv) as (w' & Hw' & ->). rewrite find_exact in Hf by done. by injection Hf as ->.
    - intros [Hv Hi]. exists (declaration prefix w). split; [done|]. by apply find_exact. }
  split.
  - intros H. pose proof H as H0. rewrite gv_hits in H. destruct (hits prefix l) as [|[w data] r] eqn:E; [done|]. cbn [fst] in H.
    destruct (decide _) as [Hc|]; [|done]. destruct r; [|done]. injection H as ->.
    destruct (proj1 (Hh v data)) as [Hv Hi]; [apply elem_of_list_here|]. split; [done|]. split; [by exists data|].
    intros w d Hw' Hi'. assert ((w, d) ∈ [(v, data)]) as Hx by (by apply Hh). apply elem_of_list_singleton in Hx. by injection Hx.
  - intros (Hv & (data & Hi & Hd) & Hu). rewrite gv_hits.
    assert ((v, data) ∈ hits prefix l) as Hin by (by apply Hh).
    assert (∀ h, h ∈ hits prefix l → h = (v, data)) as Hall.
    { intros [w d] H. apply Hh in H as [Hw' Hi']. assert (w = v) as -> by (by apply (Hu w d)).
      apply elem_of_list_lookup in Hi as [i Hi]. apply elem_of_list_lookup in Hi' as [j Hj].
      assert (i = j) as ->. { apply (NoDup_lookup (fst <$> l) i j (declaration prefix v)); [done| |]; rewrite list_lookup_fmap; [by rewrite Hi|by rewrite Hj]. }
      rewrite Hi in Hj. by injection Hj as ->. }
    assert (length (hits prefix l) ≤ 1) as Hlen.
    { clear Hin Hall Hh Hi. destruct (decide (length (hits prefix l) ≤ 1)) as [|Hn]; [done|]. exfalso.
      assert (∀ k, k ⊆ l → NoDup (fst <$> k) → length (hits prefix k) ≤ 1) as Hk.
      { induction k as [|[name n] k IH]; intros Hk Hndk; [cbn; lia|]. rewrite fmap_cons in Hndk. apply NoDup_cons in Hndk as [Hn1 Hn2].
        assert (k ⊆ l) as Hkl by (intros z Hz; apply Hk; by apply elem_of_list_further). specialize (IH Hkl Hn2).
        rewrite hits_cons. destruct n as [d|]; [|done]. destruct (find_version prefix name) as [w|] eqn:Ef; [|done]. cbn [length].
        assert (∀ z dz, (z, File dz) ∈ l → ∀ t, find_version prefix z = Some t → z = declaration prefix v) as Hz.
        { intros z dz Hz t Ht. pose proof Ht as Ht'. apply find_sound in Ht' as [Hvt (a & b & E)].
          destruct (Hw _ _ Hz a t b E Hvt) as (w' & Hw' & ->). f_equal. by apply (Hu w' dz). }
        assert (name = declaration prefix v) as En by (eapply Hz; [apply Hk, elem_of_list_here|exact Ef]).
        destruct (hits prefix k) as [|[t dt] r] eqn:Eh; [cbn; lia|]. exfalso.
        assert ((t, dt) ∈ hits prefix k) as Hin by (rewrite Eh; apply elem_of_list_here).
        apply elem_hits in Hin as (z & Hzk & Hzf). apply Hn1. rewrite En, <- (Hz z dt (Hkl _ Hzk) t Hzf).
        apply elem_of_list_fmap. by exists (z, File dt). }
      specialize (Hk l ltac:(done) Hnd). lia. }
    destruct (hits prefix l) as [|h [|h' r]]; [by apply elem_of_nil in Hin| |cbn in Hlen; lia].
    rewrite (Hall h (elem_of_list_here _ _)). cbn [fst]. destruct (decide _) as [_|Hn]; [done|]. by contradiction Hn.
Qed.

(** * creation *)
Lemma entries_none s folder : entries_below s folder = [] ↔ ∀ p, under folder p = true → s !! p = None.
Proof.
  unfold entries_below. split.
  - intros H p Hp. destruct (s !! p) as [d|] eqn:E; [|done]. exfalso.
    assert ((p, d) ∈ filter (λ e : string * string, under folder (fst e) = true) (map_to_list s)) as Hi.
    { apply elem_of_list_filter. split; [done|]. by apply elem_of_map_to_list. }
    rewrite H in Hi. by apply elem_of_nil in Hi.
  - intros H. destruct (filter _ _) as [|[p d] r] eqn:E; [done|]. exfalso.
    assert ((p, d) ∈ filter (λ e : string * string, under folder (fst e) = true) (map_to_list s)) as Hi by (rewrite E; apply elem_of_list_here).
    apply elem_of_list_filter in Hi as [Hu Hi]. apply elem_of_map_to_list in Hi. cbn in Hu. by rewrite (H p Hu) in Hi.
Qed.
Lemma init_keeps folder v fx s : s ⊆ fst (object_init folder v fx s).
Proof.
  unfold object_init. destruct (s !! _) eqn:E; [done|]. destruct (entries_below s folder); [|done].
  destruct fx; cbn [fst]; by apply insert_subseteq.
Qed.
Lemma init_occupied folder v fx s p : path_clean folder = folder → is_Some (s !! (folder +:+ "/" +:+ p)) →
  ∃ m, object_init folder v fx s = (s, SErr m).
Proof.
  intros Hc [d Hd]. unfold object_init. destruct (s !! path_join _); [by eexists|].
  destruct (entries_below s folder) eqn:E; [|by eexists]. exfalso.
  assert (s !! (folder +:+ "/" +:+ p) = None) as H; [|congruence].
  apply (proj1 (entries_none s folder) E). unfold under. rewrite Hc. apply orb_true_iff. right. apply has_prefix_spec.
  exists p. by rewrite <- str_app_assoc.
Qed.
Lemma root_keeps_nothing v others s : s ≠ ∅ → ∃ m, root_init v others s = (s, SErr m).
Proof.
  intros H. unfold root_init. destruct (map_to_list s) eqn:E; [|by eexists]. by apply map_to_list_empty_iff in E.
Qed.
