(** An encoding of inventories that can be computed with, for the examples about complete sessions. *)
From Coq Require Import Ascii.
From stdpp Require Import base list strings gmap.
From Coq Require Import ZArith Lia.
From Verif Require Import GoStr PathModel InventoryModel InventorySpec InventoryProofs ObjectModel ObjectSpec LoadModel CrashSpec ValidateModel PublishSpec
  CheckModel Fixtures Fixtures2 Fixtures3.

(** A reader of values from the beginning of a string, which does not look at what comes after the value. *)
Record codec (A : Type) := Codec {
  enc : A → string;
  par : string → option (A * string);
  enc_par : ∀ x r, par (enc x +:+ r) = Some (x, r);
  par_more : ∀ s x r t, par s = Some (x, r) → par (s +:+ t) = Some (x, r +:+ t)
}.
Arguments enc {A}. Arguments par {A}. Arguments enc_par {A}. Arguments par_more {A}.

Fixpoint cut (s : string) : option (string * string) :=
  match s with
  | "" => None
  | String c r => if decide (c = ":"%char) then Some ("", r) else '(a, b) ← cut r; Some (String c a, b)
  end.
Lemma cut_app a r : (∀ c, c ∈ list_ascii_of_string a → c ≠ ":"%char) → cut (a +:+ String ":" r) = Some (a, r).
Proof.
  induction a as [|c a IH]; intros H; [done|]. rewrite str_app_cons. cbn [cut]. rewrite decide_False by (apply H; by left).
  rewrite IH; [done|]. intros x Hx. apply H. by right.
Qed.
Lemma cut_more s a b t : cut s = Some (a, b) → cut (s +:+ t) = Some (a, b +:+ t).
Proof.
  revert a b; induction s as [|c s IH]; intros a b; [done|]. rewrite str_app_cons. cbn [cut]. destruct (decide _); [by intros [= <- <-]|].
  destruct (cut s) as [[x y]|] eqn:E; [|done]. intros [= <- <-]. by rewrite (IH x y).
Qed.
Fixpoint grab (n : nat) (s : string) : option (string * string) :=
  match n, s with
  | 0, _ => Some ("", s)
  | S n, String c r => '(a, b) ← grab n r; Some (String c a, b)
  | S n, "" => None
  end.
Lemma grab_app a r : grab (String.length a) (a +:+ r) = Some (a, r).
Proof. induction a as [|c a IH]; [by destruct r|]. rewrite str_app_cons. cbn [String.length grab]. by rewrite IH. Qed.
Lemma grab_more n s a b t : grab n s = Some (a, b) → grab n (s +:+ t) = Some (a, b +:+ t).
Proof.
  revert s a b; induction n as [|n IH]; intros s a b; [by intros [= <- <-]|]. destruct s as [|c s]; [done|]. rewrite str_app_cons. cbn [grab].
  destruct (grab n s) as [[x y]|] eqn:E; [|done]. intros [= <- <-]. by rewrite (IH s x y).
Qed.
Lemma dec_no_colon n c : c ∈ list_ascii_of_string (dec_of_N n) → c ≠ ":"%char.
Proof.
  intros Hc. pose proof (dec_of_N_digits n) as H. unfold all_digits in H. rewrite Forall_forall in H. apply H in Hc.
  intros ->. destruct Hc as [_ Hc]. by destruct Hc.
Qed.
Definition c_num : codec N.
Proof.
  refine (Codec _ (λ n, dec_of_N n +:+ ":") (λ s, '(a, r) ← cut s; n ← N_of_dec a; Some (n, r)) _ _).
  - intros n r. rewrite <- str_app_assoc. change (":" +:+ r) with (String ":" r). rewrite cut_app by apply dec_no_colon. simpl. by rewrite N_of_dec_of_N.
  - intros s x r t H. destruct (cut s) as [[a b]|] eqn:E; [|done]. simpl in H. rewrite (cut_more _ _ _ t E). simpl.
    destruct (N_of_dec a); [|done]. simpl in *. by injection H as <- <-.
Defined.
Definition c_str : codec string.
Proof.
  refine (Codec _ (λ x, enc c_num (N.of_nat (String.length x)) +:+ x) (λ s, '(n, r) ← par c_num s; grab (N.to_nat n) r) _ _).
  - intros x r. rewrite <- str_app_assoc, enc_par. simpl. by rewrite Nat2N.id, grab_app.
  - intros s x r t H. destruct (par c_num s) as [[a b]|] eqn:E; [|done]. simpl in H. rewrite (par_more _ _ _ _ t E). simpl. by apply grab_more.
Defined.
Definition c_pair {A B} (ca : codec A) (cb : codec B) : codec (A * B).
Proof.
  refine (Codec _ (λ p, enc ca p.1 +:+ enc cb p.2) (λ s, '(a, r) ← par ca s; '(b, r') ← par cb r; Some ((a, b), r')) _ _).
  - intros [x y] r. cbn [fst snd]. rewrite <- str_app_assoc, enc_par. simpl. by rewrite enc_par.
  - intros s x r t H. destruct (par ca s) as [[a b]|] eqn:E; [|done]. simpl in H. rewrite (par_more _ _ _ _ t E). simpl.
    destruct (par cb b) as [[c d]|] eqn:E2; [|done]. simpl in H. rewrite (par_more _ _ _ _ t E2). simpl. by injection H as <- <-.
Defined.
Fixpoint several {A} (c : codec A) (n : nat) (s : string) : option (list A * string) :=
  match n with
  | 0 => Some ([], s)
  | S n => '(a, r) ← par c s; '(l, r') ← several c n r; Some (a :: l, r')
  end.
Definition c_list {A} (c : codec A) : codec (list A).
Proof.
  refine (Codec _ (λ l, enc c_num (N.of_nat (length l)) +:+ foldr (λ a s, enc c a +:+ s) "" l) (λ s, '(n, r) ← par c_num s; several c (N.to_nat n) r) _ _).
  - intros l r. rewrite <- str_app_assoc, enc_par. simpl. rewrite Nat2N.id. induction l as [|a l IH]; [done|].
    cbn [foldr length several]. rewrite <- str_app_assoc, enc_par. simpl. by rewrite IH.
  - intros s x r t H. destruct (par c_num s) as [[a b]|] eqn:E; [|done]. simpl in H. rewrite (par_more _ _ _ _ t E). simpl.
    clear E s. revert b x r H. induction (N.to_nat a) as [|n IH]; intros b x r; cbn [several]; [by intros [= <- <-]|].
    destruct (par c b) as [[y b']|] eqn:E; [|done]. simpl. rewrite (par_more _ _ _ _ t E). simpl.
    destruct (several c n b') as [[l b'']|] eqn:E2; [|done]. simpl. rewrite (IH _ _ _ E2). simpl. by intros [= <- <-].
Defined.
Definition c_iso {A B} (f : A → B) (g : B → A) (H : ∀ a, g (f a) = a) (c : codec B) : codec A.
Proof.
  refine (Codec _ (λ a, enc c (f a)) (λ s, '(b, r) ← par c s; Some (g b, r)) _ _).
  - intros x r. rewrite enc_par. simpl. by rewrite H.
  - intros s x r t He. destruct (par c s) as [[a b]|] eqn:E; [|done]. simpl in He. rewrite (par_more _ _ _ _ t E). simpl. by injection He as <- <-.
Defined.
Definition c_map {V} (c : codec V) : codec (gmap string V) :=
  c_iso map_to_list list_to_map (λ m, list_to_map_to_list m) (c_list (c_pair c_str c)).
Definition c_bool : codec bool := c_iso (λ b : bool, if b then 1%N else 0%N) (λ n, bool_decide (n = 1%N)) ltac:(by intros []) c_num.
Definition c_int : codec Z :=
  c_iso (λ z, (bool_decide (z < 0)%Z, Z.abs_N z)) (λ p : bool * N, if p.1 then (- Z.of_N p.2)%Z else Z.of_N p.2)
    ltac:(intros z; cbn [fst snd]; case_bool_decide; lia) (c_pair c_bool c_num).
Definition c_state : codec smap := c_map (c_list c_str).
Definition c_version : codec version :=
  c_iso (λ v, (v_created v, (v_message v, (v_uname v, (v_uaddr v, v_state v)))))
    (λ '(a, (b, (c, (d, e)))), Version a b c d e) ltac:(by intros [])
    (c_pair c_str (c_pair c_str (c_pair c_str (c_pair c_str c_state)))).
Definition c_inventory : codec inventory :=
  c_iso (λ i, (inv_id i, (inv_type i, (inv_alg i, (inv_head i, (inv_contentdir i, (inv_manifest i, (inv_versions i, (inv_fixity i,
      (inv_fixalgs i, (inv_padding i, (inv_modified i, inv_writeable i))))))))))))
    (λ '(a, (b, (c, (d, (e, (f, (g, (h, (j, (k, (l, m))))))))))), Inventory a b c d e f g h j k l m) ltac:(by intros [])
    (c_pair c_str (c_pair c_str (c_pair c_str (c_pair c_str (c_pair c_str (c_pair c_state (c_pair (c_map c_version) (c_pair (c_map c_state)
      (c_pair (c_list c_str) (c_pair c_int (c_pair c_bool c_bool))))))))))).

Definition jjson (i : inventory) : string := enc c_inventory i.
Definition jparse (b : string) : option inventory :=
  match par c_inventory b with Some (i, "") => Some i | _ => None end.
Lemma jparse_jjson i : jparse (jjson i) = Some i.
Proof. unfold jparse, jjson. rewrite <- (str_app_nil_r (enc c_inventory i)), enc_par. done. Qed.
Lemma jjson_ok : json_ok (λ _, True) jjson jparse.
Proof.
  split.
  - intros i. exists i. split; [apply jparse_jjson|apply same_record_refl].
  - intros i a b H Hb. unfold jparse. destruct (par c_inventory a) as [[j r]|] eqn:E; [|done]. destruct r; [|done].
    apply (par_more _ _ _ _ b) in E. pose proof (enc_par c_inventory i "") as H2. rewrite str_app_nil_r in H2.
    change (enc c_inventory i) with (jjson i) in H2. rewrite H, E in H2. by injection H2.
Qed.
(** The validator reads the same bytes. *)
Definition jdecode (b : string) : option doc := doc_of <$> jparse b.
Lemma jdecode_ok i : jdecode (jjson i) = Some (doc_of i).
Proof. unfold jdecode. by rewrite jparse_jjson. Qed.

(** * Executable sessions, for any encoding of inventories *)
Section executable.
Context (js : inventory → string) (jp : string → option inventory) (jd : string → option doc).
Local Notation jenv := (Env hexh js (λ p _, Some p) (λ p _, Some p) [("initial/config.json", "{}")]).
Definition clean_relb (p : string) : bool := forallb (λ c, bool_decide (c ≠ "" ∧ c ≠ "." ∧ c ≠ "..")) (split_slash p).
Lemma clean_relb_true p : clean_relb p = true → clean_rel p.
Proof.
  intros H. unfold clean_rel. apply Forall_forall. intros c Hc. unfold clean_relb in H. rewrite forallb_forall in H.
  assert (bool_decide (c ≠ "" ∧ c ≠ "." ∧ c ≠ "..") = true) as Hb by (apply H; by apply elem_of_list_In).
  apply bool_decide_eq_true in Hb as (A & B & C). repeat split; auto.
  pose proof (split_on_elem_no_sep slash p) as Hs. rewrite Forall_forall in Hs. auto.
Qed.
Definition properb (op : sop) (o : object) : bool :=
  match op with
  | SAdd _ p _ _ | SAddReader _ (p :: _) _ => clean_relb p && man_freshb (ob_inv o) (manifest_name (ob_inv o) p)
  | _ => true
  end.
Lemma properb_true op o : properb op o = true → proper jenv dflt op o.
Proof.
  intros H. split; [exact dflt_ok|].
  destruct op as [data p area dd|data [|p ps] area| | |]; try done; (apply andb_prop in H as [H1 H2]; split;
    [intros m [= <-]; by apply clean_relb_true|intros m [= <-] d; by apply man_freshb_true]).
Qed.
Fixpoint callsb (ops : list sop) (o : object) : option object :=
  match ops with
  | [] => Some o
  | op :: ops =>
      if properb op o then match sop_step jenv dflt op o with (_, SPanic) => None | (o', _) => callsb ops o' end else None
  end.
Lemma callsb_true ops o o' : callsb ops o = Some o' → calls jenv o o'.
Proof.
  revert o; induction ops as [|op ops IH]; intros o; cbn [callsb]; [intros [= <-]; constructor|].
  destruct (properb op o) eqn:Hp; [|done]. intros H. destruct (sop_step jenv dflt op o) as [o1 st] eqn:Es.
  assert (st ≠ SPanic ∧ callsb ops o1 = Some o') as [Hst Hc] by (by destruct st).
  eapply (calls_more _ dflt (OSimple op)); [done|by apply properb_true|exact Es|done|by apply IH].
Qed.
Definition updateb (now : string) (ops : list sop) (o : object) : option object :=
  match ob_start now "msg" "me" "mailto:me" false o with
  | (o1, SOk) =>
      o2 ← callsb ops o1;
      if inv_modified (ob_inv o2) then match ob_end jenv dflt (HDone []) o2 with (o3, SOk) => Some o3 | _ => None end else None
  | _ => None
  end.
Lemma updateb_true now ops o o' : updateb now ops o = Some o' → PublishSpec.update jenv o o'.
Proof.
  unfold updateb. destruct (ob_start _ _ _ _ _ o) as [o1 []] eqn:E1; [|done..]. destruct (callsb ops o1) as [o2|] eqn:E2; [|done]. cbn [mbind option_bind].
  destruct (inv_modified _) eqn:E3; [|done]. destruct (ob_end jenv dflt (HDone []) o2) as [o3 []] eqn:E4; [|done..]. intros [= <-].
  eapply Update; [exact E1|by eapply callsb_true|exact E3| |exact E4]. cbn [guarded_end]. split; [done|].
  unfold after_ok. destruct (if ob_echo o2 then ob_echo_delete jenv dflt o2 else (o2, SOk)) as [o4 []]; [|done..]. split; [done|].
  destruct (sops_run jenv [] o4) as [o5 []]; [|done..]. by destruct (store_inventory jenv true false o5) as [o6 []].
Qed.
Fixpoint updatesb (l : list (string * list sop)) (o : object) : option object :=
  match l with
  | [] => None
  | [(now, ops)] => updateb now ops o
  | (now, ops) :: l => o1 ← updateb now ops o; updatesb l o1
  end.
Lemma updatesb_true l o o' : updatesb l o = Some o' → updates jenv o o'.
Proof.
  revert o; induction l as [|[now ops] l IH]; intros o; [done|]. destruct l as [|x l].
  - intros H. apply updates_one. by eapply updateb_true.
  - cbn [updatesb]. destruct (updateb now ops o) as [o1|] eqn:E; [|done]. simpl. intros H. eapply updates_more; [by eapply updateb_true|]. by apply IH.
Qed.
Definition completeb (l : list (string * list sop)) (s : storage) (i : inventory) : option (storage * inventory) :=
  o1 ← updatesb l (open_object i);
  match ob_close jenv dflt o1 with (o2, SOk) => Some (apply_evs (ob_trace o2) s, ob_inv o2) | _ => None end.
Lemma completeb_true l s i s' i' : completeb l s i = Some (s', i') → complete jenv s i s' i'.
Proof.
  unfold completeb. destruct (updatesb l _) as [o1|] eqn:E1; [|done]. simpl. destruct (ob_close jenv dflt o1) as [o2 []] eqn:E2; [|done..].
  intros [= <- <-]. eapply Complete; [by eapply updatesb_true|exact E2|done|done].
Qed.
Definition loadb (s : storage) : option inventory := match load_inventory hexh jp s "" with LInv i [] => Some i | _ => None end.
Lemma loadb_true s i : loadb s = Some i → load_inventory hexh jp s "" = LInv i [].
Proof. unfold loadb. destruct (load_inventory hexh jp s "") as [|j [|]]; [done| |done]. by intros [= ->]. Qed.
Definition supportedb (i : inventory) : bool := bool_decide (inv_alg i ∈ ["sha512"; "md5"]) && forallb (λ a, bool_decide (a ∈ ["sha512"; "md5"])) (inv_fixalgs i).
Lemma supportedb_true i : supportedb i = true → supported jenv i.
Proof.
  intros [H1 H2]%andb_prop. apply bool_decide_eq_true in H1. rewrite forallb_forall in H2.
  assert (∀ alg x, alg ∈ ["sha512"; "md5"] → ∃ d, hexh alg x = Some d) as H.
  { intros alg x Ha. rewrite !elem_of_cons, elem_of_nil in Ha. destruct Ha as [-> |[-> |[]]]; by eexists. }
  intros alg x [-> |Ha]; [by apply H|]. apply H. apply elem_of_list_In, H2 in Ha. by apply bool_decide_eq_true in Ha.
Qed.
(** Histories without the guards. *)
Fixpoint succeedsb (ops : list (oracle * oop)) (o : object) : option object :=
  match ops with
  | [] => Some o
  | (orc, op) :: ops => match ostep jenv orc op o with (o1, SOk) => succeedsb ops o1 | _ => None end
  end.
Lemma succeedsb_true ops o o' : succeedsb ops o = Some o' → succeeds jenv ops o o'.
Proof.
  revert o; induction ops as [|[orc op] ops IH]; intros o; cbn [succeedsb]; [intros [= <-]; constructor|].
  destruct (ostep jenv orc op o) as [o1 []] eqn:E; [|done..]. intros H. eapply succeeds_cons; [exact E|by apply IH].
Qed.
Definition tried (ops : list (oracle * oop)) (s : storage) (i : inventory) : option (object * verdict) :=
  o ← succeedsb ops (open_object i); Some (o, validate_object hexh jd wd lx0 (apply_evs (ob_trace o) s)).
Lemma tried_true ops s i o v : tried ops s i = Some (o, v) →
  succeeds jenv ops (open_object i) o ∧ validate_object hexh jd wd lx0 (apply_evs (ob_trace o) s) = v.
Proof.
  unfold tried. destruct (succeedsb ops (open_object i)) as [o1|] eqn:E; [|done]. cbn [mbind option_bind]. intros [= <- <-].
  split; [by apply succeedsb_true|done].
Qed.
End executable.
Definition jenv : env := Env hexh jjson (λ p _, Some p) (λ p _, Some p) [("initial/config.json", "{}")].

(** The logical paths. *)
Definition pathsb (i : inventory) (ver : string) : list string :=
  match inv_versions i !! ver with Some v => concat (map snd (map_to_list (v_state v))) | None => [] end.
Lemma pathsb_spec i ver p : p ∈ pathsb i ver ↔ ∃ d, recorded i ver p d.
Proof.
  unfold pathsb, recorded, lists. destruct (inv_versions i !! ver) as [v|]; [|split; [by intros ?%elem_of_nil|by intros (d & v & ? & _)]].
  rewrite elem_of_list_In, in_concat. split.
  - intros (ps & H & Hp). apply in_map_iff in H as ([d qs] & <- & H). apply elem_of_list_In, elem_of_map_to_list in H. exists d, v.
    split; [done|]. exists qs. split; [done|]. by apply elem_of_list_In.
  - intros (d & v' & [= <-] & ps & Hd & Hp). exists ps. split; [|by apply elem_of_list_In]. apply in_map_iff. exists (d, ps). split; [done|].
    by apply elem_of_list_In, elem_of_map_to_list.
Qed.
Definition proper_namesb (i : inventory) : bool :=
  bool_decide (inv_id i ≠ "") && bool_decide (inv_type i ≠ "") && bool_decide (inv_alg i = "sha512") &&
  forallb (λ x : string * version, let ps := pathsb i x.1 in
    forallb (λ p, clean_relb p && forallb (λ q, negb (has_prefix (p +:+ "/") q)) ps) ps) (map_to_list (inv_versions i)).
Lemma proper_namesb_true i : proper_namesb i = true → proper_names i.
Proof.
  intros [[[H1 H2]%andb_prop H3]%andb_prop H4]%andb_prop. apply bool_decide_eq_true in H1, H2, H3. rewrite forallb_forall in H4.
  assert (∀ ver p d, recorded i ver p d → p ∈ pathsb i ver ∧
    clean_relb p && forallb (λ q, negb (has_prefix (p +:+ "/") q)) (pathsb i ver) = true) as H.
  { intros ver p d Hr. assert (p ∈ pathsb i ver) as Hp by (apply pathsb_spec; eauto). split; [done|]. destruct Hr as (v & Hv & _).
    pose proof (H4 (ver, v) (proj1 (elem_of_list_In _ _) (proj2 (elem_of_map_to_list _ _ _) Hv))) as H5. cbv zeta in H5. cbn [fst] in H5.
    apply (proj1 (forallb_forall _ _) H5). by apply elem_of_list_In. }
  split; [done|done|by left|..].
  - intros ver p d [_ [Hc _]%andb_prop]%H. by apply clean_relb_true.
  - intros ver p q d e [_ [_ Hf]%andb_prop]%H [Hq _]%H r ->. rewrite forallb_forall in Hf. apply elem_of_list_In, Hf in Hq.
    assert (has_prefix (p +:+ "/") (p +:+ "/" +:+ r) = true) as Hpre by (apply has_prefix_spec; exists r; by rewrite str_app_assoc).
    by rewrite Hpre in Hq.
Qed.

(** A created object: version 1 adds two files; the second session makes two versions: one replaces a file by a different one and
    renames, the next one deletes, both on one handle. *)
Definition store0 : storage := {["0=ocfl_object_1.1" := "ocfl_object_1.1"]}.
Definition made1 : option (storage * inventory) :=
  completeb jjson [("2024-01-01", [SAdd "x" "a" "" true; SAdd "y" "b/c" "" false])] store0 fresh0.
Definition made2 : option (storage * inventory) :=
  '(s, i) ← made1; i' ← loadb jparse s;
  if supportedb i' then
    completeb jjson [("2024-02-02", [SDelete "a" "a78"; SAdd "z" "a" "" true; SRename "b/c" "b/d" "a79"]);
               ("2024-03-03", [SAdd "x" "e" "" true; SDelete "b/d" "a79"; SAddReader "w" ["f"; "g"] ""])] s i'
  else None.
Lemma fresh0_fresh : fresh fresh0.
Proof. by split. Qed.
Lemma store0_declared : declared store0.
Proof. intros p x H. unfold store0 in H. apply lookup_singleton_Some in H as [<- _]. left. right. left. Qed.
Lemma made2_published s i : made2 = Some (s, i) → published jenv (λ _, True) jparse s i.
Proof.
  unfold made2. destruct made1 as [[s1 i1]|] eqn:E1; [|done]. simpl. destruct (loadb jparse s1) as [i2|] eqn:E2; [|done]. simpl.
  destruct (supportedb i2) eqn:E3; [|done]. intros H. eapply (published_next _ _ _ s1 i1 i2).
  - eapply published_first; [exact fresh0_fresh|exact store0_declared|apply supportedb_true; by vm_compute|by eapply completeb_true|exact I].
  - exact (loadb_true _ _ _ E2).
  - exact (supportedb_true _ _ E3).
  - exact (completeb_true _ _ _ _ _ _ H).
  - exact I.
Qed.
Definition made_checks : bool :=
  match made2 with
  | Some (s, i) => proper_namesb i && bool_decide (inv_head i = "v3") && bool_decide (content_name i = "content") &&
      bool_decide (size (inv_manifest i) = 4) && bool_decide (size s = 14)
  | None => false
  end.
Lemma made2_checked : made_checks = true.
Proof. by vm_compute. Qed.

Definition begin_up (now : string) : oracle * oop := (dflt, OStart now "msg" "me" "mailto:me" false).
Definition end_up : oracle * oop := (dflt, OEnd (HDone [])).
Definition finish : oracle * oop := (dflt, OClose).
