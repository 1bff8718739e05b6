From Coq Require Import Ascii.
From stdpp Require Import base list strings gmap.
From Coq Require Import ZArith Lia.
From Verif Require Import GoStr PathModel InventoryModel ObjectModel CrashSpec PathProofs AreaProofs LoadModel ValidateModel ValidateSpec CheckModel AcceptSpec
  RootModel RootSpec RootProofs RootCheckModel RootCheckSpec.

(** * Extensions *)
Definition created (create : list (string * node) → option ext) (l : list (string * node)) : list ext :=
  omap (λ e : string * node, match snd e with Dir sub => create sub | File _ => None end) l.
Lemma created_elem create l x : x ∈ created create l ↔ ∃ name, creates create l name x.
Proof.
  unfold created. rewrite elem_of_list_omap. split.
  - intros ([name n] & Hi & Hx). destruct n as [|sub]; [done|]. exists name, sub. done.
  - intros (name & sub & Hi & Hx). by exists (name, Dir sub).
Qed.
Definition loop_ws (create : list (string * node) → option ext) (l : list (string * node)) : list finding :=
  l ≫= λ e : string * node,
    match snd e with
    | File _ => []
    | Dir sub => match create sub with
                 | None => [Finding "W000" [fst e]]
                 | Some x => when (negb (x_registered x)) (Finding "W013" [x_name x])
                 end
    end.
Lemma creates_cons create name n l nm x : creates create l nm x → creates create ((name, n) :: l) nm x.
Proof. intros (sub & Hi & Hx). exists sub. split; [by apply elem_of_list_further|done]. Qed.
Lemma loop_known create l : (∀ name x, creates create l name x → x_name x = name) → create_loop true create l = Some (loop_ws create l, created create l).
Proof.
  induction l as [|[name n] l IH]; intros Hn; [done|].
  assert (create_loop true create l = Some (loop_ws create l, created create l)) as IH'.
  { apply IH. intros nm x Hx. apply Hn. by apply creates_cons. }
  destruct n as [d|sub]; cbn [create_loop]; [by rewrite IH'|]. rewrite IH'. unfold loop_ws. rewrite bind_cons. cbn [snd fst].
  unfold created. cbn [omap list_omap snd]. destruct (create sub) as [x|] eqn:Hc; [|done]. cbn.
  assert (x_name x = name) as <-. { apply Hn. exists sub. split; [apply elem_of_list_here|done]. }
  rewrite bool_decide_false by (intros [H _]; by apply H). rewrite decide_False by (intros [-> H]; by apply H). unfold when. rewrite app_nil_r. done.
Qed.
Lemma loop_nil create l : (∀ name x, creates create l name x → x_name x = name) → (∀ name, ¬ unknown create l name) → create_loop false create l = Some ([], created create l).
Proof.
  induction l as [|[name n] l IH]; intros Hn Hu; [done|].
  assert (create_loop false create l = Some ([], created create l)) as IH'.
  { apply IH; [intros nm x Hx; apply Hn; by apply creates_cons|]. intros nm (sub & Hi & Hx). apply (Hu nm). exists sub. split; [by apply elem_of_list_further|done]. }
  destruct n as [d|sub]; cbn [create_loop]; [by rewrite IH'|]. rewrite IH'.
  unfold created. cbn [omap list_omap snd]. destruct (create sub) as [x|] eqn:Hc.
  2:{ exfalso. apply (Hu name). exists sub. split; [apply elem_of_list_here|done]. }
  assert (x_name x = name) as <-. { apply Hn. exists sub. split; [apply elem_of_list_here|done]. }
  rewrite decide_False by (intros [-> H]; by apply H). done.
Qed.
Lemma loop_panics create l name : unknown create l name → create_loop false create l = None.
Proof.
  intros (sub & Hi & Hx). induction l as [|[nm n] l IH]; [by apply elem_of_nil in Hi|]. cbn [create_loop].
  destruct n as [d|sub']; [apply IH; by apply elem_of_cons in Hi as [?|?]|].
  apply elem_of_cons in Hi as [[= -> ->]|Hi]; [by rewrite Hx|]. rewrite (IH Hi). by destruct (create sub').
Qed.
Lemma loop_ws_warn create l f : f ∈ loop_ws create l → warning f.
Proof.
  unfold loop_ws. rewrite elem_of_list_bind. intros ([name n] & Hf & _). cbn [snd fst] in Hf. destruct n as [|sub]; [by apply elem_of_nil in Hf|].
  destruct (create sub) as [x|].
  - unfold when in Hf. destruct (negb _); [|by apply elem_of_nil in Hf]. apply elem_of_list_singleton in Hf as ->. by exists "013".
  - apply elem_of_list_singleton in Hf as ->. by exists "000".
Qed.

(** The extensions that are given to the manager. *)
Definition others (create : list (string * node) → option ext) (l : list (string * node)) : list ext :=
  List.filter (λ x, negb (bool_decide (x_name x = "initial" ∨ x_name x = manager_name))) (created create l).
Lemma filter_same {A} (f g : A → bool) l : (∀ x, x ∈ l → f x = g x) → List.filter f l = List.filter g l.
Proof.
  induction l as [|x l IH]; intros H; [done|]. cbn. rewrite (H x) by apply elem_of_list_here. rewrite IH; [done|].
  intros y Hy. apply H. by apply elem_of_list_further.
Qed.
Lemma filter_twice {A} (f g : A → bool) l : List.filter f (List.filter g l) = List.filter (λ x, g x && f x) l.
Proof. induction l as [|x l IH]; [done|]. cbn. destruct (g x); cbn; [destruct (f x)|]; by rewrite ?IH. Qed.
Lemma elem_filter {A} (f : A → bool) l x : x ∈ List.filter f l ↔ x ∈ l ∧ f x = true.
Proof. rewrite !elem_of_list_In. apply List.filter_In. Qed.
Lemma existsb_false' {A} (f : A → bool) l : (∀ x, x ∈ l → f x = false) → existsb f l = false.
Proof. intros H. destruct (existsb f l) eqn:E; [|done]. apply existsb_exists in E as (x & Hi & Hx). rewrite (H x) in Hx; [done|]. by apply elem_of_list_In. Qed.
Lemma manager_not_initial : manager_name ≠ "initial".
Proof. done. Qed.
Lemma ext_result create l val ws : managed create l → create_loop val create l = Some (ws, created create l) →
  create_extensions val create l = XOk ws (others create l).
Proof.
  intros [Ho Hn Hi Hm Hb] Hl. unfold create_extensions. rewrite Hl.
  assert (∀ x, x ∈ created create l → creates create l (x_name x) x) as Hcr.
  { intros x Hx. apply created_elem in Hx as [name Hx]. by rewrite (Hn _ _ Hx). }
  set (es := created create l) in *.
  assert (∀ x, x ∈ List.filter named_initial es → x_initial x = Some manager_name) as Hini.
  { intros x [Hx Ht]%elem_filter. apply bool_decide_eq_true in Ht. apply Hi. rewrite <- Ht. by apply Hcr. }
  rewrite (existsb_false' _ (List.filter named_initial es)).
  2:{ intros x Hx. by rewrite (Hini x Hx). }
  destruct (last (List.filter named_initial es)) as [x|] eqn:Hlast.
  - assert (x ∈ List.filter named_initial es) as Hx. { apply last_Some in Hlast as [k ->]. apply elem_of_app. right. apply elem_of_list_here. }
    cbn [mbind option_bind]. rewrite (Hini x Hx). cbv iota beta.
    assert (∃ y, creates create l manager_name y) as [y Hy].
    { apply Hb. exists x. apply elem_filter in Hx as [Hx Ht]. apply bool_decide_eq_true in Ht. rewrite <- Ht. by apply Hcr. }
    assert (y ∈ es) as Hyes by (apply created_elem; eauto). pose proof (Hn _ _ Hy) as Hyn.
    rewrite (existsb_false' (λ x0, bool_decide (x_name x0 = manager_name) && negb (x_manager x0))).
    2:{ intros z [Hz _]%elem_filter. destruct (bool_decide (x_name z = manager_name)) eqn:Hbz; [|done]. apply bool_decide_eq_true in Hbz.
        rewrite (Hm z); [done|]. rewrite <- Hbz. by apply Hcr. }
    assert (existsb (λ x0, bool_decide (x_name x0 = manager_name) && x_manager x0) (List.filter (λ x0, negb (named_initial x0)) es) = true) as ->.
    { apply existsb_exists. exists y. split.
      - apply elem_of_list_In, elem_filter. split; [done|]. unfold named_initial. rewrite Hyn. done.
      - rewrite Hyn, bool_decide_true by done. cbn. apply Hm. exact Hy. }
    cbn [orb negb].
    assert (List.filter (λ x0, negb (bool_decide (x_name x0 = manager_name) && x_manager x0)) (List.filter (λ x0, negb (named_initial x0)) es) = others create l) as ->.
    { unfold others. fold es. rewrite filter_twice. apply filter_same. intros z Hz. unfold named_initial. pose proof (Hcr z Hz) as Hz'.
      destruct (decide (x_name z = "initial")) as [E|E]; [rewrite (bool_decide_true (x_name z = "initial")) by done; rewrite (bool_decide_true (_ ∨ _)) by (by left); done|]. rewrite (bool_decide_false (x_name z = "initial")) by done.
      destruct (decide (x_name z = manager_name)) as [E'|E'].
      - rewrite (bool_decide_true (x_name z = manager_name)) by done. rewrite (bool_decide_true (_ ∨ _)) by (by right). cbn. rewrite (Hm z); [done|]. by rewrite <- E'.
      - rewrite (bool_decide_false (x_name z = manager_name)) by done. rewrite bool_decide_false by tauto. done. }
    rewrite existsb_false'; [done|]. intros z [Hz Ht]%elem_filter. apply negb_true_iff, bool_decide_eq_false in Ht. apply bool_decide_eq_false. tauto.
  - apply last_None in Hlast. cbn [mbind option_bind]. cbv iota beta.
    assert (¬ ∃ x, creates create l "initial" x) as Hno.
    { intros [x Hx]. assert (x ∈ List.filter named_initial es) as H; [|rewrite Hlast in H; by apply elem_of_nil in H].
      apply elem_filter. split; [apply created_elem; eauto|]. apply bool_decide_eq_true. by apply Hn. }
    assert (∀ z, z ∈ es → x_name z ≠ manager_name) as Hnm.
    { intros z Hz E. apply Hno, Hb. exists z. rewrite <- E. by apply Hcr. }
    assert (List.filter (λ x, negb (named_initial x)) es = others create l) as ->.
    { unfold others. fold es. apply filter_same. intros z Hz. unfold named_initial. f_equal. apply bool_decide_ext. split; [by left|]. intros [?|?]; [done|]. by apply Hnm in Hz. }
    rewrite existsb_false'; [done|]. intros z [Hz Ht]%elem_filter. apply bool_decide_eq_false. by apply Hnm.
Qed.
Lemma ext_object create l : managed create l → create_extensions true create l = XOk (loop_ws create l) (others create l).
Proof. intros H. apply ext_result; [done|]. apply loop_known. apply H. Qed.
Lemma ext_root create l : managed create l → (∀ name, ¬ unknown create l name) → create_extensions false create l = XOk [] (others create l).
Proof. intros H Hu. apply ext_result; [done|]. apply loop_nil; [apply H|done]. Qed.
Lemma ext_panics create l name : unknown create l name → create_extensions false create l = XPanic.
Proof. intros H. unfold create_extensions. by rewrite (loop_panics _ _ _ H). Qed.
Lemma managed_nil create : managed create [].
Proof.
  assert (∀ nm x, ¬ creates create [] nm x) as H by (intros nm x (sub & Hi & _); by apply elem_of_nil in Hi).
  constructor; [apply NoDup_nil_2| | | |]; try (intros; exfalso; by eapply H). split; intros [x Hx]; exfalso; by eapply H.
Qed.
Lemma find_extensions l : ext_folder l = [] ∨ extensions_of l (ext_folder l).
Proof.
  unfold ext_folder. cbn [find_dir]. destruct (list_find _ l) as [[i [nm [d|sub]]]|] eqn:E; [by left| |by left].
  apply list_find_Some in E as (Hi & Hn & _). cbn in Hn. subst nm. right. left. cbn. by eapply elem_of_list_lookup_2.
Qed.
Lemma folder_managed create l : (∀ e, extensions_of l e → managed create e) → managed create (ext_folder l).
Proof. intros H. destruct (find_extensions l) as [-> |Hx]; [apply managed_nil|by apply H]. Qed.

(** * Version numbers *)
Lemma mantissa_app acc s t : mantissa acc (s +:+ t) = mantissa (mantissa acc s) t.
Proof. revert acc. induction s as [|c s IH]; intros acc; [done|]. cbn. apply IH. Qed.
Lemma mantissa_digits s : all_digits s → ∀ acc, mantissa acc s = (acc * 10 ^ N.of_nat (String.length s) + positional s)%N.
Proof.
  induction s as [|c s IH]; intros H acc; [cbn; lia|]. apply all_digits_cons in H as [Hc Hs]. cbn [mantissa positional String.length]. rewrite Hc, IH by done.
  replace (N.of_nat (S (String.length s))) with (N.succ (N.of_nat (String.length s))) by lia. rewrite N.pow_succ_r'. lia.
Qed.
Lemma after_dot_number a b : all_digits a → after_dot (a +:+ "." +:+ b) = b.
Proof.
  induction a as [|c a IH]; intros H; [done|]. apply all_digits_cons in H as [Hc Ha]. change (String c a +:+ "." +:+ b) with (String c (a +:+ "." +:+ b)).
  change (after_dot (String c ?s)) with (if decide (c = "."%char) then s else after_dot s). rewrite decide_False; [by apply IH|].
  intros ->. vm_compute in Hc. done.
Qed.
Lemma decimal_number a b : all_digits a → all_digits b →
  decimal (a +:+ "." +:+ b) = (positional a * 10 ^ N.of_nat (String.length b) + positional b, 10 ^ N.of_nat (String.length b))%N.
Proof.
  intros Ha Hb. unfold decimal. rewrite after_dot_number by done. f_equal. rewrite !mantissa_app, (mantissa_digits a) by done.
  change (mantissa ?x ".") with x. rewrite mantissa_digits by done. lia.
Qed.
Lemma decimal_later rv v : version_number rv → version_number v → decimal_lt rv v = true ↔ later v rv.
Proof.
  intros (c & d & Hc & Hd & ->) (a & b & Ha & Hb & ->). unfold decimal_lt. rewrite !decimal_number by (by apply digits_all). cbn [fst snd]. rewrite N.ltb_lt. split.
  - intros H. by exists a, b, c, d.
  - intros (a' & b' & c' & d' & Ha' & Hb' & Hc' & Hd' & E1 & E2 & H). cbv zeta in H.
    assert (∀ x y x' y', digits x → digits x' → x +:+ "." +:+ y = x' +:+ "." +:+ y' → x = x' ∧ y = y') as Hsep.
    { intros x y x' y' Hx Hx' E. apply digits_all in Hx as [_ Hx], Hx' as [_ Hx']. pose proof (after_dot_number x y Hx) as A1. rewrite E, after_dot_number in A1 by done. subst y'.
      split; [|done]. by apply str_app_inv_r in E. }
    apply Hsep in E1 as [<- <-]; [|done..]. apply Hsep in E2 as [<- <-]; [|done..]. exact H.
Qed.
