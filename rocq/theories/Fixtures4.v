(** A concrete object of two versions, with a given name of the content directory, for the examples of Properties10. *)
From Coq Require Import Ascii.
From stdpp Require Import base list strings gmap.
From Coq Require Import ZArith Lia.
From Verif Require Import GoStr InventoryModel ObjectModel CrashSpec ValidateModel ValidateSpec ValidateProofs CheckModel CheckSpec AcceptSpec AcceptProofs Fixtures2 Fixtures3.

Definition first_doc (cd c : string) : doc :=
  Doc "urn:x" "https://ocfl.io/1.1/spec/#inventory" "sha512" (os "v1") cd (Some {["a78" := ["v1/" +:+ c +:+ "/a"]]})
    (Some {["v1" := mkver {["a78" := ["a"]]}]}) {["md5" := {["b78" := ["v1/" +:+ c +:+ "/a"]]}]} ∅ [] 0.
Definition second_doc (cd c : string) : doc :=
  Doc "urn:x" "https://ocfl.io/1.1/spec/#inventory" "sha512" (os "v2") cd
    (Some {["a78" := ["v1/" +:+ c +:+ "/a"]; "a79" := ["v2/" +:+ c +:+ "/b"]]})
    (Some {["v1" := mkver {["a78" := ["a"]]}; "v2" := mkver {["a78" := ["a"]; "a79" := ["b/c"; "d"]]}]})
    {["md5" := {["b78" := ["v1/" +:+ c +:+ "/a"]]}]} ∅ [] 0.
Definition two_decode (cd c b : string) : option doc :=
  if decide (b = "second") then Some (second_doc cd c) else if decide (b = "first") then Some (first_doc cd c) else None.
Definition two_store (c : string) : storage :=
  {["0=ocfl_object_1.1" := "ocfl_object_1.1"; "inventory.json" := "second"; "inventory.json.sha512" := toy_side "second";
    "v1/inventory.json" := "first"; "v1/inventory.json.sha512" := toy_side "first"; "v1/" +:+ c +:+ "/a" := "x";
    "v2/inventory.json" := "second"; "v2/inventory.json.sha512" := toy_side "second"; "v2/" +:+ c +:+ "/b" := "y"]}.

(** * The object satisfies the rules *)

Lemma num1 : numbered "v1" 1.
Proof. split; [done|]. by exists 0. Qed.
Lemma num2 : numbered "v2" 2.
Proof. split; [done|]. by exists 0. Qed.
Lemma first_version cd c ver v : has_version (first_doc cd c) ver v ↔ ver = "v1" ∧ v = mkver {["a78" := ["a"]]}.
Proof.
  split.
  - intros (vs & [= <-] & H). by apply lookup_singleton_Some in H as [<- <-].
  - intros [-> ->]. eexists. split; [reflexivity|]. apply lookup_singleton.
Qed.
Lemma second_version cd c ver v : has_version (second_doc cd c) ver v ↔
  (ver = "v1" ∧ v = mkver {["a78" := ["a"]]}) ∨ (ver = "v2" ∧ v = mkver {["a78" := ["a"]; "a79" := ["b/c"; "d"]]}).
Proof.
  split.
  - intros (vs & [= <-] & H). apply lookup_insert_Some in H as [[<- <-]|[_ H]]; [by left|].
    apply lookup_singleton_Some in H as [<- <-]. by right.
  - intros [[-> ->]|[-> ->]]; (eexists; split; [reflexivity|]); [apply lookup_insert|]. rewrite lookup_insert_ne by done. apply lookup_singleton.
Qed.
Lemma first_man cd c dg p : man_lists (first_doc cd c) dg p ↔ dg = "a78" ∧ p = "v1/" +:+ c +:+ "/a".
Proof.
  split.
  - intros (m & ps & [= <-] & H & Hp). apply lookup_singleton_Some in H as [<- <-]. by apply elem_of_list_singleton in Hp as ->.
  - intros [-> ->]. eexists _, _. split; [reflexivity|]. split; [apply lookup_singleton|left].
Qed.
Lemma second_man cd c dg p : man_lists (second_doc cd c) dg p ↔
  (dg = "a78" ∧ p = "v1/" +:+ c +:+ "/a") ∨ (dg = "a79" ∧ p = "v2/" +:+ c +:+ "/b").
Proof.
  split.
  - intros (m & ps & [= <-] & H & Hp). apply lookup_insert_Some in H as [[<- <-]|[_ H]].
    + apply elem_of_list_singleton in Hp as ->. by left.
    + apply lookup_singleton_Some in H as [<- <-]. apply elem_of_list_singleton in Hp as ->. by right.
  - intros [[-> ->]|[-> ->]]; (eexists _, _; split; [reflexivity|]; split; [|left]); [apply lookup_insert|].
    rewrite lookup_insert_ne by done. apply lookup_singleton.
Qed.
Lemma first_fix cd c alg dg p : fix_lists (first_doc cd c) alg dg p → alg = "md5" ∧ dg = "b78" ∧ p = "v1/" +:+ c +:+ "/a".
Proof.
  intros (m & ps & H1 & H2 & Hp). cbn [dc_fixity first_doc] in H1. apply lookup_singleton_Some in H1 as [<- <-]. apply lookup_singleton_Some in H2 as [<- <-].
  by apply elem_of_list_singleton in Hp as ->.
Qed.
Lemma second_fix cd c alg dg p : fix_lists (second_doc cd c) alg dg p → alg = "md5" ∧ dg = "b78" ∧ p = "v1/" +:+ c +:+ "/a".
Proof. exact (first_fix cd c alg dg p). Qed.
Lemma mkver_sound st : sound_version (mkver st).
Proof. split; [split; [done|]; intros x [= <-]; done|intros x [= <-]; done|intros u [= <-]; split; [done|]; split; intros x [= <-]; done|intros ? ? [= <- <-]; done]. Qed.
Lemma state1 st e dg : vd_state (mkver {["a78" := ["a"]]}) = Some (st, e) → is_Some (st !! dg) → dg = "a78".
Proof. intros [= <- <-] [ps H]. by apply lookup_singleton_Some in H as [<- _]. Qed.
Lemma state2 st e dg : vd_state (mkver {["a78" := ["a"]; "a79" := ["b/c"; "d"]]}) = Some (st, e) → is_Some (st !! dg) → dg = "a78" ∨ dg = "a79".
Proof.
  intros [= <- <-] [ps H]. apply lookup_insert_Some in H as [[<- <-]|[_ H]]; [by left|]. apply lookup_singleton_Some in H as [<- _]. by right.
Qed.
Lemma lists1 st e dg ps p : vd_state (mkver {["a78" := ["a"]]}) = Some (st, e) → st !! dg = Some ps → p ∈ ps → p = "a".
Proof. intros [= <- <-] H Hp. apply lookup_singleton_Some in H as [<- <-]. by apply elem_of_list_singleton in Hp. Qed.
Lemma lists2 st e dg ps p : vd_state (mkver {["a78" := ["a"]; "a79" := ["b/c"; "d"]]}) = Some (st, e) → st !! dg = Some ps → p ∈ ps →
  p = "a" ∨ p = "b/c" ∨ p = "d".
Proof.
  intros [= <- <-] H Hp. apply lookup_insert_Some in H as [[<- <-]|[_ H]]; [apply elem_of_list_singleton in Hp; by left|].
  apply lookup_singleton_Some in H as [<- <-]. rewrite !elem_of_cons in Hp. destruct Hp as [Hp|[Hp|Hp]]; [by right; left|by right; right|by apply elem_of_nil in Hp].
Qed.
Definition malformedb (p : string) : bool := existsb (λ e, bool_decide (e = "" ∨ e = "." ∨ e = "..")) (split_slash p).
Lemma malformedb_spec p : malformedb p = false → ¬ malformed p.
Proof.
  intros H (e & He & Hx). apply not_true_iff_false in H. apply H. apply existsb_exists. exists e. split; [by apply elem_of_list_In|by apply bool_decide_eq_true].
Qed.
Lemma dir_three p q : p ∈ ["a"; "b/c"; "d"] → q ∈ ["a"; "b/c"; "d"] → ¬ dir_of p q.
Proof.
  intros Hp Hq [r E]. rewrite !elem_of_cons, elem_of_nil in Hp, Hq.
  destruct Hp as [-> |[-> |[-> |[]]]], Hq as [-> |[-> |[-> |[]]]]; discriminate.
Qed.
Lemma two_files c p x : two_store c !! p = Some x → p ∈ ["0=ocfl_object_1.1"; "inventory.json"; "inventory.json.sha512"; "v1/inventory.json";
    "v1/inventory.json.sha512"; "v1/" +:+ c +:+ "/a"; "v2/inventory.json"; "v2/inventory.json.sha512"; "v2/" +:+ c +:+ "/b"].
Proof.
    unfold two_store. intros H. rewrite !elem_of_cons.
    repeat (apply lookup_insert_Some in H as [[<- _]|[_ H]]; [tauto|]). apply lookup_singleton_Some in H as [<- _]. tauto.
Qed.
Lemma hex_first : hexadecimal (default "" (hexh "sha512" "first")).
Proof. split; [done|]. apply Forall_forall, (bool_decide_unpack _). by vm_compute. Qed.
Lemma hex_second : hexadecimal (default "" (hexh "sha512" "second")).
Proof. split; [done|]. apply Forall_forall, (bool_decide_unpack _). by vm_compute. Qed.
Lemma no_slash_in a b p : p ∈ ["inventory.json"; "inventory.json.sha512"] → p ≠ a +:+ "/" +:+ b.
Proof.
  intros Hp. rewrite !elem_of_cons, elem_of_nil in Hp.
  assert (¬ "/"%char ∈ list_ascii_of_string p) as Hn.
  { destruct Hp as [-> |[-> |[]]]; apply (bool_decide_unpack _); by vm_compute. }
  intros E. apply Hn. rewrite E, !list_ascii_app. rewrite !elem_of_app. right. left. left.
Qed.

Section generic.
  Context (cd c : string).
  Context (Hcd : cd ≠ "." ∧ cd ≠ ".." ∧ ∀ a b, cd ≠ a +:+ "/" +:+ b).
  Context (Hma : malformedb ("v1/" +:+ c +:+ "/a") = false) (Hmb : malformedb ("v2/" +:+ c +:+ "/b") = false).
  Lemma first_sound : sound_doc (first_doc cd c).
  Proof using Hcd Hma.
    split.
    - done.
    - done.
    - by left.
    - done.
    - done.
    - split; [intros ver v [-> _]%first_version; exists 1%N; apply num1|left; by intros ver v [-> _]%first_version].
    - exists 1%N. split; [done|]. split; [|split].
      + intros k Hk. assert (k = 1%N) as -> by lia. exists "v1". eexists. split; [by apply first_version|apply num1].
      + intros ver v [-> _]%first_version. exists 1%N. split; [apply num1|done].
      + by intros ver1 v1 ver2 v2 k [-> _]%first_version [-> _]%first_version.
    - split; [done|]. eexists _, 1%N. split; [by apply first_version|]. split; [apply num1|].
      intros ver v n [-> _]%first_version Hn. by rewrite (numbered_fun _ _ _ Hn num1).
    - intros ver v [-> ->]%first_version. apply mkver_sound.
    - intros ver v st e dg [-> ->]%first_version Hst Hdg. rewrite (state1 _ _ _ Hst Hdg). eexists. split; [reflexivity|]. eexists. apply lookup_singleton.
    - intros m dg [= <-] [ps H]. apply lookup_singleton_Some in H as [<- _]. eexists "v1", _, _, _. split; [by apply first_version|]. split; [reflexivity|].
      eexists. apply lookup_singleton.
    - intros dg p [_ ->]%first_man. by apply malformedb_spec.
    - intros alg dg p (_ & _ & ->)%first_fix. by apply malformedb_spec.
    - intros ver dg p (v & st & e & ps & [-> ->]%first_version & Hst & Hps & Hp). rewrite (lists1 _ _ _ _ _ Hst Hps Hp). by apply malformedb_spec.
    - intros ver dg dg' p q (v & st & e & ps & [-> ->]%first_version & Hst & Hps & Hp) (v' & st' & e' & ps' & [_ ->]%first_version & Hst' & Hps' & Hq).
      rewrite (lists1 _ _ _ _ _ Hst Hps Hp), (lists1 _ _ _ _ _ Hst' Hps' Hq). apply dir_three; left.
    - intros alg m dg dg' Hm [ps H1] [ps' H2] _. cbn [dc_fixity first_doc second_doc] in Hm. apply lookup_singleton_Some in Hm as [<- <-].
      apply lookup_singleton_Some in H1 as [<- _]. by apply lookup_singleton_Some in H2 as [<- _].
  Qed.
  Lemma second_sound : sound_doc (second_doc cd c).
  Proof using Hcd Hma Hmb.
    split.
    - done.
    - done.
    - by left.
    - done.
    - done.
    - split; [|left; by intros ver v [[-> _]|[-> _]]%second_version].
      intros ver v [[-> _]|[-> _]]%second_version; [exists 1%N; apply num1|exists 2%N; apply num2].
    - exists 2%N. split; [done|]. split; [|split].
      + intros k Hk. destruct (decide (k = 1%N)) as [-> |].
        * exists "v1". eexists. split; [apply second_version; by left|apply num1].
        * assert (k = 2%N) as -> by lia. exists "v2". eexists. split; [apply second_version; by right|apply num2].
      + intros ver v [[-> _]|[-> _]]%second_version; [exists 1%N; split; [apply num1|done]|exists 2%N; split; [apply num2|done]].
      + intros ver1 v1 ver2 v2 k [[-> _]|[-> _]]%second_version [[-> _]|[-> _]]%second_version N1 N2; try done.
        * pose proof (numbered_fun _ _ _ N1 num1). pose proof (numbered_fun _ _ _ N2 num2). congruence.
        * pose proof (numbered_fun _ _ _ N1 num2). pose proof (numbered_fun _ _ _ N2 num1). congruence.
    - split; [done|]. eexists _, 2%N. split; [by apply second_version; right|]. split; [apply num2|].
      intros ver v n [[-> _]|[-> _]]%second_version Hn; [by rewrite (numbered_fun _ _ _ Hn num1)|by rewrite (numbered_fun _ _ _ Hn num2)].
    - intros ver v [[-> ->]|[-> ->]]%second_version; apply mkver_sound.
    - intros ver v st e dg Hv Hst Hdg. eexists. split; [reflexivity|].
      assert (dg = "a78" ∨ dg = "a79") as [-> | ->].
      { apply second_version in Hv as [[-> ->]|[-> ->]]; [left; by eapply state1|by eapply state2]. }
      + eexists. apply lookup_insert.
      + eexists. rewrite lookup_insert_ne by done. apply lookup_singleton.
    - intros m dg [= <-] [ps H]. eexists "v2", _, _, _. split; [by apply second_version; right|]. split; [reflexivity|].
      apply lookup_insert_Some in H as [[<- <-]|[_ H]]; [eexists; apply lookup_insert|]. apply lookup_singleton_Some in H as [<- _].
      eexists. rewrite lookup_insert_ne by done. apply lookup_singleton.
    - intros dg p [[_ ->]|[_ ->]]%second_man; by apply malformedb_spec.
    - intros alg dg p (_ & _ & ->)%second_fix. by apply malformedb_spec.
    - intros ver dg p (v & st & e & ps & Hv & Hst & Hps & Hp).
      assert (p = "a" ∨ p = "b/c" ∨ p = "d") as [-> |[-> | ->]]; [|by apply malformedb_spec..].
      apply second_version in Hv as [[-> ->]|[-> ->]]; [left; by eapply lists1|by eapply lists2].
    - assert (∀ ver dg p, state_lists (second_doc cd c) ver dg p → p ∈ ["a"; "b/c"; "d"]) as Hl.
      { intros ver dg p (v & st & e & ps & Hv & Hst & Hps & Hp). rewrite !elem_of_cons.
        assert (p = "a" ∨ p = "b/c" ∨ p = "d") as [-> |[-> | ->]]; [|tauto..].
        apply second_version in Hv as [[-> ->]|[-> ->]]; [left; by eapply lists1|by eapply lists2]. }
      intros ver dg dg' p q Hp Hq. apply dir_three; by eapply Hl.
    - intros alg m dg dg' Hm [ps H1] [ps' H2] _. cbn [dc_fixity first_doc second_doc] in Hm. apply lookup_singleton_Some in Hm as [<- <-].
      apply lookup_singleton_Some in H1 as [<- _]. by apply lookup_singleton_Some in H2 as [<- _].
  Qed.
  Context (Hc : (cd = "" ∧ c = "content") ∨ (cd ≠ "" ∧ c = cd)).
  Context (Ha : two_store c !! ("v1/" +:+ c +:+ "/a") = Some "x") (Hb : two_store c !! ("v2/" +:+ c +:+ "/b") = Some "y").
  Context (Hr : two_store c !! "inventory.json" = Some "second") (Hr' : two_store c !! "inventory.json.sha512" = Some (toy_side "second")).
  Context (H1 : two_store c !! "v1/inventory.json" = Some "first") (H1' : two_store c !! "v1/inventory.json.sha512" = Some (toy_side "first")).
  Context (H2 : two_store c !! "v2/inventory.json" = Some "second") (H2' : two_store c !! "v2/inventory.json.sha512" = Some (toy_side "second")).
  Lemma two_holds_first : holds_inventory hexh (two_decode cd c) (two_store c) "v1/" (first_doc cd c).
  Proof using H1 H1'.
    exists "first", (default "" (hexh "sha512" "first")). split; [exact H1|]. split; [done|]. split; [done|]. split; [apply hex_first|exact H1'].
  Qed.
  Lemma two_holds_second : holds_inventory hexh (two_decode cd c) (two_store c) "v2/" (second_doc cd c).
  Proof using H2 H2'.
    exists "second", (default "" (hexh "sha512" "second")). split; [exact H2|]. split; [done|]. split; [done|]. split; [apply hex_second|exact H2'].
  Qed.
  Lemma two_holds_root : holds_inventory hexh (two_decode cd c) (two_store c) "" (second_doc cd c).
  Proof using Hr Hr'.
    exists "second", (default "" (hexh "sha512" "second")). split; [exact Hr|]. split; [done|]. split; [done|]. split; [apply hex_second|exact Hr'].
  Qed.
  Lemma two_inventory ver b e : two_store c !! (ver +:+ "/inventory.json") = Some b → two_decode cd c b = Some e → e = first_doc cd c ∨ e = second_doc cd c.
  Proof using.
    intros _ H. unfold two_decode in H. do 2 (destruct (decide _); [injection H as <-; auto|]). done.
  Qed.
  Lemma two_first : truthful hexh (two_store c) c (first_doc cd c).
  Proof using Ha.
    split.
    - intros dg p [-> ->]%first_man. split; [by exists "x"|]. eexists "v1", _, "a". split; [by apply first_version|done].
    - intros alg dg p (-> & -> & ->)%first_fix. split; [by exists "x"|]. exists "a78". by apply first_man.
    - split.
      + intros m dg ps [= <-] H. by apply lookup_singleton_Some in H as [<- <-].
      + intros alg m dg ps Hm H. cbn [dc_fixity first_doc] in Hm. apply lookup_singleton_Some in Hm as [<- <-]. by apply lookup_singleton_Some in H as [<- <-].
    - intros alg x [-> |[m Hm]].
      + eexists. split; [reflexivity|]. simpl. f_equal. apply hex_str_ok.
      + cbn [dc_fixity first_doc] in Hm. apply lookup_singleton_Some in Hm as [<- <-]. eexists. split; [reflexivity|]. simpl. f_equal. apply hex_str_ok.
  Qed.
  Lemma two_second : truthful hexh (two_store c) c (second_doc cd c).
  Proof using Ha Hb.
    split.
    - intros dg p [[-> ->]|[-> ->]]%second_man.
      + split; [by exists "x"|]. eexists "v1", _, "a". split; [by apply second_version; left|done].
      + split; [by exists "y"|]. eexists "v2", _, "b". split; [by apply second_version; right|done].
    - intros alg dg p (-> & -> & ->)%second_fix. split; [by exists "x"|]. exists "a78". apply second_man. by left.
    - split.
      + intros m dg ps [= <-] H. apply lookup_insert_Some in H as [[<- <-]|[_ H]]; [done|]. by apply lookup_singleton_Some in H as [<- <-].
      + exact (proj2 (tr_nonempty _ _ _ _ two_first)).
    - exact (tr_known _ _ _ _ two_first).
  Qed.
  Lemma two_sound : sound_object hexh (two_decode cd c) (two_store c) (second_doc cd c) c.
  Proof using Hcd Hma Hmb Hc Ha Hb Hr Hr' H1 H1' H2 H2'.
    split.
    - apply second_sound; done.
    - exact two_holds_root.
    - exact Hc.
    - intros ver v [[-> ->]|[-> ->]]%second_version.
      + exists (first_doc cd c). split; [exact two_holds_first|]. split; [by apply first_sound|]. split; [done|]. split; [done|]. split; [done|].
        intros ver' v' [-> ->]%first_version. eexists. split; [apply second_version; by left|done].
      + exists (second_doc cd c). split; [exact two_holds_second|]. split; [by apply second_sound|]. split; [done|]. split; [done|]. split; [done|].
        intros ver' v' Hv. by exists v'.
    - intros ver (v & n & Hv & Hn & Hmax). apply second_version in Hv as [[-> _]|[-> _]]; [|exact (eq_trans H2 (eq_sym Hr))].
      pose proof (numbered_fun _ _ _ Hn num1) as ->.
      assert (2 <= 1)%N; [|lia]. apply (Hmax "v2" (mkver {["a78" := ["a"]; "a79" := ["b/c"; "d"]]})); [apply second_version; by right|apply num2].
    - intros ver1 ver2 b1 b2 e1 e2 n1 n2 _ _ _ Hb1 He1 Hb2 He2.
      assert (∀ e, e = first_doc cd c ∨ e = second_doc cd c → dc_type e = "https://ocfl.io/1.1/spec/#inventory") as Ht by (by intros e [-> | ->]).
      rewrite (Ht e1), (Ht e2); [apply str_le_refl|exact (two_inventory _ _ _ Hb2 He2)|exact (two_inventory _ _ _ Hb1 He1)].
    - intros e [-> |(ver & v & b & _ & Hb1 & He)]; [exact two_second|].
      destruct (two_inventory _ _ _ Hb1 He) as [-> | ->]; [exact two_first|exact two_second].
    - intros p x Hx. apply two_files in Hx. rewrite !elem_of_cons, elem_of_nil in Hx.
      assert (has_version (second_doc cd c) "v1" (mkver {["a78" := ["a"]]})) as V1 by (apply second_version; by left).
      assert (has_version (second_doc cd c) "v2" (mkver {["a78" := ["a"]; "a79" := ["b/c"; "d"]]})) as V2 by (apply second_version; by right).
      destruct Hx as [-> |[-> |[-> |[-> |[-> |[-> |[-> |[-> |[-> |[]]]]]]]]]].
      1-3: left; rewrite !elem_of_cons; tauto.
      all: right; right; right.
      + eexists _, _; split; [exact V1|]. by left.
      + eexists _, _; split; [exact V1|]. right. left. exists "first", (first_doc cd c). done.
      + eexists _, _; split; [exact V1|]. right. right. by exists "a".
      + eexists _, _; split; [exact V2|]. by left.
      + eexists _, _; split; [exact V2|]. right. left. exists "second", (second_doc cd c). done.
      + eexists _, _; split; [exact V2|]. right. right. by exists "b".
    - intros ver1 ver2 v1 v2 n1 n2 r x b e Hv1 Hv2 N1 N2 Hle Hx Hb' He.
      assert (∀ u z, two_store c !! ("v1/" +:+ c +:+ "/" +:+ u) = Some z → "v1/" +:+ c +:+ "/" +:+ u = "v1/" +:+ c +:+ "/a") as Q1.
      { clear. intros u z Hz. apply two_files in Hz. rewrite !elem_of_cons, elem_of_nil in Hz.
        destruct Hz as [E|[E|[E|[E|[E|[E|[E|[E|[E|[]]]]]]]]]]; try discriminate; try exact E;
          injection E as E; exfalso; refine (no_slash_in c u _ _ (eq_sym E)); rewrite !elem_of_cons; tauto. }
      assert (∀ u z, two_store c !! ("v2/" +:+ c +:+ "/" +:+ u) = Some z → "v2/" +:+ c +:+ "/" +:+ u = "v2/" +:+ c +:+ "/b") as Q2.
      { clear. intros u z Hz. apply two_files in Hz. rewrite !elem_of_cons, elem_of_nil in Hz.
        destruct Hz as [E|[E|[E|[E|[E|[E|[E|[E|[E|[]]]]]]]]]]; try discriminate; try exact E;
          injection E as E; exfalso; refine (no_slash_in c u _ _ (eq_sym E)); rewrite !elem_of_cons; tauto. }
      apply second_version in Hv1 as [[-> ->]|[-> ->]]; apply second_version in Hv2 as [[-> ->]|[-> ->]].
      + apply Q1 in Hx. change ("v1" +:+ "/" +:+ c +:+ "/" +:+ r) with ("v1/" +:+ c +:+ "/" +:+ r). rewrite Hx.
        exists "a78". destruct (two_inventory _ _ _ Hb' He) as [-> | ->]; [by apply first_man|apply second_man; by left].
      + apply Q1 in Hx. change ("v1" +:+ "/" +:+ c +:+ "/" +:+ r) with ("v1/" +:+ c +:+ "/" +:+ r). rewrite Hx.
        exists "a78". destruct (two_inventory _ _ _ Hb' He) as [-> | ->]; [by apply first_man|apply second_man; by left].
      + pose proof (numbered_fun _ _ _ N1 num2). pose proof (numbered_fun _ _ _ N2 num1). lia.
      + apply Q2 in Hx. change ("v2" +:+ "/" +:+ c +:+ "/" +:+ r) with ("v2/" +:+ c +:+ "/" +:+ r). rewrite Hx.
        change ("v2" +:+ "/inventory.json") with "v2/inventory.json" in Hb'. rewrite H2 in Hb'. injection Hb' as <-. injection He as <-.
        exists "a79". apply second_man. by right.
  Qed.
End generic.
Lemma content_sound : sound_object hexh (two_decode "" "content") (two_store "content") (second_doc "" "content") "content".
Proof.
  apply two_sound; try (by vm_compute).
  - split; [done|]. split; [done|]. intros a b E. by destruct a.
  - by left.
Qed.
Lemma inv_sound : sound_object hexh (two_decode "inv" "inv") (two_store "inv") (second_doc "inv" "inv") "inv".
Proof.
  apply two_sound; try (by vm_compute).
  - split; [done|]. split; [done|]. intros a b E. destruct a as [|x [|y [|z [|t a]]]]; discriminate.
  - by right.
Qed.
