(** Objects of any origin stay valid when they are updated. *)
From Coq Require Import Ascii.
From stdpp Require Import base list strings gmap.
From Coq Require Import ZArith Lia.
From Verif Require Import GoStr InventoryModel InventorySpec ObjectModel ObjectSpec LoadModel CrashSpec ValidateModel ValidateSpec CheckModel CheckSpec
  AcceptSpec AcceptProofs AcceptProofs3 PublishSpec JsonInvModel ForeignModel ForeignProofs ForeignProofs2 ContinueSpec ContinueProofs2 ContinueProofs3
  Fixtures Fixtures2 Fixtures3 Fixtures4 Fixtures5 Properties10 Properties14 Properties34.

(** * C81: complete updates of a sound object of any origin give a sound object *)

(** Full statement: an object that the validator accepts, whatever program has made it, is accepted after any number of complete updates.
    False for digests in upper case; see below.  Proved for objects that follow the rules of the specification and are written in plain
    style: version names without leading zeros, one digest algorithm, digests in lower case, a state in every version. *)
Theorem C81_stays_sound_partial hash decode s s' d c :
  hex_hash hash → sound_object hash decode s d c → plain_style decode s d → continued hash decode s s' →
  ∃ d', sound_object hash decode s' d' c ∧ plain_style decode s' d'.
Proof. apply continued_sound. Qed.
(** The validator accepts the object after every one of the updates. *)
Theorem C81_stays_valid_partial hash decode w lx s s' d c :
  hex_hash hash → sound_object hash decode s d c → plain_style decode s d → continued hash decode s s' → apart c → vorder_ok w →
  only_warnings (validate_object hash decode w lx s').
Proof. intros Hh HO HS Hc Ha Hw. destruct (continued_sound _ _ _ _ _ _ Hh HO HS Hc) as (d' & H & _). by eapply sound_accepted. Qed.
(** The next update can always begin: the loader returns an inventory, and its digest algorithms are supported. *)
Theorem C81_next_update_partial E decode w lx s s' d c :
  hex_hash (e_hash E) → sound_object (e_hash E) decode s d c → plain_style decode s d → continued (e_hash E) decode s s' → apart c → vorder_ok w →
  (∀ b e, decode b = Some e → dc_fixalgs e = []) →
  ∃ i, load_inventory (e_hash E) (parse_of decode w lx) s' "" = LInv i [] ∧ supported E i.
Proof.
  intros Hh HO HS Hc Ha Hw Hf. destruct (continued_sound _ _ _ _ _ _ Hh HO HS Hc) as (d' & H & _).
  destruct (accepted_loads _ _ _ _ _ (sound_accepted _ _ w lx _ _ _ Hw H Ha)) as (b & d0 & d1 & f & Hb & Hd & Hfin & _ & Hl).
  exists (to_inventory d1). split; [exact Hl|].
  destruct (so_root _ _ _ _ _ H) as (b' & dg & B1 & B2 & _). rewrite str_app_nil_l in B1. assert (b' = b) as -> by congruence. assert (d0 = d') as -> by congruence.
  pose proof (so_truthful _ _ _ _ _ H d' (or_introl eq_refl)) as [_ _ _ T].
  intros alg x Halg. destruct (T alg x) as (h & Hx & _); [|by exists h]. destruct Halg as [-> |Halg].
  - left. exact (finalize_alg _ _ _ _ _ Hfin).
  - right. change (alg ∈ dc_fixalgs d1) in Halg.
    assert (dc_fixalgs d1 = fin_algs w (dc_fixalgs d') (dc_fixity d')) as E1.
    { revert Hfin. unfold finalize. destruct (check_doc w lx _) as [p r']. by intros [= <- _]. }
    rewrite E1, (Hf _ _ Hd) in Halg. unfold fin_algs in Halg.
    assert (∀ l acc, alg ∈ foldl (λ acc a, if decide (a ∈ acc) then acc else acc ++ [a]) acc l → alg ∈ acc ∨ alg ∈ l) as Hfold.
    { clear. induction l as [|a l IH]; intros acc Hin; [by left|]. cbn [foldl] in Hin. apply IH in Hin as [Hin|Hin]; [|right; by right].
      destruct (decide (a ∈ acc)); [by left|]. apply elem_of_app in Hin as [Hin|Hin]; [by left|]. right. apply elem_of_list_singleton in Hin as ->. left. }
    apply Hfold in Halg as [Halg|Halg]; [by apply elem_of_nil in Halg|]. apply elem_of_list_fmap in Halg as ([a blk] & -> & Hin).
    assert ((a, blk) ∈ map_to_list (dc_fixity d')) as Hin' by (eapply elem_of_Permutation_proper; [symmetry; apply Hw|exact Hin]).
    apply elem_of_map_to_list in Hin'. by exists blk.
Qed.
(** The same bytes mean the same to two decoders. *)
Lemma sound_transfer hash decode decode' s d c :
  sound_object hash decode s d c → (∀ p b, s !! p = Some b → decode' b = decode b) → sound_object hash decode' s d c.
Proof.
  intros [A B C D F G H I J] Heq.
  assert (∀ pre e, holds_inventory hash decode s pre e → holds_inventory hash decode' s pre e) as Hh.
  { intros pre e (b & dg & X1 & X2 & X3). exists b, dg. split; [done|]. split; [by rewrite (Heq _ _ X1)|done]. }
  split; [done|by apply Hh|done| |done| | | |].
  - intros ver v Hv. destruct (D ver v Hv) as (e & X1 & X2). exists e. split; [by apply Hh|done].
  - intros ver1 ver2 b1 b2 e1 e2 n1 n2 N1 N2 Hle X1 Y1 X2 Y2. rewrite (Heq _ _ X1) in Y1. rewrite (Heq _ _ X2) in Y2. by eapply (G ver1 ver2).
  - intros e [-> |(ver & v & b & X1 & X2 & X3)]; [apply H; by left|]. apply H. right. exists ver, v, b. by rewrite <- (Heq _ _ X2).
  - intros p x Hp. destruct (I p x Hp) as [K|[K|[K|(ver & v & Hv & [K|[(b & e & X1 & X2 & X3)|K]])]]]; [by left|right; by left|right; right; by left|..];
      right; right; right; exists ver, v; (split; [done|]); [by left| |right; by right].
    right; left. exists b, e. by rewrite (Heq _ _ X1).
  - intros ver1 ver2 v1 v2 n1 n2 r x b e V1 V2 N1 N2 Hle Hx Hb He. rewrite (Heq _ _ Hb) in He. by eapply (J ver1 ver2).
Qed.
(** The two kinds of inventories: those of the other program, and those written by this one. *)
Definition xdec (b : string) : option doc := match jdecode b with Some d => Some d | None => two_decode "" "content" b end.
Lemma xdec_json j : xdec (e_json jenv j) = Some (doc_of j).
Proof. unfold xdec. change (e_json jenv j) with (jjson j). by rewrite jdecode_ok. Qed.
Definition other : storage := two_store "content".
Definition other_doc : doc := second_doc "" "content".
Lemma other_bytes p b : other !! p = Some b → xdec b = two_decode "" "content" b.
Proof.
  assert (forallb (λ x : string * string, match jdecode x.2 with None => true | Some _ => false end) (map_to_list other) = true) as H by (vm_compute; reflexivity).
  rewrite forallb_forall in H. intros Hp. apply elem_of_map_to_list, elem_of_list_In, H in Hp. cbn [snd] in Hp. unfold xdec. by destruct (jdecode b).
Qed.
Lemma other_sound : sound_object hexh xdec other other_doc "content".
Proof. eapply sound_transfer; [exact content_sound|exact other_bytes]. Qed.
Lemma other_in e : inventory_in xdec other other_doc e → e = first_doc "" "content" ∨ e = other_doc.
Proof.
  intros [-> |(ver & v & b & _ & Hb & He)]; [by right|]. rewrite (other_bytes _ _ Hb) in He. by apply (two_inventory "" "content" ver b).
Qed.
Lemma other_plain : plain_style xdec other other_doc.
Proof.
  split.
  - intros ver v [[-> _]|[-> _]]%second_version H; vm_compute in H; discriminate H.
  - by intros e [-> | ->]%other_in.
  - intros e dg p [-> | ->]%other_in; [intros [-> _]%first_man; vm_compute; reflexivity|]. intros [[-> _]|[-> _]]%second_man; vm_compute; reflexivity.
  - intros e alg dg p [-> | ->]%other_in; [intros (_ & -> & _)%first_fix|intros (_ & -> & _)%second_fix]; vm_compute; reflexivity.
  - intros e ver v [-> | ->]%other_in; [intros [_ ->]%first_version; intros H; discriminate H|]. intros [[_ ->]|[_ ->]]%second_version; intros H; discriminate H.
Qed.
Definition xload (s : storage) : option inventory := match load_inventory hexh (parse_of xdec wd lx0) s "" with LInv i [] => Some i | _ => None end.
Lemma xload_true s i : xload s = Some i → load_inventory hexh (parse_of xdec wd lx0) s "" = LInv i [].
Proof. unfold xload. destruct (load_inventory hexh (parse_of xdec wd lx0) s "") as [|j [|]]; [done| |done]. by intros [= ->]. Qed.
(** One session, checked. *)
Definition xsession (l : list (string * list sop)) (s : storage) : option storage :=
  i ← xload s; '(s2, i2) ← completeb jjson l s i; if supportedb i && proper_namesb i2 then Some s2 else None.
Lemma xsession_true l s s1 s2 : continued hexh xdec s s1 → xsession l s1 = Some s2 → continued hexh xdec s s2.
Proof.
  intros Hc. unfold xsession. destruct (xload s1) as [i|] eqn:E1; [|done]. cbn [mbind option_bind].
  destruct (completeb jjson l s1 i) as [[t i2]|] eqn:E2; [|done]. cbn [mbind option_bind]. destruct (supportedb i) eqn:E3; [|done].
  destruct (proper_namesb i2) eqn:E4; [|done]. intros [= <-].
  apply (continued_more hexh xdec s jenv wd lx0 s1 i t i2 Hc); [done|apply xdec_json|exact wd_ok|by apply xload_true|by apply supportedb_true|
    by apply (completeb_true jjson l)|by apply proper_namesb_true].
Qed.
(** An object made by another program, then two sessions: a file with known content, a file with new content and a deletion; then a renaming
    and a changed file. *)
Definition xstore1 : option storage := xsession [("now", [SAdd "x" "e" "" true; SAdd "z" "f" "" true; SDelete "d" "a79"])] other.
Definition xstore2 : option storage := s ← xstore1; xsession [("now", [SRename "e" "g/h" "a78" ; SAdd "w" "f" "" true])] s.
Lemma xdec_algs b e : xdec b = Some e → dc_fixalgs e = [].
Proof.
  unfold xdec, jdecode. destruct (jparse b) as [j|]; cbn [fmap option_fmap option_map]; [by intros [= <-]|]. unfold two_decode.
  destruct (decide (b = "second")); [by intros [= <-]|]. destruct (decide (b = "first")); [by intros [= <-]|done].
Qed.
Example C81_example : ∃ s1 s2,
  xstore1 = Some s1 ∧ xstore2 = Some s2 ∧ hex_hash hexh ∧ sound_object hexh xdec other other_doc "content" ∧ plain_style xdec other other_doc ∧
  continued hexh xdec other s1 ∧ continued hexh xdec other s2 ∧ apart "content" ∧ vorder_ok wd ∧ (∀ b e, xdec b = Some e → dc_fixalgs e = []) ∧
  s2 !! "v1/content/a" = Some "x" ∧ s2 !! "v3/content/f" = Some "z" ∧ s2 !! "v4/content/f" = Some "w" ∧ s2 !! "v4/content/g/h" = None ∧
  only_warnings (validate_object hexh xdec wd lx0 s2).
Proof.
  assert (match xstore1, xstore2 with
          | Some s1, Some s2 => bool_decide (s2 !! "v1/content/a" = Some "x" ∧ s2 !! "v3/content/f" = Some "z" ∧ s2 !! "v4/content/f" = Some "w" ∧
              s2 !! "v4/content/g/h" = None) && all_warnings (validate_object hexh xdec wd lx0 s2)
          | _, _ => false end = true) as H by (vm_compute; reflexivity).
  destruct xstore1 as [s1|] eqn:E1; [|discriminate H]. destruct xstore2 as [s2|] eqn:E2; [|discriminate H]. exists s1, s2.
  assert (continued hexh xdec other s1) as C1 by exact (xsession_true _ _ _ _ (continued_none hexh xdec other) E1).
  unfold xstore2 in E2. rewrite E1 in E2. cbn [mbind option_bind] in E2.
  assert (continued hexh xdec other s2) as C2 by exact (xsession_true _ _ _ _ C1 E2).
  apply andb_prop in H as [H1 H2]. apply bool_decide_eq_true in H1 as (A & B & C & D).
  split; [reflexivity|]. split; [reflexivity|]. split; [exact hexh_ok|]. split; [exact other_sound|]. split; [exact other_plain|].
  split; [exact C1|]. split; [exact C2|]. split; [exact apart_content|]. split; [exact wd_ok|]. split; [exact xdec_algs|].
  split; [exact A|]. split; [exact B|]. split; [exact C|]. split; [exact D|]. by apply all_warnings_true.
Qed.
Print Assumptions C81_stays_sound_partial.
Print Assumptions C81_stays_valid_partial.
Print Assumptions C81_next_update_partial.

(** ** Digests in upper case *)

Definition odec (d : doc) (b : string) : option doc := match jdecode b with Some e => Some e | None => one_decode d b end.
Lemma odec_json d j : odec d (e_json jenv j) = Some (doc_of j).
Proof. unfold odec. change (e_json jenv j) with (jjson j). by rewrite jdecode_ok. Qed.
Definition oload (d : doc) (s : storage) : option inventory := match load_inventory hexh (parse_of (odec d) wd lx0) s "" with LInv i [] => Some i | _ => None end.
Lemma oload_true d s i : oload d s = Some i → load_inventory hexh (parse_of (odec d) wd lx0) s "" = LInv i [].
Proof. unfold oload. destruct (load_inventory hexh (parse_of (odec d) wd lx0) s "") as [|j [|]]; [done| |done]. by intros [= ->]. Qed.
Definition osession (d : doc) (l : list (string * list sop)) (s : storage) : option (storage * inventory) :=
  i ← oload d s; '(s2, i2) ← completeb jjson l s i; if supportedb i && proper_namesb i2 then Some (s2, i2) else None.
Lemma osession_true d l s s2 i2 : osession d l s = Some (s2, i2) → ∃ i,
  load_inventory hexh (parse_of (odec d) wd lx0) s "" = LInv i [] ∧ supported jenv i ∧ complete jenv s i s2 i2 ∧ proper_names i2.
Proof.
  unfold osession. destruct (oload d s) as [i|] eqn:E1; [|done]. cbn [mbind option_bind].
  destruct (completeb jjson l s i) as [[t j]|] eqn:E2; [|done]. cbn [mbind option_bind]. destruct (supportedb i) eqn:E3; [|done].
  destruct (proper_namesb j) eqn:E4; [|done]. intros [= <- <-]. exists i.
  split; [by apply oload_true|]. split; [by apply supportedb_true|]. split; [by apply (completeb_true jjson l)|by apply proper_namesb_true].
Qed.
(** The digest of file a in the fixity block is in upper case.  The validator accepts the object; the update stores the same content once
    more, and the object has error E097 from then on. *)
Definition shouted_doc : doc := with_fixity (mkdoc {["a78" := ["v1/content/a"]]} {["v1" := mkver {["a78" := ["a"]]}]} "v1") {["md5" := {["B78" := ["v1/content/a"]]}]}.
Definition shouted : storage := one_store {["v1/content/a" := "x"]}.
Definition shouted1 : option (storage * inventory) := osession shouted_doc [("now", [SAdd "x" "b" "" false])] shouted.
Theorem C81_fixity_case_refuted : ∃ E decode w lx s i s2 i2 fs,
  hex_hash (e_hash E) ∧ (∀ j, decode (e_json E j) = Some (doc_of j)) ∧ vorder_ok w ∧ only_warnings (validate_object (e_hash E) decode w lx s) ∧
  load_inventory (e_hash E) (parse_of decode w lx) s "" = LInv i [] ∧ supported E i ∧ complete E s i s2 i2 ∧ proper_names i2 ∧
  validate_object (e_hash E) decode w lx s2 = VDone fs ∧ reported fs "E097".
Proof.
  assert (match shouted1 with
          | Some (s2, i2) => match validate_object hexh (odec shouted_doc) wd lx0 s2 with
                             | VDone fs => existsb (λ x, bool_decide (f_code x = "E097")) fs | _ => false end
          | None => false end = true) as H by (vm_compute; reflexivity).
  destruct shouted1 as [[s2 i2]|] eqn:E1; [|discriminate H]. destruct (osession_true _ _ _ _ _ E1) as (i & L & S & C & P).
  destruct (validate_object hexh (odec shouted_doc) wd lx0 s2) as [fs| |] eqn:E2; [|discriminate H..].
  apply existsb_exists in H as ([code args] & Hin & Hc). apply bool_decide_eq_true in Hc. cbn [f_code] in Hc. subst code.
  exists jenv, (odec shouted_doc), wd, lx0, shouted, i, s2, i2, fs.
  split; [exact hexh_ok|]. split; [apply odec_json|]. split; [exact wd_ok|]. split; [apply all_warnings_true; vm_compute; reflexivity|].
  split; [exact L|]. split; [exact S|]. split; [exact C|]. split; [exact P|]. split; [exact E2|]. exists args. by apply elem_of_list_In.
Qed.
(** The digests in the manifest are in upper case.  The content that is added again is not recognised, although deduplication is asked
    for: it is stored a second time and the manifest has the same digest in two spellings.  The validator does not notice. *)
Definition oshout_doc : doc := mkdoc {["A78" := ["v1/content/a"]]} {["v1" := mkver {["A78" := ["a"]]}]} "v1".
Definition oshout1 : option (storage * inventory) := osession oshout_doc [("now", [SAdd "x" "b" "" true])] shouted.
Theorem C81_manifest_case_refuted : ∃ E decode w lx s i s2 i2 d1 d2,
  hex_hash (e_hash E) ∧ (∀ j, decode (e_json E j) = Some (doc_of j)) ∧ vorder_ok w ∧ only_warnings (validate_object (e_hash E) decode w lx s) ∧
  load_inventory (e_hash E) (parse_of decode w lx) s "" = LInv i [] ∧ supported E i ∧ complete E s i s2 i2 ∧ proper_names i2 ∧
  only_warnings (validate_object (e_hash E) decode w lx s2) ∧ is_Some (inv_manifest i2 !! d1) ∧ is_Some (inv_manifest i2 !! d2) ∧
  d1 ≠ d2 ∧ to_lower d1 = to_lower d2.
Proof.
  assert (match oshout1 with
          | Some (s2, i2) => all_warnings (validate_object hexh (odec oshout_doc) wd lx0 s2) &&
              bool_decide (is_Some (inv_manifest i2 !! "A78")) && bool_decide (is_Some (inv_manifest i2 !! "a78"))
          | None => false end = true) as H by (vm_compute; reflexivity).
  destruct oshout1 as [[s2 i2]|] eqn:E1; [|discriminate H]. destruct (osession_true _ _ _ _ _ E1) as (i & L & S & C & P).
  apply andb_prop in H as [[H1 H2]%andb_prop H3]. apply bool_decide_eq_true in H2. apply bool_decide_eq_true in H3.
  exists jenv, (odec oshout_doc), wd, lx0, shouted, i, s2, i2, "A78", "a78".
  split; [exact hexh_ok|]. split; [apply odec_json|]. split; [exact wd_ok|]. split; [apply all_warnings_true; vm_compute; reflexivity|].
  split; [exact L|]. split; [exact S|]. split; [exact C|]. split; [exact P|]. split; [by apply all_warnings_true|]. split; [exact H2|]. split; [exact H3|].
  split; [intros K; discriminate K|vm_compute; reflexivity].
Qed.
Print Assumptions C81_fixity_case_refuted.
Print Assumptions C81_manifest_case_refuted.
