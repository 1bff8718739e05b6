(** The JSON text of inventories meets what the theorems about stored objects assume of it. *)
From Coq Require Import Ascii.
From stdpp Require Import base list strings gmap.
From Coq Require Import ZArith Lia.
From Verif Require Import GoStr PathModel InventoryModel InventorySpec InventoryProofs ObjectModel ObjectSpec ObjectProofs LoadModel CrashSpec CrashProofs LoadProofs
  SessionProofs ValidateModel ValidateSpec CheckModel AcceptSpec PublishSpec PublishProofs PublishProofs2 PublishProofs3 PublishProofs4 PublishProofs5
  LayoutSpec JsonModel JsonSpec JsonProofs JsonInvModel JsonInvSpec JsonInvProofs JsonInvProofs2.

(** * No strict prefix is read *)

Definition tailed (f : string → string) : Prop := ∀ rest, ∃ x, f rest = x +:+ rest.
Lemma tailed_app a : tailed (λ rest, a +:+ rest).
Proof. intros rest. by exists a. Qed.
Lemma tailed_comp f g : tailed f → tailed g → tailed (λ rest, f (g rest)).
Proof. intros Hf Hg rest. destruct (Hg rest) as [y Hy]. destruct (Hf (g rest)) as [x Hx]. exists (x +:+ y). by rewrite Hx, Hy, str_app_assoc. Qed.
Lemma tailed_blanks d : tailed (blanks d).
Proof. induction d as [|d IH]; [by intros rest; exists ""|]. apply (tailed_comp _ _ (tailed_app "   ") IH). Qed.
Lemma tailed_newline d : tailed (newline d).
Proof. apply (tailed_comp _ _ (tailed_app (String "010" "")) (tailed_blanks d)). Qed.
Lemma tailed_string s : tailed (print_string s).
Proof. apply (tailed_comp _ _ (tailed_app (String dquote (quote s))) (tailed_app (String dquote ""))). Qed.
Lemma tailed_list {A} (item : A → string → string) d l : Forall (λ a, tailed (item a)) l → tailed (print_list item d l).
Proof.
  induction 1 as [|a l Ha _ IH]; [by intros rest; exists ""|]. cbn [print_list].
  apply (tailed_comp _ _ (tailed_app ",")), (tailed_comp _ _ (tailed_newline d)), (tailed_comp _ _ Ha IH).
Qed.
Lemma tailed_print j : ∀ d, tailed (print d j).
Proof.
  induction j as [| [] | | |l IH|l IH] using json_rect'; intros d; try (apply tailed_app); [apply tailed_string|..].
  - destruct l as [|j l]; [apply (tailed_app "[]")|]. apply Forall_cons in IH as [Hj Hl]. cbn [print].
    apply (tailed_comp _ _ (tailed_app "[")), (tailed_comp _ _ (tailed_newline (S d))), (tailed_comp _ _ (Hj (S d))).
    apply (tailed_comp (print_list _ _ l)); [apply tailed_list; eapply Forall_impl; [exact Hl|]; intros x Hx; apply Hx|].
    apply (tailed_comp _ _ (tailed_newline d) (tailed_app "]")).
  - destruct l as [|[k j] l]; [apply (tailed_app "{}")|]. apply Forall_cons in IH as [Hj Hl]. cbn [print]. cbn [snd] in Hj.
    apply (tailed_comp _ _ (tailed_app "{")), (tailed_comp _ _ (tailed_newline (S d))), (tailed_comp _ _ (tailed_string k)).
    apply (tailed_comp _ _ (tailed_app ": ")), (tailed_comp _ _ (Hj (S d))).
    apply (tailed_comp (print_list _ _ l)).
    + apply tailed_list. eapply Forall_impl; [exact Hl|]. intros [k' x] Hx. cbn [fst snd] in *.
      apply (tailed_comp _ _ (tailed_string k')), (tailed_comp _ _ (tailed_app ": ")), Hx.
    + apply (tailed_comp _ _ (tailed_newline d) (tailed_app "}")).
Qed.
Lemma object_brace l : ∃ x, render (JObj l) = x +:+ "}".
Proof.
  unfold render. destruct l as [|[k j] l]; [by exists "{"|]. cbn [print].
  set (f := λ rest, String "{" (newline 1 (print_string k (": " +:+ print 1 j
        (print_list (λ p : string * json, λ r, print_string p.1 (": " +:+ print 1 p.2 r)) 1 l (newline 0 rest)))))).
  assert (tailed f) as Hf; [|by destruct (Hf "}") as [x Hx]; exists x].
  apply (tailed_comp _ _ (tailed_app "{")), (tailed_comp _ _ (tailed_newline 1)), (tailed_comp _ _ (tailed_string k)).
  apply (tailed_comp _ _ (tailed_app ": ")), (tailed_comp _ _ (tailed_print j 1)).
  apply (tailed_comp (print_list _ _ l)); [|apply tailed_newline].
  apply tailed_list, Forall_forall. intros [k' x] _. cbn [fst snd].
  apply (tailed_comp _ _ (tailed_string k')), (tailed_comp _ _ (tailed_app ": ")), tailed_print.
Qed.
Lemma last_brace x a b : x +:+ "}" = a +:+ b → b ≠ "" → ∃ y, b = y +:+ "}".
Proof.
  intros H Hb. apply (f_equal list_ascii_of_string) in H. rewrite !list_ascii_app in H. cbn [list_ascii_of_string] in H.
  destruct (list_ascii_of_string b) as [|c l _] eqn:E using rev_ind.
  { exfalso. apply Hb. rewrite <- (string_of_list_ascii_of_string b), E. done. }
  rewrite app_assoc in H. apply app_inj_2 in H as [_ H]; [|done]. injection H as <-. exists (string_of_list_ascii l).
  rewrite <- (string_of_list_ascii_of_string b), E. clear. induction l as [|c l IH]; [done|]. cbn [app string_of_list_ascii]. rewrite IH. done.
Qed.

Section json.
  Context (fits : string → bool) (tm : string → option string) (t0 : string) (w : vorder) (lx : lexicon).

  Lemma load_object text fs d : load_text fits tm t0 text = LDoc fs d → ∃ l, read text = Some (JObj l).
  Proof. unfold load_text, load_json. destruct (read text) as [j|]; [|done]. destruct (negb _); [done|]. destruct j; try done. by eexists. Qed.
  Lemma load_nil text : load_text fits tm t0 text = LNil → ∃ l, read text = Some (JObj l).
  Proof. unfold load_text, load_json. destruct (read text) as [j|]; [|done]. destruct (negb _); [done|]. destruct j; try done. by eexists. Qed.
  (** A strict prefix of a rendered object is not read. *)
  Lemma render_prefix l a b l' : numberless (JObj l) → depth (JObj l) ≤ N.to_nat 10000 → render (JObj l) = a +:+ b → b ≠ "" → read a ≠ Some (JObj l').
  Proof.
    intros Hn Hd He Hb Ha. pose proof (read_render _ Hn Hd) as Hr. rewrite He in Hr. pose proof (read_object_end _ _ _ _ Ha Hr) as Hs.
    destruct (object_brace l) as [x Hx]. rewrite He in Hx. destruct (last_brace x a b (eq_sym Hx) Hb) as [y ->].
    rewrite list_ascii_app in Hs. apply Forall_app in Hs as [_ Hs]. apply Forall_cons in Hs as [Hs _]. vm_compute in Hs. discriminate Hs.
  Qed.
  Lemma text_prefix i a b : inventory_text i = a +:+ b → b ≠ "" → ∃ msg, load_text fits tm t0 a = LFail msg.
  Proof.
    intros He Hb. destruct (inventory_ok i) as (H1 & H2 & _). unfold inventory_text in He. unfold inventory_json in *.
    assert (∀ l', read a ≠ Some (JObj l')) as Hno by (intros l'; eapply render_prefix; [exact H1| |exact He|done]; lia).
    destruct (load_text fits tm t0 a) as [msg| |fs d] eqn:E; [by eexists|..].
    - apply load_nil in E as [l Hl]. by apply Hno in Hl.
    - apply load_object in E as [l Hl]. by apply Hno in Hl.
  Qed.

  Lemma text_json_ok : vorder_ok w → json_ok (storable tm) inventory_text (parse_text fits tm t0 w lx).
  Proof.
    intros Hw. split.
    - intros i (H1 & H2 & H3 & H4). by apply parse_written.
    - intros i a b He Hb. destruct (text_prefix i a b He Hb) as [msg H]. unfold parse_text. by rewrite H.
  Qed.
End json.

(** * The inventories of the versions *)

Lemma hex_utf8 d : hexadecimal d → valid_utf8 d.
Proof.
  intros [_ H]. apply ascii_encode. apply Forall_forall. intros c Hc. specialize (H c Hc). clear Hc. revert H.
  unfold hex_digit. destruct (N_of_ascii c <? 128)%N eqn:E; [intros _; by apply N.ltb_lt|]. apply N.ltb_ge in E.
  intros H. exfalso. revert E H. destruct c as [[] [] [] [] [] [] [] []]; intros E H; try (vm_compute in H; discriminate H);
    vm_compute in E; by apply E.
Qed.
Section family.
  Context (E : env) (tm : string → option string) (Hhex : hex_hash (e_hash E)) (Hutf : utf8_hash (e_hash E)).
  Context (s : storage) (i : inventory) (n : N) (fam : N → inventory) (Hcl : closed E s i n fam) (HS : storable tm i).

  (** A path of a version's manifest is in the manifest of the newest version. *)
  Lemma fam_path k d p : (1 <= k <= n)%N → lists (inv_manifest (fam k)) p d → (∃ e, lists (inv_manifest i) p e) ∧ valid_utf8 d ∧ p ≠ "".
  Proof using Hcl Hhex.
    intros Hk Hl. pose proof (fam_version E s i n fam Hcl k Hk) as Hv. pose proof (vk_same _ _ _ _ _ Hv) as (_ & _ & H3 & H4 & H5).
    pose proof (vk_good _ _ _ _ _ Hv) as Hg. destruct (g_content _ _ _ _ Hg _ _ Hl) as (x & Hx & Hd).
    destruct (g_paths _ _ _ _ Hg _ _ Hl) as (l & r & Hr & _ & ->). rewrite (cpath_same i) in * by done. split; [|split].
    - apply (g_listed _ _ _ _ (kp_good _ _ _ _ _ _ (cl_kept _ _ _ _ _ Hcl)) l r x); [lia|done].
    - apply Hhex in Hd as [Hd _]. by apply hex_utf8.
    - unfold cpath. unfold version_name. by destruct (decide _).
  Qed.
  Lemma listed_utf8 p e : lists (inv_manifest i) p e → valid_utf8 p.
  Proof using HS. destruct HS as ([] & _). intros (ps & Hps & Hp). by apply (proj2 (ui_manifest _ _ Hps)). Qed.
  Lemma fam_storable k : (1 <= k <= n)%N → storable tm (fam k).
  Proof using Hcl Hhex Hutf HS.
    intros Hk. pose proof (fam_version E s i n fam Hcl k Hk) as Hv. pose proof (vk_same _ _ _ _ _ Hv) as (H1 & H2 & H3 & H4 & H5).
    pose proof (vk_good _ _ _ _ _ Hv) as Hg. pose proof (g_contig _ _ _ _ Hg) as [Hh Hc].
    assert (∀ ver v, inv_versions (fam k) !! ver = Some v → inv_versions i !! ver = Some v) as Hsub.
    { intros ver v Hu. destruct (proj1 (Hc ver)) as (l & Hl & ->); [by eexists|]. rewrite H5 in Hu |- *. by apply (fam_has E s i n fam Hcl k). }
    assert (∀ a m d ps p, inv_fixity (fam k) !! a = Some m → m !! d = Some ps → p ∈ ps →
      valid_utf8 d ∧ valid_utf8 p ∧ p ≠ "") as Hfix.
    { intros a m d ps p Ha Hd Hp. destruct (g_fix _ _ _ _ Hg a d p) as ((x & _ & Hx) & e & He); [by exists m, ps|].
      apply fam_path in He as ((e' & He') & _ & Hne); [|done]. apply Hhex in Hx as [Hx _].
      split; [by apply hex_utf8|]. split; [by eapply listed_utf8|done]. }
    destruct HS as ([Uid Uty Ual Uhd Ucd Uman Uvers Ufix] & Ht & [Nm Nv Nf] & Hne & Hpad & Hnum).
    destruct (proj2 (Hc (version_name (inv_padding (fam k)) k))) as [u Hu]; [exists k; split; [lia|done]|].
    split; [|split; [|split]].
    - split; try congruence.
      + rewrite Hh, decide_False by lia. by destruct (Uvers _ _ (Hsub _ _ Hu)).
      + intros d ps Hps. assert (∀ p, p ∈ ps → valid_utf8 d ∧ valid_utf8 p) as Hp.
        { intros p Hp. destruct (fam_path k d p Hk) as ((e & He) & Hd & _); [by exists ps|]. split; [done|]. by eapply listed_utf8. }
        split; [|intros p Hp'; by apply Hp]. pose proof (g_nonempty _ _ _ _ Hg _ _ Hps) as Hnn. destruct ps as [|p ps]; [done|]. apply (Hp p). by left.
      + intros ver v Hver. apply Uvers. by apply Hsub.
      + intros a m Ha. split.
        * destruct (g_known _ _ _ _ Hg a (mk_is_Some _ _ Ha) "") as [d Hd]. by eapply Hutf.
        * intros d ps Hd. split; [|intros p Hp; by eapply Hfix].
          pose proof (g_full _ _ _ _ Hg _ _ _ _ Ha Hd) as Hnn. destruct ps as [|p ps]; [done|]. eapply (Hfix a m d (p :: ps) p); [done..|by left].
    - intros ver v Hver. by eapply Ht, Hsub.
    - split.
      + intros d ps Hps Hin. destruct (fam_path k d "" Hk) as (_ & _ & Hx); [by exists ps|done].
      + intros ver v Hver. by eapply Nv, Hsub.
      + intros a m Ha d ps Hd Hin. by destruct (Hfix a m d ps "" Ha Hd Hin) as (_ & _ & ?).
    - split; [intros He; by rewrite He, lookup_empty in Hu|]. rewrite H5. split; [done|]. intros ver v Hver. apply (Hnum ver v). by apply Hsub.
  Qed.
End family.

(** Objects published as JSON are in order. *)
Lemma text_published_sound E fits tm t0 w lx s i :
  hex_hash (e_hash E) → utf8_hash (e_hash E) → e_json E = inventory_text → vorder_ok w →
  published E (storable tm) (parse_text fits tm t0 w lx) s i → proper_names i →
  sound_object (e_hash E) (decode_text fits tm t0) s (doc_of i) (content_name i).
Proof.
  intros Hh Hu Hj Hw Hp Hn.
  destruct (published_closed E (storable tm) (parse_text fits tm t0 w lx) s i Hh) as (HS & n & fam & Hc); [by rewrite Hj; apply text_json_ok|done|].
  eapply closed_sound; [done|done|done|]. intros k Hk. rewrite Hj. unfold decode_text.
  destruct (fam_storable E tm Hh Hu s i n fam Hc HS k Hk) as (H1 & H2 & _). by rewrite load_written_text.
Qed.
