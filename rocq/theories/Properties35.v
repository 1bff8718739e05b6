(** Objects of any origin keep their versions when they are updated. *)
From Coq Require Import Ascii.
From stdpp Require Import base list strings gmap.
From Coq Require Import ZArith Lia.
From Verif Require Import GoStr InventoryModel InventorySpec ObjectModel ObjectSpec LoadModel AreaModel AreaSpec CrashSpec CrashProofs SessionProofs ValidateModel ValidateSpec CheckModel CheckSpec
  AcceptSpec AcceptProofs JsonInvModel ForeignModel ForeignSpec ForeignProofs ForeignProofs2 Fixtures Fixtures2 Fixtures3 Fixtures5 Properties2 Properties3 Properties14 Properties34.

(** * C79: updates of an accepted object leave its versions as they were *)

(** Full statement: whatever is done to an accepted object of any origin, every version that it had is extracted as before.  False for
    digests without content path and for paths that leave the version; see below.  Proved for all other objects, any number of updates,
    complete or stopped at any point; the same files, the same bytes, the same error, for every area and every target. *)
Theorem C79_versions_kept_partial hash decode w lx s :
  vorder_ok w → only_warnings (validate_object hash decode w lx s) →
  ∃ b d i, s !! "inventory.json" = Some b ∧ decode b = Some d ∧ load_inventory hash (parse_of decode w lx) s "" = LInv i [] ∧
    (no_empty_entry d → ∀ s' i' X orc ver mf area t,
      later s i s' i' → is_Some (inv_versions i !! ver) → oracle_ok orc →
      inv_versions i' !! ver = inv_versions i !! ver ∧ extract X orc i' s' ver mf area t = extract X orc i s ver mf area t).
Proof.
  intros Hw Hok. destruct (accepted_kept _ _ _ _ _ Hw Hok) as (b & d & i & n & Hb & Hd & Hl & Hn & Hc & Ha & H).
  exists b, d, i. split; [done|]. split; [done|]. split; [done|]. intros Hne s' i' X orc ver mf area t Hlat Hver Ho.
  pose proof (holds_later i n s i' s' Hn Hc Ha Hlat) as Hh. split; [|by apply H].
  destruct Hver as [v Hv]. rewrite Hv. by apply (ho_vers _ _ _ _ _ Hh).
Qed.
(** The last update is closed and the object opened again: the loader gives an inventory with all old versions. *)
Theorem C79_reopened_partial hash decode w lx s :
  vorder_ok w → only_warnings (validate_object hash decode w lx s) →
  ∃ b d i, s !! "inventory.json" = Some b ∧ decode b = Some d ∧ load_inventory hash (parse_of decode w lx) s "" = LInv i [] ∧
    (no_empty_entry d → ∀ E P parse s1 i1 ops o orc1,
      hex_hash (e_hash E) → json_ok P (e_json E) parse → later s i s1 i1 → clean_names E ops →
      panics E ops (open_object i1) = false → inv_writeable (ob_inv (orun E ops (open_object i1))) = true →
      inv_modified (ob_inv (orun E ops (open_object i1))) = true → P (ob_inv (orun E ops (open_object i1))) →
      ob_close E orc1 (orun E ops (open_object i1)) = (o, SOk) →
      ∃ i2, load_inventory (e_hash E) parse (apply_evs (ob_trace o) s1) "" = LInv i2 [] ∧ same_record (ob_inv o) i2 ∧
        ∀ X orc ver mf area t, is_Some (inv_versions i !! ver) → oracle_ok orc →
          inv_versions i2 !! ver = inv_versions i !! ver ∧
          extract X orc i2 (apply_evs (ob_trace o) s1) ver mf area t = extract X orc i s ver mf area t).
Proof.
  intros Hw Hok. destruct (accepted_kept _ _ _ _ _ Hw Hok) as (b & d & i & n & Hb & Hd & Hl & Hn & Hc & Ha & H).
  exists b, d, i. split; [done|]. split; [done|]. split; [done|]. intros Hne E P parse s1 i1 ops o orc1 Hhex Hj Hlat Hcl Hp Hwr Hm HP Hcs.
  pose proof (holds_later i n s i1 s1 Hn Hc Ha Hlat) as Hh.
  pose proof (holds_step _ _ _ _ _ _ E ops Hc Ha Hh Hcl (crash_all _ _)) as [_ Hh1]. pose proof (ho_alg _ _ _ _ _ Hh1) as Hal.
  destruct (C17_close_then_load E P parse orc1 (orun E ops (open_object i1)) o s1 Hhex Hj ltac:(by rewrite Hal) Hwr Hm Hcs HP) as (i2 & Hl2 & Hs2).
  exists i2. split; [done|]. split; [done|]. intros X orc ver mf area t Hver Ho.
  assert (o = orun E (ops ++ [(orc1, OClose)]) (open_object i1)) as Eo by (rewrite orun_snoc_ok by done; cbn [ostep]; by rewrite Hcs).
  assert (later s i (apply_evs (ob_trace o) s1) i2) as Hlat2.
  { apply (later_more s i s1 i1 _ i2 E (ops ++ [(orc1, OClose)])); [done| |rewrite <- Eo; apply crash_all|right; by rewrite <- Eo].
    unfold clean_names, all_ops. apply Forall_app. split; [done|]. by apply Forall_singleton. }
  pose proof (holds_later i n s i2 _ Hn Hc Ha Hlat2) as Hh2. split; [|by apply H].
  destruct Hver as [v Hv]. rewrite Hv. by apply (ho_vers _ _ _ _ _ Hh2).
Qed.
Print Assumptions C79_versions_kept_partial.
Print Assumptions C79_reopened_partial.

Definition uenv : env := jenv.
Definition ucalls : list (oracle * oop) :=
  (dflt, OStart "2024-01-01" "msg" "me" "mailto:me" false) :: simple [SAdd "z" "a" "" true; SAdd "y" "e" "" false; SDelete "d" "a79"].
Definition uobj : object := (ob_close uenv dflt (orun uenv ucalls (open_object (inv_of doc2)))).1.
Definition ustore : storage := apply_evs (ob_trace uobj) store2.
(** Some writes of the same handle, before it is closed. *)
Definition uhalf : storage := apply_evs (take 3 (ob_trace (orun uenv ucalls (open_object (inv_of doc2))))) store2.
Lemma ucalls_clean : clean_names uenv ucalls.
Proof.
  unfold clean_names, all_ops, ucalls, simple. repeat constructor; cbn; try done; intros m [= <-]; apply clean_relb_true; vm_compute; reflexivity.
Qed.
Lemma ends_with {A B} (x : A * B) y : x.2 = y → x = (x.1, y).
Proof. by destruct x; intros <-. Qed.
Lemma crash_take k s l : crash s l (apply_evs (take k l) s).
Proof.
  revert s l. induction k as [|k IH]; intros s l; [destruct l; constructor|]. destruct l as [|e l]; [constructor|]. cbn [take apply_evs]. apply crash_step. apply IH.
Qed.
(** The object with two versions of C78, not made by this program: one update is interrupted and made again.  The new version differs, the old ones are extracted as before. *)
Example C79_example :
  vorder_ok wd ∧ only_warnings (validate_object hexh dec2 wd lx0 store2) ∧ no_empty_entry doc2 ∧
  load_inventory hexh (parse_of dec2 wd lx0) store2 "" = LInv (inv_of doc2) [] ∧
  later store2 (inv_of doc2) uhalf (inv_of doc2) ∧ clean_names uenv ucalls ∧ panics uenv ucalls (open_object (inv_of doc2)) = false ∧
  hex_hash (e_hash uenv) ∧ json_ok (λ _, True) (e_json uenv) jparse ∧ 
  inv_writeable (ob_inv (orun uenv ucalls (open_object (inv_of doc2)))) = true ∧ inv_modified (ob_inv (orun uenv ucalls (open_object (inv_of doc2)))) = true ∧
  ob_close uenv dflt (orun uenv ucalls (open_object (inv_of doc2))) = (uobj, SOk) ∧
  uhalf !! "v3/content/a" = Some "z" ∧ store2 !! "v3/content/a" = None ∧
  (extract fx dflt (ob_inv uobj) ustore "v3" false "" ∅).1 = {["a" := "z"; "b/c" := "y"; "e" := "y"]} ∧
  (extract fx dflt (ob_inv uobj) ustore "v2" false "" ∅).1 = {["a" := "x"; "b/c" := "y"; "d" := "y"]} ∧
  (extract fx dflt (ob_inv uobj) ustore "v1" false "" ∅).1 = {["a" := "x"]}.
Proof.
  split; [exact wd_ok|]. split; [apply all_warnings_true; vm_compute; reflexivity|]. split; [exact filled_doc2|]. split; [vm_compute; reflexivity|].
  split; [apply (later_more store2 (inv_of doc2) store2 (inv_of doc2) uhalf (inv_of doc2) uenv ucalls);
    [constructor|exact ucalls_clean|apply crash_take|left; apply same_record_refl]|].
  split; [exact ucalls_clean|]. split; [vm_compute; reflexivity|]. split; [exact hexh_ok|]. split; [exact jjson_ok|].
  split; [vm_compute; reflexivity|]. split; [vm_compute; reflexivity|].
  split; [unfold uobj; apply ends_with; vm_compute; reflexivity|].
  split; [vm_compute; reflexivity|]. split; [vm_compute; reflexivity|].
  split; [apply (bool_decide_unpack _); vm_compute; exact I|]. split; [apply (bool_decide_unpack _); vm_compute; exact I|].
  apply (bool_decide_unpack _); vm_compute; exact I.
Qed.

(** A digest without content path: the old version could not be extracted, and after an update that adds the content it can. *)
Definition lcalls : list (oracle * oop) := (dflt, OStart "2024-01-01" "msg" "me" "mailto:me" false) :: simple [SAdd "x" "other" "" false].
Theorem C79_no_content_path_refuted : ∃ hash decode w lx s d i E ops X orc msg t,
  vorder_ok w ∧ only_warnings (validate_object hash decode w lx s) ∧ s !! "inventory.json" = Some "root" ∧ decode "root" = Some d ∧
  load_inventory hash (parse_of decode w lx) s "" = LInv i [] ∧ clean_names E ops ∧ oracle_ok orc ∧
  extract X orc i s "v1" false "" ∅ = (∅, SErr msg) ∧
  extract X orc (ob_inv (orun E ops (open_object i))) (apply_evs (ob_trace (orun E ops (open_object i))) s) "v1" false "" ∅ = (t, SOk) ∧ t !! "a" = Some "x".
Proof.
  exists hexh, (one_decode lost_doc), wd, lx0, (one_store {["v1/other/x" := "x"]}), lost_doc, (inv_of lost_doc), uenv, lcalls, fx, dflt, "invalid manifest for digest",
    (extract fx dflt (ob_inv (orun uenv lcalls (open_object (inv_of lost_doc)))) (apply_evs (ob_trace (orun uenv lcalls (open_object (inv_of lost_doc)))) (one_store {["v1/other/x" := "x"]})) "v1" false "" ∅).1.
  split; [exact wd_ok|]. split; [apply all_warnings_true; vm_compute; reflexivity|]. split; [vm_compute; reflexivity|]. split; [done|].
  split; [vm_compute; reflexivity|].
  split; [unfold clean_names, all_ops, lcalls, simple; repeat constructor; cbn; try done; intros m [= <-]; apply clean_relb_true; vm_compute; reflexivity|].
  split; [exact dflt_ok|]. split; [vm_compute; reflexivity|]. split; [apply ends_with; vm_compute; reflexivity|].
  vm_compute; reflexivity.
Qed.
(** A name with dots: the update changes the content of the first version, which then cannot be extracted. *)
Definition dcalls : list (oracle * oop) := (dflt, OStart "2024-01-01" "msg" "me" "mailto:me" false) :: simple [SAdd "evil" "../../v1/content/a" "" false].
Theorem C79_dotdot_refuted : ∃ hash decode w lx s d i E ops X orc t msg,
  vorder_ok w ∧ only_warnings (validate_object hash decode w lx s) ∧ s !! "inventory.json" = Some "root" ∧ decode "root" = Some d ∧ no_empty_entry d ∧
  load_inventory hash (parse_of decode w lx) s "" = LInv i [] ∧ oracle_ok orc ∧
  extract X orc i s "v1" false "" ∅ = (t, SOk) ∧ t !! "a" = Some "x" ∧
  snd (extract X orc (ob_inv (orun E ops (open_object i))) (apply_evs (ob_trace (orun E ops (open_object i))) s) "v1" false "" ∅) = SErr msg.
Proof.
  exists hexh, dec2, wd, lx0, store2, doc2, (inv_of doc2), uenv, dcalls, fx, dflt, (extract fx dflt (inv_of doc2) store2 "v1" false "" ∅).1, "invalid digest".
  split; [exact wd_ok|]. split; [apply all_warnings_true; vm_compute; reflexivity|]. split; [vm_compute; reflexivity|]. split; [vm_compute; reflexivity|].
  split; [exact filled_doc2|]. split; [vm_compute; reflexivity|]. split; [exact dflt_ok|].
  split; [apply ends_with; vm_compute; reflexivity|]. split; [vm_compute; reflexivity|]. vm_compute; reflexivity.
Qed.
Print Assumptions C79_no_content_path_refuted.
Print Assumptions C79_dotdot_refuted.
