(** Validation while an inventory cannot be read. *)
From Coq Require Import Ascii.
From stdpp Require Import base list strings gmap.
From Coq Require Import ZArith Lia.
From Verif Require Import GoStr InventoryModel InventorySpec ObjectModel ObjectSpec LoadModel CrashSpec PathProofs ValidateModel ValidateSpec
  CheckModel CheckSpec AcceptSpec AcceptProofs AcceptProofs2 AcceptProofs3 ForeignModel UnreadModel UnreadCheckModel UnreadCheckProofs
  Fixtures Fixtures2 Fixtures3 Fixtures4 Fixtures5 Properties14 Properties34 Properties37 Properties38.

(** * C83: the validator does not accept an object while one of its inventories cannot be read *)

(** The driver fails on the inventory of the root or of a version, or on the digest file of one of them.  [decode] tells which versions and which
    digest algorithm an inventory has. *)
Inductive cannot_read (decode : string → option doc) (r : driver) : Prop :=
| no_root : r "inventory.json" = Failed → cannot_read decode r
| no_root_digest b d : r "inventory.json" = Bytes b → decode b = Some d → r ("inventory.json." +:+ dc_alg d) = Failed → cannot_read decode r
| no_version b d ver v : r "inventory.json" = Bytes b → decode b = Some d → has_version d ver v → r (ver +:+ "/inventory.json") = Failed → cannot_read decode r
| no_version_digest b d ver v vb vd : r "inventory.json" = Bytes b → decode b = Some d → has_version d ver v → r (ver +:+ "/inventory.json") = Bytes vb →
    decode vb = Some vd → r (ver +:+ "/inventory.json." +:+ dc_alg vd) = Failed → cannot_read decode r.
(** The object has a file in a folder for a version. *)
Definition holds_version (s : storage) : Prop :=
  ∃ v p b, s !! (v +:+ "/" +:+ p) = Some b ∧ str_mem slash v = false ∧ v ≠ "logs" ∧ v ≠ "extensions".

(** For every object, also for damaged ones, and also if the failure is over when the content files are read. *)
Theorem C83_reported hash decode w lx typ r s :
  vorder_ok w → (∀ x, hash "" x = None) → cannot_read decode r → holds_version s → ¬ only_warnings (validate_from hash decode w lx typ r s).
Proof.
  intros Hw Hh [Hr|b d Hb Hd Hr|b d ver v Hb Hd Hv Hr|b d ver v vb vd Hb Hd Hv Hvb Hvd Hr] (x & p & c & Hp & Hx & H1 & H2).
  - by eapply unread_root.
  - intros H. destruct (accepted_root _ _ _ _ _ _ _ b d Hw Hb Hd H) as (Ha & _). revert Ha. by apply (digest_file_refused hash decode w lx typ r "" b d).
  - by eapply unread_version.
  - by eapply unread_digest.
Qed.
(** Objects that follow the rules of the specification have such a folder. *)
Theorem C83_sound hash decode w lx typ r s d c :
  vorder_ok w → (∀ x, hash "" x = None) → sound_object hash decode s d c → cannot_read decode r → ¬ only_warnings (validate_from hash decode w lx typ r s).
Proof.
  intros Hw Hh HO Hc. apply C83_reported; [done|done|done|]. destruct (sd_head _ (so_doc _ _ _ _ _ HO)) as [_ (v & k & Hv & Hk & _)].
  destruct (so_versions _ _ _ _ _ HO _ _ Hv) as (e & (b & dg & Hb & _) & _). exists (os_val (dc_head d)), "inventory.json", b.
  split; [by rewrite <- str_app_assoc in Hb|]. split; [exact (version_no_slash _ _ _ _ _ HO _ _ Hv)|].
  destruct Hk as (_ & m & Hm). split; intros He; rewrite He in Hm; discriminate Hm.
Qed.
(** If no inventory and no digest file fails, the verdict is the one of the other properties. *)
Theorem C83_readable hash decode w lx typ r s bad :
  answers s bad r → (∀ pre, ¬ bad (pre +:+ "inventory.json")) → (∀ pre alg, ¬ bad (pre +:+ "inventory.json." +:+ alg)) →
  validate_from hash decode w lx typ r s = validate_object hash decode w lx s.
Proof.
  intros Ha H1 H2. apply same_verdict.
  - intros pre. destruct (Ha (pre +:+ "inventory.json")) as [[H _]|[_ H]]; [by destruct (H1 pre)|exact H].
  - intros pre alg. destruct (Ha (pre +:+ "inventory.json." +:+ alg)) as [[H _]|[_ H]]; [by destruct (H2 pre alg)|exact H].
Qed.

(** ** A concrete object: the valid object of another program that C81 updates, with four different failures *)

Definition but (bad : string) : driver := λ p, if decide (p = bad) then Failed else match other !! p with Some b => Bytes b | None => Missing end.
Definition typ11 : string := "https://ocfl.io/1.1/spec/#inventory".
Lemma but_cannot bad : bad ∈ ["inventory.json"; "inventory.json.sha512"; "v1/inventory.json"; "v2/inventory.json.sha512"] → cannot_read xdec (but bad).
Proof.
  assert (has_version other_doc "v1" (mkver {["a78" := ["a"]]})) as H1 by (apply second_version; by left).
  assert (has_version other_doc "v2" (mkver {["a78" := ["a"]; "a79" := ["b/c"; "d"]]})) as H2 by (apply second_version; by right).
  rewrite !elem_of_cons, elem_of_nil. intros [-> |[-> |[-> |[-> |[]]]]].
  - apply no_root. reflexivity.
  - apply (no_root_digest _ _ "second" other_doc); [vm_compute; reflexivity|vm_compute; reflexivity|vm_compute; reflexivity].
  - apply (no_version _ _ "second" other_doc "v1" (mkver {["a78" := ["a"]]})); [vm_compute; reflexivity|vm_compute; reflexivity|exact H1|vm_compute; reflexivity].
  - apply (no_version_digest _ _ "second" other_doc "v2" (mkver {["a78" := ["a"]; "a79" := ["b/c"; "d"]]}) "second" other_doc);
      [vm_compute; reflexivity|vm_compute; reflexivity|exact H2|vm_compute; reflexivity|vm_compute; reflexivity|vm_compute; reflexivity].
Qed.
(** The validator accepts the object if it can read it; a content file that fails for the loader does not matter; with each of the failures it does not accept. *)
Example C83_example :
  vorder_ok wd ∧ (∀ x, hexh "" x = None) ∧ sound_object hexh xdec other other_doc "content" ∧ holds_version other ∧
  only_warnings (validate_object hexh xdec wd lx0 other) ∧ only_warnings (validate_from hexh xdec wd lx0 typ11 (but "v1/content/a") other) ∧
  ∀ bad, bad ∈ ["inventory.json"; "inventory.json.sha512"; "v1/inventory.json"; "v2/inventory.json.sha512"] →
    cannot_read xdec (but bad) ∧ ¬ only_warnings (validate_from hexh xdec wd lx0 typ11 (but bad) other).
Proof.
  split; [exact wd_ok|]. split; [exact hexh_blank|]. split; [exact other_sound|].
  split; [exists "v1", "content/a", "x"; split; [vm_compute; reflexivity|]; split; [reflexivity|]; split; intros H; discriminate H|].
  split; [apply all_warnings_true; vm_compute; reflexivity|]. split; [apply all_warnings_true; vm_compute; reflexivity|].
  intros bad Hb. split; [by apply but_cannot|]. by apply (C83_sound hexh xdec wd lx0 typ11 (but bad) other other_doc "content"); [exact wd_ok|exact hexh_blank|exact other_sound|apply but_cannot].
Qed.
Example C83_readable_example : answers other (λ p, p = "v1/content/a") (but "v1/content/a") ∧
  (∀ pre, pre +:+ "inventory.json" ≠ "v1/content/a") ∧ (∀ pre alg, pre +:+ "inventory.json." +:+ alg ≠ "v1/content/a") ∧
  validate_from hexh xdec wd lx0 typ11 (but "v1/content/a") other = validate_object hexh xdec wd lx0 other.
Proof.
  assert (answers other (λ p, p = "v1/content/a") (but "v1/content/a")) as Ha by (intros p; unfold but; destruct (decide _) as [->|Hp]; [by left|by right]).
  assert (∀ pre x, pre +:+ "inventory.json" +:+ x ≠ "v1/content/a") as Hne.
  { intros pre x H. apply (f_equal String.length) in H. rewrite !str_length_app in H. cbn in H. lia. }
  assert (∀ pre, pre +:+ "inventory.json" ≠ "v1/content/a") as H1 by (intros pre; exact (Hne pre "")).
  assert (∀ pre alg, pre +:+ "inventory.json." +:+ alg ≠ "v1/content/a") as H2 by (intros pre alg; exact (Hne pre ("." +:+ alg))).
  split; [exact Ha|]. split; [exact H1|]. split; [exact H2|]. exact (C83_readable _ _ _ _ _ _ _ _ Ha H1 H2).
Qed.
(** Without a folder for a version the condition is needed: a directory with a declaration and an inventory that cannot be read is accepted. *)
Example C83_empty_example : ∃ s r, s !! "inventory.json" = Some "second" ∧ answers s (λ p, p = "inventory.json") r ∧ cannot_read xdec r ∧ ¬ holds_version s ∧
  validate_from hexh xdec wd lx0 typ11 r s = VDone [].
Proof.
  set (s := {["0=ocfl_object_1.1" := "ocfl_object_1.1"; "inventory.json" := "second"]} : storage).
  set (r := λ p : string, if decide (p = "inventory.json") then Failed else match s !! p with Some b => Bytes b | None => Missing end).
  exists s, r. split; [vm_compute; reflexivity|]. split; [intros p; unfold r; destruct (decide _) as [->|Hp]; [by left|by right]|].
  split; [apply no_root; reflexivity|]. split; [|vm_compute; reflexivity].
  intros (v & p & b & H & _). unfold s in H.
  assert (∀ q, str_mem slash q = false → v +:+ "/" +:+ p ≠ q) as Hne.
  { intros q Hq <-. rewrite !str_mem_app in Hq. apply orb_false_elim in Hq as [_ Hq]. discriminate Hq. }
  rewrite lookup_insert_ne in H by (apply not_eq_sym; by apply Hne). rewrite lookup_singleton_ne in H by (apply not_eq_sym; by apply Hne). discriminate H.
Qed.
Print Assumptions C83_reported.
Print Assumptions C83_sound.
Print Assumptions C83_readable.
Print Assumptions C83_example.
Print Assumptions C83_readable_example.
Print Assumptions C83_empty_example.
