(** Completeness of the validator. *)
From Coq Require Import Ascii.
From stdpp Require Import base list strings gmap.
From Coq Require Import ZArith Lia.
From Verif Require Import GoStr InventoryModel ObjectModel CrashSpec ValidateModel ValidateSpec CheckModel CheckSpec AcceptSpec AcceptProofs3
  Fixtures2 Fixtures3 Fixtures4.

(** * C49: an object that satisfies the rules is accepted *)

(** Full statement: every object that satisfies the rules of the specification ([sound_object]: proper inventories, every version with
    its inventory and a sidecar with the right digest, manifests and fixity blocks that tell the truth, nothing else stored) is
    validated without an error.  False, see below.  Proved, for every iteration order: only warnings are reported if the name of the
    content directory is not the beginning of the name of an inventory file or a sidecar.  Missing besides: sidecars and manifests
    with digests in upper case, version folders with padded and unpadded names mixed, sidecars with other white space. *)
Theorem C49_sound_accepted_partial hash decode w lx s d c :
  vorder_ok w → sound_object hash decode s d c → apart c → only_warnings (validate_object hash decode w lx s).
Proof. apply sound_accepted. Qed.
Lemma apart_content : apart "content".
Proof. intros r alg Ha E. apply (f_equal str_head) in E. discriminate. Qed.
Example C49_example :
  vorder_ok wd ∧ sound_object hexh (two_decode "" "content") (two_store "content") (second_doc "" "content") "content" ∧ apart "content" ∧
  validate_object hexh (two_decode "" "content") wd lx0 (two_store "content") = VDone [] ∧
  validate_object hexh (two_decode "" "content") wd (Lexicon (λ _, false) (λ _, true)) (two_store "content") ≠ VDone [].
Proof. split; [exact wd_ok|]. split; [exact content_sound|]. split; [exact apart_content|]. split; by vm_compute. Qed.
Print Assumptions C49_sound_accepted_partial.

(** The content directory is called inv: the files inventory.json and inventory.json.sha512 of the version folders are taken for
    content and reported as missing in the manifest. *)
Theorem C49_content_directory_refuted :
  ∃ hash decode w lx s d c fs, vorder_ok w ∧ sound_object hash decode s d c ∧ validate_object hash decode w lx s = VDone fs ∧
    (∃ args, Finding "E023" args ∈ fs) ∧ ¬ only_warnings (validate_object hash decode w lx s).
Proof.
  exists hexh, (two_decode "inv" "inv"), wd, lx0, (two_store "inv"), (second_doc "inv" "inv"), "inv". eexists.
  split; [exact wd_ok|]. split; [exact inv_sound|]. split; [vm_compute; reflexivity|]. split.
  - eexists. left.
  - intros (fs & E & Hf). vm_compute in E. injection E as <-. destruct (Hf _ ltac:(left)) as [r Hr]. discriminate.
Qed.
Print Assumptions C49_content_directory_refuted.

(** Digests are hexadecimal numbers, in either case.  The sidecar of an object that satisfies the rules is written in upper case:
    reported as a mismatch. *)
Theorem C49_upper_case_sidecar_refuted :
  ∃ hash decode w lx s d c dg dg' fs, vorder_ok w ∧ sound_object hash decode s d c ∧ apart c ∧
    s !! "inventory.json.sha512" = Some (dg +:+ " inventory.json") ∧ to_lower dg' = to_lower dg ∧
    validate_object hash decode w lx (<["inventory.json.sha512" := dg' +:+ " inventory.json"]> s) = VDone fs ∧ reported fs "E060".
Proof.
  exists hexh, (two_decode "" "content"), wd, lx0, (two_store "content"), (second_doc "" "content"), "content", "a7365636f6e64", "A7365636F6E64".
  eexists. split; [exact wd_ok|]. split; [exact content_sound|]. split; [exact apart_content|]. split; [by vm_compute|]. split; [done|].
  split; [vm_compute; reflexivity|]. eexists. left.
Qed.
Print Assumptions C49_upper_case_sidecar_refuted.
