(** Vocabulary for the validation of stored objects. *)
From Coq Require Import Ascii.
From stdpp Require Import base list strings gmap.
From Coq Require Import ZArith.
From Verif Require Import GoStr InventoryModel ObjectModel ValidateModel ValidateSpec.

(** File [p] is stored and its digest is [dg]. *)
Definition stored_as (hash : string → string → option string) (alg : string) (s : storage) (dg p : string) : Prop :=
  ∃ c, s !! p = Some c ∧ hash alg c = Some dg.
(** The digest of the stored file is the recorded one, where recorded digests may be written in upper case. *)
Definition intact (hash : string → string → option string) (alg : string) (s : storage) (dg p : string) : Prop :=
  stored_as hash alg s (to_lower dg) p.
(** The file lies below the folder of one of these versions. *)
Definition below (vers : list string) (p : string) : Prop := ∃ ver r, ver ∈ vers ∧ p = ver +:+ "/" +:+ r.
(** Every digest of the manifest has a content path. *)
Definition no_empty_entry (d : doc) : Prop := ∀ m dg ps, dc_manifest d = Some m → m !! dg = Some ps → ps ≠ [].
