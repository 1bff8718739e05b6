(** Vocabulary for the extraction of storage roots. *)
From Coq Require Import Ascii.
From stdpp Require Import base list strings gmap.
From Coq Require Import ZArith.
From Verif Require Import GoStr ObjectModel.

(** What a requested version of an object stands for, given the contents of its versions with the newest first: without a version or with
    "latest" the newest content, with "v1", "v2", ... the first, the second, ... *)
Definition content_at (version : string) (ts : list storage) (t : storage) : Prop :=
  (version = "" ∨ version = "latest") ∧ head ts = Some t ∨ ∃ k, version = "v" +:+ dec_of_N (N.of_nat (S k)) ∧ rev ts !! k = Some t.
