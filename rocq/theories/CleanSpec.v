(** Vocabulary for clean paths. *)
From Coq Require Import Ascii ZArith.
From stdpp Require Import base list strings gmap.
From Verif Require Import GoStr.

(** Control characters, and the characters named in the comment of CleanPath except the backslash. *)
Definition bad_char (c : ascii) : Prop :=
  (N_of_ascii c <= 31)%N ∨ N_of_ascii c = 127%N ∨ c ∈ list_ascii_of_string "*?:[]<>|(){}&'!;#@" ∨ N_of_ascii c = 34%N.
Definition first_char (c : ascii) (s : string) : Prop := ∃ r, s = String c r.
Definition last_char (c : ascii) (s : string) : Prop := ∃ r, s = r +:+ String c "".
(** A harmless element of a path. *)
Definition harmless (max : Z) (s : string) : Prop :=
  s ≠ "" ∧ (Z.of_nat (String.length s) <= max)%Z ∧ (∀ c, c ∈ list_ascii_of_string s → ¬ bad_char c) ∧
  ¬ first_char " " s ∧ ¬ first_char "-" s ∧ ¬ first_char "~" s ∧ ¬ last_char " " s.
