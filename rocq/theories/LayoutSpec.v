(** Vocabulary for the statements about storage layouts. *)
From Coq Require Import Ascii ZArith.
From stdpp Require Import base list strings.
From Verif Require Import GoStr Utf8Model.

(** The path [q] lies below the directory [p]. *)
Definition inside (p q : string) : Prop := ∃ r, q = p +:+ ("/" +:+ r).

(** An ordinary name of a file or directory. *)
Definition plain_name (e : string) : Prop :=
  e ≠ "" ∧ e ≠ "." ∧ e ≠ ".." ∧ "/"%char ∉ list_ascii_of_string e.

(** The path is the sequence of names [es]. *)
Fixpoint path_of (es : list string) (p : string) : Prop :=
  match es with
  | [] => False
  | [e] => p = e
  | e :: es' => ∃ q, path_of es' q ∧ p = e +:+ ("/" +:+ q)
  end.

(** Every byte of [s] is at least [n]. *)
Definition bytes_from (n : N) (s : string) : Prop :=
  ∀ c, c ∈ list_ascii_of_string s → (n <= N_of_ascii c)%N.

(** The hash function has digests of [n] bytes. *)
Definition digest_size (h : string → string) (n : nat) : Prop := ∀ s, String.length (h s) = n.

(** All strings of a list one after the other. *)
Fixpoint cat (l : list string) : string := match l with [] => "" | s :: l' => s +:+ cat l' end.

(** The string is valid UTF-8: it encodes code points. *)
Definition valid_utf8 (s : string) : Prop := ∃ l, Forall scalar l ∧ s = encode l.

(** The non-empty elements of a path. *)
Definition names (s : string) : list string := filter (λ e, e ≠ "") (split_slash s).

(** Code points the direct-clean layout is meant to keep out of paths: control characters, white space and
    the punctuation listed in its documentation. *)
Definition forbidden (n : N) : Prop :=
  (n < 32 ∨ n = 127 ∨
   n = 32 ∨ n = 133 ∨ n = 160 ∨ n = 5760 ∨ 8192 <= n <= 8207 ∨ n = 8232 ∨ n = 8233 ∨ n = 8239 ∨ n = 8287 ∨ n = 12288 ∨
   n = 42 ∨ n = 63 ∨ n = 58 ∨ n = 91 ∨ n = 93 ∨ n = 34 ∨ n = 60 ∨ n = 62 ∨ n = 124 ∨ n = 40 ∨ n = 41 ∨
   n = 123 ∨ n = 125 ∨ n = 38 ∨ n = 39 ∨ n = 33 ∨ n = 59 ∨ n = 35 ∨ n = 64)%N.

(** A path element as the direct-clean layout promises it, at most [max] bytes long. *)
Definition clean_name (max : N) (e : string) : Prop :=
  plain_name e ∧ (∀ r, e ≠ String "~" r) ∧ (N.of_nat (String.length e) <= max)%N ∧
  ∃ l, Forall scalar l ∧ e = encode l ∧ Forall (λ x, ¬ forbidden x) l.

(** [p] is what follows the last occurrence of [d] in [id]; the whole [id] if there is none. *)
Definition omit_prefix (d id p : string) : Prop :=
  ((∃ a, id = a +:+ (d +:+ p)) ∧ ∀ a' r', id = a' +:+ (d +:+ r') → String.length p ≤ String.length r') ∨
  ((∀ a r, id ≠ a +:+ (d +:+ r)) ∧ p = id).

(** The code points [l] with zeros before or after them up to [size] bytes, then reversed or not. *)
Definition padded (left back : bool) (size : nat) (l : list N) : list N :=
  let z := replicate (size - String.length (encode l)) 48%N in
  let p := if left then z ++ l else l ++ z in
  if back then rev p else p.

(** Identifiers of printable characters and most control characters, without comma. *)
Definition pt_safe (s : string) : Prop :=
  ∀ c, c ∈ list_ascii_of_string s → (16 <= N_of_ascii c < 128)%N ∧ c ≠ ","%char.
