(** UTF-8 as the Go runtime does it: conversion between strings (bytes) and runes (code points). *)
From Coq Require Import Ascii ZArith Lia.
From stdpp Require Import base list strings.
From Verif Require Import GoStr.

Definition byte_in (lo hi : N) (a : ascii) : bool :=
  (lo <=? N_of_ascii a)%N && (N_of_ascii a <=? hi)%N.

(** Well-formed sequences of two, three and four bytes ([unicode/utf8], table [first] and
    [acceptRanges]). *)
Definition two_ok (a b : ascii) : bool := byte_in 194 223 a && byte_in 128 191 b.
Definition three_ok (a b c : ascii) : bool :=
  (byte_in 224 224 a && byte_in 160 191 b ||
   byte_in 225 236 a && byte_in 128 191 b ||
   byte_in 237 237 a && byte_in 128 159 b ||
   byte_in 238 239 a && byte_in 128 191 b) && byte_in 128 191 c.
Definition four_ok (a b c d : ascii) : bool :=
  (byte_in 240 240 a && byte_in 144 191 b ||
   byte_in 241 243 a && byte_in 128 191 b ||
   byte_in 244 244 a && byte_in 128 143 b) && byte_in 128 191 c && byte_in 128 191 d.

(** [for _, c := range s] with the width: [None] is an invalid byte (rune U+FFFD of width 1),
    [Some r] a well-formed rune. *)
Fixpoint decode (s : string) : list (option N) :=
  match s with
  | EmptyString => []
  | String a s1 =>
      let x := N_of_ascii a in
      if (x <? 128)%N then Some x :: decode s1 else
      match s1 with
      | EmptyString => [None]
      | String b s2 =>
          let y := (N_of_ascii b - 128)%N in
          if two_ok a b then Some ((x - 192) * 64 + y)%N :: decode s2 else
          match s2 with
          | EmptyString => None :: decode s1
          | String c s3 =>
              let z := (N_of_ascii c - 128)%N in
              if three_ok a b c then Some ((x - 224) * 4096 + y * 64 + z)%N :: decode s3 else
              match s3 with
              | EmptyString => None :: decode s1
              | String d s4 =>
                  let u := (N_of_ascii d - 128)%N in
                  if four_ok a b c d
                  then Some ((x - 240) * 262144 + y * 4096 + z * 64 + u)%N :: decode s4
                  else None :: decode s1
              end
          end
      end
  end.

(** [[]rune(s)]. *)
Definition rune_error : N := 65533.
Definition runes (s : string) : list N := (λ o, default rune_error o) <$> decode s.

(** Unicode scalar values: what a rune of a valid string can be. *)
Definition scalar (n : N) : Prop := (n < 55296 ∨ 57344 <= n < 1114112)%N.
Global Instance scalar_dec n : Decision (scalar n).
Proof. unfold scalar. apply _. Defined.

(** [utf8.AppendRune]. *)
Definition byte (n : N) : ascii := ascii_of_N n.
Definition encode_rune (n : N) : string :=
  if (n <? 128)%N then String (byte n) ""
  else if (n <? 2048)%N then String (byte (192 + n / 64)) (String (byte (128 + n mod 64)) "")
  else if bool_decide (¬ scalar n) then
    String (byte 239) (String (byte 191) (String (byte 189) ""))
  else if (n <? 65536)%N then
    String (byte (224 + n / 4096)) (String (byte (128 + (n / 64) mod 64)) (String (byte (128 + n mod 64)) ""))
  else
    String (byte (240 + n / 262144)) (String (byte (128 + (n / 4096) mod 64))
      (String (byte (128 + (n / 64) mod 64)) (String (byte (128 + n mod 64)) ""))).

(** [string(runes)]. *)
Fixpoint encode (l : list N) : string :=
  match l with [] => "" | n :: l' => encode_rune n +:+ encode l' end.

(** [strings.ToValidUTF8(s, replacement)], as runes: every maximal run of invalid bytes is replaced
    once.  The replacement is given by its runes (it comes from a JSON document, hence is valid). *)
Fixpoint valid_runes (repl : list N) (skip : bool) (l : list (option N)) : list N :=
  match l with
  | [] => []
  | Some r :: l' => r :: valid_runes repl false l'
  | None :: l' => if skip then valid_runes repl true l' else repl ++ valid_runes repl true l'
  end.
Definition to_valid_runes (repl : list N) (s : string) : list N := valid_runes repl false (decode s).
