(** Vocabulary for JSON values, independent of how JSON text is written and read. *)
From Coq Require Import Ascii.
From stdpp Require Import base list strings.
From Coq Require Import ZArith.
From Verif Require Import GoStr Utf8Model LayoutSpec JsonModel.

(** The text in which every byte that is not part of a valid UTF-8 sequence is replaced by U+FFFD. *)
Definition replaced (s : string) : string := encode (runes s).
Fixpoint repaired (j : json) : json :=
  match j with
  | JStr s => JStr (replaced s)
  | JArr l => JArr (map repaired l)
  | JObj l => JObj (map (λ p : string * json, (replaced p.1, repaired p.2)) l)
  | j => j
  end.
(** All strings and keys are valid UTF-8. *)
Fixpoint json_utf8 (j : json) : Prop :=
  match j with
  | JStr s => valid_utf8 s
  | JArr l => foldr (λ j P, json_utf8 j ∧ P) True l
  | JObj l => foldr (λ (p : string * json) P, valid_utf8 p.1 ∧ json_utf8 p.2 ∧ P) True l
  | _ => True
  end.
(** No number occurs. *)
Fixpoint numberless (j : json) : Prop :=
  match j with
  | JNum _ => False
  | JArr l => foldr (λ j P, numberless j ∧ P) True l
  | JObj l => foldr (λ (p : string * json) P, numberless p.2 ∧ P) True l
  | _ => True
  end.
(** How deep arrays and objects are nested. *)
Fixpoint depth (j : json) : nat :=
  match j with
  | JArr l => S (foldr (λ j n, Nat.max (depth j) n) 0 l)
  | JObj l => S (foldr (λ (p : string * json) n, Nat.max (depth p.2) n) 0 l)
  | _ => 0
  end.
