(** CleanPath and FixFilename: /repo/pkg/ocfl/helper.go. *)
From Coq Require Import Ascii ZArith.
From stdpp Require Import base list strings gmap.
From Verif Require Import GoStr PathModel Utf8Model LayoutModel.
Local Open Scope N_scope.

(** The characters of rule_1_5, helper.go:306: control characters and * ? : [ ] double quote < > | ( ) { } & ' ! ; # @.  The backslash only
    escapes the semicolon. *)
Definition rule_chars : list N := [42; 63; 58; 91; 93; 34; 60; 62; 124; 40; 41; 123; 125; 38; 39; 33; 59; 35; 64].
Definition rule_char (n : N) : bool := (n <=? 31) || (n =? 127) || bool_decide (n ∈ rule_chars).
Definition rule15 (l : list N) : list N := (λ n, if rule_char n then 95 else n) <$> l.
(** rule_2_4_6, helper.go:307: white space, hyphens and tildes at the beginning, white space at the end.  Of the white space of regular
    expressions only the blank is left after rule_1_5. *)
Definition leading (n : N) : bool := (n =? 32) || (n =? 45) || (n =? 126).
Definition rule246 (l : list N) : list N := rev (drop_while (λ n, n =? 32) (rev (drop_while leading l))).
Definition clean_name (l : list N) : list N := rule246 (rule15 l).

Inductive cres := COk (p : string) | CNameTooLong | CPathTooLong.
(** The loop over the elements between slashes ([split_runes] of LayoutModel.v), helper.go:319-331. *)
Fixpoint clean_loop (max : Z) (acc : list string) (l : list (list N)) : option (list string) :=
  match l with
  | [] => Some acc
  | w :: l' =>
      let n := encode (clean_name w) in
      if (max <? Z.of_nat (String.length n))%Z then None
      else clean_loop max (if (0 <? String.length n)%nat then (acc ++ [n])%list else acc) l'
  end.
(** CleanPath, helper.go:312-340. *)
Definition clean_path (fname : string) (max_name max_path : Z) : cres :=
  match clean_loop max_name [] (split_runes (to_valid_runes [95] fname)) with
  | None => CNameTooLong
  | Some names =>
      let p := join_slash names in
      if (max_path <? Z.of_nat (String.length p))%Z then CPathTooLong else COk p
  end.

(** The character class of FixFilename, helper.go:63, has no # and no @. *)
Definition fix_forbidden (n : N) : bool := rule_char n && negb ((n =? 35) || (n =? 64)).
(** FixFilename, helper.go:62-85, on Unix. *)
Definition fix_filename (fname : string) : string :=
  let names := (λ w, encode (rule246 ((λ n, if fix_forbidden n then 95 else n) <$> w))) <$> split_runes (to_valid_runes [] fname) in
  let p := path_join names in
  match names with "" :: _ => "/" +:+ p | _ => p end.
