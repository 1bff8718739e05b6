(** JSON text as the Go package encoding/json (Go 1.22) reads and writes it: scanner.go, decode.go (unquoteBytes), encode.go
    (appendString) and indent.go (appendIndent).  The package is not part of /repo; it is what json.MarshalIndent
    (/repo/pkg/ocfl/objectbase.go:346) and json.Unmarshal (objectbase.go:239, 262) run.  Only executable definitions. *)
From Coq Require Import Ascii.
From stdpp Require Import base list strings.
From Coq Require Import ZArith.
From Verif Require Import GoStr Utf8Model.

(** A JSON value.  Of a number only the text is kept; of an object the members in the order of the text, with repetitions. *)
Inductive json :=
| JNull
| JBool (b : bool)
| JNum (lit : string)
| JStr (s : string)
| JArr (l : list json)
| JObj (l : list (string * json)).

(** * Writing *)

(** Hexadecimal digits in lower case (encode.go: const hex). *)
Definition hexc (n : N) : ascii := if (n <? 10)%N then ascii_of_N (48 + n) else ascii_of_N (87 + n).
Definition esc (c : ascii) (s : string) : string := String "\" (String c s).
(** \u00XY *)
Definition esc_byte (n : N) (s : string) : string :=
  esc "u" (String "0" (String "0" (String (hexc (n / 16)) (String (hexc (n mod 16)) s)))).
Definition dquote : ascii := ascii_of_N 34.
(** encode.go appendString, the bytes below 0x80, with HTML escaping (htmlSafeSet). *)
Definition quote_ascii (c : ascii) (s : string) : string :=
  let n := N_of_ascii c in
  if (n =? 34)%N || (n =? 92)%N then esc c s
  else if (n =? 8)%N then esc "b" s
  else if (n =? 12)%N then esc "f" s
  else if (n =? 10)%N then esc "n" s
  else if (n =? 13)%N then esc "r" s
  else if (n =? 9)%N then esc "t" s
  else if (n <? 32)%N || (n =? 60)%N || (n =? 62)%N || (n =? 38)%N then esc_byte n s
  else String c s.
(** The escape of an invalid byte, backslash ufffd, and of U+2028 and U+2029. *)
Definition esc_invalid (s : string) : string := "\ufffd" +:+ s.
Definition three_sep (a b c : ascii) : bool :=
  (N_of_ascii a =? 226)%N && (N_of_ascii b =? 128)%N && ((N_of_ascii c =? 168)%N || (N_of_ascii c =? 169)%N).
(** encode.go appendString without the quotes. *)
Fixpoint quote (s : string) : string :=
  match s with
  | "" => ""
  | String a s1 =>
      if (N_of_ascii a <? 128)%N then quote_ascii a (quote s1) else
      match s1 with
      | "" => esc_invalid ""
      | String b s2 =>
          if two_ok a b then String a (String b (quote s2)) else
          match s2 with
          | "" => esc_invalid (quote s1)
          | String c s3 =>
              if three_ok a b c then
                if three_sep a b c then "\u202" +:+ String (hexc (N_of_ascii c mod 16)) (quote s3)
                else String a (String b (String c (quote s3)))
              else
              match s3 with
              | "" => esc_invalid (quote s1)
              | String d s4 =>
                  if four_ok a b c d then String a (String b (String c (String d (quote s4))))
                  else esc_invalid (quote s1)
              end
          end
      end
  end.
Definition print_string (s : string) (rest : string) : string := String dquote (quote s +:+ String dquote rest).

(** indent.go newline with the empty prefix and an indentation of three blanks. *)
Fixpoint blanks (d : nat) (rest : string) : string :=
  match d with
  | 0 => rest
  | S d => "   " +:+ blanks d rest
  end.
Definition newline (d : nat) (rest : string) : string := String "010" (blanks d rest).

(** json.MarshalIndent(v, "", "   "): encode.go followed by indent.go appendIndent, as one function on the value to be written;
    [rest] is the text that follows. *)
Section print_list.
  Context {A : Type} (item : A → string → string).
  Fixpoint print_list (d : nat) (l : list A) (rest : string) : string :=
    match l with
    | [] => rest
    | a :: l' => String "," (newline d (item a (print_list d l' rest)))
    end.
End print_list.
Fixpoint print (d : nat) (j : json) (rest : string) : string :=
  match j with
  | JNull => "null" +:+ rest
  | JBool true => "true" +:+ rest
  | JBool false => "false" +:+ rest
  | JNum lit => lit +:+ rest
  | JStr s => print_string s rest
  | JArr [] => "[]" +:+ rest
  | JArr (j :: l) =>
      String "[" (newline (S d) (print (S d) j (print_list (print (S d)) (S d) l (newline d (String "]" rest)))))
  | JObj [] => "{}" +:+ rest
  | JObj ((k, j) :: l) =>
      String "{" (newline (S d) (print_string k (": " +:+ print (S d) j
        (print_list (λ p : string * json, λ r, print_string p.1 (": " +:+ print (S d) p.2 r)) (S d) l
          (newline d (String "}" rest))))))
  end.
Definition render (j : json) : string := print 0 j "".

(** * Reading *)

Definition hexv (c : ascii) : option N :=
  let n := N_of_ascii c in
  if (48 <=? n)%N && (n <=? 57)%N then Some (n - 48)%N
  else if (97 <=? n)%N && (n <=? 102)%N then Some (n - 87)%N
  else if (65 <=? n)%N && (n <=? 70)%N then Some (n - 55)%N
  else None.
(** decode.go getu4, the four digits. *)
Definition hex4 (a b c d : ascii) : option N :=
  match hexv a, hexv b, hexv c, hexv d with
  | Some a, Some b, Some c, Some d => Some (a * 4096 + b * 256 + c * 16 + d)%N
  | _, _, _, _ => None
  end.
Definition high_surrogate (n : N) : bool := (55296 <=? n)%N && (n <? 56320)%N.
Definition low_surrogate (n : N) : bool := (56320 <=? n)%N && (n <? 57344)%N.
Definition bad_rune (s : string) : string := String "239" (String "191" (String "189" s)).
(** The character that follows a backslash in a string (other than u). *)
Definition unesc (c : ascii) : option ascii :=
  let n := N_of_ascii c in
  if (n =? 34)%N || (n =? 92)%N || (n =? 47)%N then Some c
  else if (n =? 98)%N then Some "008"%char
  else if (n =? 102)%N then Some "012"%char
  else if (n =? 110)%N then Some "010"%char
  else if (n =? 114)%N then Some "013"%char
  else if (n =? 116)%N then Some "009"%char
  else None.
(** decode.go unquoteBytes on the text between the quotes, which the scanner has accepted: escapes, surrogate pairs, and
    U+FFFD for a lone surrogate and for every byte that is not part of a valid UTF-8 sequence. *)
Fixpoint unquote (s : string) : string :=
  match s with
  | "" => ""
  | String "\" (String "u" (String a (String b (String c (String d s'))))) =>
      match hex4 a b c d with
      | None => ""
      | Some n =>
          if high_surrogate n then
            match s' with
            | String "\" (String "u" (String a' (String b' (String c' (String d' s''))))) =>
                match hex4 a' b' c' d' with
                | Some m =>
                    if low_surrogate m
                    then encode_rune ((n - 55296) * 1024 + (m - 56320) + 65536)%N +:+ unquote s''
                    else bad_rune (unquote s')
                | None => bad_rune (unquote s')
                end
            | _ => bad_rune (unquote s')
            end
          else if low_surrogate n then bad_rune (unquote s')
          else encode_rune n +:+ unquote s'
      end
  | String "\" (String c s') =>
      match unesc c with
      | Some c' => String c' (unquote s')
      | None => ""
      end
  | String a s1 =>
      if (N_of_ascii a <? 128)%N then String a (unquote s1) else
      match s1 with
      | "" => bad_rune ""
      | String b s2 =>
          if two_ok a b then String a (String b (unquote s2)) else
          match s2 with
          | "" => bad_rune (unquote s1)
          | String c s3 =>
              if three_ok a b c then String a (String b (String c (unquote s3))) else
              match s3 with
              | "" => bad_rune (unquote s1)
              | String d s4 =>
                  if four_ok a b c d then String a (String b (String c (String d (unquote s4))))
                  else bad_rune (unquote s1)
              end
          end
      end
  end.

(** scanner.go: the parse stack; an entry holds what has been read of the surrounding array or object (last item first). *)
Inductive frame :=
| FArr (l : list json)
| FObj (l : list (string * json)) (key : string).
(** Where a string goes: a value, or a key of an object. *)
Inductive dest := DVal (stk : list frame) | DKey (l : list (string * json)) (stk : list frame).
(** States inside a number: scanner.go stateNeg, state0, state1, stateDot, stateDot0, stateE, stateESign, stateE0. *)
Inductive nstate := NNeg | NZero | NInt | NDot | NFrac | NExp | NSign | NExpInt.
Inductive state :=
| SValue (stk : list frame)                                       (* stateBeginValue *)
| SFirst (stk : list frame)                                       (* stateBeginValueOrEmpty *)
| SFirstKey (stk : list frame)                                    (* stateBeginStringOrEmpty *)
| SKey (l : list (string * json)) (stk : list frame)              (* stateBeginString *)
| SColon (l : list (string * json)) (key : string) (stk : list frame) (* stateEndValue, parseObjectKey *)
| SEnd (v : json) (stk : list frame)                              (* stateEndValue, stateEndTop *)
| SStr (raw : list ascii) (d : dest)                              (* stateInString *)
| SEsc (raw : list ascii) (d : dest)                              (* stateInStringEsc *)
| SHex (n : nat) (raw : list ascii) (d : dest)                    (* stateInStringEscU...: n + 1 digits to come *)
| SNum (raw : list ascii) (ns : nstate) (stk : list frame)
| SLit (rest : string) (v : json) (stk : list frame).             (* stateT..., stateF..., stateN... *)

Definition text (raw : list ascii) : string := string_of_list_ascii (rev raw).
(** scanner.go isSpace. *)
Definition is_space (c : ascii) : bool := let n := N_of_ascii c in ((n =? 32) || (n =? 9) || (n =? 13) || (n =? 10))%N.
Definition digit (c : ascii) : bool := let n := N_of_ascii c in ((48 <=? n) && (n <=? 57))%N.
Definition is_char (n : N) (c : ascii) : bool := (N_of_ascii c =? n)%N.
(** scanner.go maxNestingDepth, pushParseState. *)
Definition room (stk : list frame) : bool := (N.of_nat (length stk) <? 10000)%N.

(** scanner.go stateBeginValue. *)
Definition begin_value (stk : list frame) (c : ascii) : option state :=
  if is_char 123 c then (if room stk then Some (SFirstKey stk) else None)
  else if is_char 91 c then (if room stk then Some (SFirst stk) else None)
  else if is_char 34 c then Some (SStr [] (DVal stk))
  else if is_char 45 c then Some (SNum [c] NNeg stk)
  else if is_char 48 c then Some (SNum [c] NZero stk)
  else if digit c then Some (SNum [c] NInt stk)
  else if is_char 116 c then Some (SLit "rue" (JBool true) stk)
  else if is_char 102 c then Some (SLit "alse" (JBool false) stk)
  else if is_char 110 c then Some (SLit "ull" JNull stk)
  else None.
(** scanner.go stateEndValue for a complete value, stateEndTop. *)
Definition end_value (v : json) (stk : list frame) (c : ascii) : option state :=
  if is_space c then Some (SEnd v stk) else
  match stk with
  | [] => None
  | FArr l :: stk' =>
      if is_char 44 c then Some (SValue (FArr (v :: l) :: stk'))
      else if is_char 93 c then Some (SEnd (JArr (rev (v :: l))) stk')
      else None
  | FObj l k :: stk' =>
      if is_char 44 c then Some (SKey ((k, v) :: l) stk')
      else if is_char 125 c then Some (SEnd (JObj (rev ((k, v) :: l))) stk')
      else None
  end.
(** scanner.go stateNeg ... stateE0: the next state of a number, [None] if the character does not continue it. *)
Definition num_step (ns : nstate) (c : ascii) : option nstate :=
  match ns with
  | NNeg => if is_char 48 c then Some NZero else if digit c then Some NInt else None
  | NZero => if is_char 46 c then Some NDot else if is_char 101 c || is_char 69 c then Some NExp else None
  | NInt => if digit c then Some NInt else if is_char 46 c then Some NDot
            else if is_char 101 c || is_char 69 c then Some NExp else None
  | NDot => if digit c then Some NFrac else None
  | NFrac => if digit c then Some NFrac else if is_char 101 c || is_char 69 c then Some NExp else None
  | NExp => if is_char 43 c || is_char 45 c then Some NSign else if digit c then Some NExpInt else None
  | NSign => if digit c then Some NExpInt else None
  | NExpInt => if digit c then Some NExpInt else None
  end.
Definition num_ends (ns : nstate) : bool :=
  match ns with NZero | NInt | NFrac | NExpInt => true | _ => false end.
(** A complete string. *)
Definition end_string (raw : list ascii) (d : dest) : state :=
  match d with
  | DVal stk => SEnd (JStr (unquote (text raw))) stk
  | DKey l stk => SColon l (unquote (text raw)) stk
  end.
(** scanner.go step: one character.  [None] is a syntax error. *)
Definition step (st : state) (c : ascii) : option state :=
  match st with
  | SValue stk => if is_space c then Some st else begin_value stk c
  | SFirst stk =>
      if is_space c then Some st
      else if is_char 93 c then Some (SEnd (JArr []) stk)
      else begin_value (FArr [] :: stk) c
  | SFirstKey stk =>
      if is_space c then Some st
      else if is_char 125 c then Some (SEnd (JObj []) stk)
      else if is_char 34 c then Some (SStr [] (DKey [] stk)) else None
  | SKey l stk => if is_space c then Some st else if is_char 34 c then Some (SStr [] (DKey l stk)) else None
  | SColon l k stk => if is_space c then Some st else if is_char 58 c then Some (SValue (FObj l k :: stk)) else None
  | SEnd v stk => end_value v stk c
  | SStr raw d =>
      if is_char 34 c then Some (end_string raw d)
      else if is_char 92 c then Some (SEsc (c :: raw) d)
      else if (N_of_ascii c <? 32)%N then None
      else Some (SStr (c :: raw) d)
  | SEsc raw d =>
      if is_char 117 c then Some (SHex 3 (c :: raw) d)
      else match unesc c with Some _ => Some (SStr (c :: raw) d) | None => None end
  | SHex n raw d =>
      match hexv c with
      | None => None
      | Some _ => Some (match n with 0 => SStr (c :: raw) d | S n => SHex n (c :: raw) d end)
      end
  | SNum raw ns stk =>
      match num_step ns c with
      | Some ns' => Some (SNum (c :: raw) ns' stk)
      | None => if num_ends ns then end_value (JNum (text raw)) stk c else None
      end
  | SLit "" v stk => end_value v stk c
  | SLit (String x "") v stk => if bool_decide (x = c) then Some (SEnd v stk) else None
  | SLit (String x r) v stk => if bool_decide (x = c) then Some (SLit r v stk) else None
  end.
Fixpoint run (st : state) (s : string) : option state :=
  match s with
  | "" => Some st
  | String c s' => match step st c with Some st' => run st' s' | None => None end
  end.
(** scanner.go eof. *)
Definition finish (st : state) : option json :=
  match st with
  | SEnd v [] => Some v
  | SNum raw ns [] => if num_ends ns then Some (JNum (text raw)) else None
  | _ => None
  end.
(** scanner.go checkValid followed by decoding into a value: [None] is a syntax error. *)
Definition read (s : string) : option json :=
  match run (SValue []) s with
  | Some st => finish st
  | None => None
  end.
