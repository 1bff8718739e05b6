(** JSON texts as RFC 8259 defines them, independent of the reader. *)
From Coq Require Import Ascii.
From stdpp Require Import base list strings relations.
From Coq Require Import ZArith.
From Verif Require Import GoStr JsonModel.
Local Open Scope N_scope.

Definition code (c : ascii) : N := N_of_ascii c.
Definition all_in (P : ascii → Prop) (s : string) : Prop := Forall P (list_ascii_of_string s).
Definition dq : string := String (ascii_of_N 34) "".
(** Section 2: insignificant white space. *)
Definition ws (s : string) : Prop := all_in (λ c, code c ∈ [32; 9; 10; 13]) s.

(** Section 6: numbers. *)
Definition dig (c : ascii) : Prop := 48 ≤ code c ≤ 57.
Definition digs (s : string) : Prop := s ≠ "" ∧ all_in dig s.
Inductive whole : string → Prop :=
| whole_zero : whole "0"
| whole_more c s : 49 ≤ code c ≤ 57 → all_in dig s → whole (String c s).
Inductive fraction : string → Prop :=
| fraction_none : fraction ""
| fraction_some s : digs s → fraction ("." +:+ s).
Inductive exponent : string → Prop :=
| exponent_none : exponent ""
| exponent_some e sign s : e ∈ ["e"; "E"] → sign ∈ [""; "+"; "-"] → digs s → exponent (e +:+ sign +:+ s).
Inductive number : string → Prop :=
| Number m w f e : m ∈ [""; "-"] → whole w → fraction f → exponent e → number (m +:+ w +:+ f +:+ e).

(** Section 7: strings.  The text between the quotes, and the value as UTF-8. *)
Definition hex_value (c : ascii) (n : N) : Prop :=
  48 ≤ code c ≤ 57 ∧ n = code c - 48 ∨ 65 ≤ code c ≤ 70 ∧ n = code c - 55 ∨ 97 ≤ code c ≤ 102 ∧ n = code c - 87.
Inductive hex_unit : string → N → Prop :=
| HexUnit a b c d x y z u : hex_value a x → hex_value b y → hex_value c z → hex_value d u →
    hex_unit (String a (String b (String c (String d "")))) (((x * 16 + y) * 16 + z) * 16 + u).
(** RFC 3629: the bytes of a code point; surrogates have none. *)
Definition bytes (l : list N) : string := string_of_list_ascii (ascii_of_N <$> l).
Inductive utf8_of : N → string → Prop :=
| utf8_one n : n < 128 → utf8_of n (bytes [n])
| utf8_two n : 128 ≤ n < 2048 → utf8_of n (bytes [192 + n / 64; 128 + n mod 64])
| utf8_three n : 2048 ≤ n < 55296 ∨ 57344 ≤ n < 65536 → utf8_of n (bytes [224 + n / 4096; 128 + n / 64 mod 64; 128 + n mod 64])
| utf8_four n : 65536 ≤ n < 1114112 → utf8_of n (bytes [240 + n / 262144; 128 + n / 4096 mod 64; 128 + n / 64 mod 64; 128 + n mod 64]).
Definition short_escapes : list (ascii * N) :=
  [(ascii_of_N 34, 34); ("\"%char, 92); ("/"%char, 47); ("b"%char, 8); ("f"%char, 12); ("n"%char, 10); ("r"%char, 13); ("t"%char, 9)].
Definition surrogate (n : N) : Prop := 55296 ≤ n < 57344.
(** [repair] is for texts that are not Unicode: a lone surrogate and a byte that does not begin a UTF-8 sequence then stand for U+FFFD,
    as RFC 8259, section 8.2, leaves open and Unicode recommends. *)
Inductive spells (repair : Prop) : string → string → Prop :=
| spells_none : spells repair "" ""
| spells_plain n u t v : utf8_of n u → 32 ≤ n → n ≠ 34 → n ≠ 92 → spells repair t v → spells repair (u +:+ t) (u +:+ v)
| spells_short c n t v : (c, n) ∈ short_escapes → spells repair t v → spells repair (String "\" (String c t)) (String (ascii_of_N n) v)
| spells_hex h n u t v : hex_unit h n → utf8_of n u → spells repair t v → spells repair ("\u" +:+ h +:+ t) (u +:+ v)
| spells_pair h1 n1 h2 n2 u t v :
    hex_unit h1 n1 → hex_unit h2 n2 → 55296 ≤ n1 < 56320 → 56320 ≤ n2 < 57344 → utf8_of (65536 + (n1 - 55296) * 1024 + (n2 - 56320)) u → spells repair t v →
    spells repair ("\u" +:+ h1 +:+ "\u" +:+ h2 +:+ t) (u +:+ v)
| spells_lone h n t v : repair → hex_unit h n → surrogate n →
    (∀ h' n' t', t = "\u" +:+ h' +:+ t' → hex_unit h' n' → 56320 ≤ n' < 57344 → 56320 ≤ n) → spells repair t v →
    spells repair ("\u" +:+ h +:+ t) (bytes [239; 191; 189] +:+ v)
| spells_broken c t v : repair → 128 ≤ code c → (∀ n u t', String c t = u +:+ t' → ¬ utf8_of n u) → spells repair t v →
    spells repair (String c t) (bytes [239; 191; 189] +:+ v).

(** Sections 3 to 5: values.  [S] says which texts are strings, and of what value. *)
Inductive jtext (S : string → string → Prop) : string → json → Prop :=
| jt_null : jtext S "null" JNull
| jt_true : jtext S "true" (JBool true)
| jt_false : jtext S "false" (JBool false)
| jt_num t : number t → jtext S t (JNum t)
| jt_str t v : S t v → jtext S (dq +:+ t +:+ dq) (JStr v)
| jt_empty_array w : ws w → jtext S ("[" +:+ w +:+ "]") (JArr [])
| jt_array t l : items S t l → jtext S ("[" +:+ t +:+ "]") (JArr l)
| jt_empty_object w : ws w → jtext S ("{" +:+ w +:+ "}") (JObj [])
| jt_object t l : members S t l → jtext S ("{" +:+ t +:+ "}") (JObj l)
with items (S : string → string → Prop) : string → list json → Prop :=
| items_one w1 t j w2 : ws w1 → jtext S t j → ws w2 → items S (w1 +:+ t +:+ w2) [j]
| items_more w1 t j w2 r l : ws w1 → jtext S t j → ws w2 → items S r l → items S (w1 +:+ t +:+ w2 +:+ "," +:+ r) (j :: l)
with members (S : string → string → Prop) : string → list (string * json) → Prop :=
| members_one w1 k key w2 w3 t j w4 : ws w1 → S k key → ws w2 → ws w3 → jtext S t j → ws w4 →
    members S (w1 +:+ dq +:+ k +:+ dq +:+ w2 +:+ ":" +:+ w3 +:+ t +:+ w4) [(key, j)]
| members_more w1 k key w2 w3 t j w4 r l : ws w1 → S k key → ws w2 → ws w3 → jtext S t j → ws w4 → members S r l →
    members S (w1 +:+ dq +:+ k +:+ dq +:+ w2 +:+ ":" +:+ w3 +:+ t +:+ w4 +:+ "," +:+ r) ((key, j) :: l).
Inductive document (S : string → string → Prop) : string → json → Prop :=
| Document w1 t j w2 : ws w1 → jtext S t j → ws w2 → document S (w1 +:+ t +:+ w2) j.

(** * Order of members *)
(** Names that are compared ignoring case: ASCII letters, and U+017F for s. *)
Inductive folds : string → string → Prop :=
| folds_none : folds "" ""
| folds_letter c s t : folds s t → folds (String c s) (String (lower_ascii c) t)
| folds_long_s s t : folds s t → folds (bytes [197; 191] +:+ s) (String "s" t).
Definition apart (k k' : string) : Prop := ∀ t, folds k t → ¬ folds k' t.
(** Two neighbouring members of an object, at any depth, change places; their names differ even if case is ignored. *)
Inductive swapped : json → json → Prop :=
| swapped_here a k j k' j' b : apart k k' → swapped (JObj (a ++ (k, j) :: (k', j') :: b)) (JObj (a ++ (k', j') :: (k, j) :: b))
| swapped_member a k j j' b : swapped j j' → swapped (JObj (a ++ (k, j) :: b)) (JObj (a ++ (k, j') :: b))
| swapped_item a j j' b : swapped j j' → swapped (JArr (a ++ j :: b)) (JArr (a ++ j' :: b)).
Definition reordered : json → json → Prop := rtc swapped.
