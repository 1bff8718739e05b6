(** The report of a validation: /repo/pkg/ocfl/validationerror.go and /repo/gocfl/cmd/helper.go; sorted insertion:
    /repo/pkg/ocfl/helper.go. *)
From Coq Require Import Ascii ZArith.
From stdpp Require Import base list strings gmap.
From Verif Require Import GoStr.

(** * Findings *)

(** ValidationError, validationerror.go:144-151, without Ref and Version, which are neither compared nor printed. *)
Record verr := Verr { e_code : string; e_desc : string; e_desc2 : string; e_ctx : string }.

Definition is_root (e : verr) : bool := has_prefix "storage root" (e_ctx e).
(** The text that is compared, line 163. *)
Definition sort_key (e : verr) : string := e_ctx e +:+ e_code e +:+ e_desc2 e.
(** validationSort, lines 157-164. *)
Definition validation_sort (a b : verr) : Z :=
  if Bool.eqb (is_root a) (is_root b)
  then match String.compare (sort_key a) (sort_key b) with Lt => -1 | Eq => 0 | Gt => 1 end
  else -1.
(** The equality of Compact, lines 169-171. *)
Definition same_finding (a b : verr) : bool :=
  bool_decide (e_ctx a = e_ctx b ∧ e_code a = e_code b ∧ e_desc2 a = e_desc2 b).
(** [slices.CompactFunc]: the first element of each run of equal elements. *)
Fixpoint compact_from (prev : verr) (l : list verr) : list verr :=
  match l with
  | [] => []
  | e :: l' => if same_finding prev e then compact_from e l' else e :: compact_from e l'
  end.
Definition compact_func (l : list verr) : list verr := match l with [] => [] | e :: l' => e :: compact_from e l' end.
(** Compact, lines 167-172; [srt] is [slices.SortFunc] with validationSort. *)
Definition compact (srt : list verr → list verr) (l : list verr) : list verr := compact_func (srt l).

(** [slices.SortFunc] for at most twelve elements: insertion sort.  [insert_left x l] moves [x] to the left through the elements [l]
    before it, nearest first. *)
Fixpoint insert_left (x : verr) (l : list verr) : list verr :=
  match l with
  | [] => [x]
  | y :: l' => if (validation_sort x y <? 0)%Z then y :: insert_left x l' else x :: l
  end.
Definition insertion_sort (l : list verr) : list verr := reverse (foldl (λ acc x, insert_left x acc) [] l).

(** showStatus, gocfl/cmd/helper.go:278-303: the printed lines of the findings, and the number of errors.  None for a panic: the
    code is empty. *)
Fixpoint count_errors (l : list verr) : option nat :=
  match l with
  | [] => Some 0
  | e :: l' =>
      match e_code e with
      | EmptyString => None
      | String c _ => (λ n, if decide (c = "E"%char) then S n else n) <$> count_errors l'
      end
  end.
Definition show_status (srt : list verr → list verr) (l : list verr) : list (string * string * string * string) * option nat :=
  ((λ e, (e_ctx e, e_code e, e_desc e, e_desc2 e)) <$> compact srt l, count_errors (compact srt l)).

(** * Codes *)

(** The keys of OCFLValidationError1_0 and OCFLValidationError1_1 (validationerror1_0.go:12-129, validationerror1_1.go:10-136); the
    Code of each entry is its key. *)
Definition codes10 : list string :=
  ["E000"; "E001"; "E002"; "E003"; "E004"; "E005"; "E006"; "E007"; "E008"; "E009"; "E010"; "E011"; "E012"; "E013"; "E014"; "E015"; "E016";
   "E017"; "E018"; "E019"; "E020"; "E021"; "E022"; "E023"; "E024"; "E025"; "E026"; "E027"; "E028"; "E029"; "E030"; "E031"; "E032"; "E033";
   "E034"; "E035"; "E036"; "E037"; "E038"; "E039"; "E040"; "E041"; "E042"; "E043"; "E044"; "E045"; "E046"; "E047"; "E048"; "E049"; "E050";
   "E051"; "E052"; "E053"; "E054"; "E055"; "E056"; "E057"; "E058"; "E059"; "E060"; "E061"; "E062"; "E063"; "E064"; "E066"; "E067"; "E068";
   "E069"; "E070"; "E071"; "E072"; "E073"; "E074"; "E075"; "E076"; "E077"; "E078"; "E079"; "E080"; "E081"; "E082"; "E083"; "E084"; "E085";
   "E086"; "E087"; "E088"; "E089"; "E090"; "E091"; "E092"; "E093"; "E094"; "E095"; "E096"; "E097"; "E098"; "E099"; "E100"; "E101"; "E102";
   "W001"; "W002"; "W003"; "W004"; "W005"; "W007"; "W008"; "W009"; "W010"; "W011"; "W012"; "W013"; "W014"; "W015"].
Definition codes11 : list string :=
  ["E000"; "E001"; "E002"; "E003"; "E004"; "E005"; "E006"; "E007"; "E008"; "E009"; "E010"; "E011"; "E012"; "E013"; "E014"; "E015"; "E016";
   "E017"; "E018"; "E019"; "E020"; "E021"; "E022"; "E023"; "E024"; "E025"; "E026"; "E027"; "E028"; "E029"; "E030"; "E031"; "E032"; "E033";
   "E034"; "E035"; "E036"; "E037"; "E038"; "E039"; "E040"; "E041"; "E042"; "E043"; "E044"; "E045"; "E046"; "E047"; "E048"; "E049"; "E050";
   "E051"; "E052"; "E053"; "E054"; "E055"; "E056"; "E057"; "E058"; "E059"; "E060"; "E061"; "E062"; "E063"; "E064"; "E066"; "E067"; "E069";
   "E070"; "E071"; "E072"; "E073"; "E074"; "E075"; "E076"; "E077"; "E078"; "E079"; "E080"; "E081"; "E082"; "E083"; "E084"; "E085"; "E087";
   "E088"; "E089"; "E090"; "E091"; "E092"; "E093"; "E094"; "E095"; "E096"; "E097"; "E098"; "E099"; "E100"; "E101"; "E102"; "E103"; "E104";
   "E105"; "E106"; "E107"; "E108"; "E110"; "E111"; "E112"; "W000"; "W001"; "W002"; "W003"; "W004"; "W005"; "W007"; "W008"; "W009"; "W010";
   "W011"; "W012"; "W013"; "W014"; "W015"; "W016"].
(** GetValidationError, validationerror.go:257-295: the code of the result.  The mapping of version 1.0 has one entry
    (validationerror1_0.go:8-10), the one of version 1.1 none. *)
Definition validation_code (version code : string) : string :=
  let known := if decide (version = "1.1") then codes11 else codes10 in
  if decide (code ∈ known) then code
  else if decide (version ≠ "1.1" ∧ code = "E104") then "E001"
  else match code with String c _ => if decide (c = "W"%char) then "W000" else "E000" | EmptyString => "E000" end.

(** * Sorted lists *)

(** [slices.BinarySearch] on strings: the loop over [i, j). *)
Fixpoint search_loop (fuel : nat) (l : list string) (v : string) (i j : nat) : nat :=
  match fuel with
  | O => i
  | S fuel =>
      if i <? j then
        let h := Nat.div2 (i + j) in
        if String.ltb (default "" (l !! h)) v then search_loop fuel l v (S h) j else search_loop fuel l v i h
      else i
  end.
Definition binary_search (l : list string) (v : string) : nat * bool :=
  let i := search_loop (S (length l)) l v 0 (length l) in
  (i, bool_decide (l !! i = Some v)).
(** sliceInsertSorted, helper.go:221-228: extend by a dummy, [copy(data[i+1:], data[i:])], set. *)
Definition insert_sorted (l : list string) (v : string) : list string :=
  let i := fst (binary_search l v) in
  let data := l ++ [""] in
  let moved := take (S i) data ++ take (length data - S i) (drop i data) in
  <[i := v]> moved.
(** sliceInsertAt, helper.go:230-247; None for a panic. *)
Definition insert_at (l : list string) (i : nat) (v : string) : option (list string) :=
  if decide (i = length l) then Some (l ++ [v])
  else if length l <? i then None
  else Some (<[i := v]> (take (S i) l ++ drop i l)).
(** The loop over the digests of one algorithm in checkFixity (inventorybase.go:405-413): the digests reported as duplicates, in the
    order in which the map is visited.  The digests are in lower case already. *)
Fixpoint duplicate_digests (seen l : list string) : list string :=
  match l with
  | [] => []
  | d :: l' => if snd (binary_search seen d) then d :: duplicate_digests seen l' else duplicate_digests (insert_sorted seen d) l'
  end.
