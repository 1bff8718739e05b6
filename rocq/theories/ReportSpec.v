(** Vocabulary for reports. *)
From Coq Require Import Ascii ZArith.
From stdpp Require Import base list strings gmap.
From Verif Require Import GoStr ReportModel.

(** What a finding says: where, which rule, and the details. *)
Definition says (e : verr) : string * string * string := (e_ctx e, e_code e, e_desc2 e).

(** The comparison is a strict weak order on the elements of the list, as [slices.SortFunc] demands. *)
Definition consistent (l : list verr) : Prop :=
  (∀ a, a ∈ l → ¬ (validation_sort a a < 0)%Z) ∧
  (∀ a b c, a ∈ l → b ∈ l → c ∈ l → (validation_sort a b < 0)%Z → (validation_sort b c < 0)%Z → (validation_sort a c < 0)%Z) ∧
  (∀ a b c, a ∈ l → b ∈ l → c ∈ l →
     ¬ (validation_sort a b < 0)%Z → ¬ (validation_sort b a < 0)%Z → ¬ (validation_sort b c < 0)%Z → ¬ (validation_sort c b < 0)%Z →
     ¬ (validation_sort a c < 0)%Z ∧ ¬ (validation_sort c a < 0)%Z).
(** What [slices.SortFunc] promises: always a permutation, and a sorted one if the comparison is a strict weak order. *)
Definition sort_contract (srt : list verr → list verr) : Prop :=
  ∀ l, srt l ≡ₚ l ∧
    (consistent l → ∀ i j a b, i < j → srt l !! i = Some a → srt l !! j = Some b → ¬ (validation_sort b a < 0)%Z).
(** Where, rule and details of the findings can be told from their concatenation. *)
Definition unambiguous (l : list verr) : Prop := ∀ a b, a ∈ l → b ∈ l →
  e_ctx a +:+ e_code a +:+ e_desc2 a = e_ctx b +:+ e_code b +:+ e_desc2 b → says a = says b.
(** All contexts name the storage root, or none does. *)
Definition uniform (l : list verr) : Prop := ∀ a b t, a ∈ l → b ∈ l → e_ctx a = "storage root" +:+ t → ∃ u, e_ctx b = "storage root" +:+ u.

(** The finding is of the error class. *)
Definition is_error (code : string) : Prop := ∃ r, code = String "E" r.
Definition is_warning (code : string) : Prop := ∃ r, code = String "W" r.

(** Sorted lists of strings. *)
Definition ordered (l : list string) : Prop := ∀ i j a b, i < j → l !! i = Some a → l !! j = Some b → str_le a b.
