(** Choice and order of the extensions of the extension manager
    (/repo/pkg/extension/NNNN-gocfl-extension-manager.go). *)
From Coq Require Import Ascii.
From stdpp Require Import base list strings gmap.

(** An extension: its name and what tells it from other extensions of the same name. *)
Definition ext : Set := string * nat.

(** The number the comparison functions compute for an extension (lines 197-211, 216-230): the last position of its name in the
    list, 0 if it is not there. *)
Fixpoint rank_from (num cur : nat) (l : list string) (name : string) : nat :=
  match l with
  | [] => cur
  | x :: l' => rank_from (S num) (if decide (x = name) then num else cur) l' name
  end.
Definition rank (l : list string) (e : ext) : nat := rank_from 0 0 l (fst e).

(** [slices.SortFunc] (standard library): a parameter, because it is not stable. *)
Definition sorter := (ext → nat) → list ext → list ext.

(** [sortExtensions], lines 196-213. *)
Definition sort_extensions (srt : sorter) (l : list ext) (names : list string) : list ext := srt (rank names) l.

(** [excludeExtensions], lines 215-252: the loop which collects positions, lines 235-245, *)
Fixpoint collect (names : list string) (first : bool) (num : nat) (l : list ext) : list nat :=
  match l with
  | [] => []
  | e :: l' =>
      if decide (fst e ∈ names) then
        if first then collect names false (S num) l' else num :: collect names first (S num) l'
      else collect names first (S num) l'
  end.
(** and the loop which deletes them from behind, lines 249-251. *)
Definition delete_from_back (rm : list nat) (l : list ext) : list ext :=
  foldl (λ l i, delete i l) l (rev rm).
Definition exclude_extensions (srt : sorter) (l : list ext) (names : list string) : list ext :=
  let l := srt (rank names) l in
  delete_from_back (collect names true 0 l) l.

(** [organize], lines 254-268; [excl] and [sort] are the entries of the two maps for the kind of extension. *)
Definition organize (srt : sorter) (excl : option (list (list string))) (sort : option (list string)) (l : list ext) : list ext :=
  match l with
  | [] => l
  | _ =>
      let l := match excl with Some gs => foldl (exclude_extensions srt) l gs | None => l end in
      match sort with Some s => sort_extensions srt l s | None => l end
  end.
