(** Vocabulary for storage roots. *)
From Coq Require Import Ascii ZArith.
From stdpp Require Import base list strings gmap.
From Verif Require Import GoStr ObjectModel CrashSpec RootModel.

(** The directory holds an object declaration. *)
Definition declares (l : list (string * node)) : Prop := ∃ v data, ("0=ocfl_object_" +:+ v, File data) ∈ l.

(** The names lead from this directory to an object, through directories that are no objects. *)
Inductive object_at : list (string * node) → list string → Prop :=
| object_here l : declares l → object_at l []
| object_below l name sub names : ¬ declares l → (name, Dir sub) ∈ l → object_at sub names → object_at l (name :: names).

(** [p] is the path of an object of the storage root; the folder of the extensions does not count. *)
Definition object_in (root : list (string * node)) (p : string) : Prop :=
  ∃ name sub names, (name, Dir sub) ∈ root ∧ name ≠ "extensions" ∧ object_at sub names ∧ p = join_slash (name :: names).

(** A directory of the storage hierarchy: an object, of which the file system lists a file first, or a directory without files. *)
Inductive hierarchy : list (string * node) → Prop :=
| hierarchy_object l name data l' : declares l → l = (name, File data) :: l' → plain_name name → hierarchy l
| hierarchy_inner l : (∀ name n, (name, n) ∈ l → plain_name name ∧ ∃ sub, n = Dir sub) → NoDup (fst <$> l) →
    (∀ name sub, (name, Dir sub) ∈ l → hierarchy sub) → hierarchy l.
Definition tidy_root (root : list (string * node)) : Prop :=
  NoDup (fst <$> root) ∧ ∀ name sub, (name, Dir sub) ∈ root → plain_name name ∧ (name ≠ "extensions" → hierarchy sub).

(** A listing in byte order. *)
Definition in_order (l : list (string * node)) : Prop :=
  ∀ i j a b, i < j → l !! i = Some a → l !! j = Some b → str_le (fst a) (fst b).
(** The directories an object may hold: versions, extensions, logs. *)
Definition object_folders_only (l : list (string * node)) : Prop :=
  ∀ name sub, (name, Dir sub) ∈ l → (∃ r, name = String "v" r) ∨ name = "extensions" ∨ name = "logs".

(** A number: digits, a dot, digits. *)
Definition digits (s : string) : Prop := s ≠ "" ∧ ∀ c, c ∈ list_ascii_of_string s → (48 <= N_of_ascii c <= 57)%N.
Definition version_number (v : string) : Prop := ∃ a b, digits a ∧ digits b ∧ v = a +:+ "." +:+ b.

(** The declaration of a version, by name and by content. *)
Definition declaration (prefix v : string) : string := "0=" +:+ prefix +:+ v.
Definition declared (prefix v data : string) : Prop :=
  data = prefix +:+ v +:+ String "010" "" ∨ data = prefix +:+ v +:+ String "013" (String "010" "").

(** No file name contains a declaration without being one. *)
Definition well_named (prefix : string) (l : list (string * node)) : Prop :=
  ∀ name data, (name, File data) ∈ l → ∀ a v b, name = a +:+ declaration prefix v +:+ b → version_number v →
    ∃ w, version_number w ∧ name = declaration prefix w.

(** The directory holds exactly one declaration, of version [v], with the right content. *)
Definition one_declaration (prefix v : string) (l : list (string * node)) : Prop :=
  version_number v ∧ (∃ data, (declaration prefix v, File data) ∈ l ∧ declared prefix v data) ∧
  ∀ w data, version_number w → (declaration prefix w, File data) ∈ l → w = v.

(** The folder holds a file. *)
Definition occupied (s : storage) (folder : string) : Prop := ∃ p, is_Some (s !! (folder +:+ "/" +:+ p)).
