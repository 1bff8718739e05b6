(** Vocabulary for the validation of storage roots. *)
From Coq Require Import Ascii.
From stdpp Require Import base list strings gmap.
From Coq Require Import ZArith.
From Verif Require Import GoStr ObjectModel CrashSpec ValidateModel RootModel RootSpec RootCheckModel.

(** The names lead from a directory to a directory below it. *)
Inductive leads : list (string * node) → list string → list (string * node) → Prop :=
| leads_here l : leads l [] l
| leads_below l name sub names l' : (name, Dir sub) ∈ l → leads sub names l' → leads l (name :: names) l'.
(** [p] is the path of an object of the storage root, and [l] is its directory. *)
Definition object_dir (root : list (string * node)) (p : string) (l : list (string * node)) : Prop :=
  ∃ name sub names, (name, Dir sub) ∈ root ∧ name ≠ "extensions" ∧ object_at sub names ∧ leads sub names l ∧ p = join_slash (name :: names).

(** The file with the names [names] and this content is in the directory. *)
Definition file_at (l : list (string * node)) (names : list string) (data : string) : Prop :=
  ∃ dirs name sub, names = dirs ++ [name] ∧ leads l dirs sub ∧ (name, File data) ∈ sub.
(** No name twice in any directory, and only proper names. *)
Inductive tidy : list (string * node) → Prop :=
| tidy_dir l : NoDup (fst <$> l) → (∀ name n, (name, n) ∈ l → plain_name name) → (∀ name sub, (name, Dir sub) ∈ l → tidy sub) → tidy l.

(** The entries of the extensions folder; no such folder counts as an empty one. *)
Definition extensions_of (l e : list (string * node)) : Prop :=
  ("extensions", Dir e) ∈ l ∨ (∀ n, ("extensions", n) ∉ l) ∧ e = [].
(** The extension in the directory of this name can be created. *)
Definition creates (create : list (string * node) → option ext) (e : list (string * node)) (name : string) (x : ext) : Prop :=
  ∃ sub, (name, Dir sub) ∈ e ∧ create sub = Some x.
Definition unknown (create : list (string * node) → option ext) (e : list (string * node)) (name : string) : Prop :=
  ∃ sub, (name, Dir sub) ∈ e ∧ create sub = None.
(** An extensions folder as the program writes it: extensions are in folders with their names, initial names the manager, and both are
    there or none of them. *)
Record managed (create : list (string * node) → option ext) (e : list (string * node)) : Prop := Managed {
  mg_once : NoDup (fst <$> e);
  mg_name : ∀ name x, creates create e name x → x_name x = name;
  mg_initial : ∀ x, creates create e "initial" x → x_initial x = Some manager_name;
  mg_manager : ∀ x, creates create e manager_name x → x_manager x = true;
  mg_both : (∃ x, creates create e "initial" x) ↔ ∃ x, creates create e manager_name x
}.

(** The value of a digit string, and which of two version numbers is the later one, as decimal fractions. *)
Fixpoint positional (s : string) : N :=
  match s with
  | EmptyString => 0
  | String c s' => (N_of_ascii c - 48) * 10 ^ N.of_nat (String.length s') + positional s'
  end%N.
Definition later (v w : string) : Prop :=
  ∃ a b c d, digits a ∧ digits b ∧ digits c ∧ digits d ∧ v = a +:+ "." +:+ b ∧ w = c +:+ "." +:+ d ∧
    let x := (10 ^ N.of_nat (String.length b))%N in let y := (10 ^ N.of_nat (String.length d))%N in
    ((positional c * y + positional d) * x < (positional a * x + positional b) * y)%N.

Definition known_version (v : string) : Prop := v = "1.0" ∨ v = "1.1" ∨ v = "2.0".

(** A storage root in which declarations can be told by their names, in the root and in its objects, with extensions folders as the program
    writes them; the root has no unknown extension. *)
Record regular (create : list (string * node) → option ext) (root : list (string * node)) : Prop := Regular {
  rg_tidy : tidy_root root;
  rg_named : well_named "ocfl_" root;
  rg_exts : ∀ e, extensions_of root e → managed create e ∧ ∀ name, ¬ unknown create e name;
  rg_objects : ∀ p l, object_dir root p l → NoDup (fst <$> l) ∧ well_named "ocfl_object_" l ∧ ∀ e, extensions_of l e → managed create e
}.

(** The validation has reported the finding, whether or not it came to its end. *)
Definition reports (v : verdict) (f : finding) : Prop := ∃ fs, f ∈ fs ∧ (v = VDone fs ∨ ∃ m, v = VError fs m).
