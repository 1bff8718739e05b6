(** Vocabulary for storage roots that were filled by requests and are then validated as a whole. *)
From Coq Require Import Ascii.
From stdpp Require Import base list strings gmap.
From Coq Require Import ZArith.
From Verif Require Import GoStr ObjectModel CrashSpec LayoutSpec RootModel RootSpec RootAddModel RootCheckModel RootCheckSpec.

(** Every directory is listed in byte order. *)
Inductive ordered : list (string * node) → Prop :=
| ordered_dir l : in_order l → (∀ name sub, (name, Dir sub) ∈ l → ordered sub) → ordered l.

(** The directory tree holds exactly the files of the storage, with proper names and listed in byte order; there are no empty directories. *)
Record lists (tree : list (string * node)) (s : storage) : Prop := Lists {
  ls_tidy : tidy tree;
  ls_ordered : ordered tree;
  ls_full : ∀ names l, names ≠ [] → leads tree names l → ∃ r data, file_at l r data;
  ls_files : ∀ p data, s !! p = Some data ↔ ∃ names, file_at tree names data ∧ p = join_slash names
}.

(** A new storage root: its declaration, files of other names (without an equals sign), and its extensions. *)
Record started (v : string) (s : storage) : Prop := Started {
  st_declared : s !! declaration "ocfl_" v = Some ("ocfl_" +:+ v +:+ String "010" "");
  st_rest : ∀ p data, s !! p = Some data →
    p = declaration "ocfl_" v ∨ inside "extensions" p ∨ str_mem slash p = false ∧ str_mem "="%char p = false
}.
(** No object is put into the folder of the extensions. *)
Definition extensions_free (rt : root) (ids : string → Prop) : Prop :=
  ∀ id f, ids id → root_path (rt_layouts rt) id = Some (f, false) → f ≠ "extensions" ∧ ¬ inside "extensions" f.
