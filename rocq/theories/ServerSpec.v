(** What the display server owes to its readers. *)
From Coq Require Import Ascii.
From stdpp Require Import base list strings gmap.
From Verif Require Import GoStr PathModel InventoryModel ObjectModel LoadModel LayoutModel RootModel RootCheckModel RootExtractModel.

Section root.
  Context (hash : string → string → option string) (parse : string → option inventory) (create : list (string * RootModel.node) → option ext).
  Context (ls : list (string → pres)) (tree : list (string * RootModel.node)).

  (** The object [i] with files [s] is in the folder. *)
  Definition stored (folder : string) (i : inventory) (s : storage) : Prop := open_folder hash parse create tree folder = OpenedAt i s.
  (** The folder that the layout gives to the identifier. *)
  Definition addressed (id folder : string) : Prop := root_path ls id = Some (folder, false).
  (** [b] is the stored content with the digest in an object that has the identifier or is where the layout puts the identifier. *)
  Definition content_of (id digest b : string) : Prop :=
    ∃ folder i s p ps, stored folder i s ∧ (addressed id folder ∨ inv_id i = id) ∧ inv_manifest i !! digest = Some (p :: ps) ∧ s !! p = Some b.
  (** Every object is where the layout puts its identifier (a folder may be named by several paths). *)
  Definition in_place : Prop :=
    (∀ folder i s, stored folder i s → ∃ f, addressed (inv_id i) f ∧ path_clean f = path_clean folder) ∧
    (∀ id folder i s, addressed id folder → stored folder i s → inv_id i = id).
End root.
