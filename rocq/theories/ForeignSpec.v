(** Objects of any origin that are updated any number of times. *)
From Coq Require Import Ascii.
From stdpp Require Import base list strings gmap.
From Verif Require Import GoStr InventoryModel InventorySpec ObjectModel ObjectSpec LoadModel CrashSpec.

(** From storage [s] with inventory [i] to storage [s'] with inventory [i'] by any number of handles one after the other.  A handle may
    do anything, with other settings than the one before it, and may stop at any point of its writes; new content gets clean relative
    paths.  The next handle reads the inventory as it was before the stopped handle, or as the stopped handle has left it. *)
Inductive later (s : storage) (i : inventory) : storage → inventory → Prop :=
| later_none : later s i s i
| later_more s1 i1 s2 i2 E ops :
    later s i s1 i1 → clean_names E ops → crash s1 (ob_trace (orun E ops (open_object i1))) s2 →
    same_record i1 i2 ∨ same_record (ob_inv (orun E ops (open_object i1))) i2 →
    later s i s2 i2.
