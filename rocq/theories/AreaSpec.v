(** Vocabulary for areas and extraction. *)
From Coq Require Import Ascii ZArith.
From stdpp Require Import base list strings gmap.
From Verif Require Import GoStr InventoryModel InventorySpec ObjectModel CrashSpec AreaModel.

(** A folder given as a relative path of plain names, with or without a slash at the end; or nothing. *)
Definition folder (s : string) : Prop := s = "" ∨ clean_rel s ∨ ∃ t, clean_rel t ∧ s = t +:+ "/".

(** [a] begins with [b]. *)
Definition starts (a b : string) : Prop := ∃ r, a = b +:+ r.

(** The area a request stands for. *)
Definition requested (c : subpaths) (area : string) : string := if decide (area = "") then sp_area c else area.

(** The version a request stands for. *)
Definition requested_version (i : inventory) (ver : string) : string :=
  if decide (ver = "" ∨ ver = "latest") then inv_head i else ver.

(** Logical path [e] of the version has to be written to [q], with the bytes [data] stored for its digest. *)
Definition wanted (X : xenv) (i : inventory) (src : storage) (area : string) (st : smap) (q data : string) : Prop :=
  ∃ d e p ps, lists st e d ∧ x_path X e area = XPath q ∧ inv_manifest i !! d = Some (p :: ps) ∧
    src !! p = Some data ∧ x_hash X (inv_alg i) data = Some d.

(** Some path listed in the state is mapped to [q]. *)
Definition target_name (X : xenv) (area : string) (st : smap) (q : string) : Prop :=
  ∃ d e, lists st e d ∧ x_path X e area = XPath q.

(** No path of the area comes behind a path of another area in the list of one digest. *)
Definition areas_apart (X : xenv) (area : string) (st : smap) : Prop :=
  ∀ d l1 e l2, st !! d = Some (l1 ++ e :: l2) → x_path X e area = XWrongArea →
    Forall (λ e', x_path X e' area = XWrongArea) l2.

(** Different digests are not written to the same place. *)
Definition no_clash (X : xenv) (area : string) (st : smap) : Prop :=
  ∀ e d e' d' q, lists st e d → lists st e' d' → x_path X e area = XPath q → x_path X e' area = XPath q → d = d'.
