(** Reading an inventory of any origin: /repo/pkg/ocfl/objectbase.go:237-281 loadInventory, with JSON decoding as a parameter. *)
From stdpp Require Import base list strings gmap.
From Verif Require Import InventoryModel ValidateModel JsonInvModel.

(** objectbase.go:280 Finalize(false) after the decoding of the document.  [None]: an error or a panic.  Line 333 runs Finalize again,
    which does not change what is used here.  [parse_text] of JsonInvModel.v is the instance for the modelled JSON decoder. *)
Definition parse_of (decode : string → option doc) (w : vorder) (lx : lexicon) (bytes : string) : option inventory :=
  match decode bytes with
  | Some d =>
      match finalize w lx false d with
      | (d1, VDone _) => Some (to_inventory d1)
      | _ => None
      end
  | None => None
  end.
