(** Model of loading an object when the storage driver cannot read a file: /repo/pkg/ocfl/objectbase.go.  Only executable definitions, no
    proofs. *)
From Coq Require Import Ascii.
From stdpp Require Import base list strings gmap.
From Coq Require Import ZArith.
From Verif Require Import GoStr PathModel InventoryModel ObjectModel LoadModel.

(** What fs.ReadFile gives: the bytes, an error whose cause is fs.ErrNotExist, or another error (no permission, a broken connection, a damaged
    block).  Which errors of a driver have the cause fs.ErrNotExist is decided outside of the project. *)
Inductive answer := Bytes (b : string) | Missing | Failed.

(** The driver at the time of loading: path relative to the object root -> answer. *)
Notation driver := (string → answer).

(** inventorybase.go:40-56 newInventoryBase, called by inventory1_0.go and inventory1_1.go with the content directory "": no identifier, no head, no
    digest algorithm, no versions.  [typ] is the type for the version of the object.  The nil manifest and the nil fixity are empty maps here, which
    differs from nil only on writing; without a digest algorithm nothing is written to them. *)
Definition blank (typ : string) : inventory := new_inventory "" typ "" [].

(** objectbase.go:286-334 LoadInventory(folder).  If the inventory file cannot be read for another reason than that it is missing (290-296), the
    result is the blank inventory and no error.  [parse] is loadInventory (objectbase.go:237-281). *)
Definition load_from (hash : string → string → option string) (parse : string → option inventory) (typ : string) (r : driver) (pre : string) : loaded :=
  let file := pre +:+ "inventory.json" in
  match r file with
  | Missing => LErr "file does not exist"
  | Failed => LInv (blank typ) []
  | Bytes bytes =>
      match parse bytes with
      | None => LErr "cannot initiate inventory object"
      | Some i =>
          match r (file +:+ "." +:+ inv_alg i) with
          | Missing => LInv i ["E058"]
          | Failed => LInv i ["E060"]
          | Bytes text =>
              match sidecar_parse text with
              | None => LInv i ["E061"]
              | Some d =>
                  match hash (inv_alg i) bytes with
                  | None => LErr "invalid digest file for inventory"
                  | Some d' => if decide (d = d') then LInv i [] else LInv i ["E060"]
                  end
              end
          end
      end
  end.

(** objectbase.go:484-503 Load: the handle that a client gets, or the error.  The extensions are part of the environment of the handle. *)
Definition load_handle (hash : string → string → option string) (parse : string → option inventory) (typ : string) (r : driver) : object + string :=
  match load_from hash parse typ r "" with
  | LErr e => inr e
  | LInv i _ => inl (open_object i)
  end.
