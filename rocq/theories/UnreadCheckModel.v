(** Model of the validation of an object when the storage driver cannot read an inventory: /repo/pkg/ocfl/objectbase.go.  Only executable
    definitions, no proofs. *)
From Coq Require Import Ascii.
From stdpp Require Import base list strings gmap.
From Coq Require Import ZArith.
From Verif Require Import GoStr InventoryModel ObjectModel LoadModel ValidateModel CheckModel UnreadModel.

(** The blank inventory of UnreadModel (inventorybase.go:40-56) as the validator sees it.  Finalize does not run on it. *)
Definition blank_doc (typ : string) : doc := Doc "" typ "" (OStr "" false) "" None (Some ∅) ∅ ∅ [] 0.

(** objectbase.go:285-334 LoadInventory(folder) with validation, as load_doc of CheckModel, but the driver may fail: on the inventory (290-296) the
    result is the blank inventory without a finding, on the digest file (307-312) there is a finding E060. *)
Definition load_doc_from (hash : string → string → option string) (decode : string → option doc) (w : vorder) (lx : lexicon)
    (typ : string) (r : driver) (pre : string) : option doc * verdict :=
  let file := pre +:+ "inventory.json" in
  match r file with
  | Missing => (None, VDone [])
  | Failed => (Some (blank_doc typ), VDone [])
  | Bytes bytes =>
      match decode bytes with
      | None => (None, VError [] "cannot initiate inventory object")
      | Some d0 =>
          let '(d1, r1) := finalize w lx false d0 in
          let '(d2, r2) := finalize w lx false d1 in
          (Some d2,
           vseq r1
           (vseq (match r (file +:+ "." +:+ dc_alg d0) with
                  | Missing => VDone [Finding "E058" [pre]]
                  | Failed => VDone [Finding "E060" [pre]]
                  | Bytes text =>
                      match sidecar_parse text with
                      | None => VDone [Finding "E061" [pre]]
                      | Some dg =>
                          match hash (dc_alg d0) bytes with
                          | None => VError [] "invalid digest file for inventory"
                          | Some dg' => VDone (when (negb (bool_decide (dg = dg'))) (Finding "E060" [pre]))
                          end
                      end
                  end) r2))
      end
  end.
(** objectbase.go:1374-1407 getVersionInventories. *)
Fixpoint load_versions_from (hash : string → string → option string) (decode : string → option doc) (w : vorder) (lx : lexicon)
    (typ : string) (r : driver) (l : list string) : gmap string doc * verdict :=
  match l with
  | [] => (∅, VDone [])
  | ver :: l' =>
      let '(od, v) := load_doc_from hash decode w lx typ r (ver +:+ "/") in
      let '(m, v') := load_versions_from hash decode w lx typ r l' in
      match od with
      | Some d => (<[ver := d]> m, vseq v v')
      | None => (m, vseq v (vseq (VDone [Finding "W010" [ver]]) v'))
      end
  end.
(** Load (objectbase.go:484-503) and Check (1268-1321).  The driver [r] answers when inventories are loaded; directory listings and the content for
    the digests are those of the storage [s], so a failure may be over when the files are read again. *)
Definition validate_from (hash : string → string → option string) (decode : string → option doc) (w : vorder) (lx : lexicon)
    (typ : string) (r : driver) (s : storage) : verdict :=
  match load_doc_from hash decode w lx typ r "" with
  | (Some d, v) =>
      let '(vinv, rv) := load_versions_from hash decode w lx typ r (version_strings w 16 d) in
      vseq v (vseq rv (check_object hash w s d vinv))
  | (None, VDone fs) => VError fs "cannot load inventory"
  | (None, v) => v
  end.
