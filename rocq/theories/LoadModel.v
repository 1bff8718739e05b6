(** Model of the inventory loader and of the digest file format: /repo/pkg/ocfl/objectbase.go:237-334. *)
From Coq Require Import Ascii.
From stdpp Require Import base list strings gmap.
From Coq Require Import ZArith.
From Verif Require Import GoStr InventoryModel ObjectModel.

(** strings.TrimSpace, ASCII white space only (Go also trims U+0085, U+00A0 and other Unicode spaces). *)
Definition go_space (c : ascii) : bool :=
  let n := N_of_ascii c in ((9 <=? n) && (n <=? 13) || (n =? 32))%N.
(** Regular expression class \s: tab, newline, form feed, carriage return, space (not vertical tab). *)
Definition re_space (c : ascii) : bool :=
  let n := N_of_ascii c in ((n =? 9) || (n =? 10) || (n =? 12) || (n =? 13) || (n =? 32))%N.
(** Regular expression class [a-fA-F0-9]. *)
Definition re_hex (c : ascii) : bool :=
  let n := N_of_ascii c in
  ((48 <=? n) && (n <=? 57) || (65 <=? n) && (n <=? 70) || (97 <=? n) && (n <=? 102))%N.

Fixpoint drop_while (f : ascii → bool) (s : string) : string :=
  match s with
  | "" => ""
  | String c s' => if f c then drop_while f s' else s
  end.
Fixpoint take_while (f : ascii → bool) (s : string) : string :=
  match s with
  | "" => ""
  | String c s' => if f c then String c (take_while f s') else ""
  end.
(** Removes trailing characters with [f]. *)
Fixpoint drop_while_end (f : ascii → bool) (s : string) : string :=
  match s with
  | "" => ""
  | String c s' =>
      match drop_while_end f s' with
      | "" => if f c then "" else String c ""
      | t => String c t
      end
  end.
Definition trim_space (s : string) : string := drop_while_end go_space (drop_while go_space s).

(** The literal part of the regular expression, inventory.json up to the end of the text; the unescaped dot matches every
    character but newline (a multi-byte character also matches in Go; here one byte). *)
Definition re_name (s : string) : bool :=
  match drop_prefix "inventory" s with
  | Some (String c t) => bool_decide (t = "json") && negb (bool_decide (N_of_ascii c = 10%N))
  | _ => false
  end.

(** objectbase.go:283 inventorySideCarFormat applied to the trimmed text, objectbase.go:311-318: Some digest, or None.  The
    three parts of the expression have disjoint first characters, so greedy matching needs no backtracking. *)
Definition sidecar_parse (text : string) : option string :=
  let t := trim_space text in
  let d := take_while re_hex t in
  let r := drop_while re_hex t in
  let sp := take_while re_space r in
  if decide (d = "") then None
  else if decide (sp = "") then None
  else if re_name (drop_while re_space r) then Some d else None.

(** Outcome of LoadInventory: a Go error, or an inventory together with the codes of the validation errors recorded for the
    digest file.  The codes of Finalize are in the validator model. *)
Inductive loaded :=
| LErr (msg : string)
| LInv (i : inventory) (codes : list string).

(** objectbase.go:286-334 LoadInventory(folder); [pre] is "" for the object root, "v1/" for a version folder.  [parse] is
    JSON decoding (objectbase.go:237-281), None if it fails with an error.  A missing inventory file is a Go error here
    (the code distinguishes fs.ErrNotExist from other read errors). *)
Definition load_inventory (hash : string → string → option string) (parse : string → option inventory)
    (s : storage) (pre : string) : loaded :=
  let file := pre +:+ "inventory.json" in
  match s !! file with
  | None => LErr "file does not exist"
  | Some bytes =>
      match parse bytes with
      | None => LErr "cannot initiate inventory object"
      | Some i =>
          match s !! (file +:+ "." +:+ inv_alg i) with
          | None => LInv i ["E058"]
          | Some text =>
              match sidecar_parse text with
              | None => LInv i ["E061"]
              | Some d =>
                  match hash (inv_alg i) bytes with
                  | None => LErr "invalid digest file for inventory"
                  | Some d' => if decide (d = d') then LInv i [] else LInv i ["E060"]
                  end
              end
          end
      end
  end.
