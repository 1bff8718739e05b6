(** Concrete documents and stored objects for the examples of Properties3. *)
From Coq Require Import Ascii.
From stdpp Require Import base list strings gmap.
From Coq Require Import ZArith.
From Verif Require Import GoStr InventoryModel ObjectModel ValidateModel ValidateSpec CheckModel Fixtures2.

Definition os (s : string) : ostr := OStr s false.
Definition mkver (st : smap) : vdoc :=
  VDoc (Some (os "2024-01-01T00:00:00Z")) (Some (os "msg")) (Some (st, false)) (Some (UDoc false (Some (os "me")) (Some (os "mailto:me")))).
Definition mkdoc (m : smap) (vs : gmap string vdoc) (head : string) : doc :=
  Doc "urn:x" "https://ocfl.io/1.1/spec/#inventory" "sha512" (os head) "" (Some m) (Some vs) ∅ ∅ [] 0.
Definition with_fixity (d : doc) (f : gmap string smap) : doc :=
  Doc (dc_id d) (dc_type d) (dc_alg d) (dc_head d) (dc_contentdir d) (dc_manifest d) (dc_versions d) f (dc_values d) (dc_fixalgs d)
    (dc_padding d).
Definition lx0 : lexicon := Lexicon (λ _, true) (λ _, true).
Definition wd : vorder := default_vorder.
(** Iteration in the opposite order. *)
Definition wr : vorder := VOrder (λ _ A m, reverse (map_to_list m)).
Lemma wd_ok : vorder_ok wd.
Proof. intros n A m. done. Qed.
Lemma wr_ok : vorder_ok wr.
Proof. intros n A m. unfold wr. simpl. apply reverse_Permutation. Qed.

(** Two versions; digests by [hexh] of Fixtures2. *)
Definition doc2 : doc :=
  mkdoc {["a78" := ["v1/content/a"]; "a79" := ["v2/content/b"]]}
    {["v1" := mkver {["a78" := ["a"]]}; "v2" := mkver {["a78" := ["a"]; "a79" := ["b/c"; "d"]]}]} "v2".
Definition doc1 : doc := mkdoc {["a78" := ["v1/content/a"]]} {["v1" := mkver {["a78" := ["a"]]}]} "v1".

(** A toy encoding of three documents. *)
Definition toy_decode (root last first : doc) (b : string) : option doc :=
  if decide (b = "root") then Some root else if decide (b = "v2") then Some last else if decide (b = "v1") then Some first else None.
Definition toy_side (b : string) : string := default "" (hexh "sha512" b) +:+ " inventory.json".
Definition store2 : storage :=
  {["0=ocfl_object_1.1" := "ocfl_object_1.1"; "inventory.json" := "root"; "inventory.json.sha512" := toy_side "root";
    "v1/inventory.json" := "v1"; "v1/inventory.json.sha512" := toy_side "v1"; "v1/content/a" := "x";
    "v2/inventory.json" := "v2"; "v2/inventory.json.sha512" := toy_side "v2"; "v2/content/b" := "y"]}.
