(** Vocabulary for METS and PREMIS documents. *)
From Coq Require Import Ascii.
From stdpp Require Import base list strings gmap.
From Coq Require Import ZArith.
From Verif Require Import GoStr PathModel InventoryModel InventorySpec ObjectModel CrashSpec LoadModel AreaModel MetsModel.

(** [p] consists of the elements [l]. *)
Definition parted (p : string) (l : list string) : Prop := l ≠ [] ∧ Forall (λ x, str_mem slash x = false) l ∧ p = join_slash l.
(** Folder [x] stands for area [a]: it is the path of the area, or it is the path of no area and called like this. *)
Definition stands (areas : gmap string string) (x a : string) : Prop := areas !! a = Some x ∨ ((∀ b, areas !! b ≠ Some x) ∧ a = x).
(** The group a file belongs to. *)
Inductive in_group (areas : gmap string string) (p : string) : string → Prop :=
| in_top : parted p [p] → in_group areas p "content"
| in_schemas x a l : parted p (x :: "schemas" :: l) → areas !! a = Some x → in_group areas p "schemas"
| in_area x y l a : parted p (x :: y :: l) → stands areas x a → (y = "schemas" → ∀ b, areas !! b ≠ Some x) → in_group areas p a.
(** The file at [p] is metadata about the content: it is in the area metadata, but not a schema. *)
Definition metadata_file (areas : gmap string string) (p : string) : Prop :=
  ∃ x y l, parted p (x :: y :: l) ∧ stands areas x "metadata" ∧ (y = "schemas" → ∀ b, areas !! b ≠ Some x).
(** No two areas have the same path. *)
Definition separate (areas : gmap string string) : Prop := ∀ a b x, areas !! a = Some x → areas !! b = Some x → a = b.
(** Every content path is made of a version, content and a name. *)
Definition conventional (i : inventory) : Prop :=
  ∀ q d, lists (inv_manifest i) q d → ∃ v c, str_mem slash v = false ∧ q = v +:+ "/content/" +:+ c.

(** The logical paths a METS document names. *)
Definition urls (f : mfile) : list string := omap (λ l, match l with External p => Some p | Internal _ => None end) (m_locs f).
Definition named (D : mdoc) : list string := d_files D ≫= urls.
(** The entry [f] of a METS document stands for the file [p] with digest [d]: its group, its digest, and where it is: at the logical path
    and at those content paths with this digest that are not metadata. *)
Record stands_for (areas : gmap string string) (i : inventory) (f : mfile) (p d : string) : Prop := StandsFor {
  sf_sum : m_sum f = d;
  sf_group : in_group areas p (m_group f);
  sf_locs : ∀ l, l ∈ m_locs f ↔ l = External p ∨
    ∃ v c, l = Internal (v +:+ "/content/" +:+ c) ∧ str_mem slash v = false ∧ lists (inv_manifest i) (v +:+ "/content/" +:+ c) d ∧ ¬ metadata_file areas c
}.
(** The reference [r] stands for the metadata file with digest [d] and logical path [p], or for its content path. *)
Definition refers (areas : gmap string string) (i : inventory) (r : mdref) (p d : string) : Prop :=
  r_sum r = d ∧ r_group r = "area-metadata" ∧
  (r_loc r = External p ∧ metadata_file areas p ∨
   ∃ v c, r_loc r = Internal (v +:+ "/content/" +:+ c) ∧ str_mem slash v = false ∧ lists (inv_manifest i) (v +:+ "/content/" +:+ c) d ∧ metadata_file areas c).

(** The names of digest algorithms in METS documents, for the algorithms that the project knows and METS has a name for. *)
Definition mets_algorithms : list (string * string) := [("sha512", "SHA-512"); ("sha384", "SHA-384"); ("sha256", "SHA-256"); ("sha1", "SHA-1"); ("md5", "MD5")].

(** [data] was stored as file [f] of [area]: it is at the content path for it and listed under its digest. *)
Definition keeps_file (E : env) (s : storage) (i : inventory) (f area data : string) (o : object) : Prop :=
  ∃ q d, e_manifest_path E f area = Some q ∧ e_hash E (inv_alg i) data = Some d ∧
    apply_evs (ob_trace o) s !! manifest_name i q = Some data ∧ lists (inv_manifest (ob_inv o)) (manifest_name i q) (to_lower d).

(** Where the documents go: file and area. *)
Definition kept_as (l : list subpaths) (C : mconf) (f : string) : option (string * string) :=
  if decide (to_lower (mc_type C) = "area") then Some (f, mc_storage C) else (λ p, (p, "")) <$> mets_path l C f.
(** The calls that store the documents. *)
Definition hook_calls (orcs : nat → oracle) (O : mout) (C : mconf) (l : list subpaths) (D : mdoc) (P : pdoc) : list hcall :=
  imap (λ k op, HCall (orcs k) op) (mets_calls O C l D P).
