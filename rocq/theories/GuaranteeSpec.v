(** Vocabulary for what the validator guarantees about an object for which it reports nothing but warnings. *)
From Coq Require Import Ascii.
From stdpp Require Import base list strings gmap.
From Coq Require Import ZArith.
From Verif Require Import GoStr InventoryModel ObjectModel CrashSpec LoadModel ValidateModel ValidateSpec CheckSpec AcceptSpec.

(** No logical path of a version is a directory of another one. *)
Definition conflict_free (d : doc) : Prop := ∀ ver dg dg' p q, state_lists d ver dg p → state_lists d ver dg' q → ¬ dir_of p q.

(** The text of a sidecar with digest [dg]; the dot of the file name may be any character. *)
Definition sidecar_for (t dg : string) : Prop :=
  hexadecimal dg ∧ ∃ pre ws c post,
    (∀ x, x ∈ list_ascii_of_string (pre +:+ ws +:+ post) → go_space x = true) ∧ ws ≠ "" ∧
    t = pre +:+ dg +:+ ws +:+ "inventory" +:+ String c "json" +:+ post.
(** Folder [pre] holds inventory [d] and a sidecar with its digest. *)
Definition signed (hash : string → string → option string) (decode : string → option doc) (s : storage) (pre : string) (d : doc) : Prop :=
  ∃ b dg t, s !! (pre +:+ "inventory.json") = Some b ∧ decode b = Some d ∧ hash (dc_alg d) b = Some dg ∧
    s !! (pre +:+ "inventory.json." +:+ dc_alg d) = Some t ∧ sidecar_for t dg.

(** Names of files that may lie in the object root (the dot of the inventory's name may be any character). *)
Definition digits (a : string) : Prop := a ≠ "" ∧ ∀ x, x ∈ list_ascii_of_string a → (48 <= N_of_ascii x <= 57)%N.
Definition root_name (p : string) : Prop :=
  (∃ c r, p = "inventory" +:+ String c ("json" +:+ r) ∧ r ∈ [""; ".sha512"; ".sha384"; ".sha256"; ".sha1"; ".md5"]) ∨
  (∃ a b, p = "0=ocfl_object_" +:+ a +:+ "." +:+ b ∧ digits a ∧ digits b).

(** The inventory of version [ver] of an object with root inventory [d]. *)
Record kept_inventory (hash : string → string → option string) (decode : string → option doc) (s : storage) (d : doc) (ver : string) (e : doc)
    : Prop := KeptInventory {
  ki_signed : signed hash decode s (ver +:+ "/") e;
  ki_sound : conflict_free e → sound_doc e;
  ki_id : dc_id e = dc_id d;
  ki_head : os_val (dc_head e) = ver;
  (* it has the versions up to this one, with the logical paths of the root inventory *)
  ki_versions : ∀ k, (∃ v, has_version e k v) ↔ ∃ v n m, has_version d k v ∧ numbered k n ∧ numbered ver m ∧ (n <= m)%N;
  ki_paths : ∀ k v, has_version e k v → ∀ p, (∃ dg, state_lists e k dg p) ↔ ∃ dg, state_lists d k dg p
}.

(** The object stored in [s], with root inventory [d]. *)
Record assured (hash : string → string → option string) (decode : string → option doc) (s : storage) (d : doc) : Prop := Assured {
  as_root : signed hash decode s "" d;
  as_sound : conflict_free d → sound_doc d;
  (* the first version has an inventory, and every version folder is there *)
  as_first : ∃ ver v e, has_version d ver v ∧ numbered ver 1 ∧ kept_inventory hash decode s d ver e;
  as_folder : ∀ ver v, has_version d ver v → ∃ r x, s !! (ver +:+ "/" +:+ r) = Some x;
  (* every version inventory that is there *)
  as_version : ∀ ver v b, has_version d ver v → s !! (ver +:+ "/inventory.json") = Some b →
    ∃ e, decode b = Some e ∧ kept_inventory hash decode s d ver e;
  (* all with the same content directory *)
  as_cdir : ∀ ver1 ver2 e1 e2, kept_inventory hash decode s d ver1 e1 → kept_inventory hash decode s d ver2 e2 →
    (∃ v, has_version d ver1 v) → (∃ v, has_version d ver2 v) → dc_contentdir e1 = dc_contentdir e2;
  (* every digest of a state is in the manifest *)
  as_states : ∀ e ver dg p, inventory_in decode s d e → state_lists e ver dg p → ∃ m ps, dc_manifest e = Some m ∧ m !! dg = Some ps;
  (* what the inventories record is stored, in a folder below a version folder *)
  as_content : ∀ e dg p, inventory_in decode s d e → man_lists e dg p →
    intact hash (dc_alg e) s dg p ∧ ∃ ver v a b, has_version e ver v ∧ p = ver +:+ "/" +:+ a +:+ "/" +:+ b;
  as_fixity : ∀ e alg dg p, inventory_in decode s d e → fix_lists e alg dg p →
    (stored_as hash alg s dg p ∨ stored_as hash alg s (to_lower dg) p) ∧ ∃ ver v r, has_version d ver v ∧ p = ver +:+ "/" +:+ r;
  (* every file of the content directory is in the root manifest, and in the manifests of the later versions *)
  as_listed : ∀ c ver v r x, content_folder d c → has_version d ver v → s !! (ver +:+ "/" +:+ c +:+ "/" +:+ r) = Some x →
    (∃ dg, man_lists d dg (ver +:+ "/" +:+ c +:+ "/" +:+ r)) ∧
    ∀ ver2 e n m, (∃ v, has_version d ver2 v) → kept_inventory hash decode s d ver2 e → numbered ver n → numbered ver2 m → (n <= m)%N →
      ∃ dg, man_lists e dg (ver +:+ "/" +:+ c +:+ "/" +:+ r);
  (* all other files *)
  as_files : ∀ p x, s !! p = Some x →
    root_name p ∨ (∃ r, p = "logs/" +:+ r) ∨ (∃ r, p = "extensions/" +:+ r) ∨
    ∃ ver v r, has_version d ver v ∧ p = ver +:+ "/" +:+ r ∧
      ((∃ a b, r = a +:+ "/" +:+ b) ∨
       root_name r ∧ ∀ e, kept_inventory hash decode s d ver e → r = "inventory.json" ∨ r = "inventory.json." +:+ dc_alg e)
}.
