(** Vocabulary for objects that satisfy the rules of the specification, independent of the checks of the validator. *)
From Coq Require Import Ascii.
From stdpp Require Import base list strings gmap.
From Coq Require Import ZArith.
From Verif Require Import GoStr InventoryModel ObjectModel CrashSpec ValidateModel ValidateSpec CheckSpec.

(** The validator comes to an end and reports nothing but warnings. *)
Definition warning (f : finding) : Prop := ∃ r, f_code f = "W" +:+ r.
Definition only_warnings (v : verdict) : Prop := ∃ fs, v = VDone fs ∧ ∀ f, f ∈ fs → warning f.

(** * One inventory *)

(** Absent, or decoded without error. *)
Definition fine (o : option ostr) : Prop := ∀ x, o = Some x → os_err x = false.
Record sound_version (v : vdoc) : Prop := SoundVersion {
  sv_created : vd_created v ≠ None ∧ fine (vd_created v);
  sv_message : fine (vd_message v);
  sv_user : ∀ u, vd_user v = Some u → u_err u = false ∧ fine (u_name u) ∧ fine (u_addr u);
  sv_state : ∀ st e, vd_state v = Some (st, e) → e = false
}.
Record sound_doc (d : doc) : Prop := SoundDoc {
  sd_id : dc_id d ≠ "";
  sd_type : dc_type d ≠ "";
  sd_alg : dc_alg d = "sha512" ∨ dc_alg d = "sha256";
  sd_cdir : dc_contentdir d ≠ "." ∧ dc_contentdir d ≠ ".." ∧ ∀ a b, dc_contentdir d ≠ a +:+ "/" +:+ b;
  sd_present : dc_manifest d ≠ None ∧ dc_versions d ≠ None;
  (* the versions are numbered 1, 2, ..., in one style; the head is the newest *)
  sd_names : uniform d;
  sd_upto : ∃ n, (1 <= n)%N ∧ exactly_upto d n;
  sd_head : os_err (dc_head d) = false ∧ newest d (os_val (dc_head d));
  sd_version : ∀ ver v, has_version d ver v → sound_version v;
  (* the digests of the states are those of the manifest *)
  sd_states : ∀ ver v st e dg, has_version d ver v → vd_state v = Some (st, e) → is_Some (st !! dg) →
    ∃ m, dc_manifest d = Some m ∧ is_Some (m !! dg);
  sd_used : ∀ m dg, dc_manifest d = Some m → is_Some (m !! dg) →
    ∃ ver v st e, has_version d ver v ∧ vd_state v = Some (st, e) ∧ is_Some (st !! dg);
  (* paths *)
  sd_man_paths : ∀ dg p, man_lists d dg p → ¬ malformed p;
  sd_fix_paths : ∀ alg dg p, fix_lists d alg dg p → ¬ malformed p;
  sd_state_paths : ∀ ver dg p, state_lists d ver dg p → ¬ malformed p;
  sd_dirs : ∀ ver dg dg' p q, state_lists d ver dg p → state_lists d ver dg' q → ¬ dir_of p q;
  (* no digest of a fixity block in two spellings *)
  sd_case : ∀ alg m dg dg', dc_fixity d !! alg = Some m → is_Some (m !! dg) → is_Some (m !! dg') →
    to_lower dg = to_lower dg' → dg = dg'
}.

(** * The stored object *)

(** The name of the content directory. *)
Definition content_folder (d : doc) (c : string) : Prop :=
  (dc_contentdir d = "" ∧ c = "content") ∨ (dc_contentdir d ≠ "" ∧ c = dc_contentdir d).
(** Folder [pre] holds inventory [d] and its sidecar with the right digest. *)
Definition holds_inventory (hash : string → string → option string) (decode : string → option doc) (s : storage) (pre : string) (d : doc)
    : Prop :=
  ∃ b dg, s !! (pre +:+ "inventory.json") = Some b ∧ decode b = Some d ∧ hash (dc_alg d) b = Some dg ∧ hexadecimal dg ∧
    s !! (pre +:+ "inventory.json." +:+ dc_alg d) = Some (dg +:+ " inventory.json").
(** The root inventory, or that of a version. *)
Definition inventory_in (decode : string → option doc) (s : storage) (d e : doc) : Prop :=
  e = d ∨ ∃ ver v b, has_version d ver v ∧ s !! (ver +:+ "/inventory.json") = Some b ∧ decode b = Some e.

(** The manifest and the fixity block tell the truth about the stored files. *)
Record truthful (hash : string → string → option string) (s : storage) (c : string) (e : doc) : Prop := Truthful {
  tr_content : ∀ dg p, man_lists e dg p →
    intact hash (dc_alg e) s dg p ∧ ∃ ver v r, has_version e ver v ∧ p = ver +:+ "/" +:+ c +:+ "/" +:+ r;
  tr_fixity : ∀ alg dg p, fix_lists e alg dg p → stored_as hash alg s (to_lower dg) p ∧ ∃ dg', man_lists e dg' p;
  tr_nonempty : no_empty_entry e ∧ ∀ alg m dg ps, dc_fixity e !! alg = Some m → m !! dg = Some ps → ps ≠ [];
  tr_known : ∀ alg x, alg = dc_alg e ∨ is_Some (dc_fixity e !! alg) → ∃ h, hash alg x = Some h ∧ to_lower h = h
}.

(** The object stored in [s] with root inventory [d]. *)
Record sound_object (hash : string → string → option string) (decode : string → option doc) (s : storage) (d : doc) (c : string) : Prop :=
  SoundObject {
  so_doc : sound_doc d;
  so_root : holds_inventory hash decode s "" d;
  so_cdir : content_folder d c;
  (* every version has its inventory, which agrees with the root inventory *)
  so_versions : ∀ ver v, has_version d ver v → ∃ e, holds_inventory hash decode s (ver +:+ "/") e ∧ sound_doc e ∧
    dc_id e = dc_id d ∧ dc_contentdir e = dc_contentdir d ∧ os_val (dc_head e) = ver ∧
    ∀ ver' v', has_version e ver' v' → ∃ v, has_version d ver' v ∧ state_of v = state_of v';
  (* the inventory of the newest version is a copy of the root inventory *)
  so_newest : ∀ ver, newest d ver → s !! (ver +:+ "/inventory.json") = s !! "inventory.json";
  (* the specification versions do not decrease *)
  so_types : ∀ ver1 ver2 b1 b2 e1 e2 n1 n2, numbered ver1 n1 → numbered ver2 n2 → (n1 <= n2)%N →
    s !! (ver1 +:+ "/inventory.json") = Some b1 → decode b1 = Some e1 → s !! (ver2 +:+ "/inventory.json") = Some b2 → decode b2 = Some e2 →
    str_le (dc_type e1) (dc_type e2);
  so_truthful : ∀ e, inventory_in decode s d e → truthful hash s c e;
  (* nothing else is stored *)
  so_files : ∀ p x, s !! p = Some x →
    p ∈ ["0=ocfl_object_1.0"; "0=ocfl_object_1.1"; "inventory.json"; "inventory.json." +:+ dc_alg d] ∨
    (∃ r, p = "logs/" +:+ r) ∨ (∃ r, p = "extensions/" +:+ r) ∨
    ∃ ver v, has_version d ver v ∧
      (p = ver +:+ "/inventory.json" ∨
       (∃ b e, s !! (ver +:+ "/inventory.json") = Some b ∧ decode b = Some e ∧ p = ver +:+ "/inventory.json." +:+ dc_alg e) ∨
       (∃ r, p = ver +:+ "/" +:+ c +:+ "/" +:+ r));
  (* every content file is in the manifest of its version and of every later one *)
  so_listed : ∀ ver1 ver2 v1 v2 n1 n2 r x b e, has_version d ver1 v1 → has_version d ver2 v2 →
    numbered ver1 n1 → numbered ver2 n2 → (n1 <= n2)%N →
    s !! (ver1 +:+ "/" +:+ c +:+ "/" +:+ r) = Some x → s !! (ver2 +:+ "/inventory.json") = Some b → decode b = Some e →
    ∃ dg, man_lists e dg (ver1 +:+ "/" +:+ c +:+ "/" +:+ r)
}.
(** The name of the content directory is not the beginning of the name of an inventory file or a sidecar. *)
Definition apart (c : string) : Prop := ∀ r alg, alg ∈ ["sha512"; "sha256"] → "inventory.json." +:+ alg ≠ c +:+ r.
