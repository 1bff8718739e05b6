(** Vocabulary for complete update sessions: every update is started, changes something, and is ended; then the handle is closed. *)
From Coq Require Import Ascii.
From stdpp Require Import base list strings gmap.
From Coq Require Import ZArith.
From Verif Require Import GoStr InventoryModel ObjectModel InventorySpec ObjectSpec CrashSpec LoadModel ValidateModel.

(** The guard: map orders are orders of the map, new content goes to a clean relative path that no content of the inventory has. *)
Definition proper (E : env) (orc : oracle) (op : sop) (o : object) : Prop :=
  oracle_ok orc ∧ clean_target E op ∧ fresh_target E op o.
(** The calls between StartUpdate and EndUpdate. *)
Definition in_update (op : oop) : Prop := match op with OSimple _ | OBeginArea | OEndArea => True | _ => False end.

(** Any number of calls; each may fail but none panics. *)
Inductive calls (E : env) : object → object → Prop :=
| calls_none o : calls E o o
| calls_more orc op o o1 st o2 :
    in_update op → guarded_op E (proper E) (λ _, True) orc op o → ostep E orc op o = (o1, st) → st ≠ SPanic →
    calls E o1 o2 → calls E o o2.
(** StartUpdate, calls that change something, EndUpdate without error (with everything the extensions do there). *)
Inductive update (E : env) : object → object → Prop :=
| Update now msg un ua echo orc h o o1 o2 o3 :
    ob_start now msg un ua echo o = (o1, SOk) → calls E o1 o2 → inv_modified (ob_inv o2) = true →
    guarded_end E (proper E) (λ _, True) orc h o2 → ob_end E orc h o2 = (o3, SOk) → update E o o3.
Inductive updates (E : env) : object → object → Prop :=
| updates_one o o' : update E o o' → updates E o o'
| updates_more o o1 o' : update E o o1 → updates E o1 o' → updates E o o'.
(** A handle is opened on inventory [i], one or more updates are made, and the handle is closed without error. *)
Inductive complete (E : env) (s : storage) (i : inventory) (s' : storage) (i' : inventory) : Prop :=
| Complete o1 orc o2 :
    updates E (open_object i) o1 → ob_close E orc o1 = (o2, SOk) → s' = apply_evs (ob_trace o2) s → i' = ob_inv o2 →
    complete E s i s' i'.

(** The digest algorithms of the inventory are supported. *)
Definition supported (E : env) (i : inventory) : Prop :=
  ∀ alg x, alg = inv_alg i ∨ alg ∈ inv_fixalgs i → ∃ d, e_hash E alg x = Some d.
(** A fresh inventory with unpadded version names. *)
Record fresh (i : inventory) : Prop := Fresh {
  fr_empty : inv_head i = "" ∧ inv_versions i = ∅ ∧ inv_manifest i = ∅ ∧ inv_fixity i = ∅;
  fr_pad : (inv_padding i <= 0)%Z;
  fr_cdir : plain_name (content_name i);
  fr_alg : str_mem slash (inv_alg i) = false
}.
(** Only the declaration and the files of extensions and logs are stored. *)
Definition declared (s : storage) : Prop := ∀ p x, s !! p = Some x →
  p ∈ ["0=ocfl_object_1.0"; "0=ocfl_object_1.1"] ∨ CrashSpec.below "logs" p ∨ CrashSpec.below "extensions" p.

(** [published E P parse s i]: object [s] with root inventory [i] was created and updated by complete sessions only, each on the
    inventory that the loader returns; every published inventory satisfies [P]. *)
Inductive published (E : env) (P : inventory → Prop) (parse : string → option inventory) : storage → inventory → Prop :=
| published_first s i s' i' :
    fresh i → declared s → supported E i → complete E s i s' i' → P i' → published E P parse s' i'
| published_next s i0 i s' i' :
    published E P parse s i0 → load_inventory (e_hash E) parse s "" = LInv i [] → supported E i → complete E s i s' i' → P i' →
    published E P parse s' i'.

(** The document that the validator reads from an encoded inventory. *)
Definition vdoc_of (v : version) : vdoc :=
  VDoc (Some (OStr (v_created v) false)) (Some (OStr (v_message v) false)) (Some (v_state v, false))
    (Some (UDoc false (Some (OStr (v_uname v) false)) (Some (OStr (v_uaddr v) false)))).
Definition doc_of (i : inventory) : doc :=
  Doc (inv_id i) (inv_type i) (inv_alg i) (OStr (inv_head i) false) (inv_contentdir i) (Some (inv_manifest i))
    (Some (vdoc_of <$> inv_versions i)) (inv_fixity i) ∅ [] 0.

(** What the caller has to take care of: an identifier, a type, one of the two digest algorithms of the specification, logical paths
    without empty, dot or dot-dot elements, of which none is a directory in front of another one. *)
Record proper_names (i : inventory) : Prop := ProperNames {
  pn_id : inv_id i ≠ "";
  pn_type : inv_type i ≠ "";
  pn_alg : inv_alg i = "sha512" ∨ inv_alg i = "sha256";
  pn_paths : ∀ ver p d, recorded i ver p d → clean_rel p;
  pn_dirs : ∀ ver p q d e, recorded i ver p d → recorded i ver q e → ∀ r, q ≠ p +:+ "/" +:+ r
}.

(** A history in which every call succeeds. *)
Inductive succeeds (E : env) : list (oracle * oop) → object → object → Prop :=
| succeeds_nil o : succeeds E [] o o
| succeeds_cons orc op ops o o1 o2 : ostep E orc op o = (o1, SOk) → succeeds E ops o1 o2 → succeeds E ((orc, op) :: ops) o o2.
