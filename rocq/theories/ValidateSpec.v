(** Vocabulary for the validation of an inventory. *)
From Coq Require Import Ascii.
From stdpp Require Import base list strings gmap.
From Coq Require Import ZArith.
From Verif Require Import GoStr InventoryModel ValidateModel.

(** [code] is among the findings. *)
Definition reported (fs : list finding) (code : string) : Prop := ∃ args, Finding code args ∈ fs.
(** A finding with this code about this path. *)
Definition reported_for (fs : list finding) (code path : string) : Prop := ∃ args, Finding code (path :: args) ∈ fs.

(** Validating document [d] ends with findings [fs]. *)
Definition validated (w : vorder) (lx : lexicon) (d : doc) (fs : list finding) : Prop :=
  (finalize w lx false d).2 = VDone fs.

(** The manifest records content path [p] for digest [dg]; the fixity block; the state of version [ver]. *)
Definition man_lists (d : doc) (dg p : string) : Prop :=
  ∃ m ps, dc_manifest d = Some m ∧ m !! dg = Some ps ∧ p ∈ ps.
Definition fix_lists (d : doc) (alg dg p : string) : Prop :=
  ∃ m ps, dc_fixity d !! alg = Some m ∧ m !! dg = Some ps ∧ p ∈ ps.
Definition has_version (d : doc) (ver : string) (v : vdoc) : Prop :=
  ∃ vs, dc_versions d = Some vs ∧ vs !! ver = Some v.
Definition state_lists (d : doc) (ver dg p : string) : Prop :=
  ∃ v st e ps, has_version d ver v ∧ vd_state v = Some (st, e) ∧ st !! dg = Some ps ∧ p ∈ ps.

(** [p] is a directory in front of [q]. *)
Definition dir_of (p q : string) : Prop := ∃ r, q = p +:+ "/" +:+ r.

(** A path with an empty, dot or dot-dot element (a leading or trailing slash gives an empty element). *)
Definition malformed (p : string) : Prop := ∃ e, e ∈ split_slash p ∧ (e = "" ∨ e = "." ∨ e = "..").

(** [ver] is a version name with number [n]: the letter v, any number of zeros, the positive decimal number. *)
Definition numbered (ver : string) (n : N) : Prop :=
  (1 <= n)%N ∧ ∃ k, ver = "v" +:+ str_repeat "0" k +:+ dec_of_N n.

(** The version names of the document are the numbers 1..n, each once. *)
Definition exactly_upto (d : doc) (n : N) : Prop :=
  (∀ k, (1 <= k <= n)%N → ∃ ver v, has_version d ver v ∧ numbered ver k) ∧
  (∀ ver v, has_version d ver v → ∃ k, numbered ver k ∧ (k <= n)%N) ∧
  (∀ ver1 v1 ver2 v2 k, has_version d ver1 v1 → has_version d ver2 v2 → numbered ver1 k → numbered ver2 k → ver1 = ver2).

(** No version has a greater number than [ver]. *)
Definition newest (d : doc) (ver : string) : Prop :=
  ∃ v n, has_version d ver v ∧ numbered ver n ∧
    ∀ ver' v' n', has_version d ver' v' → numbered ver' n' → (n' <= n)%N.

(** Uniform version names: all without leading zeros, or all starting with a zero and of the same length. *)
Definition uniform (d : doc) : Prop :=
  (∀ ver v, has_version d ver v → ∃ n, numbered ver n) ∧
  ((∀ ver v, has_version d ver v → str_head (trim_prefix ver "v") ≠ Some "0"%char) ∨
   (∃ len, ∀ ver v, has_version d ver v → str_head (trim_prefix ver "v") = Some "0"%char ∧ String.length ver = len)).

(** The same codes. *)
Definition same_codes (fs fs' : list finding) : Prop := ∀ c, reported fs c ↔ reported fs' c.

(** The logical paths of a state. *)
Definition has_path (st : smap) (p : string) : Prop := ∃ dg ps, st !! dg = Some ps ∧ p ∈ ps.
(** The path is recorded in the manifest or in the fixity block. *)
Definition listed (d : doc) (p : string) : Prop :=
  (∃ dg, man_lists d dg p) ∨ (∃ alg dg, fix_lists d alg dg p).
(** All version names are proper, and no number is used twice. *)
Definition all_numbered (d : doc) : Prop := ∀ ver v, has_version d ver v → ∃ n, numbered ver n.
Definition distinct_numbers (d : doc) : Prop := ∀ ver1 v1 ver2 v2 k,
  has_version d ver1 v1 → has_version d ver2 v2 → numbered ver1 k → numbered ver2 k → ver1 = ver2.
(** Validation comes to an end: no empty path, every version has a creation date.  (The third condition is about version names
    without a number, for which Finalize does not fill in missing parts.) *)
Definition checkable (d : doc) : Prop :=
  (∀ dg p, man_lists d dg p → p ≠ "") ∧ (∀ alg dg p, fix_lists d alg dg p → p ≠ "") ∧
  ∀ ver v, has_version d ver v →
    match version_value ver with
    | Some _ => vd_created v ≠ None ∧ ∀ dg p, state_lists d ver dg p → p ≠ ""
    | None => vd_state v ≠ None
    end.
(** No content path is recorded twice for one digest. *)
Definition lists_once (d : doc) : Prop := ∀ m dg ps, dc_manifest d = Some m → m !! dg = Some ps → NoDup ps.
