(** Vocabulary for ingesting folders and getting them back. *)
From Coq Require Import Ascii.
From stdpp Require Import base list strings gmap.
From Coq Require Import ZArith.
From Verif Require Import GoStr InventoryModel ObjectModel InventorySpec ObjectSpec CrashSpec LoadModel PublishSpec AreaModel AreaSpec IngestModel.

(** The folder has a file with these bytes at this place. *)
Inductive file_at : node → list string → string → Prop :=
| file_here x : file_at (NFile (Some x)) [] x
| file_below c l n t ns x : (n, t) ∈ l → file_at t ns x → file_at (NDir c l) (n :: ns) x.
(** The names of a path, separated by slashes. *)
Fixpoint slashed (n : string) (ns : list string) : string :=
  match ns with [] => n | m :: ns' => n +:+ "/" +:+ slashed m ns' end.
Definition has_file (t : node) (p x : string) : Prop := ∃ n ns, file_at t (n :: ns) x ∧ p = slashed n ns.
(** Everything can be read; names are plain and different in one directory. *)
Inductive readable : node → Prop :=
| readable_file x : readable (NFile (Some x))
| readable_dir l : NoDup (fst <$> l) → Forall plain_name (fst <$> l) → (∀ n t, (n, t) ∈ l → readable t) → readable (NDir true l).
(** A folder that can be read completely. *)
Definition good_folder (t : node) : Prop := readable t ∧ ∃ c l, t = NDir c l.
(** Some directory of the folder, the folder itself included. *)
Inductive dir_at : node → list string → Prop :=
| dir_here c l : dir_at (NDir c l) []
| dir_below c l n t ns : (n, t) ∈ l → dir_at t ns → dir_at (NDir c l) (n :: ns).
Definition has_dir (t : node) (p : string) : Prop :=
  dir_at t [] ∧ p = "." ∨ ∃ n ns, dir_at t (n :: ns) ∧ p = slashed n ns.

(** A file of the request: its area, its path, its bytes. *)
Definition offered (folders : list (string * node)) (area p x : string) : Prop := ∃ t, (area, t) ∈ folders ∧ has_file t p x.
(** The files of an area as a map. *)
Definition folder_of (folders : list (string * node)) (area : string) (src : storage) : Prop :=
  ∀ p x, src !! p = Some x ↔ offered folders area p x.

(** The path extensions: every file gets a logical path and a clean content path, no two files get the same, and every directory
    gets names without error. *)
Record placed (E : env) (folders : list (string * node)) : Prop := Placed {
  pl_file : ∀ area p x, offered folders area p x →
    ∃ np m, e_state_path E p area = Some np ∧ e_manifest_path E p area = Some m ∧ clean_rel m;
  pl_state : ∀ a1 p1 x1 a2 p2 x2 np, offered folders a1 p1 x1 → offered folders a2 p2 x2 →
    e_state_path E p1 a1 = Some np → e_state_path E p2 a2 = Some np → a1 = a2 ∧ p1 = p2;
  pl_content : ∀ a1 p1 x1 a2 p2 x2 m, offered folders a1 p1 x1 → offered folders a2 p2 x2 →
    e_manifest_path E p1 a1 = Some m → e_manifest_path E p2 a2 = Some m → a1 = a2 ∧ p1 = p2;
  pl_dir : ∀ area t p, (area, t) ∈ folders → has_dir t p → is_Some (e_state_path E p area) ∧ is_Some (e_manifest_path E p area)
}.
(** The request puts logical path [np] with digest [d] into the object. *)
Definition brings (E : env) (i : inventory) (folders : list (string * node)) (np d : string) : Prop :=
  ∃ area p x, offered folders area p x ∧ e_state_path E p area = Some np ∧ e_hash E (inv_alg i) x = Some d.

(** What the known defects of AddFile make necessary: a file whose path was deleted earlier does not come back with the content of
    that time, and with de-duplication changed content is not stored already and not brought for two paths. *)
Record addressed (E : env) (dedup : bool) (i : inventory) (folders : list (string * node)) : Prop := Addressed {
  as_revived : ∀ np d, brings E i folders np d → newest_record i np d → ∃ e, current i np e;
  as_changed : dedup = true → ∀ np d e, brings E i folders np d → current i np e → e ≠ d →
    inv_manifest i !! d = None ∧ ∀ np', brings E i folders np' d → np' = np
}.
(** Something is new or changed. *)
Definition changes (E : env) (i : inventory) (folders : list (string * node)) : Prop :=
  ∃ np d, brings E i folders np d ∧ ¬ current i np d.
(** Equal digests mean equal content, for the stored and the offered content. *)
Definition no_clashes (E : env) (alg : string) (s : storage) (folders : list (string * node)) : Prop :=
  ∀ x y d, ((∃ p, s !! p = Some x) ∨ ∃ a p, offered folders a p x) → ((∃ p, s !! p = Some y) ∨ ∃ a p, offered folders a p y) →
    e_hash E alg x = Some d → e_hash E alg y = Some d → x = y.

(** The extraction side: same digests, every file can be created, and the logical paths that are there or are brought are either
    of the requested area, where the extraction path leads back to them, or of another one, and no content is in both. *)
Record served (E : env) (X : xenv) (area : string) (i : inventory) (folders : list (string * node)) : Prop := Served {
  sv_hash : x_hash X = e_hash E;
  sv_can : ∀ q, x_can X q = true;
  sv_back : ∀ p x np, offered folders area p x → e_state_path E p area = Some np → x_path X np area = XPath p;
  sv_other : ∀ a p x np, offered folders a p x → e_state_path E p a = Some np → a ≠ area → x_path X np area = XWrongArea;
  sv_old : ∀ np d, current i np d → x_path X np area = XWrongArea ∨ ∃ q, x_path X np area = XPath q ∧ e_state_path E q area = Some np;
  sv_pure : ∀ np np' d, current i np d ∨ brings E i folders np d → current i np' d ∨ brings E i folders np' d →
    x_path X np area = XWrongArea → x_path X np' area = XWrongArea
}.
(** Echo deletion looks at all files of the area: their logical paths start with the base path of the object. *)
Definition echo_covers (E : env) (X : xenv) (area : string) (i : inventory) : Prop :=
  ∃ b, e_state_path E "." "" = Some b ∧
    ∀ np d q, current i np d → x_path X np area = XPath q → starts np (if decide (b = ".") then "" else b).
(** Echo deletion looks at no file of the area. *)
Definition echo_spares (E : env) (X : xenv) (area : string) (i : inventory) : Prop :=
  ∀ b np d q, e_state_path E "." "" = Some b → current i np d → x_path X np area = XPath q → ¬ starts np (if decide (b = ".") then "" else b).
(** Whether the request removes files that it does not bring from the area: only with echo deletion, and only from areas below the
    base path. *)
Definition deletes (E : env) (X : xenv) (area : string) (i : inventory) (echo del : bool) : Prop :=
  if del then echo = true ∧ echo_covers E X area i else echo = false ∨ echo_spares E X area i.

(** The folders of a request, as the program gets them. *)
Definition given (folders : list (string * node)) : list (string * option node) := (λ f : string * node, (f.1, Some f.2)) <$> folders.
(** A request that the theorems speak of: one readable folder per area, paths as above, something to store. *)
Record proper_request (E : env) (i : inventory) (r : request) (folders : list (string * node)) : Prop := ProperRequest {
  pq_areas : NoDup (fst <$> folders);
  pq_folders : ∀ a t, (a, t) ∈ folders → good_folder t;
  pq_placed : placed E folders;
  pq_addressed : addressed E (rq_dedup r) i folders;
  pq_changes : changes E i folders;
  pq_echo : rq_echo r = true → is_Some (e_state_path E "." "")
}.
(** Every version lists every logical path once. *)
Definition unique_states (i : inventory) : Prop := ∀ ver v, inv_versions i !! ver = Some v → unique_paths (v_state v).
(** What the area holds after a request that brings [src]. *)
Definition area_after (del : bool) (src before : storage) : storage := if del then src else src ∪ before.

(** [archived E X area P parse ts s i]: object [s] with root inventory [i] was created and updated by requests; [ts] is what the
    area held after each of them, newest first. *)
Inductive archived (E : env) (X : xenv) (area : string) (P : inventory → Prop) (parse : string → option inventory) :
    list storage → storage → inventory → Prop :=
| archived_first s i orcs orc1 orc2 r folders src o :
    fresh i → declared s → supported E i → (∀ j k, oracle_ok (orcs j k)) → oracle_ok orc1 → proper_request E i r folders →
    no_clashes E (inv_alg i) s folders → served E X area i folders → folder_of folders area src →
    ingest E orcs orc1 orc2 r (given folders) (HDone []) (open_object i) = (o, SOk) → P (ob_inv o) →
    archived E X area P parse [src] (apply_evs (ob_trace o) s) (ob_inv o)
| archived_next t ts s i0 i orcs orc1 orc2 r folders src o del :
    archived E X area P parse (t :: ts) s i0 → load_inventory (e_hash E) parse s "" = LInv i [] →
    supported E i → (∀ j k, oracle_ok (orcs j k)) → oracle_ok orc1 → proper_request E i r folders →
    no_clashes E (inv_alg i) s folders → served E X area i folders → deletes E X area i (rq_echo r) del → folder_of folders area src →
    ingest E orcs orc1 orc2 r (given folders) (HDone []) (open_object i) = (o, SOk) → P (ob_inv o) →
    archived E X area P parse (area_after del src t :: t :: ts) (apply_evs (ob_trace o) s) (ob_inv o).

(** The content-subpath extension with these areas: every area has a folder, and no folder begins with the folder of another area. *)
Record configured (c : subpaths) (areas : list string) : Prop := Configured {
  cf_area : ∀ a, a ∈ areas → requested c a ≠ "full" ∧ ∃ sub, sp_paths c !! requested c a = Some sub ∧ clean_rel sub;
  cf_apart : ∀ a1 a2 s1 s2, a1 ∈ areas → a2 ∈ areas → a1 ≠ a2 →
    sp_paths c !! requested c a1 = Some s1 → sp_paths c !! requested c a2 = Some s2 → ¬ starts s1 s2
}.
(** The object's paths are made by the extensions [l]: none, or one content-subpath extension. *)
Definition paths_by (E : env) (X : xenv) (l : list subpaths) : Prop :=
  (∀ p a, e_state_path E p a = mgr_state_path l p a) ∧ (∀ p a, e_manifest_path E p a = mgr_state_path l p a) ∧
  x_hash X = e_hash E ∧ (∀ p a, x_path X p a = mgr_extract_path l p a) ∧ ∀ q, x_can X q = true.
(** [np] is the logical path of a file of area [a]. *)
Definition of_area (E : env) (areas : list string) (a np : string) : Prop :=
  a ∈ areas ∧ ∃ p, clean_rel p ∧ e_state_path E p a = Some np.
(** No content is in two areas. *)
Definition areas_share_nothing (E : env) (areas : list string) (i : inventory) (folders : list (string * node)) : Prop :=
  ∀ np np' d a a', current i np d ∨ brings E i folders np d → current i np' d ∨ brings E i folders np' d →
    of_area E areas a np → of_area E areas a' np' → a = a'.
