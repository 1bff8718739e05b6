(** Vocabulary for side files of extensions and for the indexer. *)
From Coq Require Import Ascii.
From stdpp Require Import base list strings gmap.
From Coq Require Import ZArith.
From Verif Require Import GoStr InventoryModel InventorySpec ObjectModel ObjectSpec CrashSpec PathModel LoadModel AreaModel AreaSpec ValidateModel PublishSpec JsonlModel.

(** What is packed can be unpacked. *)
Definition codec_ok (Z : codec) : Prop := ∀ t, z_unbr Z (z_br Z t) = Some t ∧ z_ungz Z (z_gz Z t) = Some t.

(** Storage configurations for which the writer and the reader mean the same file: an area with a clean folder, a path without area
    extension or with the area full as default, the folder of the extension. *)
Inductive agreeing : list subpaths → jstore → Prop :=
| agreeing_area c name compress storage folder sub :
    storage ≠ "" → storage ≠ "full" → sp_paths c !! storage = Some sub → clean_rel sub →
    agreeing [c] (JStore name compress "area" storage folder)
| agreeing_area_plain name compress storage folder : agreeing [] (JStore name compress "area" storage folder)
| agreeing_path c name compress storage folder : sp_area c = "full" → agreeing [c] (JStore name compress "path" storage folder)
| agreeing_path_plain name compress storage folder : agreeing [] (JStore name compress "path" storage folder)
| agreeing_extension l name compress storage folder : agreeing l (JStore name compress "extension" storage folder).
(** The content paths of the object are made by the extensions [l]. *)
Definition manifest_by (E : env) (l : list subpaths) : Prop := ∀ p a, e_manifest_path E p a = mgr_state_path l p a.

(** A line of text. *)
Definition one_line (t : string) : Prop := str_mem nl t = false ∧ ∀ u, t ≠ u +:+ String cr "".
(** What is assumed of the JSON of a line, for the paths [V]: it is one line, not empty, and can be read back. *)
Definition printer_ok {R} (V : string → Prop) (L : printer R) : Prop :=
  ∀ p r, V p → l_parse L (l_print L p r) = Some (p, r) ∧ one_line (l_print L p r).

(** Calls that succeed, with and without extension hooks; new content goes to new clean paths. *)
Inductive icalls {R} (E : env) (index : list string → string → option R) : object → ixst R → object → ixst R → Prop :=
| icalls_none o x : icalls E index o x o x
| icalls_more hook orc op o x o1 x1 o2 x2 :
    proper E orc op o → istep E index hook orc op o x = (o1, x1, SOk) → icalls E index o1 x1 o2 x2 → icalls E index o x o2 x2.

(** The side file gets a new clean path, too. *)
Definition proper_side (Z : codec) (E : env) (l : list subpaths) (J : jstore) (orc : oracle) (o : object) : Prop :=
  oracle_ok orc ∧
  match write_target l J (inv_head (ob_inv o)) with
  | JAdd files area => ∀ data, clean_target E (SAddReader data files area) ∧ fresh_target E (SAddReader data files area) o
  | _ => False
  end.

(** A session with the indexer: a handle is opened on [i], StartUpdate, calls that change something and stream something, EndUpdate
    (echo deletion, hooks of other extensions before and after that of the indexer, storing the inventory), Close.  [lines] is what the
    indexer recorded. *)
Inductive isession {R} (E : env) (Z : codec) (L : printer R) (l : list subpaths) (J : jstore) (index : list string → string → option R)
    (V : string → Prop) (s : storage) (i : inventory) (s' : storage) (i' : inventory) (lines : list (string * R)) : Prop :=
| ISession now msg un ua echo orc orc2 orc3 o1 o2 x2 o3 o4 x4 o5 x5 o6 x6 o7 o8 o9 :
    ob_start now msg un ua echo (open_object i) = (o1, SOk) →
    icalls E index o1 ix_new o2 x2 → inv_modified (ob_inv o2) = true →
    (if ob_echo o2 then ob_echo_delete E orc o2 else (o2, SOk)) = (o3, SOk) →
    icalls E index o3 x2 o4 x4 →
    proper_side Z E l J orc2 o4 → ix_after Z L E l J orc2 o4 x4 = (o5, x5, SOk) →
    icalls E index o5 x5 o6 x6 →
    on_inv (clean orc) o6 = (o7, SOk) → store_inventory E true false o7 = (o8, SOk) → ob_close E orc3 o8 = (o9, SOk) →
    s' = apply_evs (ob_trace o9) s → i' = ob_inv o9 →
    ix_buf x4 !! inv_head (ob_inv o4) = Some lines → Forall (λ p, V p.1) lines →
    isession E Z L l J index V s i s' i' lines.

(** Object [s] with root inventory [i] was created and updated by such sessions only; [lines] is what the indexer recorded in all of them. *)
Inductive indexed {R} (E : env) (P : inventory → Prop) (parse : string → option inventory) (Z : codec) (L : printer R) (l : list subpaths)
    (J : jstore) (index : list string → string → option R) (V : string → Prop) : storage → inventory → list (string * R) → Prop :=
| indexed_first s i s' i' lines :
    fresh i → PublishSpec.declared s → supported E i → isession E Z L l J index V s i s' i' lines → P i' →
    indexed E P parse Z L l J index V s' i' lines
| indexed_next s i0 i s' i' old lines :
    indexed E P parse Z L l J index V s i0 old → load_inventory (e_hash E) parse s "" = LInv i [] → supported E i →
    isession E Z L l J index V s i s' i' lines → P i' → indexed E P parse Z L l J index V s' i' (old ++ lines).
