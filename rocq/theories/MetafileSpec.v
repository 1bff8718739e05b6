(** Vocabulary for descriptive metadata. *)
From Coq Require Import Ascii.
From stdpp Require Import base list strings gmap.
From Coq Require Import ZArith.
From Verif Require Import GoStr InventoryModel InventorySpec ObjectModel ObjectSpec CrashSpec PathModel LoadModel AreaModel AreaSpec ValidateModel PublishSpec JsonlModel
  JsonlSpec MetafileModel.

(** Storage configurations inside the versions for which the writer and the reader mean the same file, with the path below the content
    directory: an area with a clean folder, a path without area extension or with the area full as default. *)
Inductive matching : list subpaths → mstore → string → Prop :=
| matching_area c name storage folder sub :
    storage ≠ "" → storage ≠ "full" → sp_paths c !! storage = Some sub → clean_rel sub → clean_rel name →
    matching [c] (MStore name "area" storage folder) (sub +:+ "/" +:+ name)
| matching_area_plain name storage folder : clean_rel name → matching [] (MStore name "area" storage folder) name
| matching_path c name storage folder sub :
    sp_area c = "full" → sp_paths c !! "content" = Some sub → clean_rel sub → clean_rel storage → clean_rel name →
    matching [c] (MStore name "path" storage folder) (sub +:+ "/" +:+ storage +:+ "/" +:+ name)
| matching_path_plain name storage folder : clean_rel storage → clean_rel name →
    matching [] (MStore name "path" storage folder) (storage +:+ "/" +:+ name).
(** The file in version [v]. *)
Definition place (i : inventory) (v q : string) : string := v +:+ "/" +:+ content_name i +:+ "/" +:+ q.

(** A session: a handle is opened on [i] with the source [u], StartUpdate with the hook of the extension, calls that change something,
    EndUpdate without error (with everything the extensions do there), Close.  [given] is what the source held, None if no source was given. *)
Inductive dsession (W : sources) (E : env) (l : list subpaths) (M : mstore) (q : string) (s : storage) (i : inventory) (s' : storage) (i' : inventory)
    (given : option string) : Prop :=
| DSession now msg un ua echo u orc0 orc h orc3 o1 o2 x o3 o4 o5 :
    ob_start now msg un ua echo (open_object i) = (o1, SOk) →
    mf_before W E l M orc0 o1 (mf_new (Some u)) = (o2, x, SOk) →
    given = (if decide (u_path u = "") then None else mf_fetch W (inv_id i) u) →
    oracle_ok orc0 →
    calls E o2 o3 → inv_modified (ob_inv o3) = true → guarded_end E (proper E) (λ _, True) orc h o3 → ob_end E orc h o3 = (o4, SOk) →
    ob_close E orc3 o4 = (o5, SOk) → s' = apply_evs (ob_trace o5) s → i' = ob_inv o5 →
    (** Nothing else is stored where the metadata belongs. *)
    (∀ v, is_Some (inv_versions i' !! v) → inv_versions i !! v = None → given = None ∨ v ≠ inv_head (ob_inv o1) → s' !! place i' v q = None) →
    dsession W E l M q s i s' i' given.

(** Object [s] with root inventory [i] was created and updated by such sessions only; [latest] is the metadata given last. *)
Inductive described (W : sources) (E : env) (P : inventory → Prop) (parse : string → option inventory) (l : list subpaths) (M : mstore) (q : string)
    : storage → inventory → option string → Prop :=
| described_first s i s' i' given :
    fresh i → PublishSpec.declared s → supported E i → dsession W E l M q s i s' i' given → P i' →
    described W E P parse l M q s' i' given
| described_next s i0 i s' i' old given :
    described W E P parse l M q s i0 old → load_inventory (e_hash E) parse s "" = LInv i [] → supported E i →
    dsession W E l M q s i s' i' given → P i' →
    described W E P parse l M q s' i' (match given with Some t => Some t | None => old end).

(** Storage in the folder of the extension, with the path of the file.  The folder is one below extensions and no configuration file of an
    extension has the name of the file. *)
Inductive in_folder (E : env) : mstore → string → Prop :=
| in_folder_file name storage ext :
    clean_rel name → clean_rel storage → clean_rel ext → Forall (λ f, f.1 ≠ ext +:+ "/" +:+ storage +:+ "/" +:+ name) (e_ext_files E) →
    in_folder E (MStore name "extension" storage ("extensions/" +:+ ext)) ("extensions/" +:+ ext +:+ "/" +:+ storage +:+ "/" +:+ name).
