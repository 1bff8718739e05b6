(** Vocabulary for the metadata of the filesystem extension. *)
From Coq Require Import Ascii.
From stdpp Require Import base list strings gmap.
From Coq Require Import ZArith.
From Verif Require Import GoStr InventoryModel InventorySpec ObjectModel ObjectSpec CrashSpec PathModel LoadModel AreaModel AreaSpec ValidateModel PublishSpec JsonlModel
  JsonlSpec FsModel.

(** Calls between StartUpdate and EndUpdate: files and folders that are added without error, with the hooks, and any other calls.  New
    content goes to new clean paths. *)
Inductive fcalls {R} (E : env) (folders : string) : object → ixst (string * R) → object → ixst (string * R) → Prop :=
| fcalls_none o x : fcalls E folders o x o x
| fcalls_file orc data src area dedup st o x o1 x1 o2 x2 :
    proper E orc (SAdd data src area dedup) o → fs_add_file E orc data src area dedup st o x = (o1, x1, SOk) → fcalls E folders o1 x1 o2 x2 →
    fcalls E folders o x o2 x2
| fcalls_folder orc src area st o x o1 x1 o2 x2 :
    oracle_ok orc →
    (** Only needed where the empty file is not yet stored. *)
    ((∀ d, e_hash E (inv_alg (ob_inv o)) "" = Some d → inv_manifest (ob_inv o) !! d = None) → proper E orc (SAddReader "" [path_join [src; folders]] area) o) →
    fs_add_dir E orc folders src area st o x = (o1, x1, SOk) → fcalls E folders o1 x1 o2 x2 → fcalls E folders o x o2 x2
| fcalls_other orc op o x o1 st o2 x2 :
    in_update op → guarded_op E (proper E) (λ _, True) orc op o → ostep E orc op o = (o1, st) → st ≠ SPanic →
    fcalls E folders o1 x o2 x2 → fcalls E folders o x o2 x2.

(** A line that is one line of text and can be read back. *)
Definition readable {R} (L : printer (string * R)) (e : string * (string * R)) : Prop :=
  l_parse L (l_print L e.1 e.2) = Some e ∧ one_line (l_print L e.1 e.2).

(** A session with a new handle: StartUpdate, calls that change something, EndUpdate without error (echo deletion, hooks of other extensions
    before and after that of the filesystem extension, storing the inventory), Close.  [lines] is what was recorded. *)
Inductive fsession {R} (E : env) (Z : codec) (L : printer (string * R)) (l : list subpaths) (J : jstore) (folders : string)
    (s : storage) (i : inventory) (s' : storage) (i' : inventory) (lines : list (string * (string * R))) : Prop :=
| FSession now msg un ua echo orc orc2 orc3 o1 o2 x o3 a o4 o5 x5 b o6 o7 o8 o9 :
    ob_start now msg un ua echo (open_object i) = (o1, SOk) →
    fcalls E folders o1 ix_new o2 x → inv_modified (ob_inv o2) = true →
    (if ob_echo o2 then ob_echo_delete E orc o2 else (o2, SOk)) = (o3, SOk) →
    guarded_sops E (proper E) a o3 → sops_run E a o3 = (o4, SOk) →
    proper_side Z E l J orc2 o4 → fs_after Z L E l J orc2 o4 x = (o5, x5, SOk) →
    guarded_sops E (proper E) b o5 → sops_run E b o5 = (o6, SOk) →
    on_inv (clean orc) o6 = (o7, SOk) → store_inventory E true false o7 = (o8, SOk) → ob_close E orc3 o8 = (o9, SOk) →
    s' = apply_evs (ob_trace o9) s → i' = ob_inv o9 →
    ix_buf x !! inv_head (ob_inv o4) = Some lines → Forall (readable L) lines →
    fsession E Z L l J folders s i s' i' lines.

(** Version [v] has no side file. *)
Definition no_side (l : list subpaths) (J : jstore) (s : storage) (i : inventory) (v : string) : Prop :=
  ∃ r, read_target l J i v = Some (v +:+ "/" +:+ content_name i +:+ "/" +:+ r) ∧ s !! (v +:+ "/" +:+ content_name i +:+ "/" +:+ r) = None.

(** Object [s] with root inventory [i] was created and updated by such sessions, and by any sessions that leave no side file (in which the
    extension is not used, or in which it has nothing to record).  [book]: what was recorded, by version. *)
Inductive stated {R} (E : env) (P : inventory → Prop) (parse : string → option inventory) (Z : codec) (L : printer (string * R)) (l : list subpaths)
    (J : jstore) (folders : string) : storage → inventory → gmap string (list (string * (string * R))) → Prop :=
| stated_first s i s' i' lines :
    fresh i → PublishSpec.declared s → supported E i → fsession E Z L l J folders s i s' i' lines → P i' →
    stated E P parse Z L l J folders s' i' {[ inv_head i' := lines ]}
| stated_first_without s i s' i' :
    fresh i → PublishSpec.declared s → supported E i → complete E s i s' i' → P i' →
    (∀ v, is_Some (inv_versions i' !! v) → no_side l J s' i' v) →
    stated E P parse Z L l J folders s' i' ∅
| stated_next s i0 i s' i' book lines :
    stated E P parse Z L l J folders s i0 book → load_inventory (e_hash E) parse s "" = LInv i [] → supported E i →
    fsession E Z L l J folders s i s' i' lines → P i' → stated E P parse Z L l J folders s' i' (<[inv_head i' := lines]> book)
| stated_next_without s i0 i s' i' book :
    stated E P parse Z L l J folders s i0 book → load_inventory (e_hash E) parse s "" = LInv i [] → supported E i →
    complete E s i s' i' → P i' →
    (∀ v, is_Some (inv_versions i' !! v) → inv_versions i !! v = None → no_side l J s' i' v) →
    stated E P parse Z L l J folders s' i' book.

(** The logical paths that version [u] gives to content [d]. *)
Definition paths_at (i : inventory) (u d : string) : list string := default [] (inv_versions i !! u ≫= λ v, v_state v !! d).
(** The lines under digest [d] and version [u] of a report. *)
Definition entry {R} (r : gmap string (gmap string (list (string * (string * R))))) (d u : string) : list (string * (string * R)) :=
  default [] (r !! d ≫= λ m, m !! u).
