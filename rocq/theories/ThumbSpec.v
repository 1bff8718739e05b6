(** Vocabulary for thumbnails. *)
From Coq Require Import Ascii.
From stdpp Require Import base list strings gmap.
From Coq Require Import ZArith.
From Verif Require Import GoStr InventoryModel InventorySpec ObjectModel ObjectSpec CrashSpec PathModel LoadModel AreaModel AreaSpec ValidateModel PublishSpec JsonlModel
  JsonlSpec MetafileModel MigrateModel ThumbModel.

(** Storage configurations inside the versions, with the folder below the content directory in which the thumbnails are kept. *)
Inductive thumbs_in : list subpaths → jstore → string → Prop :=
| thumbs_area c name compress storage folder sub :
    storage ≠ "" → storage ≠ "full" → sp_paths c !! storage = Some sub → clean_rel sub →
    thumbs_in [c] (JStore name compress "area" storage folder) (sub +:+ "/thumbnails")
| thumbs_area_plain name compress storage folder : thumbs_in [] (JStore name compress "area" storage folder) "thumbnails"
| thumbs_path c name compress storage folder sub :
    sp_area c = "full" → sp_paths c !! "content" = Some sub → clean_rel sub → clean_rel storage →
    thumbs_in [c] (JStore name compress "path" storage folder) (sub +:+ "/" +:+ storage +:+ "/" +:+ storage).

(** The path [p] lies in the folder [dir] of the new version. *)
Definition in_new (i : inventory) (dir p : string) : Prop :=
  below (inv_head i +:+ "/" +:+ content_name i +:+ "/" +:+ dir) p.

(** What is assumed of the JSON of a line, for the lines [W]: it is one line and can be read back. *)
Definition lines_ok (W : string → tres → Prop) (L : printer tres) : Prop :=
  ∀ c r, W c r → l_parse L (l_print L c r) = Some (c, r) ∧ one_line (l_print L c r).

(** A session: a handle is opened on [i], StartUpdate, calls that change something, EndUpdate without error (echo deletion, hooks of other
    extensions before and after, the hook of the extension on the object [o]), Close.  [lines] is what the extension recorded. *)
Inductive tsession (E : env) (Z : codec) (L : printer tres) (W : string → tres → Prop) (l : list subpaths) (T : tconf) (J : jstore) (dir : string) (S : tsur)
    (idx : gmap string (string * string)) (s : storage) (i : inventory) (s' : storage) (i' : inventory) (o : object) (lines : list (string * tres)) : Prop :=
| TSession now msg un ua echo orc orc2 orcs rnd orc3 w o1 o2 o3 a x5 o5 b o6 o7 o8 o9 :
    ob_start now msg un ua echo (open_object i) = (o1, SOk) →
    calls E o1 o2 → inv_modified (ob_inv o2) = true →
    (if ob_echo o2 then ob_echo_delete E orc o2 else (o2, SOk)) = (o3, SOk) →
    guarded_sops E (proper E) a o3 → sops_run E a o3 = (o, SOk) →
    (** Nothing is stored in the folder of the thumbnails, and the side file gets a new clean path. *)
    (∀ p d, lists (inv_manifest (ob_inv o)) p d → ¬ in_new (ob_inv o) dir p) →
    proper_side Z E l J orc2 o → (∀ k, oracle_ok (orcs k)) → vorder_ok w →
    th_after Z L E l T J S w s (Some idx) orc2 orcs rnd o th_new = (o5, x5, SOk) →
    lines = default [] (th_buf x5 !! inv_head (ob_inv o)) → Forall (λ p, W p.1 p.2) lines →
    guarded_sops E (proper E) b o5 → sops_run E b o5 = (o6, SOk) →
    on_inv (clean orc) o6 = (o7, SOk) → store_inventory E true false o7 = (o8, SOk) → ob_close E orc3 o8 = (o9, SOk) →
    s' = apply_evs (ob_trace o9) s → i' = ob_inv o9 →
    tsession E Z L W l T J dir S idx s i s' i' o lines.

(** Object [s] with root inventory [i] was created and updated by such sessions only; [lines] is what was recorded in all of them. *)
Inductive thumbed (E : env) (P : inventory → Prop) (parse : string → option inventory) (Z : codec) (L : printer tres) (W : string → tres → Prop) (l : list subpaths)
    (T : tconf) (J : jstore) (dir : string) : storage → inventory → list (string * tres) → Prop :=
| thumbed_first S idx s i s' i' o lines :
    fresh i → PublishSpec.declared s → supported E i → tsession E Z L W l T J dir S idx s i s' i' o lines → P i' →
    thumbed E P parse Z L W l T J dir s' i' lines
| thumbed_next S idx s i0 i s' i' o old lines :
    thumbed E P parse Z L W l T J dir s i0 old → load_inventory (e_hash E) parse s "" = LInv i [] → supported E i →
    tsession E Z L W l T J dir S idx s i s' i' o lines → P i' → thumbed E P parse Z L W l T J dir s' i' (old ++ lines).

(** A handle on [i], new or loaded, for an object [s] with the lines [old]. *)
Inductive opened (E : env) (P : inventory → Prop) (parse : string → option inventory) (Z : codec) (L : printer tres) (W : string → tres → Prop)
    (l : list subpaths) (T : tconf) (J : jstore) (dir : string) (s : storage) (i : inventory) : list (string * tres) → Prop :=
| opened_new : fresh i → PublishSpec.declared s → supported E i → opened E P parse Z L W l T J dir s i []
| opened_old i0 old : thumbed E P parse Z L W l T J dir s i0 old → load_inventory (e_hash E) parse s "" = LInv i [] → supported E i →
    opened E P parse Z L W l T J dir s i old.

(** A file name extension that is part of a name. *)
Definition suffix_name (e : string) : Prop := str_mem slash (to_lower e) = false.

(** The function for content [cs] with the results [idx] of the indexer: by pronom, otherwise by mimetype. *)
Definition function_for (S : tsur) (idx : gmap string (string * string)) (cs : string) (f : tfun) : Prop :=
  ∃ pronom mime, idx !! cs = Some (pronom, mime) ∧ (ts_pronom S pronom = Some f ∨ ts_pronom S pronom = None ∧ ts_mime S mime = Some f).

(** What the line says: the thumbnail [y] was made by [f] and is kept in the folder [dir] of the new version. *)
Definition thumbnail_kept (E : env) (dir : string) (s' : storage) (i' : inventory) (f : tfun) (y : string) (res : tres) : Prop :=
  tr_error res = "" ∧ tr_id res = tf_id f ∧ e_hash E (inv_alg i') y = Some (tr_digest res) ∧
  ∃ q, lists (inv_manifest i') q (tr_digest res) ∧ in_new i' dir q ∧ s' !! q = Some y.
(** The report entry repeats the line about [cs]. *)
Definition repeats (m : tmeta) (cs : string) (res : tres) : Prop :=
  tm_source m = cs ∧ tm_digest m = tr_digest res ∧ tm_error m = tr_error res ∧ tm_id m = tr_id res ∧ tm_ext m = tr_ext res.
