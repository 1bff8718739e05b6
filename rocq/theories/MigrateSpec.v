(** Vocabulary for the migration extension. *)
From Coq Require Import Ascii.
From stdpp Require Import base list strings gmap.
From Coq Require Import ZArith.
From Verif Require Import GoStr PathModel InventoryModel InventorySpec ObjectModel CrashSpec LoadModel AreaModel JsonlModel JsonlSpec MigrateModel.

(** The version before the newest one. *)
Definition earlier (i : inventory) (n : N) : string := version_name (inv_padding i) (n - 1).
(** A handle that has just started version [n], a copy of the one before it; version names are not padded. *)
Record automated (i : inventory) (n : N) : Prop := Automated {
  au_versions : contiguous i n;
  au_many : (2 <= n)%N;
  au_pad : (inv_padding i <= 0)%Z;
  au_unique : ∀ ver v, inv_versions i !! ver = Some v → unique_paths (v_state v);
  au_write : inv_writeable i = true;
  au_copy : ∀ p d, current i p d ↔ recorded i (earlier i n) p d
}.

(** Where the converted file of [p] goes, and where the original goes with the strategy folder. *)
Definition converted_name (f : mfun) (i : inventory) (p : string) : string :=
  match mf_strategy f with
  | Folder => path_join [p; inv_head i +:+ "." +:+ mf_rename f p]
  | _ => mf_rename f p
  end.
Definition kept_name (p : string) : string := path_join [path_dir p; path_base p; path_base p].

Section after.
  Context (E : env) (S : surroundings) (i : inventory) (n : N).
  (** The first logical path of content [cs] in the previous version, and the content path that its conversion gets. *)
  Definition first_name (cs : string) : option string :=
    match inv_versions i !! earlier i n with
    | Some v => match v_state v !! cs with Some (p :: _) => Some p | _ => None end
    | None => None
    end.
  Definition new_place (cs : string) (f : mfun) (e m : string) : Prop :=
    ∃ p mm, first_name cs = Some p ∧ ms_extract S (converted_name f i p) = XPath e ∧ e_manifest_path E e "content" = Some mm ∧
      m = manifest_name i mm.
  (** What the tool makes of content [cs]: it gets the first file with this content. *)
  Definition product (cs : string) (f : mfun) (y : string) : Prop :=
    ∃ p0 ps x e m, inv_manifest i !! cs = Some (p0 :: ps) ∧ ms_read S p0 = Some x ∧ new_place cs f e m ∧ mf_run f p0 e x = Some y.

  (** The line about content [cs] in the side file: the error is empty if the conversion worked. *)
  Definition line_of (cs : string) (f : mfun) (line : string * mres) : Prop :=
    ∃ e m p0 ps err, line = (m, MRes p0 err (mf_id f)) ∧ new_place cs f e m ∧ inv_manifest i !! cs = Some (p0 :: ps) ∧
      (err = "" ↔ ∃ y, product cs f y).

  (** [T cs f]: content [cs] is to be converted with [f]. *)
  Context (T : string → mfun → Prop).
  Definition planned (cs : string) (f : mfun) (p : string) : Prop := T cs f ∧ recorded i (earlier i n) p cs.
  (** [np] is a converted file with digest [d]. *)
  Definition made (np d : string) : Prop :=
    ∃ cs f p y, planned cs f p ∧ product cs f y ∧ np = converted_name f i p ∧ e_hash E (inv_alg i) y = Some d.
  (** [np] is an original that was moved. *)
  Definition moved (np d : string) : Prop :=
    ∃ f p y, planned d f p ∧ product d f y ∧ mf_strategy f = Folder ∧
      (∀ q, planned d f q → converted_name f i q ≠ p) ∧ np = kept_name p.
  (** What was at [np] is not there any more: a converted file is there, or it was an original that is replaced or moved. *)
  Definition given_up (np : string) : Prop :=
    ∃ cs f p y, planned cs f p ∧ product cs f y ∧ (np = converted_name f i p ∨ np = p ∧ mf_strategy f ≠ Add).
  (** The newest version after the migration. *)
  Definition migrated (np d : string) : Prop := made np d ∨ moved np d ∨ current i np d ∧ ¬ given_up np.
End after.

(** The side file with the results: its logical path and where it is stored. *)
Definition side_file (E : env) (l : list subpaths) (J : jstore) (i : inventory) (np m : string) : Prop :=
  match write_target l J (inv_head i) with
  | JAdd files area => ∃ f mm, files = [f] ∧ e_state_path E f area = Some np ∧ e_manifest_path E f area = Some mm ∧ m = manifest_name i mm
  | JFile p => m = p
  | JError _ => False
  end.

(** What is assumed of the contents [T] that are to be converted.  All of them can be read in the object and are in the previous version.
    A target name is a path of the default area, and is new or has a file now.  The jobs do not get in each other's way: the target of one
    content is neither a target nor an original of another content.  An original is moved to a name that is free and no target, no two to
    the same name; and it is not itself the result of a migration ([metas]). *)
Record migratable (E : env) (S : surroundings) (i : inventory) (n : N) (metas : string → Prop) (T : string → mfun → Prop) : Prop := Migratable {
  ma_source : ∀ cs f, T cs f → cs ≠ "" ∧ (∃ p, recorded i (earlier i n) p cs) ∧ ∃ p0 ps x, inv_manifest i !! cs = Some (p0 :: ps) ∧ ms_read S p0 = Some x;
  ma_target : ∀ cs f p, planned i n T cs f p →
    converted_name f i p ≠ "" ∧ ∃ e m, ms_extract S (converted_name f i p) = XPath e ∧ e_state_path E e "content" = Some (converted_name f i p) ∧
      e_manifest_path E e "content" = Some m;
  ma_free : ∀ cs f p, planned i n T cs f p →
    (∃ d, current i (converted_name f i p) d) ∨ ∀ ver d, ¬ recorded i ver (converted_name f i p) d;
  ma_targets : ∀ cs f p cs' f' p', planned i n T cs f p → planned i n T cs' f' p' → converted_name f i p = converted_name f' i p' → cs = cs';
  ma_originals : ∀ cs f p cs' f' p', planned i n T cs f p → planned i n T cs' f' p' → converted_name f i p = p' → cs = cs';
  ma_places : ∀ cs f e m cs' f' e' m', T cs f → T cs' f' → new_place E S i n cs f e m → new_place E S i n cs' f' e' m' → m = m' → cs = cs';
  ma_first : ∀ cs f, T cs f → mf_strategy f = Folder → ¬ metas cs;
  ma_moved : ∀ cs f p, planned i n T cs f p → mf_strategy f = Folder →
    (∀ d, ¬ current i (kept_name p) d) ∧
    (∀ cs' f' p', planned i n T cs' f' p' → kept_name p ≠ converted_name f' i p') ∧
    (∀ cs' f' p', planned i n T cs' f' p' → kept_name p = kept_name p' → p = p')
}.

(** * What is known about earlier migrations *)
Section log.
  Context (Z : codec) (L : printer mres) (l : list subpaths) (J : jstore) (x : mist) (i : inventory) (s : storage).
  (** The lines about version [ver]: those that the handle still has, or those of the side file; none if the file cannot be read.  Every
      line can be read back. *)
  Definition logged (ver : string) (lines : list (string * mres)) : Prop :=
    is_Some (inv_versions i !! ver) ∧
    (∀ p a, (p, a) ∈ lines → l_parse L (l_print L p a) = Some (p, a) ∧ one_line (l_print L p a)) ∧
    (mi_buf x !! ver = Some lines ∨
     mi_buf x !! ver = None ∧ (read_jsonl Z l J i s ver = Some (text_of L lines) ∨ read_jsonl Z l J i s ver = None ∧ lines = [])).
  Definition entry (p : string) (a : mres) : Prop := ∃ ver lines, logged ver lines ∧ (p, a) ∈ lines.
  (** The content that has the result of a line: the converted file, or the original if there is none. *)
  Definition about (p : string) (a : mres) (c : string) : Prop :=
    lists (inv_manifest i) p c ∨ mr_error a ≠ "" ∧ (∀ d, ¬ lists (inv_manifest i) p d) ∧ lists (inv_manifest i) (mr_source a) c.
  (** All versions have such lines, and their paths are in the manifest, each with one digest. *)
  Record log_ok : Prop := LogOk {
    lo_kept : ∀ ver, is_Some (inv_versions i !! ver) → ∃ lines, logged ver lines;
    lo_paths : ∀ p d d', lists (inv_manifest i) p d → lists (inv_manifest i) p d' → d = d';
    lo_digests : ∀ p d, lists (inv_manifest i) p d → d ≠ "";
    lo_source : ∀ p a, entry p a → ∃ d, lists (inv_manifest i) (mr_source a) d;
    lo_target : ∀ p a, entry p a → ∃ c, about p a c
  }.
  (** The files of the metadata report, with the results [r] of the migration and the formats [pron] of the indexer. *)
  Definition reported (r : gmap string mres) (pron : string → option string) (files : list (string * (option mres * option string))) : Prop :=
    NoDup files.*1 ∧ ∀ c q pr, (c, (q, pr)) ∈ files ↔ (∃ p, lists (inv_manifest i) p c) ∧ q = r !! c ∧ pr = pron c.
End log.
