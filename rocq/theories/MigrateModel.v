(** The migration extension: /repo/pkg/extension/NNNN-migration.go and /repo/pkg/subsystem/migration.  Only executable definitions. *)
From Coq Require Import Ascii.
From stdpp Require Import base list strings gmap.
From Coq Require Import ZArith.
From Verif Require Import GoStr PathModel InventoryModel ObjectModel AreaModel ValidateModel JsonlModel.

(** filepath.Base on a slash platform: the last element without trailing slashes. *)
Definition path_base (s : string) : string :=
  if decide (s = "") then "."
  else let b := default "" (last (split_slash (trim_right s "/"))) in if decide (b = "") then "/" else b.
(** filepath.Dir on a slash platform: everything up to the last slash, cleaned. *)
Definition path_dir (s : string) : string := path_clean (join_slash (removelast (split_slash s) ++ [""])).

(** migrate.go:41 migrationVersionRegexp on a file name, second group: what follows the first dot.  Both sides of the dot are not
    empty; the dot of the expression does not match a newline. *)
Fixpoint cut_dot (s : string) : option (string * string) :=
  match s with
  | EmptyString => None
  | String c t => if decide (c = "."%char) then Some ("", t)
                  else match cut_dot t with Some (a, b) => Some (String c a, b) | None => None end
  end.
Definition after_dot (s : string) : option string :=
  match cut_dot s with
  | Some (a, b) => if decide (a = "" ∨ b = "" ∨ str_mem nl b = true) then None else Some b
  | None => None
  end.

(** migrate.go:15-39 and 59-74.  [mf_rename]: regexp.ReplaceAllString on the whole path.  [mf_run source target data]: the external command on a
    file with the data; source and target are the paths from which the file name extensions are taken.  None if the command fails, runs
    out of time or writes no file. *)
Inductive strategy := Replace | Add | Folder.
Record mfun := MFun { mf_id : string; mf_strategy : strategy; mf_rename : string → string; mf_run : string → string → string → option string }.

(** migrate.go:43-57 GetDestinationName. *)
Definition dest_name (f : mfun) (src head : string) (migrated : bool) : string :=
  match mf_strategy f with
  | Folder =>
      if migrated then
        match after_dot (path_base src) with
        | None => ""
        | Some r => path_join [path_dir src; head +:+ "." +:+ r]
        end
      else path_join [src; head +:+ "." +:+ mf_rename f src]
  | _ => mf_rename f src
  end.
Fixpoint dest_names (f : mfun) (srcs : list string) (head : string) (migrated : bool) : option (list string) :=
  match srcs with
  | [] => Some []
  | s :: l =>
      if decide (dest_name f s head migrated = "") then None
      else match dest_names f l head migrated with
           | Some r => Some (dest_name f s head migrated :: r)
           | None => None
           end
  end.
(** NNNN-migration.go:365-368: where the original goes with the strategy folder. *)
Definition moved_name (migrated : bool) (src : string) : string :=
  if migrated then "" else path_join [path_dir src; path_base src; path_base src].

(** NNNN-migration.go:75-85 MigrationResult, the second part of a line of the side file. *)
Record mres := MRes { mr_source : string; mr_error : string; mr_id : string }.

(** The state of the extension: migrationFiles, migratedFiles, done, and the lines of the buffers.  The buffer of a DoNewVersion that
    stopped with an error is not modelled. *)
Record mist := MiSt {
  mi_files : gmap string mfun;
  mi_migrated : gmap string (gmap string string);
  mi_done : bool;
  mi_buf : gmap string (list (string * mres))
}.
(** NNNN-migration.go:144-151 alreadyMigrated and 249-257. *)
Definition already_migrated (m : gmap string (gmap string string)) (cs : string) : bool :=
  existsb (λ p : string * gmap string string, bool_decide (is_Some (p.2 !! cs))) (map_to_list m).
Definition mark (head cs v : string) (m : gmap string (gmap string string)) : gmap string (gmap string string) :=
  <[head := <[cs := v]> (default ∅ (m !! head))]> m.

(** NNNN-migration.go:153-202 UpdateObjectAfter.  [files]: the files of the metadata report in map order, with the migration result
    and the pronom that the indexer found.  [lookup]: GetFunctionByPronom (migrate.go:93-102). *)
Definition mi_after (lookup : string → option mfun) (head : string) (files : list (string * (option mres * option string))) (x : mist) : mist :=
  let m1 := foldl (λ m (p : string * (option mres * option string)),
                     match p.2.1 with Some r => mark head (mr_source r) (mr_id r) m | None => m end) (mi_migrated x) files in
  let fs := foldl (λ r (p : string * (option mres * option string)),
                     match p.2.2 with
                     | None => r
                     | Some pronom =>
                         match lookup pronom with
                         | None => r
                         | Some f => if already_migrated m1 p.1 then r else <[p.1 := f]> r
                         end
                     end) (mi_files x) files in
  MiSt fs m1 (mi_done x) (mi_buf x).
(** NNNN-migration.go:204-206 NeedNewVersion. *)
Definition mi_need (x : mist) : bool := negb (bool_decide (mi_files x = ∅ :> gmap string _)) && negb (mi_done x).

(** NNNN-migration.go:407-472 GetMetadata.  A side file that cannot be read is skipped.  The two loops over the manifest may use different
    orders ([w1], [w2]). *)
Fixpoint mi_lines (L : printer mres) (dg1 dg2 : gmap string string) (ls : list string) (r : gmap string mres) : option (gmap string mres) :=
  match ls with
  | [] => Some r
  | t :: ls' =>
      match l_parse L t with
      | None => None
      | Some (p, a) =>
          match dg1 !! mr_source a with
          | None => None
          | Some d =>
              if decide (d = "") then None
              else
                match (match dg2 !! p with
                       | Some c => Some c
                       | None => if decide (mr_error a = "") then None else dg2 !! mr_source a
                       end) with
                | None => None
                | Some c => mi_lines L dg1 dg2 ls' (<[c := MRes d (mr_error a) (mr_id a)]> r)
                end
          end
      end
  end.
Definition mi_data (Z : codec) (L : printer mres) (l : list subpaths) (J : jstore) (x : mist) (i : inventory) (s : storage) (v : string) : string :=
  match mi_buf x !! v with
  | Some lines => text_of L lines
  | None => default "" (read_jsonl Z l J i s v)
  end.
Definition mi_metadata (Z : codec) (L : printer mres) (w1 w2 : vorder) (l : list subpaths) (J : jstore) (x : mist) (i : inventory) (s : storage)
    : option (gmap string mres) :=
  foldl (λ r v, match r with
                | None => None
                | Some r => mi_lines L (path_digests w1 i) (path_digests w2 i) (scan_lines (mi_data Z L l J x i s v)) r
                end) (Some ∅) (fst <$> vo w1 1 (inv_versions i)).

(** inventorybase.go:237-250 GetStateFiles. *)
Definition get_state_files (i : inventory) (ver cs : string) : option (list string) :=
  match inv_versions i !! (if decide (ver = "" ∨ ver = "latest") then inv_head i else ver) with
  | None => None
  | Some v => v_state v !! cs
  end.

(** What DoNewVersion needs from its surroundings: [ms_read] opens a file of the object, [ms_source] a file of the source folder (None if
    it is not set), [ms_extract] is BuildObjectExtractPath for the area with the empty name. *)
Record surroundings := Surroundings {
  ms_read : string → option string;
  ms_source : option (string → option string);
  ms_extract : string → xres
}.

Fixpoint extract_names (ex : string → xres) (l : list string) : option (list string) :=
  match l with
  | [] => Some []
  | t :: l' => match ex t, extract_names ex l' with XPath q, Some r => Some (q :: r) | _, _ => None end
  end.

(** NNNN-migration.go:259-331: what is known before the tool runs.  [JMarked] is a result after the content was entered into migratedFiles
    (line 277). *)
Inductive jstep := JSkip | JFail (e : string) | JPanic | JRun (srcs targets exts : list string) (from path : string) (data : string).
Inductive jres := JUnmarked (s : jstep) | JMarked (v : string) (s : jstep).
Definition job (E : env) (S : surroundings) (prev : string) (migrated : bool) (i : inventory) (cs : string) (f : mfun) : jres :=
  match inv_manifest i !! cs with
  | None => JUnmarked (JFail "cannot find file with checksum")
  | Some ints =>
      match get_state_files i prev cs with
      | None => JUnmarked (JFail "cannot get state files")
      | Some srcs =>
          match dest_names f srcs (inv_head i) migrated with
          | None => JUnmarked (JFail "cannot get destination name")
          | Some targets =>
              match ints with
              | [] => JUnmarked JPanic
              | p0 :: _ =>
                  let found :=
                    match ms_read S p0 with
                    | Some data => inl (Some (p0, data))
                    | None =>
                        match ms_source S with
                        | None => inl None
                        | Some open =>
                            match get_state_files i "" cs with
                            | None => inr "cannot get state files"
                            | Some now =>
                                match last now with
                                | None => inr "zero state file"
                                | Some n =>
                                    match ms_extract S n with
                                    | XPath q => match open q with Some data => inl (Some (q, data)) | None => inr "cannot open file" end
                                    | _ => inr "cannot build external path"
                                    end
                                end
                            end
                        end
                    end in
                  JMarked p0
                    match found with
                    | inr e => JFail e
                    | inl None => JSkip
                    | inl (Some (from, data)) =>
                        match extract_names (ms_extract S) targets with
                        | None => JFail "cannot build extract path"
                        | Some [] => JPanic
                        | Some (e0 :: es) =>
                            match e_manifest_path E e0 "content" with
                            | None => JFail "cannot build manifest path"
                            | Some m => JRun srcs targets (e0 :: es) from (manifest_name i m) data
                            end
                        end
                    end
              end
          end
      end
  end.

(** NNNN-migration.go:350-373: the loop over the original names. *)
Fixpoint originals (orcs : nat → oracle) (k : nat) (act : oracle → string → object → object * status) (srcs : list string) (o : object)
    : object * status :=
  match srcs with
  | [] => (o, SOk)
  | n :: l => andThen (act (orcs k) n o) (originals orcs (S k) act l)
  end.
Definition on_originals (orcs : nat → oracle) (st : strategy) (migrated : bool) (cs : string) (srcs : list string) (o : object) : object * status :=
  match st with
  | Replace => originals orcs 1 (λ orc n, ob_delete orc n cs) srcs o
  | Folder => originals orcs 1 (λ orc n, ob_rename orc n (moved_name migrated n) cs) srcs o
  | Add => (o, SOk)
  end.

(** helper.go:73-113 DoMigrate and NNNN-migration.go:332-374: the new content, the originals, and the error of the line. *)
Definition run_job (E : env) (orcs : nat → oracle) (migrated : bool) (cs : string) (f : mfun) (srcs targets exts : list string) (from data : string)
    (o : object) : object * string * status :=
  match mf_run f from (default "" (head exts)) data with
  | None => (o, "cannot migrate file", SOk)
  | Some y =>
      match ob_add_reader E (orcs 0) y exts "content" o with
      | (o1, SPanic) => (o1, "", SPanic)
      | (o1, SErr e) => (o1, "cannot migrate file", SOk)
      | (o1, SOk) =>
          let '(o2, st) := on_originals orcs (mf_strategy f) migrated cs (filter (λ n, n ∉ targets) srcs) o1 in (o2, "", st)
      end
  end.

(** NNNN-migration.go:243-382: the loop over migrationFiles, with the lines written so far. *)
Fixpoint mi_loop (E : env) (S : surroundings) (orcs : nat → nat → oracle) (k : nat) (prev : string) (metas : list string)
    (todo : list (string * mfun)) (mig : gmap string (gmap string string)) (lines : list (string * mres)) (o : object)
    : object * gmap string (gmap string string) * list (string * mres) * status :=
  match todo with
  | [] => (o, mig, lines, SOk)
  | (cs, f) :: todo' =>
      if already_migrated mig cs then mi_loop E S orcs (k + 1) prev metas todo' mig lines o
      else
        let isM := bool_decide (cs ∈ metas) in
        let '(mig1, s) := match job E S prev isM (ob_inv o) cs f with
                          | JUnmarked s => (mig, s)
                          | JMarked v s => (mark (inv_head (ob_inv o)) cs v mig, s)
                          end in
        match s with
        | JSkip => mi_loop E S orcs (k + 1) prev metas todo' mig1 lines o
        | JFail e => (o, mig1, lines, SErr e)
        | JPanic => (o, mig1, lines, SPanic)
        | JRun srcs targets exts from path data =>
            match run_job E (orcs k) isM cs f srcs targets exts from data o with
            | (o1, err, SOk) =>
                mi_loop E S orcs (k + 1) prev metas todo' mig1
                  (lines ++ [(path, MRes (default "" (head (default [] (inv_manifest (ob_inv o) !! cs)))) err (mf_id f))]) o1
            | (o1, _, st) => (o1, mig1, lines, st)
            end
        end
  end.

(** NNNN-migration.go:209-405 DoNewVersion.  [meta]: the result of GetMetadata.  [orc]: the order in which GetVersionStrings sees the
    versions, and the order of the last AddReader. *)
Definition do_new_version (Z : codec) (L : printer mres) (E : env) (l : list subpaths) (J : jstore) (S : surroundings) (w : vorder)
    (orc : oracle) (orcs : nat → nat → oracle) (meta : option (gmap string mres)) (o : object) (x : mist) : object * mist * status :=
  let finish mig buf := MiSt ∅ mig true buf in
  match meta with
  | None => (o, finish (mi_migrated x) (mi_buf x), SErr "cannot get migration metadata")
  | Some meta =>
      let head := inv_head (ob_inv o) in
      let versions := sorted_names ((o_vers orc 0 (inv_versions (ob_inv o))).*1) in
      match rev versions with
      | _ :: prev :: _ =>
          match mi_loop E S orcs 0 prev ((map_to_list meta).*1) (vo w 0 (mi_files x)) (mi_migrated x) [] o with
          | (o1, mig, lines, SOk) =>
              let buf := <[head := lines]> (mi_buf x) in
              let '(o2, st) := write_jsonl Z E l J (shift_oracle orc) (z_br Z (text_of L lines)) o1 in
              (o2, finish mig buf, st)
          | (o1, mig, _, st) => (o1, finish mig (mi_buf x), st)
          end
      | _ => (o, finish (mi_migrated x) (mi_buf x), SErr "no previous version")
      end
  end.
