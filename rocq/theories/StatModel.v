(** The statistics of a storage root and of its objects: /repo/pkg/ocfl/objectbase.go:161-216 Stat, storagerootbase.go:518-607 Stat and stat.go.
    Only executable definitions. *)
From Coq Require Import Ascii.
From stdpp Require Import base list strings gmap.
From Coq Require Import ZArith.
From Verif Require Import GoStr InventoryModel.

(** stat.go:3-15 StatInfo. *)
Inductive stat_info := ObjectFolders | Extension | ExtensionConfigs | Objects | ObjectVersions | ObjectVersionState | ObjectManifest
| ObjectExtension | ObjectExtensionConfigs.
Global Instance stat_info_dec : EqDecision stat_info.
Proof. solve_decision. Defined.
(** slices.Contains(statInfo, k) || len(statInfo) == 0. *)
Definition wants (info : list stat_info) (k : stat_info) : bool :=
  bool_decide (k ∈ info) || match info with [] => true | _ => false end.

(** The lines that objectbase.go:161-216 prints, one constructor for each Fprintf. *)
Inductive line :=
| LPath (alg : string)
| LHead (head : string)
| LFixity (algs : list string)
| LManifest (files uniq : N)
| LVersion (ver : string)
| LUser (name address : string)
| LCreated (created : string)
| LMessage (message : string)
| LFile (path : string)
| LContent (path : string)
| LInitial (json : string)
| LConfigs
| LConfig (json : string).
Global Instance line_dec : EqDecision line.
Proof. solve_decision. Defined.
(** The text of a line without the end of line; LInitial (objectbase.go:206) and LConfig (212) take several lines, their breaks are kept as "|". *)
Definition text (id : string) (l : line) : string :=
  let b := "[" +:+ id +:+ "] " in
  match l with
  | LPath a => b +:+ "Path: " +:+ a
  | LHead h => b +:+ "Head: " +:+ h
  | LFixity l => b +:+ "Fixity: " +:+ str_join ", " l
  | LManifest n u => b +:+ "Manifest: " +:+ dec_of_N n +:+ " files (" +:+ dec_of_N u +:+ " unique files)"
  | LVersion v => b +:+ "Version " +:+ v
  | LUser n a => b +:+ "    User: " +:+ n +:+ " (" +:+ a +:+ ")"
  | LCreated c => b +:+ "    Created: " +:+ c
  | LMessage m => b +:+ "    Message: " +:+ m
  | LFile p => b +:+ "       " +:+ p
  | LContent p => b +:+ "          " +:+ p
  | LInitial j => b +:+ "Initial Extension:|---|" +:+ j +:+ "|---"
  | LConfigs => b +:+ "Extension Configurations:"
  | LConfig j => "---|" +:+ j
  end.

(** Orders of the map loops: over the fixity blocks, the manifest, the versions, and the state of a version. *)
Record stat_order := StatOrder {
  so_fixity : gmap string smap → list (string * smap);
  so_manifest : smap → list (string * list string);
  so_versions : gmap string version → list (string * version);
  so_state : string → smap → list (string * list string)
}.

(** An object as Stat sees it: its folder below the storage root, the loaded inventory (Finalize has filled missing fields), the JSON text of the
    configuration of the extension manager ([None]: it cannot be marshalled) and those of its extensions. *)
Record stat_object := StatObject {
  st_folder : string;
  st_inv : inventory;
  st_initial : option string;
  st_configs : list string
}.

(** objectbase.go:188-195. *)
Definition stat_contents (info : list stat_info) (m : smap) (cs : string) : list line :=
  if wants info ObjectManifest then match m !! cs with Some ms => LContent <$> ms | None => [] end else [].
(** objectbase.go:185-197. *)
Definition stat_state (o : stat_order) (info : list stat_info) (m : smap) (ver : string) (st : smap) : list line :=
  so_state o ver st ≫= λ '(cs, sl), sl ≫= λ s, LFile s :: stat_contents info m cs.
(** objectbase.go:178-199. *)
Definition stat_version (o : stat_order) (info : list stat_info) (m : smap) (p : string * version) : list line :=
  LVersion p.1 :: LUser (v_uname p.2) (v_uaddr p.2) :: LCreated (v_created p.2) :: LMessage (v_message p.2) ::
  (if wants info ObjectVersionState then stat_state o info m p.1 (v_state p.2) else []).
(** objectbase.go:162-176. *)
Definition stat_head (o : stat_order) (i : inventory) : list line :=
  [LPath (inv_alg i); LHead (inv_head i); LFixity (fst <$> so_fixity o (inv_fixity i));
   LManifest (foldl (λ n p, (n + N.of_nat (length p.2))%N) 0%N (so_manifest o (inv_manifest i))) (N.of_nat (size (inv_manifest i)))].
(** objectbase.go:177-200. *)
Definition stat_versions (o : stat_order) (info : list stat_info) (i : inventory) : list line :=
  if wants info ObjectVersions then so_versions o (inv_versions i) ≫= stat_version o info (inv_manifest i) else [].
(** objectbase.go:201-214: the printed lines and the outcome. *)
Definition stat_configs (info : list stat_info) (x : stat_object) : list line * status :=
  if wants info ObjectExtensionConfigs then
    match st_initial x with
    | None => ([], SErr "cannot marshal ExtensionManagerConfig")
    | Some j => (LInitial j :: LConfigs :: (LConfig <$> st_configs x), SOk)
    end
  else ([], SOk).
(** objectbase.go:161-216 Stat.  Errors of the writer are ignored by the code. *)
Definition object_stat (o : stat_order) (x : stat_object) (info : list stat_info) : list line * status :=
  let '(ls, r) := stat_configs info x in (stat_head o (st_inv x) ++ stat_versions o info (st_inv x) ++ ls, r).

(** The lines of storagerootbase.go:518-607. *)
Inductive rline :=
| RRoot
| RVersion (v : string)
| RInitial (json : string)
| RConfigs
| RConfig (json : string)
| RFolders (l : list string)
| RObject (name : string)
| RLine (id : string) (l : line)
| RCannot (name err : string).
Global Instance rline_dec : EqDecision rline.
Proof. solve_decision. Defined.

(** A storage root as Stat sees it: the version, the configurations, GetObjectFolders ([None]: an error), LoadObjectByFolder and LoadObjectByID. *)
Record stat_root := StatRoot {
  sr_version : string;
  sr_initial : option string;
  sr_configs : list string;
  sr_folders : option (list string);
  sr_by_folder : string → stat_object + string;
  sr_by_id : string → stat_object + string
}.

(** storagerootbase.go:525-544. *)
Definition root_configs (info : list stat_info) (r : stat_root) : list rline * status :=
  if wants info ExtensionConfigs then
    match sr_initial r with
    | None => ([], SErr "cannot marshal ExtensionManagerConfig")
    | Some j => (RInitial j :: RConfigs :: (RConfig <$> sr_configs r), SOk)
    end
  else ([], SOk).
(** One object: the title and its lines. *)
Definition root_object (o : stat_order) (info : list stat_info) (name : string) (x : stat_object) : list rline * status :=
  let '(ls, e) := object_stat o x info in
  (RObject name :: (RLine (inv_id (st_inv x)) <$> ls), match e with SOk => SOk | _ => SErr "cannot show stats for object" end).
(** storagerootbase.go:575-587: the loop over the folders ends with the first error. *)
Fixpoint root_objects (o : string → stat_order) (info : list stat_info) (r : stat_root) (fs : list string) : list rline * status :=
  match fs with
  | [] => ([], SOk)
  | f :: fs =>
    match sr_by_folder r f with
    | inr e => ([], SErr "cannot open object in folder")
    | inl x =>
      match root_object (o f) info f x with
      | (ls, SOk) => let '(ls', e) := root_objects o info r fs in (ls ++ ls', e)
      | (ls, e) => (ls, e)
      end
    end
  end.
(** storagerootbase.go:546-588: no object is named. *)
Definition root_all (o : string → stat_order) (info : list stat_info) (r : stat_root) : list rline * status :=
  match sr_folders r with
  | None => ([], SErr "cannot get object folders")
  | Some fs =>
    match sr_initial r with
    | None => ([RFolders fs], SErr "cannot marshal ExtensionManagerconfig")
    | Some j =>
      let cs := if wants info ExtensionConfigs then RInitial j :: RConfigs :: (RConfig <$> sr_configs r) else [] in
      let '(ls, e) := if wants info Objects then root_objects o info r fs else ([], SOk) in
      (RFolders fs :: cs ++ ls, e)
    end
  end.
(** storagerootbase.go:589-606: an object is named by its folder or its identifier. *)
Definition root_one (o : string → stat_order) (info : list stat_info) (r : stat_root) (path id : string) : list rline * status :=
  match (if decide (path = "") then sr_by_id r id else sr_by_folder r path) with
  | inr e => ([RCannot (path +:+ id) e], SErr "cannot load object")
  | inl x => root_object (o (path +:+ id)) info (path +:+ id) x
  end.
(** storagerootbase.go:518-607 Stat, for a writer that does not fail.  [o] gives the orders for each object. *)
Definition root_stat (o : string → stat_order) (r : stat_root) (path id : string) (info : list stat_info) : list rline * status :=
  match root_configs info r with
  | (cs, SOk) =>
    let '(ls, e) := if decide (path = "" ∧ id = "") then root_all o info r else root_one o info r path id in
    (RRoot :: RVersion (sr_version r) :: cs ++ ls, e)
  | (cs, e) => (RRoot :: RVersion (sr_version r) :: cs, e)
  end.

(** gocfl/cmd/stat.go:106-120 with doStatConf (52-57): the words of the --stat-info option.  [None]: the command ends with an error.  TrimSpace removes
    ASCII blanks only. *)
Definition info_names : list (string * stat_info) :=
  [("ObjectFolders", ObjectFolders); ("Extension", Extension); ("ExtensionConfigs", ExtensionConfigs); ("Objects", Objects);
   ("ObjectVersions", ObjectVersions); ("ObjectVersionState", ObjectVersionState); ("ObjectManifest", ObjectManifest);
   ("ObjectExtension", ObjectExtension); ("ObjectExtensionConfigs", ObjectExtensionConfigs)].
Definition blanks : string := String (ascii_of_nat 9) (String (ascii_of_nat 10) (String (ascii_of_nat 13) " ")).
Definition parse_word (s : string) : option (list stat_info) :=
  let s := to_lower (trim_right (trim_left s blanks) blanks) in
  match filter (λ p, to_lower p.1 = s) info_names with
  | [] => None
  | l => Some (snd <$> l)
  end.
Definition parse_infos (s : string) : option (list stat_info) :=
  if decide (s = "") then Some []
  else mjoin <$> mapM parse_word (split_on ","%char s).
