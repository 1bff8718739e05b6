(** The mets extension: /repo/pkg/extension/NNNN-mets.go.  The documents are modelled as what they contain, not as XML.  Only executable
    definitions. *)
From Coq Require Import Ascii.
From stdpp Require Import base list strings gmap.
From Coq Require Import ZArith.
From Verif Require Import GoStr PathModel InventoryModel ObjectModel AreaModel ValidateModel MetaModel JsonlModel MigrateModel.

(** * The documents *)

(** A location (FLocat, MdRef): URL:internal with a path in the object, or URL with a logical path. *)
Inductive mloc := Internal (href : string) | External (href : string).
(** FileType, lines 404-416, with the group (fileGrp) it is in. *)
Record mfile := MFile {
  m_group : string; m_id : string; m_sum : string; m_sumtype : string; m_mime : string; m_size : N; m_created : string; m_locs : list mloc
}.
(** MdSecType as newMDSec makes it, lines 1368-1396, without the date. *)
Record mdref := MdRef {
  r_id : string; r_group : string; r_loc : mloc; r_mime : string; r_created : string; r_size : N; r_type : string; r_other : string;
  r_sum : string; r_sumtype : string
}.
(** premis.File, lines 473-606: fixity, size and format.  Significant properties and the formats that siegfried found are left out. *)
Record pobject := PObject { p_id : string; p_sums : list (string * string); p_size : N; p_mime : string }.
(** premis.EventComplexType: packing (lines 417-472) with the object, the version it stands for and its date, and the address of the user; migration
    (lines 760-841) with the tool, the source (None if it was not found) and the outcome or the error.  Identifiers of events and the constant
    agents are left out. *)
Inductive pevent :=
| Packing (object date address : string)
| Migration (date tool : string) (source : option string) (outcome : string + string).
(** What the loop collects: files, dmdSecs, structPhysical as pairs of area and identifier, PREMIS objects and events. *)
Record macc := MAcc {
  c_files : list mfile; c_dmd : list mdref; c_struct : list (string * string); c_objects : list pobject; c_events : list pevent
}.
Definition mnone : macc := MAcc [] [] [] [] [].
Definition mapp (a b : macc) : macc :=
  MAcc (c_files a ++ c_files b) (c_dmd a ++ c_dmd b) (c_struct a ++ c_struct b) (c_objects a ++ c_objects b) (c_events a ++ c_events b).
(** The METS document: OBJID, the version and the message in the label, dmdSec, amdSec, fileSec (groups are merged into one list) and the struct
    maps, which both list structPhysical.  The PREMIS document. *)
Record mdoc := MDoc { d_id : string; d_head : string; d_message : string; d_files : list mfile; d_dmd : list mdref; d_amd : list mdref; d_struct : list (string * string) }.
Record pdoc := PDoc { pd_objects : list pobject; pd_events : list pevent }.

(** Lines 178-197 checksumTypeToMets. *)
Fixpoint to_upper (s : string) : string :=
  match s with
  | EmptyString => EmptyString
  | String c s' =>
      let n := N_of_ascii c in
      String (if ((97 <=? n) && (n <=? 122))%N then ascii_of_N (n - 32) else c) (to_upper s')
  end.
Definition sum_type (t : string) : string :=
  let t := to_upper t in
  if decide (t = "SHA512") then "SHA-512"
  else if decide (t = "SHA384") then "SHA-384"
  else if decide (t = "SHA256") then "SHA-256"
  else if decide (t = "SHA1") then "SHA-1"
  else if decide (t = "ADLER32") then "ADLER-32"
  else if decide (t ∈ ["CRC32"; "MD5"; "MNP"; "TIGER"; "WHIRLPOOL"]) then t
  else "".
(** Lines 1368-1396 newMDSec. *)
Definition new_md (id group : string) (loc : mloc) (mime created : string) (size : N) (type other sum sumtype : string) : mdref :=
  let type := if decide (type = "") then "OTHER" else type in
  let other := if decide (type = "OTHER" ∧ other = "") then "UNKNOWN" else other in
  MdRef id group loc mime created size type other sum (sum_type sumtype).
(** Lines 39-62. *)
Definition md_types : list string :=
  ["MARC"; "MODS"; "EAD"; "DC"; "NISOIMG"; "LC-AV"; "VRA"; "TEIHDR"; "DDI"; "FGDC"; "LOM"; "PREMIS"; "PREMIS:OBJECT"; "PREMIS:AGENT";
   "PREMIS:RIGHTS"; "PREMIS:EVENT"; "TEXTMD"; "METSRIGHTS"; "ISO 19115:2003 NAP"; "EAC-CPF"; "LIDO"; "OTHER"].

(** * The loop over the files *)

(** Why the hook stops without documents: it returns an error, or errors.Wrapf of a nil error, which is nil: the update goes on. *)
Inductive mstop := Silent | Failed (msg : string).

(** What the other extensions know about a file (lines 384-402, 489-606 and 760-768): size and date of the file system, mimetype and size
    if the indexer has a result, the result of a migration.  That they have the types that are expected is taken for granted. *)
Record fview := FView { f_size : N; f_created : string; f_index : option (string * N); f_migration : option mres }.
Definition f_mime (v : fview) : string := default "application/octet-stream" (fst <$> f_index v).

Section loop.
  Context {A : Type} (view : gmap string A → fview) (w : worders) (areas : gmap string string) (alg : string) (mext pext : string).
  Context (m : object_meta A) (head : string).

  (** Lines 618-631 and 692-702: the area of two path elements.  [areas]: the paths of the content-subpath extension, empty without it. *)
  Definition area_of (at_ : list nat) (first second : string) : string * bool :=
    match list_find (λ p : string * string, p.2 = first) (vo (w at_) 8 areas) with
    | Some (_, (a, _)) => (a, bool_decide (second = "schemas"))
    | None => (first, false)
    end.
  Definition external_area (at_ : list nat) (p : string) : string * bool :=
    match split_slash p with
    | a :: b :: _ => area_of at_ a b
    | _ => ("content", false)
    end.
  (** Lines 608-631; None stands for the returns in lines 610 and 613. *)
  Definition internal_area (at_ : list nat) (p : string) : option (string * bool) :=
    match split_slash p with
    | _ :: c :: x :: rest =>
        if decide (c = "content") then
          Some (match rest with [] => ("content", false) | y :: _ => area_of at_ x y end)
        else None
    | _ => None
    end.
  (** Lines 607-686: the content paths of a file. *)
  Fixpoint internals (at_ : list nat) (k : nat) (id sum : string) (v : fview) (ps : list string) : option (list mdref * list (string * string) * list mloc) :=
    match ps with
    | [] => Some ([], [], [])
    | p :: ps' =>
        match internal_area (k :: at_) p with
        | None => None
        | Some (a, schema) =>
            match internals at_ (S k) id sum v ps' with
            | None => None
            | Some (md, st, ls) =>
                if decide (a = "metadata" ∧ schema = false) then
                  Some (new_md ("dmdSec-int-" +:+ id) "area-metadata" (Internal p) "" (f_created v) (f_size v) "" "" sum alg :: md, st, ls)
                else Some (md, ((if schema : bool then "schemas" else a), id) :: st, Internal p :: ls)
            end
        end
    end.
  (** Lines 417-472: one packing event for every version that has the content. *)
  Fixpoint packings (id : string) (vs : list (string * list string)) : list pevent + mstop :=
    match vs with
    | [] => inl []
    | (ver, _) :: vs' =>
        match om_versions m !! ver with
        | None => inr (Failed "cannot find version")
        | Some x => match packings id vs' with inl es => inl (Packing id (vm_created x) (vm_address x) :: es) | inr s => inr s end
        end
    end.

  (** A file of the head: digest, metadata and one logical name; the first loop (lines 359-378) gives every name an identifier.  What is
      kept as ingest version is never read. *)
  Definition files_of (n : nat) : list (string * file_meta A * string) :=
    vo (w []) n (om_files m) ≫= λ e, (λ p, (e.1, e.2, p)) <$> default [] (fm_versions e.2 !! head).
  Definition identifiers (u : nat → string) : gmap string (string * string) :=
    (foldl (λ (r : gmap string (string * string) * nat) (e : string * file_meta A * string),
              (<[e.2 := (u r.2, e.1.1)]> r.1, S r.2)) (∅, 0) (files_of 6)).1.

  Context (ids : gmap string (string * string)).
  (** Lines 760-841: the event of a migration; the source is any name with its digest. *)
  Definition migrations (at_ : list nat) (id : string) (v : fview) : list pevent + mstop :=
    match f_migration v with
    | None => inl []
    | Some r =>
        match om_versions m !! head with
        | None => inr (Failed "cannot find head version")
        | Some x =>
            let source := match list_find (λ e : string * (string * string), e.2.2 = mr_source r) (vo (w at_) 9 ids) with
                          | Some (_, (_, (i, _))) => if decide (i = "") then None else Some i
                          | None => match ids !! "" with Some (i, _) => if decide (i = "") then None else Some i | None => None end
                          end in
            inl [Migration (vm_created x) (mr_id r) source (if decide (mr_error r = "") then inl id else inr (mr_error r))]
        end
    end.
  (** Lines 383-849 for one name of a file. *)
  Definition one_file (at_ : list nat) (e : string * file_meta A * string) : macc + mstop :=
    let '(cs, f, p) := e in
    let id := default "" (fst <$> ids !! p) in
    let v := view (fm_ext f) in
    match packings id (vo (w (0 :: at_)) 10 (fm_versions f)) with
    | inr s => inr s
    | inl es =>
        match internals (1 :: at_) 0 id cs v (fm_internal f) with
        | None => inr Silent
        | Some (md, st, ls) =>
            let '(a, schema) := external_area (2 :: at_) p in
            if decide (a = "metadata" ∧ schema = false) then
              inl (MAcc [] (md ++ if decide (p = mext ∨ p = pext) then []
                                  else [new_md ("dmdSec-ext-" +:+ id) "area-metadata" (External p) "" (f_created v) (f_size v) "" "" cs alg]) st [] es)
            else
              match migrations (3 :: at_) id v with
              | inr s => inr s
              | inl es' =>
                  inl (MAcc [MFile (if schema : bool then "schemas" else a) id cs "SHA-512" (f_mime v)
                               (f_size v) (f_created v) (ls ++ [External p])] md st
                         [PObject id (match f_index v with
                                      | Some _ => (om_alg m, cs) :: vo (w (4 :: at_)) 11 (fm_checksums f)
                                      | None => []
                                      end) (default (f_size v) (snd <$> f_index v)) (f_mime v)] (es ++ es'))
              end
        end
    end.
  Fixpoint all_files (k : nat) (l : list (string * file_meta A * string)) : macc + mstop :=
    match l with
    | [] => inl mnone
    | e :: l' =>
        match one_file [k] e with
        | inr s => inr s
        | inl a => match all_files (S k) l' with inl b => inl (mapp a b) | inr s => inr s end
        end
    end.
End loop.

(** MetsConfig, lines 106-113, with the folder of the extension inside the object. *)
Record mconf := MConf { mc_type : string; mc_storage : string; mc_primary : string; mc_mets : string; mc_premis : string; mc_folder : string }.

(** Lines 854-885: type and logical name of the primary metadata. *)
Definition primary_name (areas : gmap string string) (t : string) : option (string * string) :=
  match split_on ":"%char t with
  | [ty; f] =>
      if decide (areas = ∅) then Some (ty, path_clean f)
      else match areas !! "content" with Some p => Some (ty, path_join [p; f]) | None => None end
  | [ty; a; f] => match areas !! a with Some p => Some (ty, path_join [p; f]) | None => None end
  | _ => None
  end.
(** Lines 854-1001: dmdSecs with the same digest are replaced; the others go into the struct map here and nowhere else. *)
Definition with_primary {A} (view : gmap string A → fview) (w : worders) (slug : string → string) (areas : gmap string string) (alg : string)
    (m : object_meta A) (head primary : string) (a : macc) : macc + mstop :=
  if decide (primary = "") then inl a
  else
    match primary_name areas primary with
    | None => inr (Failed "cannot find content sub path or invalid descriptive metadata")
    | Some (ty, name) =>
        match list_find (λ e : string * file_meta A, name ∈ default [] (fm_versions e.2 !! head)) (vo (w []) 7 (om_files m)) with
        | None => inr (Failed "cannot find descriptive metadata file")
        | Some (_, (cs, f)) =>
            let ty := to_upper ty in
            let '(ty, other) := if decide (ty ∈ md_types) then (ty, "") else ("OTHER", ty) in
            let v := view (fm_ext f) in
            let mime := f_mime v in
            let kept := List.filter (λ r, negb (bool_decide (r_sum r = cs))) (c_dmd a) in
            let ref kind loc := new_md ("dmdSec-" +:+ kind +:+ "-" +:+ slug (om_id m) +:+ "-" +:+ head) "primary-metadata" loc mime (f_created v) (f_size v)
                                  ty other cs alg in
            let new := match fm_internal f with p :: _ => [ref "int" (Internal p)] | [] => [] end ++
                       match default [] (fm_versions f !! head) with p :: _ => [ref "ext" (External p)] | [] => [] end in
            inl (MAcc (c_files a) (kept ++ new) (c_struct a ++ ((λ r, ("metadata", r_id r)) <$> kept ++ new)) (c_objects a) (c_events a))
        end
    end.

(** * The hook *)

(** Names of the two documents (lines 264-312): logical and internal ones.  fmt.Sprintf with the version of the object is [sprintf]. *)
Record mnames := MNames { n_mets : string; n_premis : string; n_premis_int : string }.
Definition mets_path (l : list subpaths) (C : mconf) (f : string) : option string :=
  (λ p, trim_left (path_join [p; mc_storage C; f]) "/") <$> area_path l "content".
Definition names_of (E : env) (l : list subpaths) (sprintf : string → string) (C : mconf) : mnames + mstop :=
  let t := to_lower (mc_type C) in
  let build fm fp area :=
    match e_state_path E fm area, e_manifest_path E fm area, e_state_path E fp area, e_manifest_path E fp area with
    | Some a, Some _, Some b, Some i => inl (MNames a b i)
    | _, _, _, _ => inr (Failed "cannot build names")
    end in
  if decide (t = "area") then build (mc_mets C) (mc_premis C) (mc_storage C)
  else if decide (t = "path") then
    match mets_path l C (mc_mets C), mets_path l C (mc_premis C) with
    | Some fm, Some fp => build fm fp ""
    | _, _ => inr (Failed "cannot get area path")
    end
  else if decide (t = "extension") then
    inl (MNames (mc_mets C) (mc_premis C) (trim_left (path_join [mc_storage C; sprintf (mc_premis C)]) "/"))
  else inr (Failed "unsupported storage type").

(** What is outside of the hook: XML, SHA-512, identifiers and slugs, the three schema files. *)
Record mout := MOut {
  mo_mets : mdoc → string; mo_premis : pdoc → string; mo_sha : string → string; mo_uuid : nat → string; mo_slug : string → string;
  mo_sprintf : string → string; mo_xsd : list (string * string)
}.
(** Lines 225-1290: both documents. *)
Definition documents {A} (view : gmap string A → fview) (w : worders) (O : mout) (E : env) (l : list subpaths) (areas : gmap string string) (C : mconf)
    (exts : list (string * (gmap string A + string))) (i : inventory) : (mdoc * pdoc) + mstop :=
  match get_metadata w exts i with
  | inr e => inr (Failed e)
  | inl m =>
      let head := inv_head i in
      match inv_versions i !! head with
      | None => inr Silent
      | Some ver =>
          match names_of E l (mo_sprintf O) C with
          | inr s => inr s
          | inl N =>
              match all_files view w areas (inv_alg i) (n_mets N) (n_premis N) m head (identifiers w m head (mo_uuid O)) 0 (files_of w m head 7) with
              | inr s => inr s
              | inl a =>
                  match with_primary view w (mo_slug O) areas (inv_alg i) m head (mc_primary C) a with
                  | inr s => inr s
                  | inl a =>
                      let P := PDoc (c_objects a) (c_events a) in
                      let data := mo_premis O P in
                      let amd id loc := new_md id "" loc "application/xml" "" (N.of_nat (String.length data)) "PREMIS" "" (mo_sha O data) "SHA-512" in
                      let refs := [amd "amdSec-int" (Internal (n_premis_int N)); amd "amdSec-ext" (External (n_premis N))] in
                      inl (MDoc (om_id m) head (v_message ver) (c_files a) (c_dmd a) refs
                             (c_struct a ++ [("metadata", "amdSec-int"); ("metadata", "amdSec-ext")]), P)
                  end
              end
          end
      end
  end.
(** Lines 1292-1342: the calls with which the documents are stored. *)
Definition mets_calls (O : mout) (C : mconf) (l : list subpaths) (D : mdoc) (P : pdoc) : list sop :=
  if decide (to_lower (mc_type C) = "area") then
    SAdd (mo_mets O D) (mc_mets C) (mc_storage C) false :: SAddReader (mo_premis O P) [mc_premis C] (mc_storage C) ::
    ((λ x : string * string, SAdd x.2 ("schemas/" +:+ x.1) (mc_storage C) true) <$> mo_xsd O)
  else
    match mets_path l C (mc_mets C), mets_path l C (mc_premis C) with
    | Some fm, Some fp =>
        SAdd (mo_mets O D) fm "" false :: SAddReader (mo_premis O P) [fp] "" :: ((λ x : string * string, SAdd x.2 ("schemas/" +:+ x.1) "" true) <$> mo_xsd O)
    | _, _ => []
    end.
(** In the folder of the extension: line 1349 writes the METS document into the PREMIS file. *)
Definition mets_files (O : mout) (C : mconf) (D : mdoc) : list (string * string) :=
  let at_ f := path_join [mc_folder C; trim_left (path_join [mc_storage C; mo_sprintf O f]) "/"] in
  (at_ (mc_mets C), mo_mets O D) :: (at_ (mc_premis C), mo_mets O D) ::
  ((λ x : string * string, (path_join [mc_folder C; "schemas/" +:+ x.1], x.2)) <$> mo_xsd O).
(** UpdateObjectAfter, lines 224-1366.  [orcs]: the map orders of the calls. *)
Definition mets_after {A} (view : gmap string A → fview) (w : worders) (O : mout) (E : env) (l : list subpaths) (areas : gmap string string) (C : mconf)
    (exts : list (string * (gmap string A + string))) (orcs : nat → oracle) (o : object) : object * status :=
  match documents view w O E l areas C exts (ob_inv o) with
  | inr Silent => (o, SOk)
  | inr (Failed e) => (o, SErr e)
  | inl (D, P) =>
      if decide (to_lower (mc_type C) = "extension") then (emit (mets_files O C D ≫= λ e, write_file e.1 e.2) o, SOk)
      else sops_run E (imap (λ k op, HCall (orcs k) op) (mets_calls O C l D P)) o
  end.
