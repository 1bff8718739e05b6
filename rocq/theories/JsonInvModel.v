(** The inventory as JSON: /repo/pkg/ocfl/inventorytypes.go, the struct tags of inventorybase.go:20-38, and loadInventory
    (objectbase.go:237-281), on top of the value model of encoding/json (JsonModel.v).  Only executable definitions. *)
From Coq Require Import Ascii.
From stdpp Require Import base list strings gmap.
From Coq Require Import ZArith.
From Verif Require Import GoStr InventoryModel ValidateModel JsonModel.

(** * Writing *)

(** encode.go mapEncoder: the members in the order of their keys (byte order). *)
Definition members {A} (f : A → json) (m : gmap string A) : list (string * json) :=
  omap (λ k, (λ a, (k, f a)) <$> m !! k) (str_sort (map_to_list m).*1).
(** map[string][]string.  A nil slice, written as null, and an empty one, written as [], are identified (InventoryModel.v). *)
Definition strs_json (l : list string) : json := JArr (map JStr l).
Definition smap_json (m : smap) : json := JObj (members strs_json m).
(** inventorytypes.go:97-104 User, OCFLUser (no MarshalJSON, the embedded struct is written); :137-142 Version; :77-80
    OCFLTime is written as its RFC 3339 form, which is what [v_created] holds. *)
Definition version_json (v : version) : json :=
  JObj [("created", JStr (v_created v)); ("message", JStr (v_message v)); ("state", smap_json (v_state v));
        ("user", JObj [("address", JStr (v_uaddr v)); ("name", JStr (v_uname v))])].
(** inventorybase.go:29-36: the fields with omitempty are left out if empty; the manifest is a pointer, not nil after Finalize. *)
Definition inventory_json (i : inventory) : json :=
  JObj ([("id", JStr (inv_id i)); ("type", JStr (inv_type i)); ("digestAlgorithm", JStr (inv_alg i)); ("head", JStr (inv_head i))] ++
        (if decide (inv_contentdir i = "") then [] else [("contentDirectory", JStr (inv_contentdir i))]) ++
        [("manifest", smap_json (inv_manifest i)); ("versions", JObj (members version_json (inv_versions i)))] ++
        (if decide (inv_fixity i = ∅) then [] else [("fixity", JObj (members smap_json (inv_fixity i)))])).
(** objectbase.go:346 json.MarshalIndent(object.i, "", "   "). *)
Definition inventory_text (i : inventory) : string := render (inventory_json i).

(** * Reading *)

(** decode.go: every function returns the new value and whether an UnmarshalTypeError was recorded; decoding goes on after such an
    error.  null leaves a string as it is, and makes pointers, maps and slices nil. *)
Definition dec_string (cur : string) (j : json) : string * bool :=
  match j with
  | JStr s => (s, false)
  | JNull => (cur, false)
  | _ => (cur, true)
  end.
(** Into a fresh []string. *)
Definition dec_strings (j : json) : list string * bool :=
  match j with
  | JArr l => (map (λ j, fst (dec_string "" j)) l, existsb (λ j, snd (dec_string "" j)) l)
  | JNull => ([], false)
  | _ => ([], true)
  end.
(** Into a map: the members are added one by one; a value with an error is still added. *)
Definition dec_members {A} (f : json → A * bool) (cur : gmap string A) (l : list (string * json)) : gmap string A * bool :=
  (foldl (λ m p, <[p.1 := (f p.2).1]> m) cur l, existsb (λ p, (f p.2).2) l).
Definition dec_map {A} (f : json → A * bool) (cur : gmap string A) (j : json) : gmap string A * bool :=
  match j with
  | JObj l => dec_members f cur l
  | JNull => (∅, false)
  | _ => (cur, true)
  end.
Definition dec_smap : smap → json → smap * bool := dec_map dec_strings.

(** inventorytypes.go:53-61 OCFLString.UnmarshalJSON behind a pointer: null makes the pointer nil, everything else but a string
    sets err (which a later member with the same key does not clear). *)
Definition dec_ostr (cur : option ostr) (j : json) : option ostr :=
  let c := default (OStr "" false) cur in
  match j with
  | JNull => None
  | JStr s => Some (OStr s (os_err c))
  | _ => Some (OStr (os_val c) true)
  end.
(** inventorytypes.go:81-95 OCFLTime.UnmarshalJSON.  [tm] is time.Parse(time.RFC3339, s), giving the printed time; [t0] the printed
    zero time. *)
Definition dec_time (tm : string → option string) (t0 : string) (cur : option ostr) (j : json) : option ostr :=
  let c := default (OStr t0 false) cur in
  match j with
  | JNull => None
  | JStr s => match tm s with Some t => Some (OStr t (os_err c)) | None => Some (OStr (os_val c) true) end
  | _ => Some (OStr (os_val c) true)
  end.
(** inventorytypes.go:28-35 OCFLState.UnmarshalJSON. *)
Definition dec_state (cur : option (smap * bool)) (j : json) : option (smap * bool) :=
  match j with
  | JNull => None
  | _ => let '(m, e) := dec_smap ∅ j in Some (m, match cur with Some (_, e0) => e0 || e | None => e end)
  end.

(** decode.go object, foldFunc: the name of a member is compared with the names of the fields first exactly, then ignoring case.
    For ASCII names this is ASCII case, U+017F for s (and U+212A for k, which occurs in no field name).  The field names
    differ from each other when case is ignored, so the exact comparison need not be done first. *)
Fixpoint fold_name (s : string) : string :=
  match s with
  | "" => ""
  | String a s1 =>
      match s1 with
      | String b s2 =>
          if (N_of_ascii a =? 197)%N && (N_of_ascii b =? 191)%N then String "s" (fold_name s2)
          else String (lower_ascii a) (fold_name s1)
      | "" => String (lower_ascii a) ""
      end
  end.
Definition field (name k : string) : bool := bool_decide (fold_name k = to_lower name).

(** inventorytypes.go:117-126 OCFLUser.UnmarshalJSON: User is decoded into a fresh struct. *)
Definition dec_user_member (u : option ostr * option ostr) (p : string * json) : option ostr * option ostr :=
  if field "address" p.1 then (dec_ostr u.1 p.2, u.2)
  else if field "name" p.1 then (u.1, dec_ostr u.2 p.2)
  else u.
Definition dec_user (cur : option udoc) (j : json) : option udoc :=
  let c := default (UDoc false None None) cur in
  match j with
  | JNull => None
  | JObj l => let '(addr, name) := foldl dec_user_member (None, None) l in Some (UDoc (u_err c) name addr)
  | _ => Some (UDoc true (u_name c) (u_addr c))
  end.
(** inventorytypes.go:137-142 Version, into a fresh struct.  [None] is a nil pointer. *)
Definition dec_version_member (tm : string → option string) (t0 : string) (v : vdoc) (p : string * json) : vdoc :=
  if field "created" p.1 then VDoc (dec_time tm t0 (vd_created v) p.2) (vd_message v) (vd_state v) (vd_user v)
  else if field "message" p.1 then VDoc (vd_created v) (dec_ostr (vd_message v) p.2) (vd_state v) (vd_user v)
  else if field "state" p.1 then VDoc (vd_created v) (vd_message v) (dec_state (vd_state v) p.2) (vd_user v)
  else if field "user" p.1 then VDoc (vd_created v) (vd_message v) (vd_state v) (dec_user (vd_user v) p.2)
  else v.
Definition dec_version (tm : string → option string) (t0 : string) (j : json) : option vdoc * bool :=
  match j with
  | JNull => (None, false)
  | JObj l => (Some (foldl (dec_version_member tm t0) (VDoc None None None None) l), false)
  | _ => (Some (VDoc None None None None), true)
  end.
(** inventorytypes.go:198-205 OCFLManifest.UnmarshalJSON; the recorded error is never looked at. *)
Definition dec_manifest (j : json) : option smap :=
  match j with
  | JNull => None
  | _ => Some (dec_smap ∅ j).1
  end.
(** inventorytypes.go:224-231 OCFLVersions.UnmarshalJSON; the recorded error is never looked at. *)
Definition dec_versions (tm : string → option string) (t0 : string) (j : json) : option (gmap string (option vdoc)) :=
  match j with
  | JNull => None
  | _ => Some (dec_map (dec_version tm t0) ∅ j).1
  end.

(** The struct of inventorybase.go:29-36, with nil pointers, and whether an error was recorded. *)
Record raw := Raw {
  r_id : string;
  r_type : string;
  r_alg : string;
  r_head : option ostr;
  r_cdir : string;
  r_manifest : option smap;
  r_versions : option (gmap string (option vdoc));
  r_fixity : gmap string smap;
  r_err : bool
}.
Definition dec_member (tm : string → option string) (t0 : string) (r : raw) (p : string * json) : raw :=
  let '(k, j) := p in
  if field "id" k then
    let '(s, e) := dec_string (r_id r) j in
    Raw s (r_type r) (r_alg r) (r_head r) (r_cdir r) (r_manifest r) (r_versions r) (r_fixity r) (r_err r || e)
  else if field "type" k then
    let '(s, e) := dec_string (r_type r) j in
    Raw (r_id r) s (r_alg r) (r_head r) (r_cdir r) (r_manifest r) (r_versions r) (r_fixity r) (r_err r || e)
  else if field "digestAlgorithm" k then
    let '(s, e) := dec_string (r_alg r) j in
    Raw (r_id r) (r_type r) s (r_head r) (r_cdir r) (r_manifest r) (r_versions r) (r_fixity r) (r_err r || e)
  else if field "head" k then
    Raw (r_id r) (r_type r) (r_alg r) (dec_ostr (r_head r) j) (r_cdir r) (r_manifest r) (r_versions r) (r_fixity r) (r_err r)
  else if field "contentDirectory" k then
    let '(s, e) := dec_string (r_cdir r) j in
    Raw (r_id r) (r_type r) (r_alg r) (r_head r) s (r_manifest r) (r_versions r) (r_fixity r) (r_err r || e)
  else if field "manifest" k then
    Raw (r_id r) (r_type r) (r_alg r) (r_head r) (r_cdir r) (dec_manifest j) (r_versions r) (r_fixity r) (r_err r)
  else if field "versions" k then
    Raw (r_id r) (r_type r) (r_alg r) (r_head r) (r_cdir r) (r_manifest r) (dec_versions tm t0 j) (r_fixity r) (r_err r)
  else if field "fixity" k then
    let '(m, e) := dec_map (dec_smap ∅) (r_fixity r) j in
    Raw (r_id r) (r_type r) (r_alg r) (r_head r) (r_cdir r) (r_manifest r) (r_versions r) m (r_err r || e)
  else r.
(** inventorybase.go:40-56 newInventoryBase; [spec] is the type of the specification chosen by loadInventory. *)
Definition raw0 (spec : string) : raw := Raw "" spec "" (Some (OStr "" false)) "" None (Some ∅) ∅ false.
Definition dec_inventory (tm : string → option string) (t0 spec : string) (l : list (string * json)) : raw :=
  foldl (dec_member tm t0) (raw0 spec) l.

(** json.Unmarshal into map[string]any fails if a number does not fit into a float64; [fits] is strconv.ParseFloat. *)
Fixpoint all_fit (fits : string → bool) (j : json) : bool :=
  match j with
  | JNum lit => fits lit
  | JArr l => forallb (all_fit fits) l
  | JObj l => forallb (λ p : string * json, all_fit fits p.2) l
  | _ => true
  end.
(** The last member with exactly this key: anyMap[k]. *)
Definition member (k : string) (l : list (string * json)) : option json :=
  foldl (λ r p, if bool_decide (p.1 = k) then Some p.2 else r) None l.

(** objectbase.go:250-257: the type decides which specification is used. *)
Definition spec_of (t : string) : string :=
  if bool_decide (t = "https://ocfl.io/1.1/spec/#inventory") then "https://ocfl.io/1.1/spec/#inventory"
  else "https://ocfl.io/1.0/spec/#inventory".

(** Nil pointers that Finalize and check run into: the head (inventorybase.go:313), a version (inventorybase.go:141; with a name
    that is no number Finalize skips it and checkVersions, inventorybase.go:592, runs into it). *)
Definition no_nil (r : raw) : option doc :=
  match r_head r with
  | None => None
  | Some h =>
      let vs := default ∅ (r_versions r) in
      if bool_decide (map_Forall (λ _ v, is_Some v) vs) then
        Some (Doc (r_id r) (r_type r) (r_alg r) h (r_cdir r) (r_manifest r) ((λ m : gmap string (option vdoc), (omap (λ v : option vdoc, v) m : gmap string vdoc)) <$> r_versions r) (r_fixity r) ∅ [] 0)
      else None
  end.

(** objectbase.go:237-281 loadInventory up to the call of Finalize: an error, a nil pointer that makes Finalize panic, or the document with the
    finding of lines 262-278 (E033 and E034 are never recorded: text with a syntax error has already failed at line 239). *)
Inductive loadres :=
| LFail (msg : string)
| LNil
| LDoc (fs : list finding) (d : doc).
Definition load_json (fits : string → bool) (tm : string → option string) (t0 : string) (j : json) : loadres :=
  if negb (all_fit fits j) then LFail "cannot unmarshal json" else
  match j with
  | JObj l =>
      match member "type" l with
      | None => LFail "no type in inventory"
      | Some (JStr t) =>
          let r := dec_inventory tm t0 (spec_of t) l in
          let fs := if r_err r then match member "head" l with Some (JStr _) => [] | _ => [Finding "E040" ["head"]] end else [] in
          match no_nil r with
          | None => LNil
          | Some d => LDoc fs d
          end
      | Some _ => LFail "type not a string in inventory"
      end
  | JNull => LFail "no type in inventory"
  | _ => LFail "cannot unmarshal json"
  end.
Definition load_text (fits : string → bool) (tm : string → option string) (t0 : string) (text : string) : loadres :=
  match read text with
  | None => LFail "cannot unmarshal json"
  | Some j => load_json fits tm t0 j
  end.

(** objectbase.go:280 Finalize(false) after loadInventory, and what is left of the document in an InventoryBase (inventorybase.go:20-38).
    [None]: an error or a panic.  The findings are in the validator model (CheckModel.v load_doc). *)
Definition to_version (v : vdoc) : version :=
  let u := default (UDoc false None None) (vd_user v) in
  Version (from_option os_val "" (vd_created v)) (from_option os_val "" (vd_message v)) (from_option os_val "" (u_name u))
    (from_option os_val "" (u_addr u)) (default ∅ (state_of v)).
Definition to_inventory (d : doc) : inventory :=
  Inventory (dc_id d) (dc_type d) (dc_alg d) (os_val (dc_head d)) (dc_contentdir d) (man d) (to_version <$> vers d) (dc_fixity d)
    (dc_fixalgs d) (dc_padding d) false false.
Definition parse_text (fits : string → bool) (tm : string → option string) (t0 : string) (w : vorder) (lx : lexicon) (text : string)
    : option inventory :=
  match load_text fits tm t0 text with
  | LDoc _ d =>
      match finalize w lx false d with
      | (d1, VDone _) => Some (to_inventory d1)
      | _ => None
      end
  | _ => None
  end.
(** The document for the validator model; a nil pointer, which makes the program panic, counts as an error. *)
Definition decode_text (fits : string → bool) (tm : string → option string) (t0 : string) (text : string) : option doc :=
  match load_text fits tm t0 text with
  | LDoc _ d => Some d
  | _ => None
  end.
