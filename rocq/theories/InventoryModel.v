(** Model of the inventory of an OCFL object while it is being updated:
    /repo/pkg/ocfl/inventorybase.go and inventorytypes.go.  Only executable definitions, no proofs. *)
From Coq Require Import Ascii.
From stdpp Require Import base list strings gmap.
From Coq Require Import ZArith.
From Verif Require Import GoStr.

(** Go [map[string][]string]: manifest, state and one fixity block.  nil and empty slices are identified. *)
Notation smap := (gmap string (list string)).

(** inventorytypes.go:Version (the [err] fields of the JSON types are not part of this record; they matter only for
    validation).  The creation time is kept as its printed form. *)
Record version := Version {
  v_created : string;
  v_message : string;
  v_uname : string;
  v_uaddr : string;
  v_state : smap
}.

(** inventorybase.go:20-38 InventoryBase.  [inv_padding] is paddingLength, [inv_fixalgs] fixityDigestAlgorithms. *)
Record inventory := Inventory {
  inv_id : string;
  inv_type : string;
  inv_alg : string;
  inv_head : string;
  inv_contentdir : string;
  inv_manifest : smap;
  inv_versions : gmap string version;
  inv_fixity : gmap string smap;
  inv_fixalgs : list string;
  inv_padding : Z;
  inv_modified : bool;
  inv_writeable : bool
}.

Definition set_head (h : string) (i : inventory) : inventory :=
  Inventory (inv_id i) (inv_type i) (inv_alg i) h (inv_contentdir i) (inv_manifest i)
    (inv_versions i) (inv_fixity i) (inv_fixalgs i) (inv_padding i) (inv_modified i) (inv_writeable i).
Definition set_manifest (m : smap) (i : inventory) : inventory :=
  Inventory (inv_id i) (inv_type i) (inv_alg i) (inv_head i) (inv_contentdir i) m
    (inv_versions i) (inv_fixity i) (inv_fixalgs i) (inv_padding i) (inv_modified i) (inv_writeable i).
Definition set_versions (vs : gmap string version) (i : inventory) : inventory :=
  Inventory (inv_id i) (inv_type i) (inv_alg i) (inv_head i) (inv_contentdir i) (inv_manifest i)
    vs (inv_fixity i) (inv_fixalgs i) (inv_padding i) (inv_modified i) (inv_writeable i).
Definition set_fixity (f : gmap string smap) (i : inventory) : inventory :=
  Inventory (inv_id i) (inv_type i) (inv_alg i) (inv_head i) (inv_contentdir i) (inv_manifest i)
    (inv_versions i) f (inv_fixalgs i) (inv_padding i) (inv_modified i) (inv_writeable i).
Definition set_modified (b : bool) (i : inventory) : inventory :=
  Inventory (inv_id i) (inv_type i) (inv_alg i) (inv_head i) (inv_contentdir i) (inv_manifest i)
    (inv_versions i) (inv_fixity i) (inv_fixalgs i) (inv_padding i) b (inv_writeable i).
Definition set_writeable (b : bool) (i : inventory) : inventory :=
  Inventory (inv_id i) (inv_type i) (inv_alg i) (inv_head i) (inv_contentdir i) (inv_manifest i)
    (inv_versions i) (inv_fixity i) (inv_fixalgs i) (inv_padding i) (inv_modified i) b.
Definition set_state (s : smap) (v : version) : version :=
  Version (v_created v) (v_message v) (v_uname v) (v_uaddr v) s.

(** Outcome of a call besides its effect on the receiver: success, an error value, or a Go panic. *)
Inductive status := SOk | SErr (msg : string) | SPanic.

(** Map iteration order.  [o_state n ver m] is the order in which the [n]-th loop of a call runs over the state map [m]
    of version [ver]; [o_vers n m] the order of the [n]-th loop over the versions map. *)
Record oracle := Oracle {
  o_state : nat → string → smap → list (string * list string);
  o_vers : nat → gmap string version → list (string * version)
}.
Definition oracle_ok (orc : oracle) : Prop :=
  (∀ n ver m, o_state orc n ver m ≡ₚ map_to_list m) ∧
  (∀ n m, o_vers orc n m ≡ₚ map_to_list m).
(** A canonical oracle, used in examples. *)
Definition default_oracle : oracle := Oracle (λ _ _ m, map_to_list m) (λ _ m, map_to_list m).

(** inventorybase.go:753 vRegexp ^v(\d+)$ followed by strconv.Atoi (64 bit overflow not modelled). *)
Definition vnum (s : string) : option N :=
  match s with
  | String "v" r => N_of_dec r
  | _ => None
  end%char.
(** fmt.Sprintf("v%d", n). *)
Definition vstr (n : N) : string := String "v" (dec_of_N n).

(** inventorybase.go:112-117 Init after newInventoryBase (inventorybase.go:40-56): a fresh inventory.
    paddingLength starts at 0; the nil manifest becomes an empty map in Finalize(true) (inventorybase.go:119-127). *)
Definition new_inventory (id typ alg : string) (fixalgs : list string) : inventory :=
  Inventory id typ alg "" "" ∅ ∅ ∅ fixalgs 0 false false.

(** inventorybase.go:183-188 GetContentDir. *)
Definition content_dir (i : inventory) : string :=
  if decide (inv_contentdir i = "") then "content" else inv_contentdir i.

(** [i.Versions.Versions[i.Head.string].State.State], [None] if the version is missing (nil dereference in Go). *)
Definition head_version (i : inventory) : option version := inv_versions i !! inv_head i.
Definition head_state (i : inventory) : option smap := v_state <$> head_version i.
Definition put_head_state (s : smap) (v : version) (i : inventory) : inventory :=
  set_versions (<[inv_head i := set_state s v]> (inv_versions i)) i.

(** inventorybase.go:718-738: the name of the next version. None is the Atoi error. *)
Definition next_head (i : inventory) : option string :=
  if decide (inv_head i = "") then
    if decide (inv_padding i <= 0)%Z then Some "v1"
    else Some ("v0" +:+ dec_pad (Z.to_nat (inv_padding i)) 1)
  else
    match atoi (trim_left (to_lower (inv_head i)) "v0") with
    | None => None
    | Some v =>
        if decide (inv_padding i <= 0)%Z then Some (String "v" (dec_of_Z (v + 1)))
        else Some ("v0" +:+ dec_pad (Z.to_nat (inv_padding i)) (v + 1))
    end.

(** inventorybase.go:712-751 NewVersion; [now] is the printed wall clock.  copyMapStringSlice (helper.go:136-141) copies
    every slice, so the new state is an independent copy: value semantics of the model is adequate.
    If the old head is not in the versions map Go dereferences nil after having stored the new version. *)
Definition new_version (now msg uname uaddr : string) (i : inventory) : inventory * status :=
  match next_head i with
  | None => (i, SErr "cannot determine head")
  | Some h =>
      let fresh := Version now msg uname uaddr ∅ in
      if decide (inv_head i = "") then
        (set_writeable true (set_versions (<[h := fresh]> (inv_versions i)) (set_head h i)), SOk)
      else
        let i1 := set_versions (<[h := fresh]> (inv_versions i)) (set_head h i) in
        match inv_versions i1 !! inv_head i with
        | None => (i1, SPanic)
        | Some old =>
            (set_writeable true
               (set_versions (<[h := set_state (v_state old) fresh]> (inv_versions i1)) i1), SOk)
        end
  end.

(** inventorybase.go:755-778 getLastVersion over the versions in iteration order: None is the empty string. For equal
    numbers (v1 and v01) the one iterated last wins. *)
Fixpoint nums (l : list string) : option (list (N * string)) :=
  match l with
  | [] => Some []
  | s :: l' =>
      match vnum s, nums l' with
      | Some n, Some r => Some ((n, s) :: r)
      | _, _ => None
      end
  end.
Definition max_num (l : list (N * string)) : N := foldr (λ p m, N.max (fst p) m) 0%N l.
Fixpoint last_with (n : N) (l : list (N * string)) : option string :=
  match l with
  | [] => None
  | (k, s) :: l' =>
      match last_with n l' with
      | Some t => Some t
      | None => if decide (k = n) then Some s else None
      end
  end.
Definition get_last_version (l : list string) : option string :=
  match nums l with
  | Some ((n, s) :: r) => last_with (max_num ((n, s) :: r)) ((n, s) :: r)
  | _ => None
  end.

(** inventorybase.go:779-790 GetDuplicates. *)
Definition get_duplicates (i : inventory) (digest : string) : list string :=
  if decide (digest = "") then [] else default [] (inv_manifest i !! digest).

(** inventorybase.go:801-812: the first digest, in iteration order, whose paths contain the file. *)
Fixpoint first_with (f : string) (l : list (string * list string)) : option string :=
  match l with
  | [] => None
  | (d, fs) :: l' => if decide (f ∈ fs) then Some d else first_with f l'
  end.

(** inventorybase.go:798-838 (= 849-888): digest of the file in the highest numbered version containing it.
    [inl None]: in no version. [inr]: error. [n]: index of the loop over the state maps. *)
Definition last_digest (orc : oracle) (n : nat) (i : inventory) (f : string) : option string + string :=
  let css := map_imap (λ ver v, first_with f (o_state orc n ver (v_state v))) (inv_versions i) in
  match map_to_list css with
  | [] => inl None
  | l =>
      match nums (l.*1) with
      | None => inr "invalid version in inventory"
      | Some ns =>
          match css !! vstr (max_num ns) with
          | None => inr "could not get checksum"
          | Some d => inl (Some d)
          end
      end
  end.

(** inventorybase.go:791-840 AlreadyExists. *)
Definition already_exists (orc : oracle) (n : nat) (i : inventory) (f digest : string) : bool + string :=
  if decide (digest = "") then inl false
  else match last_digest orc n i f with
       | inl None => inl false
       | inl (Some d) => inl (bool_decide (d = digest))
       | inr e => inr e
       end.

(** inventorybase.go:842-891 IsUpdate. *)
Definition is_update (orc : oracle) (n : nat) (i : inventory) (f digest : string) : bool + string :=
  if decide (digest = "") then inl false
  else match last_digest orc n i f with
       | inl None => inl false
       | inl (Some d) => inl (negb (bool_decide (d = digest)))
       | inr e => inr e
       end.

(** Does some list of the state contain the file? *)
Definition state_has (f : string) (s : smap) : bool :=
  existsb (λ p : string * list string, bool_decide (f ∈ p.2)) (map_to_list s).

(** inventorybase.go:923-942 DeleteFile. *)
Definition delete_file (f : string) (i : inventory) : inventory * status :=
  match head_version i with
  | None => (i, SPanic)
  | Some v =>
      let i1 := put_head_state ((λ fs : list string, filter (λ g, g ≠ f) fs) <$> v_state v) v i in
      (if state_has f (v_state v) then set_modified true i1 else i1, SOk)
  end.

(** inventorybase.go:944-964 RenameFile. *)
Definition rename_file (src dst : string) (i : inventory) : inventory * status :=
  match head_version i with
  | None => (i, SPanic)
  | Some v =>
      let i1 := put_head_state (map (λ g, if decide (g = src) then dst else g) <$> v_state v) v i in
      (if state_has src (v_state v) then set_modified true i1 else i1, SOk)
  end.

(** inventorybase.go:966-979 CopyFile. *)
Definition copy_file (dst digest : string) (i : inventory) : inventory * status :=
  match inv_manifest i !! digest with
  | None => (i, SErr "cannot find file with digest")
  | Some _ =>
      match head_version i with
      | None => (i, SPanic)
      | Some v =>
          let fs := default [] (v_state v !! digest) in
          if decide (dst ∈ fs) then (i, SOk)
          else (set_modified true (put_head_state (<[digest := fs ++ [dst]]> (v_state v)) v i), SOk)
      end
  end.

(** slices.BinarySearch on the sorted list of existing files is modelled by membership (echoDelete at object level sorts
    the list first, objectbase.go:510). *)
Fixpoint delete_all (fs : list string) (i : inventory) : inventory * status :=
  match fs with
  | [] => (i, SOk)
  | f :: fs' =>
      match delete_file f i with
      | (i', SOk) => delete_all fs' i'
      | r => r
      end
  end.
(** inventorybase.go:893-921 echoDelete. *)
Definition echo_delete (orc : oracle) (existing : list string) (prefix : string) (i : inventory) : inventory * status :=
  match head_version i with
  | None => (i, SErr "cannot get version")
  | Some v =>
      let statefiles := flat_map snd (o_state orc 0 (inv_head i) (v_state v)) in
      delete_all (filter (λ f, has_prefix prefix f = true ∧ f ∉ existing) statefiles) i
  end.

(** inventorybase.go:989-1006: the fixity block for one additional algorithm. *)
Definition add_fixity (alg fd path : string) (i : inventory) : inventory :=
  let blk := default ∅ (inv_fixity i !! alg) in
  let ps := default [] (blk !! fd) in
  if decide (path ∈ ps) then
    set_fixity (<[alg := <[fd := ps]> blk]> (inv_fixity i)) i
  else
    set_modified true (set_fixity (<[alg := <[fd := ps ++ [path]]> blk]> (inv_fixity i)) i).
Fixpoint add_fixities (path : string) (cs : list (string * string)) (i : inventory) : inventory :=
  match cs with
  | [] => i
  | (alg, fd) :: cs' =>
      add_fixities path cs' (if decide (alg = inv_alg i) then i else add_fixity alg fd path i)
  end.

(** Lookup in a Go map given by the list of its entries. *)
Fixpoint assoc (k : string) (l : list (string * string)) : option string :=
  match l with
  | [] => None
  | (a, b) :: l' => if decide (a = k) then Some b else assoc k l'
  end.

(** inventorybase.go:1008-1045: the body of the loop over the state file names; [n] numbers the map loops. *)
Definition add_state_file (orc : oracle) (n : nat) (mpath digest f : string) (i : inventory) : inventory * status :=
  match already_exists orc n i f digest with
  | inr e => (i, SErr e)
  | inl dup =>
      let i1 := if decide (mpath = "") then i
                else set_manifest (<[digest := default [] (inv_manifest i !! digest) ++ [mpath]]> (inv_manifest i)) i in
      match head_version i1 with
      | None => (i1, SPanic)
      | Some v =>
          let i2 := match v_state v !! digest with
                    | Some _ => i1
                    | None => put_head_state (<[digest := []]> (v_state v)) v i1
                    end in
          match is_update orc (S n) i2 f digest with
          | inr e => (i2, SErr e)
          | inl upd =>
              match (if upd then
                       match delete_file f i2 with
                       | (i', SOk) => (set_modified true i', SOk)
                       | r => r
                       end
                     else (i2, SOk)) with
              | (i3, SOk) =>
                  if dup then (i3, SOk)
                  else match head_version i3 with
                       | None => (i3, SPanic)
                       | Some w =>
                           (set_modified true
                              (put_head_state
                                 (<[digest := default [] (v_state w !! digest) ++ [f]]> (v_state w)) w i3), SOk)
                       end
              | r => r
              end
          end
      end
  end.
Fixpoint add_state_files (orc : oracle) (n : nat) (mpath digest : string) (fs : list string) (i : inventory)
    : inventory * status :=
  match fs with
  | [] => (i, SOk)
  | f :: fs' =>
      match add_state_file orc n mpath digest f i with
      | (i', SOk) => add_state_files orc (S (S n)) mpath digest fs' i'
      | r => r
      end
  end.

(** inventorybase.go:981-1048 AddFile; [cs] lists the entries of the Go map [checksums] in iteration order. *)
Definition add_file (orc : oracle) (fs : list string) (mpath : string) (cs : list (string * string)) (i : inventory)
    : inventory * status :=
  match assoc (inv_alg i) cs with
  | None => (i, SErr "no digest in checksums")
  | Some d => add_state_files orc 0 mpath (to_lower d) fs (add_fixities mpath cs i)
  end.

(** inventorybase.go:1051-1070 Clean. *)
Definition clean (orc : oracle) (i : inventory) : inventory * status :=
  if inv_modified i then (i, SOk)
  else if decide (inv_head i = "v1") then (i, SOk)
  else
    let i1 := set_versions (delete (inv_head i) (inv_versions i)) i in
    match get_last_version ((o_vers orc 0 (inv_versions i1)).*1) with
    | None => (i1, SErr "cannot get last version")
    | Some h => (set_head h i1, SOk)
    end.

(** inventorybase.go:252-273 IterateStateFiles: the calls to the callback (content paths, logical paths, digest) in
    iteration order, or an error.  The empty string and latest stand for the head (inventorybase.go:237-250). *)
Fixpoint resolve_states (man : smap) (l : list (string * list string))
    : list (list string * list string * string) + string :=
  match l with
  | [] => inl []
  | (d, exts) :: l' =>
      match man !! d with
      | None => inr "digest not in manifest"
      | Some [] => inr "no files for digest"
      | Some (p :: ps) =>
          match resolve_states man l' with
          | inl r => inl ((p :: ps, exts, d) :: r)
          | inr e => inr e
          end
      end
  end.
Definition iterate_state_files (orc : oracle) (i : inventory) (ver : string)
    : list (list string * list string * string) + string :=
  let ver' := if decide (ver = "" ∨ ver = "latest") then inv_head i else ver in
  match inv_versions i !! ver' with
  | None => inr "no version"
  | Some v => resolve_states (inv_manifest i) (o_state orc 0 ver' (v_state v))
  end.
