(** The metadata report of an object: /repo/pkg/ocfl/objectbase.go:82-159 GetMetadata, fixity.go Checksums, metadata.go, and GetMetadata of
    the extension manager (/repo/pkg/extension/NNNN-gocfl-extension-manager.go:510-530).  Only executable definitions. *)
From Coq Require Import Ascii.
From stdpp Require Import base list strings gmap.
From Coq Require Import ZArith.
From Verif Require Import GoStr InventoryModel ValidateModel.

(** metadata.go:8-29.  [A]: the values that extensions report ([any] in Go).  Times are kept in their printed form. *)
Record file_meta (A : Type) := FileMeta {
  fm_checksums : gmap string string;
  fm_internal : list string;
  fm_versions : smap;
  fm_ext : gmap string A
}.
Record version_meta := VersionMeta { vm_created : string; vm_message : string; vm_name : string; vm_address : string }.
Record object_meta (A : Type) := ObjectMeta {
  om_id : string;
  om_alg : string;
  om_head : string;
  om_versions : gmap string version_meta;
  om_files : gmap string (file_meta A);
  om_ext : option (gmap string A)
}.
Arguments FileMeta {_} _ _ _ _.
Arguments fm_checksums {_} _.
Arguments fm_internal {_} _.
Arguments fm_versions {_} _.
Arguments fm_ext {_} _.
Arguments ObjectMeta {_} _ _ _ _ _ _.
Arguments om_id {_} _.
Arguments om_alg {_} _.
Arguments om_head {_} _.
Arguments om_versions {_} _.
Arguments om_files {_} _.
Arguments om_ext {_} _.

(** Orders of the map loops: a nested loop may take a new order every time it is entered, so the order depends on where the enclosing
    loops are. *)
Definition worders := list nat → vorder.
Definition worders_ok (w : worders) : Prop := ∀ l, vorder_ok (w l).

(** A loop over a list with its position. *)
Fixpoint loop {A B} (f : nat → A → B → B) (k : nat) (l : list A) (b : B) : B :=
  match l with
  | [] => b
  | a :: l' => loop f (S k) l' (f k a b)
  end.

(** fixity.go:9-30 Checksums: for every algorithm the first digest whose list has the file. *)
Definition checksums_of (w : worders) (at_ : list nat) (fx : gmap string smap) (fname : string) : gmap string string :=
  loop (λ k (p : string * smap) r,
          match first_with fname (vo (w (k :: 0 :: at_)) 0 p.2) with
          | Some d => <[p.1 := d]> r
          | None => r
          end) 0 (vo (w at_) 1 fx) ∅.

(** objectbase.go:139-149: for every version the first state entry with the digest. *)
Fixpoint state_entry (digest : string) (l : list (string * list string)) : option (list string) :=
  match l with
  | [] => None
  | (d, fnames) :: l' => if decide (digest = d) then Some fnames else state_entry digest l'
  end.
Definition version_names (w : worders) (at_ : list nat) (vs : gmap string version) (digest : string) : smap :=
  loop (λ k (p : string * version) r,
          match state_entry digest (vo (w (k :: 1 :: at_)) 0 (v_state p.2)) with
          | Some fnames => <[p.1 := default [] (r !! p.1) ++ fnames]> r
          | None => r
          end) 0 (vo (w at_) 2 vs) ∅.

(** The extension manager, lines 510-530: [exts] are the extensions in order with what their GetMetadata returns, an error or a value for
    every digest (the empty string for the object itself). *)
Fixpoint ext_metadata {A} (w : worders) (k : nat) (exts : list (string * (gmap string A + string))) (acc : gmap string (gmap string A))
    : gmap string (gmap string A) + string :=
  match exts with
  | [] => inl acc
  | (name, inr e) :: _ => inr e
  | (name, inl meta) :: exts' =>
      ext_metadata w (S k) exts'
        (loop (λ _ (p : string * A) acc, <[p.1 := <[name := p.2]> (default ∅ (acc !! p.1))]> acc) 0 (vo (w [k]) 3 meta) acc)
  end.

(** objectbase.go:95-104.  Only GetMetadata reads the creation time, the message and the user; in a loaded inventory they are not nil
    (inventorybase.go:118-169 Finalize).  The sorted list of version names is never used. *)
Definition version_view (v : version) : version_meta := VersionMeta (v_created v) (v_message v) (v_uname v) (v_uaddr v).

(** objectbase.go:82-159 GetMetadata. *)
Definition get_metadata {A} (w : worders) (exts : list (string * (gmap string A + string))) (i : inventory) : object_meta A + string :=
  let versions := loop (λ _ (p : string * version) r, <[p.1 := version_view p.2]> r) 0 (vo (w []) 4 (inv_versions i)) ∅ in
  match ext_metadata w 0 exts ∅ with
  | inr e => inr e
  | inl em =>
      inl (ObjectMeta (inv_id i) (inv_alg i) (inv_head i) versions
             (loop (λ k (p : string * list string) r,
                      match p.2 with
                      | [] => r
                      | f0 :: _ =>
                          <[p.1 := FileMeta (checksums_of w [k] (inv_fixity i) f0) p.2 (version_names w [k] (inv_versions i) p.1)
                                     (default ∅ (em !! p.1))]> r
                      end) 0 (vo (w []) 5 (inv_manifest i)) ∅)
             (em !! ""))
  end.
