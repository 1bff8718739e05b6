(** Vocabulary for the objects of a storage root. *)
From Coq Require Import Ascii.
From stdpp Require Import base list strings gmap.
From Coq Require Import ZArith.
From Verif Require Import GoStr InventoryModel ObjectModel InventorySpec ObjectSpec CrashSpec LoadModel AreaModel IngestModel IngestSpec PublishSpec
  LayoutModel LayoutSpec RootModel RootAddModel.

(** Two different folders, none of them in the other one. *)
Definition apart_from (f g : string) : Prop := f ≠ g ∧ ¬ inside f g ∧ ¬ inside g f.
(** Storage effects of several objects in some order: each with the folder of the object it belongs to. *)
Definition sched_evs (l : list (string * ev)) : list ev := (λ x, place_ev x.1 x.2) <$> l.
(** Those of one folder, in their order. *)
Definition evs_of (f : string) (l : list (string * ev)) : list ev := omap (λ x : string * ev, if decide (x.1 = f) then Some x.2 else None) l.

(** The layouts give every identifier of [ids] a folder with a clean relative path, and different identifiers folders that are apart. *)
Record keeps_apart (ls : list (string → pres)) (ids : string → Prop) : Prop := KeepsApart {
  ka_folder : ∀ id, ids id → ∃ f, root_path ls id = Some (f, false) ∧ clean_rel f;
  ka_apart : ∀ id1 id2 f1 f2, ids id1 → ids id2 → id1 ≠ id2 → root_path ls id1 = Some (f1, false) → root_path ls id2 = Some (f2, false) →
    apart_from f1 f2
}.

(** The files of a new object before its first version. *)
Definition new_files (version : string) : storage :=
  {[ "0=ocfl_object_" +:+ version := "ocfl_object_" +:+ version +:+ String "010" "" ]}.

Section history.
  Context (E : env) (X : AreaModel.xenv) (area : string) (P : inventory → Prop) (parse : string → option inventory).
  Context (rt : root) (fixalgs allowed : list string) (ids : string → Prop) (s0 : storage).

  (** One request for one object, for a root [s] whose objects have the contents [H]: per identifier, what the area held after each
      request, newest first.  The first request for an identifier creates its object, the others load it. *)
  Inductive root_request (H : gmap string (list storage)) (s : storage) : gmap string (list storage) → storage → status → Prop :=
  | request_new id i orcs orc1 orc2 r folders src s' st :
      ids id → H !! id = None → i = new_inventory id (inventory_type (rt_version rt)) (rt_alg rt) fixalgs →
      supported E i → (∀ j k, oracle_ok (orcs j k)) → oracle_ok orc1 → proper_request E i r folders →
      no_clashes E (rt_alg rt) (new_files (rt_version rt)) folders → served E X area i folders → folder_of folders area src →
      (∀ o, ingest E orcs orc1 orc2 r (given folders) (HDone []) (open_object i) = (o, SOk) → P (ob_inv o)) →
      add_object E parse rt fixalgs allowed id id orcs orc1 orc2 r (given folders) (HDone []) s = (s', st) →
      root_request H s (<[id := [src]]> H) s' st
  | request_next id t ts f i orcs orc1 orc2 r folders src del s' st :
      ids id → H !! id = Some (t :: ts) → load_by_id (e_hash E) parse (rt_layouts rt) id s = Opened f i →
      supported E i → (∀ j k, oracle_ok (orcs j k)) → oracle_ok orc1 → proper_request E i r folders →
      no_clashes E (inv_alg i) (sub_files f s) folders → served E X area i folders → deletes E X area i (rq_echo r) del → folder_of folders area src →
      (∀ o, ingest E orcs orc1 orc2 r (given folders) (HDone []) (open_object i) = (o, SOk) → P (ob_inv o)) →
      add_object E parse rt fixalgs allowed id id orcs orc1 orc2 r (given folders) (HDone []) s = (s', st) →
      root_request H s (<[id := area_after del src t :: t :: ts]> H) s' st.
  (** Any number of requests, on a root that started as [s0]. *)
  Inductive root_history : gmap string (list storage) → storage → Prop :=
  | history_start : root_history ∅ s0
  | history_request H s H' s' st : root_history H s → root_request H s H' s' st → root_history H' s'.
End history.

(** A root for these requests: version 1.0 or 1.1, digest algorithm sha512 or sha256, allowed fixity algorithms, and at the start
    nothing in the folders of the objects. *)
Record proper_root (rt : root) (fixalgs allowed : list string) (ids : string → Prop) (s0 : storage) : Prop := ProperRoot {
  pr_version : rt_version rt = "1.0" ∨ rt_version rt = "1.1";
  pr_alg : rt_alg rt = "sha512" ∨ rt_alg rt = "sha256";
  pr_fixity : ∀ a, a ∈ fixalgs → a ∈ "sha512" :: "sha256" :: allowed;
  pr_apart : keeps_apart (rt_layouts rt) ids;
  pr_start : ∀ id f p, ids id → root_path (rt_layouts rt) id = Some (f, false) → inside f p → s0 !! p = None
}.
