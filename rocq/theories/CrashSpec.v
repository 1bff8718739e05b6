(** Vocabulary for crash points and for the loader's checks. *)
From Coq Require Import Ascii.
From stdpp Require Import base list strings gmap.
From Coq Require Import ZArith.
From Verif Require Import GoStr InventoryModel InventorySpec ObjectModel ObjectSpec.

(** [crash s l s']: starting with storage [s] the effects [l] are executed in order and the machine stops somewhere: before
    any effect, after some effects, or in the middle of an append, of which a prefix of the bytes arrived.  (Writes are not
    reordered and completed writes are not lost.) *)
Inductive crash : storage → list ev → storage → Prop :=
| crash_stop s l : crash s l s
| crash_torn s p b1 b2 l : crash s (EAppend p (b1 +:+ b2) :: l) (apply_ev (EAppend p b1) s)
| crash_step s e l s' : crash (apply_ev e s) l s' → crash s (e :: l) s'.

(** A name of a file or directory: not empty, not dot or dot-dot, without slash. *)
Definition plain_name (c : string) : Prop :=
  c ≠ "" ∧ c ≠ "." ∧ c ≠ ".." ∧ str_mem slash c = false.

(** A relative path made of plain names. *)
Definition clean_rel (p : string) : Prop := Forall plain_name (split_slash p).

(** [p] lies below directory [dir]. *)
Definition below (dir p : string) : Prop := ∃ rest, p = dir +:+ "/" +:+ rest.

(** The guard: new content goes to a clean relative path below the content directory. *)
Definition clean_target (E : env) (op : sop) : Prop :=
  match op with
  | SAdd _ path area _ => ∀ m, e_manifest_path E path area = Some m → clean_rel m
  | SAddReader _ (f :: _) area => ∀ m, e_manifest_path E f area = Some m → clean_rel m
  | _ => True
  end.

(** All calls of a history, also those made by extension hooks, use clean relative paths for new content. *)
Definition clean_names (E : env) (ops : list (oracle * oop)) : Prop :=
  all_ops (λ _ op, clean_target E op) (λ _, True) ops.

(** The content directory of the inventory as a path element (the default if the field is empty). *)
Definition content_name (i : inventory) : string := if decide (inv_contentdir i = "") then "content" else inv_contentdir i.

(** The inventory describes the storage: every recorded content path is stored with content of the recorded digest. *)
Definition describes (hash : string → string → option string) (i : inventory) (s : storage) : Prop :=
  ∀ d p, lists (inv_manifest i) p d → ∃ data, s !! p = Some data ∧ hash (inv_alg i) data = Some d.

(** Every recorded content path lies in the content directory of a version up to [n]. *)
Definition content_paths_upto (i : inventory) (n : N) : Prop :=
  ∀ d p, lists (inv_manifest i) p d →
    ∃ k, (1 <= k <= n)%N ∧ below (version_name (inv_padding i) k +:+ "/" +:+ content_name i) p.

(** Hexadecimal digests. *)
Definition hex_digit (c : ascii) : bool :=
  let n := N_of_ascii c in
  ((48 <=? n) && (n <=? 57) || (65 <=? n) && (n <=? 70) || (97 <=? n) && (n <=? 102))%N.
Definition hexadecimal (d : string) : Prop := d ≠ "" ∧ ∀ c, c ∈ list_ascii_of_string d → hex_digit c = true.

(** [t] contains [x]. *)
Definition contains (t x : string) : Prop := ∃ a b, t = a +:+ x +:+ b.

(** The same inventory as far as the stored document is concerned. *)
Record same_record (i i' : inventory) : Prop := SameRecord {
  sr_id : inv_id i' = inv_id i;
  sr_type : inv_type i' = inv_type i;
  sr_alg : inv_alg i' = inv_alg i;
  sr_head : inv_head i' = inv_head i;
  sr_cdir : inv_contentdir i' = inv_contentdir i;
  sr_man : inv_manifest i' = inv_manifest i;
  sr_vers : inv_versions i' = inv_versions i;
  sr_fix : inv_fixity i' = inv_fixity i;
  sr_pad : inv_padding i' = inv_padding i
}.

(** What is assumed of JSON: decoding the encoded inventory gives it back (the padding is recomputed from the version
    names) if it satisfies [P], and no strict prefix of an encoded inventory decodes.  Property C51 is that the JSON text
    that the program writes has these properties; there [P] asks for valid UTF-8. *)
Record json_ok (P : inventory → Prop) (json : inventory → string) (parse : string → option inventory) : Prop := JsonOk {
  jo_decode : ∀ i, P i → ∃ i', parse (json i) = Some i' ∧ same_record i i';
  jo_prefix : ∀ i a b, json i = a +:+ b → b ≠ "" → parse a = None
}.

(** What is assumed of digests: hexadecimal and lower case. *)
Definition hex_hash (hash : string → string → option string) : Prop :=
  ∀ alg data d, hash alg data = Some d → hexadecimal d ∧ to_lower d = d.

(** The guard: new content goes to a path that no content of the inventory has. *)
Definition fresh_target (E : env) (op : sop) (o : object) : Prop :=
  match op with
  | SAdd _ path area _ =>
      ∀ m, e_manifest_path E path area = Some m → ∀ d, ¬ lists (inv_manifest (ob_inv o)) (manifest_name (ob_inv o) m) d
  | SAddReader _ (f :: _) area =>
      ∀ m, e_manifest_path E f area = Some m → ∀ d, ¬ lists (inv_manifest (ob_inv o)) (manifest_name (ob_inv o) m) d
  | _ => True
  end.

(** [n] is the number of the head version (0 without versions) and no version is newer. *)
Definition head_number (i : inventory) (n : N) : Prop :=
  head_newest i ∧ inv_head i = (if decide (n = 0%N) then "" else version_name (inv_padding i) n).
