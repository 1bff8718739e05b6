(** Objects of any origin that are updated by complete sessions. *)
From Coq Require Import Ascii.
From stdpp Require Import base list strings gmap.
From Verif Require Import GoStr InventoryModel ObjectModel LoadModel ValidateModel ValidateSpec AcceptSpec PublishSpec ForeignModel.

(** How the object is written: version names without leading zeros, one digest algorithm in all inventories, digests in lower case,
    a state in every version. *)
Record plain_style (decode : string → option doc) (s : storage) (d : doc) : Prop := PlainStyle {
  ps_names : ∀ ver v, has_version d ver v → str_head (trim_prefix ver "v") ≠ Some "0"%char;
  ps_alg : ∀ e, inventory_in decode s d e → dc_alg e = dc_alg d;
  ps_man : ∀ e dg p, inventory_in decode s d e → man_lists e dg p → to_lower dg = dg;
  ps_fix : ∀ e alg dg p, inventory_in decode s d e → fix_lists e alg dg p → to_lower dg = dg;
  ps_state : ∀ e ver v, inventory_in decode s d e → has_version e ver v → vd_state v ≠ None
}.

(** From storage [s] to storage [s'] by any number of complete sessions, each on the inventory that the loader returns, each with its
    own settings, map orders and lexicon. *)
Inductive continued (hash : string → string → option string) (decode : string → option doc) (s : storage) : storage → Prop :=
| continued_none : continued hash decode s s
| continued_more E w lx s1 i s2 i2 :
    continued hash decode s s1 →
    e_hash E = hash → (∀ j, decode (e_json E j) = Some (doc_of j)) → vorder_ok w →
    load_inventory hash (parse_of decode w lx) s1 "" = LInv i [] → supported E i → complete E s1 i s2 i2 → proper_names i2 →
    continued hash decode s s2.
