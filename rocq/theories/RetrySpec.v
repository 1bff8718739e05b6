(** Vocabulary for requests that were interrupted and are made again. *)
From Coq Require Import Ascii.
From stdpp Require Import base list strings gmap.
From Coq Require Import ZArith.
From Verif Require Import GoStr InventoryModel ObjectModel InventorySpec ObjectSpec CrashSpec LoadModel PublishSpec IngestModel IngestSpec.

(** The second folder is the first one with some files that cannot be opened. *)
Inductive hidden : node → node → Prop :=
| hidden_file c : hidden (NFile c) (NFile c)
| hidden_closed x : hidden (NFile (Some x)) (NFile None)
| hidden_dir c l l' : hidden_entries l l' → hidden (NDir c l) (NDir c l')
with hidden_entries : list (string * node) → list (string * node) → Prop :=
| hidden_nil : hidden_entries [] []
| hidden_cons n t t' l l' : hidden t t' → hidden_entries l l' → hidden_entries ((n, t) :: l) ((n, t') :: l').

(** [interrupted E parse i dedup folders s s']: any number of attempts to store the folders.  Each one finds the object with inventory [i] and
    no finding, meets some files that it cannot open, makes the request until it fails or until the machine stops at any moment. *)
Inductive interrupted (E : env) (parse : string → option inventory) (i : inventory) (dedup : bool) (folders : list (string * node)) :
    storage → storage → Prop :=
| interrupted_no s : interrupted E parse i dedup folders s s
| interrupted_once s s1 s2 orcs orc1 orc2 r folders1 :
    load_inventory (e_hash E) parse s "" = LInv i [] → (∀ j k, oracle_ok (orcs j k)) → oracle_ok orc1 → rq_dedup r = dedup →
    Forall2 (λ f f1 : string * node, f1.1 = f.1 ∧ hidden f.2 f1.2) folders folders1 →
    crash s (ob_trace (ingest E orcs orc1 orc2 r (given folders1) (HDone []) (open_object i)).1) s1 →
    interrupted E parse i dedup folders s1 s2 → interrupted E parse i dedup folders s s2.
