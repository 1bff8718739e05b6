(** Vocabulary for what extension hooks do to the object at the end of an ingest. *)
From Coq Require Import Ascii.
From stdpp Require Import base list strings gmap.
From Coq Require Import ZArith.
From Verif Require Import GoStr InventoryModel ObjectModel InventorySpec ObjectSpec CrashSpec LoadModel PublishSpec AreaModel AreaSpec IngestModel IngestSpec.

(** The logical paths that a call names. *)
Definition touches (E : env) (op : sop) (np : string) : Prop :=
  match op with
  | SAdd _ path area _ => e_state_path E path area = Some np
  | SAddReader _ files area => ∃ f, f ∈ files ∧ e_state_path E f area = Some np
  | SDelete f _ => np = f
  | SRename a b _ => np = a ∨ np = b
  | SCopy dst _ => np = dst
  end.
(** The places of the area that the call may change are in [T]. *)
Definition stays_in (E : env) (X : xenv) (area : string) (T : string → Prop) (orc : oracle) (op : sop) (o : object) : Prop :=
  ∀ np q, touches E op np → x_path X np area = XPath q → T q.
(** Every call that the hooks make at the end of the request satisfies [G]. *)
Definition hooks_satisfy (E : env) (G : oracle → sop → object → Prop) (orcs : nat → nat → oracle) (orc1 : oracle) (r : request)
    (folders : list (string * node)) (h : hooks) (i : inventory) : Prop :=
  ∀ o1 o2, ob_start (rq_now r) (rq_msg r) (rq_name r) (rq_addr r) (rq_echo r) (open_object i) = (o1, SOk) →
    add_folders E orcs 0 (rq_dedup r) (given folders) o1 = (o2, SOk) → guarded_end E G (λ _, True) orc1 h o2.
(** What the hooks have to respect: new content goes to new clean paths, and no path gets a second content. *)
Definition orderly (E : env) (orc : oracle) (op : sop) (o : object) : Prop := proper E orc op o ∧ no_collision E orc op o.

(** The newest version can be extracted: no path fails, no content is in the area and outside, no two paths go to the same place. *)
Record retrievable (X : xenv) (area : string) (i : inventory) : Prop := Retrievable {
  rt_path : ∀ np d, current i np d → x_path X np area ≠ XErr;
  rt_apart : ∀ np np' d, current i np d → current i np' d → x_path X np area = XWrongArea → x_path X np' area = XWrongArea;
  rt_clash : ∀ np np' d d' q, current i np d → current i np' d' → x_path X np area = XPath q → x_path X np' area = XPath q → np = np'
}.
