(** Vocabulary for streams. *)
From Coq Require Import Ascii.
From stdpp Require Import base list strings gmap relations.
From Verif Require Import StreamModel.

(** The extension in state [x] returns if it is fed the bytes [w] and then the end of file, in whatever portions. *)
Inductive finishes {X} (e : sext X) : X → bytes → Prop :=
| fin_ret x w r : sx_act e x = ARet r → finishes e x w
| fin_read x w n :
    sx_act e x = ARead n →
    (∀ a b, w = a ++ b → a ≠ [] → length a ≤ S n → finishes e (sx_feed e x (Some a)) b) →
    (w = [] → finishes e (sx_feed e x None) []) →
    finishes e x w.

(** States that can be reached from the start. *)
Definition reachable {X} (exts : list (sext X)) (dsize cap : nat) (src_err : bool) (chunks : list bytes) (s : sst X) : Prop :=
  rtc (step exts dsize src_err) (sinit exts cap chunks) s.

(** The call has returned and no goroutine is left. *)
Definition finished {X} (s : sst X) : Prop :=
  (∃ r, s_main s = MRet r) ∧ ∀ r, r ∈ s_rd s → r_phase r = PDone.

(** The errors the extensions returned, in the order of the extensions. *)
Fixpoint errors_of {X} (l : list (rd X)) : list string :=
  match l with
  | [] => []
  | r :: l' => match r_err r with Some t => t :: errors_of l' | None => errors_of l' end
  end.
