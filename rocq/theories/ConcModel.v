(** Concurrent calls of one direct-clean extension.

    All goroutines share one hash object and one mutex ([DirectClean.hash], [DirectClean.hashMutex]).  A machine
    executes a schedule: in each step one goroutine makes its next atomic move.  Simplification: the calls
    [Reset], [Write] and [Sum] of the hash object are atomic; in reality an unprotected [Sum] can also read a half
    updated state, so the machine has less behaviour than the program. *)
From Coq Require Import Ascii ZArith.
From stdpp Require Import base list strings.
From Verif Require Import GoStr PathModel Utf8Model LayoutModel.

(** [build] (NNNN-direct-clean-path-layout.go 243-288) up to the call of [fallback]: a path, or the string for
    which the fallback path is wanted.  This part uses no shared state. *)
Definition prepare (c : confD) (id : string) : pres + string :=
  let fname := to_valid_runes (cd_repl c) id in
  match clean_elems c (split_runes fname) with
  | None => inr (encode fname)
  | Some l =>
      let fname := join_runes l in
      if (cd_maxpath c <? len8 fname)%N then inr (encode fname) else inl (POk (encode fname))
  end.

(** The rest of [fallback], lines 217-240, from the digest on. *)
Definition finish (c : confD) (digest : string) : pres := fallback (λ _, digest) c "".

(** Where a goroutine is in [fallback], lines 202-216. *)
Inductive pc :=
  | PStart              (* before line 204 *)
  | PLocked             (* mutex taken, before [Reset] *)
  | PReset              (* before [Write] *)
  | PWritten            (* before [Unlock] *)
  | PUnlocked           (* before [Sum], line 217 *)
  | PDone (r : pres).

Record mach := Mach { m_lock : option nat; m_buf : string; m_pcs : list pc }.

(** One move of goroutine [i].  [inside] says where the digest is taken: [false] is the program, which calls [Sum]
    after [Unlock]; [true] is the program with these two lines exchanged. *)
Definition set_pc (m : mach) (i : nat) (p : pc) : mach := Mach (m_lock m) (m_buf m) (<[i := p]> (m_pcs m)).
Definition move (inside : bool) (h : string → string) (c : confD) (ids : list string) (i : nat) (m : mach) : mach :=
  match ids !! i, m_pcs m !! i with
  | Some id, Some p =>
      match prepare c id with
      | inl r => match p with PStart => set_pc m i (PDone r) | _ => m end
      | inr x =>
          match p with
          | PStart => match m_lock m with
                      | None => Mach (Some i) (m_buf m) (<[i := PLocked]> (m_pcs m))
                      | Some _ => m
                      end
          | PLocked => Mach (m_lock m) "" (<[i := PReset]> (m_pcs m))
          | PReset => Mach (m_lock m) (m_buf m +:+ x) (<[i := PWritten]> (m_pcs m))
          | PWritten =>
              if inside then Mach None (m_buf m) (<[i := PDone (finish c (h (m_buf m)))]> (m_pcs m))
              else Mach None (m_buf m) (<[i := PUnlocked]> (m_pcs m))
          | PUnlocked => set_pc m i (PDone (finish c (h (m_buf m))))
          | PDone _ => m
          end
      end
  | _, _ => m
  end.
Definition start (ids : list string) : mach := Mach None "" ((λ _, PStart) <$> ids).
Definition schedule (inside : bool) (h : string → string) (c : confD) (ids : list string) (s : list nat) : mach :=
  foldl (λ m i, move inside h c ids i m) (start ids) s.

(** Goroutine [i] has returned [r]. *)
Definition returned (m : mach) (i : nat) (r : pres) : Prop := m_pcs m !! i = Some (PDone r).
