(** Streaming of ingested content to the stream extensions: one goroutine and one pipe per extension.  Sources:
    pkg/extension/NNNN-gocfl-extension-manager.go:571-618, and of the Go standard library io.Copy, io.MultiWriter,
    io.Pipe and bufio.Writer. *)
From Coq Require Import Ascii.
From stdpp Require Import base list strings gmap relations.

Definition bytes := list ascii.

(** bufio.Writer.Write with capacity [cap]: what is passed on to the underlying writer, and the new buffer.  If the data
    does not fit, a non-empty buffer is filled up and flushed; what then still does not fit is written directly. *)
Definition bwrite (cap : nat) (buf p : bytes) : list bytes * bytes :=
  if decide (length p ≤ cap - length buf) then ([], buf ++ p)
  else if decide (buf = []) then ([p], [])
  else
    let a := take (cap - length buf) p in
    let r := drop (cap - length buf) p in
    if decide (length r ≤ cap) then ([buf ++ a], r) else ([buf ++ a; r], []).

(** io.MultiWriter: one chunk goes to each writer in turn.  Result: the writes to the pipes (pipe, data) in order, and the
    buffers. *)
Fixpoint mwrite (cap i : nat) (bufs : list bytes) (p : bytes) : list (nat * bytes) * list bytes :=
  match bufs with
  | [] => ([], [])
  | buf :: bufs' =>
      let '(outs, buf1) := bwrite cap buf p in
      let '(rest, bufs1) := mwrite cap (S i) bufs' p in
      (((λ w, (i, w)) <$> outs) ++ rest, buf1 :: bufs1)
  end.
(** io.Copy (597): the chunks the source delivers. *)
Fixpoint mcopy (cap : nat) (bufs : list bytes) (chunks : list bytes) : list (nat * bytes) * list bytes :=
  match chunks with
  | [] => ([], bufs)
  | c :: chunks' =>
      let '(outs, bufs1) := mwrite cap 0 bufs c in
      let '(rest, bufs2) := mcopy cap bufs1 chunks' in
      (outs ++ rest, bufs2)
  end.
(** 598-603: Flush of every buffer; an empty buffer is not written. *)
Fixpoint flush (i : nat) (bufs : list bytes) : list (nat * bytes) :=
  match bufs with
  | [] => []
  | buf :: bufs' => (if decide (buf = []) then [] else [(i, buf)]) ++ flush (S i) bufs'
  end.
(** All writes of the main goroutine to the pipes of [m] extensions.  The reads from the source between the writes touch
    nothing the other goroutines see and are left out.  A write to a pipe cannot fail, as nobody closes the reading end. *)
Definition all_puts (cap m : nat) (chunks : list bytes) : list (nat * bytes) :=
  let '(outs, bufs) := mcopy cap (replicate m []) chunks in outs ++ flush 0 bufs.

(** What an extension does next inside StreamObject: read up to [S n] bytes, or return, possibly with an error. *)
Inductive act := ARead (n : nat) | ARet (err : option string).
(** An extension: what it does next in state [x], and the state after a read (None: end of file). *)
Record sext (X : Type) := Sext { sx_act : X → act; sx_feed : X → option bytes → X; sx_init : X }.
Arguments Sext {X}. Arguments sx_act {X}. Arguments sx_feed {X}. Arguments sx_init {X}.

(** The goroutine of an extension (583-591): it runs the extension, then discards the rest, then is done.  [r_got]: the
    bytes the extension has read, [r_eof]: it has seen the end of file, [r_err]: the error it returned. *)
Inductive phase (X : Type) := PRun (x : X) | PDrain | PDone.
Arguments PRun {X}. Arguments PDrain {X}. Arguments PDone {X}.
Record rd (X : Type) := Rd { r_phase : phase X; r_got : bytes; r_eof : bool; r_err : option string }.
Arguments Rd {X}. Arguments r_phase {X}. Arguments r_got {X}. Arguments r_eof {X}. Arguments r_err {X}.

(** The main goroutine: writing, closing the pipes one by one ([k] are closed), waiting, returned. *)
Inductive outcome := OCopyError | OErrors (l : list string).
Inductive main := MRun | MClose (k : nat) | MWait | MRet (r : outcome).

(** [s_todo]: the writes still to be done, the first is in progress.  [s_ch]: the error channel, which has room for one
    error of each extension, so that no send blocks. *)
Record sst (X : Type) := Sst { s_todo : list (nat * bytes); s_main : main; s_rd : list (rd X); s_ch : list string }.
Arguments Sst {X}. Arguments s_todo {X}. Arguments s_main {X}. Arguments s_rd {X}. Arguments s_ch {X}.

(** Pipe [i] is closed for writing. *)
Definition closed (m : main) (i : nat) : Prop :=
  match m with MRun => False | MClose k => i < k | _ => True end.
(** A read of up to [n] bytes takes what it can of the write in progress (io.Pipe). *)
Definition after_read (n : nat) (w : bytes) (i : nat) (todo : list (nat * bytes)) : list (nat * bytes) :=
  match drop n w with [] => todo | b => (i, b) :: todo end.

Section stream.
  Context {X : Type} (exts : list (sext X)).
  (** The size of the buffer of io.Copy to io.Discard, and whether reading the source ended with an error. *)
  Context (dsize : nat) (src_err : bool).

  (** One step of one goroutine. *)
  Inductive step : sst X → sst X → Prop :=
  | st_read i e x got eof err n w todo rds ch :
      exts !! i = Some e → rds !! i = Some (Rd (PRun x) got eof err) → sx_act e x = ARead n →
      step (Sst ((i, w) :: todo) MRun rds ch)
           (Sst (after_read (S n) w i todo) MRun
              (<[i := Rd (PRun (sx_feed e x (Some (take (S n) w)))) (got ++ take (S n) w) eof err]> rds) ch)
  | st_eof i e x got eof err n todo m rds ch :
      exts !! i = Some e → rds !! i = Some (Rd (PRun x) got eof err) → sx_act e x = ARead n → closed m i →
      step (Sst todo m rds ch) (Sst todo m (<[i := Rd (PRun (sx_feed e x None)) got true err]> rds) ch)
  | st_return i e x got eof err r todo m rds ch :
      exts !! i = Some e → rds !! i = Some (Rd (PRun x) got eof err) → sx_act e x = ARet r →
      step (Sst todo m rds ch)
           (Sst todo m (<[i := Rd PDrain got eof r]> rds) (ch ++ match r with Some t => [t] | None => [] end))
  | st_drain i got eof err w todo rds ch :
      rds !! i = Some (Rd PDrain got eof err) →
      step (Sst ((i, w) :: todo) MRun rds ch) (Sst (after_read (S dsize) w i todo) MRun rds ch)
  | st_drained i got eof err todo m rds ch :
      rds !! i = Some (Rd PDrain got eof err) → closed m i →
      step (Sst todo m rds ch) (Sst todo m (<[i := Rd PDone got eof err]> rds) ch)
  | st_written rds ch :
      step (Sst [] MRun rds ch) (Sst [] (MClose 0) rds ch)
  | st_close k todo rds ch :
      k < length exts → step (Sst todo (MClose k) rds ch) (Sst todo (MClose (S k)) rds ch)
  | st_copy_error todo rds ch :
      src_err = true → step (Sst todo (MClose (length exts)) rds ch) (Sst todo (MRet OCopyError) rds ch)
  | st_wait todo rds ch :
      src_err = false → step (Sst todo (MClose (length exts)) rds ch) (Sst todo MWait rds ch)
  | st_result todo rds ch :
      (∀ r, r ∈ rds → r_phase r = PDone) → step (Sst todo MWait rds ch) (Sst todo (MRet (OErrors ch)) rds ch).

  (** The start (576-597); [cap] is the size of the buffers. *)
  Definition sinit (cap : nat) (chunks : list bytes) : sst X :=
    Sst (all_puts cap (length exts) chunks) MRun ((λ e, Rd (PRun (sx_init e)) [] false None) <$> exts) [].
End stream.
