(** The methods of the aggregators, one access to memory at a time, run by any number of goroutines.
    M stands for /repo/lightstep/sdk/metric.
    Of the two Storages of Move, Copy and Merge one is synchronized and the other is used by the calling goroutine alone
    (M/aggregator/aggregator.go:116-136; accumulators.go:113-116 under syncLock, collectors.go).  The other is a value here: an argument of Merge, the result of
    Move and Copy. *)
From Coq Require Import ZArith Bool.
From stdpp Require Import base list option.
From Verif Require Import Num Agg.
Local Open Scope Z_scope.

(** ** Bodies of methods *)
(** Accesses to a Storage of type [S]: its lock, one of its fields, an operation of sync/atomic on one of its fields, the counter sequenceVar of the gauges;
    [Again] starts a for loop again; [Ret] is the return. *)
Inductive prog (S R : Type) :=
  | Lock (k : prog S R)
  | Unlock (k : prog S R)
  | Read {X : Type} (get : S -> X) (k : X -> prog S R)
  | Write (set : S -> S) (k : prog S R)
  | Atomic {X : Type} (f : S -> S * X) (k : X -> prog S R)
  | Ticket (k : Z -> prog S R)
  | Again
  | Ret (r : R).
Arguments Lock {_ _} _.
Arguments Unlock {_ _} _.
Arguments Read {_ _ _} _ _.
Arguments Write {_ _} _ _.
Arguments Atomic {_ _ _} _ _.
Arguments Ticket {_ _} _.
Arguments Again {_ _}.
Arguments Ret {_ _} _.

(** Calls of methods (M/aggregator/aggregator.go:137-161). *)
Inductive acall (N S : Type) := CUpdate (n : N) | CMove | CCopy | CMerge (from : S).
Arguments CUpdate {_ _} _.
Arguments CMove {_ _}.
Arguments CCopy {_ _}.
Arguments CMerge {_ _} _.
(** What Move and Copy put into their other argument. *)
Notation result S := (option S).

(** AddAtomic of int64 (M/number/traits.go:78-80) is one instruction. *)
Definition add_int (N : arith) (n : N) : prog N (result N) := Atomic (fun s => (add s n, tt)) (fun _ => Ret None).
(** AddAtomic of float64 (traits.go:119-129): load, add, compare and swap.  The bits are compared; a NaN is one value here. *)
Definition cas_float (N : arith) `{EqDecision N} (n old : N) : prog N (result N) :=
  Atomic (fun s => if bool_decide (s = old) then (add old n, true) else (s, false)) (fun ok => if ok : bool then Ret None else Again).
Definition add_float (N : arith) `{EqDecision N} (n : N) : prog N (result N) := Atomic (fun s => (s, s)) (cas_float N n).
(** sum.Methods (M/aggregator/sum/sum.go:110-132). *)
Definition sum_body (N : arith) (add_atomic : N -> prog N (result N)) (c : acall N N) : prog N (result N) :=
  match c with
  | CUpdate n => add_atomic n
  | CMove => Atomic (fun s => (zero, s)) (fun old => Ret (Some old))
  | CCopy => Atomic (fun s => (s, s)) (fun v => Ret (Some v))
  | CMerge from => add_atomic from
  end.

(** Fields of gauge.State (M/aggregator/gauge/gauge.go:39-43). *)
Definition set_gvalue {N} (n : N) (s : gauge N) : gauge N := Gauge n (g_seq s).
Definition set_gseq {N} (z : Z) (s : gauge N) : gauge N := Gauge (g_value s) z.
(** gauge.Methods (gauge.go:123-158). *)
Definition gauge_body (N : arith) (c : acall N (gauge N)) : prog (gauge N) (result (gauge N)) :=
  match c with
  | CUpdate n => Ticket (fun seq => Lock (Write (set_gvalue n) (Write (set_gseq seq) (Unlock (Ret None)))))
  | CMove => Lock (Read g_value (fun v => Read g_seq (fun q => Write (set_gseq 0) (Unlock (Ret (Some (Gauge v q)))))))
  | CCopy => Lock (Read g_value (fun v => Read g_seq (fun q => Unlock (Ret (Some (Gauge v q))))))
  | CMerge from =>
      Lock (if negb (g_seq from =? 0) then
              Read g_seq (fun q => if q <? g_seq from then Write (set_gvalue (g_value from)) (Write (set_gseq (g_seq from)) (Unlock (Ret None))) else Unlock (Ret None))
            else Unlock (Ret None))
  end.

(** Fields of minmaxsumcount.State (M/aggregator/minmaxsumcount/minmaxsumcount.go:37-42). *)
Definition set_min {N} (x : N) (s : mmsc N) : mmsc N := MMSC x (mm_max s) (mm_sum s) (mm_count s).
Definition set_max {N} (x : N) (s : mmsc N) : mmsc N := MMSC (mm_min s) x (mm_sum s) (mm_count s).
Definition set_sum {N} (x : N) (s : mmsc N) : mmsc N := MMSC (mm_min s) (mm_max s) x (mm_count s).
Definition set_count {N} (x : Z) (s : mmsc N) : mmsc N := MMSC (mm_min s) (mm_max s) (mm_sum s) x.
(** minmaxsumcount.Methods (minmaxsumcount.go:114-168). *)
Definition mmsc_body (N : arith) (c : acall N (mmsc N)) : prog (mmsc N) (result (mmsc N)) :=
  let copy k := Read mm_min (fun a => Read mm_max (fun b => Read mm_sum (fun s => Read mm_count (fun n => k (MMSC a b s n))))) in
  match c with
  | CUpdate x =>
      let rest := Read mm_sum (fun s => Write (set_sum (add s x)) (Read mm_count (fun n => Write (set_count (uwrap (n + 1))) (Unlock (Ret None))))) in
      Lock (Read mm_count (fun n =>
        if n =? 0 then Write (set_min x) (Write (set_max x) rest)
        else Read mm_min (fun a =>
          let rest2 := Read mm_max (fun b => if ltb b x then Write (set_max x) rest else rest) in
          if ltb x a then Write (set_min x) rest2 else rest2)))
  | CMove => Lock (copy (fun s => Write (set_min zero) (Write (set_max zero) (Write (set_sum zero) (Write (set_count 0) (Unlock (Ret (Some s))))))))
  | CCopy => Lock (copy (fun s => Unlock (Ret (Some s))))
  | CMerge from =>
      let rest := Read mm_sum (fun s => Write (set_sum (add s (mm_sum from))) (Read mm_count (fun n => Write (set_count (uwrap (n + mm_count from))) (Unlock (Ret None))))) in
      Lock (if negb (mm_count from =? 0) then
              Read mm_count (fun n =>
                if n =? 0 then Write (set_min (mm_min from)) (Write (set_max (mm_max from)) rest)
                else Read mm_min (fun a =>
                  let rest2 := Read mm_max (fun b => if ltb b (mm_max from) then Write (set_max (mm_max from)) rest else rest) in
                  if ltb (mm_min from) a then Write (set_min (mm_min from)) rest2 else rest2))
            else rest)
  end.

(** histogram.Methods (M/aggregator/histogram/histogram.go:132-156).  The structure of go-expohisto is not in /repo: it is one field, and its methods, run
    under the lock, are any functions [m]. *)
Definition lib_body {N} (m : methods N) (c : acall N (sto m)) : prog (sto m) (result (sto m)) :=
  match c with
  | CUpdate n => Lock (Read id (fun s => Write (fun _ => m_update m 0 n s) (Unlock (Ret None))))
  | CMove => Lock (Read id (fun s => Write (fun _ => (m_move m s).1) (Unlock (Ret (Some (m_move m s).2)))))
  | CCopy => Lock (Read id (fun s => Unlock (Ret (Some (m_copy m s)))))
  | CMerge from => Lock (Read id (fun s => Write (fun _ => m_merge m from s) (Unlock (Ret None))))
  end.

(** ** Goroutines *)
Section run.
Context {N S : Type} (body : acall N S -> prog S (result S)) (new : S).
(** A goroutine in a call: the Storage, the call, what is left of the body, and the sequence number it was given (0 before). *)
Record athread := AThread { at_obj : nat; at_call : acall N S; at_cur : prog S (result S); at_seq : Z }.
(** What the caller can see: calls begin and end. *)
Inductive aevent := ABegin (t : nat) | AEnd (t : nat) (r : result S).
(** Contents and locks of the Storages, sequenceVar (gauge.go:52-59), goroutines, events. *)
Record astate := AState { as_val : nat -> S; as_lock : nat -> option nat; as_seq : Z; as_thr : list athread; as_log : list aevent }.
Definition a_init : astate := AState (fun _ => new) (fun _ => None) 1 [] [].
Inductive alabel := LCall (o : nat) (c : acall N S) | LGo (t : nat).
Definition at_to (t : nat) (x : athread) (p : prog S (result S)) (s : astate) : astate :=
  AState (as_val s) (as_lock s) (as_seq s) (<[t := AThread (at_obj x) (at_call x) p (at_seq x)]> (as_thr s)) (as_log s).
Definition with_val (o : nat) (v : S) (s : astate) : astate := AState (putc o v (as_val s)) (as_lock s) (as_seq s) (as_thr s) (as_log s).
Definition with_lock (o : nat) (l : option nat) (s : astate) : astate := AState (as_val s) (putc o l (as_lock s)) (as_seq s) (as_thr s) (as_log s).
(** One access to memory.  Lock waits; a goroutine that has returned does nothing more: its thread is then at [Ret] with the event in the log. *)
Definition astep (s : astate) (l : alabel) : option astate :=
  match l with
  | LCall o c => Some (AState (as_val s) (as_lock s) (as_seq s) (as_thr s ++ [AThread o c (body c) 0]) (as_log s ++ [ABegin (length (as_thr s))]))
  | LGo t =>
      x ← as_thr s !! t;
      let o := at_obj x in
      match at_cur x with
      | Lock k => match as_lock s o with None => Some (at_to t x k (with_lock o (Some t) s)) | Some _ => None end
      | Unlock k => Some (at_to t x k (with_lock o None s))
      | Read get k => Some (at_to t x (k (get (as_val s o))) s)
      | Write set k => Some (at_to t x k (with_val o (set (as_val s o)) s))
      | Atomic f k => Some (at_to t x (k (f (as_val s o)).2) (with_val o (f (as_val s o)).1 s))
      | Ticket k =>
          let z := uwrap (as_seq s + 1) in
          Some (AState (as_val s) (as_lock s) z (<[t := AThread o (at_call x) (k z) z]> (as_thr s)) (as_log s))
      | Again => Some (at_to t x (body (at_call x)) s)
      | Ret r =>
          if existsb (fun e => match e with AEnd t' _ => Nat.eqb t t' | _ => false end) (as_log s) then None
          else Some (AState (as_val s) (as_lock s) (as_seq s) (as_thr s) (as_log s ++ [AEnd t r]))
      end
  end.
Fixpoint arun (s : astate) (ls : list alabel) : option astate := match ls with [] => Some s | l :: ls => s' ← astep s l; arun s' ls end.
End run.
Arguments AThread {_ _} _ _ _ _.
Arguments at_obj {_ _} _.
Arguments at_call {_ _} _.
Arguments at_cur {_ _} _.
Arguments at_seq {_ _} _.
Arguments ABegin {_} _.
Arguments AEnd {_} _ _.
Arguments AState {_ _} _ _ _ _ _.
Arguments as_val {_ _} _ _.
Arguments as_lock {_ _} _ _.
Arguments as_seq {_ _} _.
Arguments as_thr {_ _} _.
Arguments as_log {_ _} _.
Arguments LCall {_ _} _ _.
Arguments LGo {_ _} _.
