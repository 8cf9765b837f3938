(** The aggregators sum, gauge and minmaxsumcount.  M stands for /repo/lightstep/sdk/metric.
    A method that writes through pointers is a function to the new contents of what it writes.
    Each method is one atomic action (M/aggregator/aggregator.go:116-136); Atom takes them apart and C66 proves that this is enough. *)
From Coq Require Import ZArith Bool.
From stdpp Require Import base list option.
From Verif Require Import Num.
Local Open Scope Z_scope.

(** aggregator.Methods (M/aggregator/aggregator.go:137-184).  Update takes the sequence number that the gauge
    allocates (M/aggregator/gauge/gauge.go:141). *)
Record methods (N : Type) := Methods {
  sto : Type;
  m_new : sto;                        (* a zero Storage after Init *)
  m_update : Z -> N -> sto -> sto;
  m_move : sto -> sto * sto;          (* Move(from, to): the new from, the new to *)
  m_merge : sto -> sto -> sto;        (* Merge(from, to): the new to *)
  m_copy : sto -> sto;                (* Copy(from, to): the new to *)
  m_change : sto -> bool              (* HasChange *)
}.
Arguments sto {_} _.
Arguments m_new {_ m}.
Arguments m_update {_} _ _ _ _.
Arguments m_move {_} _ _.
Arguments m_merge {_} _ _ _.
Arguments m_copy {_} _ _.
Arguments m_change {_} _ _.

(** sum.Methods (M/aggregator/sum/sum.go:106-145); Storage is the value. *)
Definition sum_methods (N : arith) : methods N :=
  Methods N N zero
    (fun _ n s => add s n)
    (fun s => (zero, s))
    (fun from to => add to from)
    (fun s => s)
    (fun s => negb (eqb s zero)).
(** SubtractSwap (sum.go:143-145): the new operand. *)
Definition sum_subtract {N : arith} (operand argument : N) : N := sub argument operand.

(** gauge.State (M/aggregator/gauge/gauge.go:39-43) without its lock. *)
Record gauge (N : Type) := Gauge { g_value : N; g_seq : Z }.
Arguments Gauge {_} _ _.
Arguments g_value {_} _.
Arguments g_seq {_} _.
(** gauge.Methods (gauge.go:111-171). *)
Definition gauge_methods (N : arith) : methods N :=
  Methods N (gauge N) (Gauge zero 0)
    (fun seq n _ => Gauge n seq)
    (fun s => (Gauge (g_value s) 0, s))
    (fun from to => if negb (g_seq from =? 0) && (g_seq to <? g_seq from) then from else to)
    (fun s => s)
    (fun s => negb (g_seq s =? 0)).
(** State.Gauge (gauge.go:84-98): the value reported, 0 with an error when never set. *)
Definition gauge_report {N : arith} (s : gauge N) : N := if g_seq s =? 0 then zero else g_value s.

(** minmaxsumcount.fields (M/aggregator/minmaxsumcount/minmaxsumcount.go:37-42). *)
Record mmsc (N : Type) := MMSC { mm_min : N; mm_max : N; mm_sum : N; mm_count : Z }.
Arguments MMSC {_} _ _ _ _.
Arguments mm_min {_} _.
Arguments mm_max {_} _.
Arguments mm_sum {_} _.
Arguments mm_count {_} _.
(** Update (minmaxsumcount.go:128-146). *)
Definition mmsc_update {N : arith} (n : N) (s : mmsc N) : mmsc N :=
  let mn := if mm_count s =? 0 then n else if ltb n (mm_min s) then n else mm_min s in
  let mx := if mm_count s =? 0 then n else if ltb (mm_max s) n then n else mm_max s in
  MMSC mn mx (add (mm_sum s) n) (uwrap (mm_count s + 1)).
(** Merge (minmaxsumcount.go:148-168). *)
Definition mmsc_merge {N : arith} (from to : mmsc N) : mmsc N :=
  let mn := if mm_count from =? 0 then mm_min to else
            if mm_count to =? 0 then mm_min from else
            if ltb (mm_min from) (mm_min to) then mm_min from else mm_min to in
  let mx := if mm_count from =? 0 then mm_max to else
            if mm_count to =? 0 then mm_max from else
            if ltb (mm_max to) (mm_max from) then mm_max from else mm_max to in
  MMSC mn mx (add (mm_sum to) (mm_sum from)) (uwrap (mm_count to + mm_count from)).
(** minmaxsumcount.Methods (minmaxsumcount.go:103-183). *)
Definition mmsc_methods (N : arith) : methods N :=
  Methods N (mmsc N) (MMSC zero zero zero 0)
    (fun _ => mmsc_update)
    (fun s => (MMSC zero zero zero 0, s))
    mmsc_merge
    (fun s => s)
    (fun s => negb (mm_count s =? 0)).

(** A program over any number of Storages: what the accumulators, collectors and views do with them
    (M/aggregator/aggregator.go:125-136). *)
Inductive op (N : Type) :=
  | Update (i : nat) (n : N)      (* Update(&cell[i], n) *)
  | Move (a b : nat)              (* Move(&cell[a], &cell[b]) *)
  | Merge (a b : nat)             (* Merge(&cell[a], &cell[b]) *)
  | Copy (a b : nat).             (* Copy(&cell[a], &cell[b]) *)
Arguments Update {_} _ _.
Arguments Move {_} _ _.
Arguments Merge {_} _ _.
Arguments Copy {_} _ _.
Definition putc {X} (i : nat) (x : X) (f : nat -> X) : nat -> X := fun j => if Nat.eqb j i then x else f j.

(** The cells and sequenceVar (gauge.go:52-59), which starts at 1 and is a uint64. *)
Record cells {N : Type} (m : methods N) := Cells { cell : nat -> sto m; seq_var : Z }.
Arguments Cells {_ _} _ _.
Arguments cell {_ _} _ _.
Arguments seq_var {_ _} _.
Definition start {N} (m : methods N) : cells m := Cells (fun _ => m_new) 1.
Definition exec {N} (m : methods N) (o : op N) (s : cells m) : cells m :=
  let f := cell s in
  match o with
  | Update i n => let seq := uwrap (seq_var s + 1) in Cells (putc i (m_update m seq n (f i)) f) seq
  | Move a b => let '(from, to) := m_move m (f a) in Cells (putc b to (putc a from f)) (seq_var s)
  | Merge a b => Cells (putc b (m_merge m (f a) (f b)) f) (seq_var s)
  | Copy a b => Cells (putc b (m_copy m (f a)) f) (seq_var s)
  end.
Definition execs {N} (m : methods N) (os : list (op N)) : cells m := fold_left (fun s o => exec m o s) os (start m).
