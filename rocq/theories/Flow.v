(** A periodic reader that exports what the synchronous instruments of its provider measure, under every schedule: SyncModel and Per put together.
    M stands for /repo/lightstep/sdk/metric.  The calls of the instruments, the collections of the other readers and the goroutines of this
    reader run at the same time; Produce (M/producer.go:46-127) is not one step but a whole collection of SyncModel. *)
From Coq Require Import ZArith Bool String.
From stdpp Require Import base list option strings.
From Verif Require Import Per Base SyncModel.

Section flow.
Context (c : config) (rd : nat).

(** [f_busy]: the call of Produce under way (M/periodic.go:160): the goroutine of the reader and its collection among the threads of SyncModel.
    [f_made]: the collection of each production so far.  The data of production n are the points of collection number [f_made !! n]
    (the buffer that Produce fills and that is given to the exporter, M/periodic.go:155-167; its reuse is C31 and C56). *)
Record flow := Flow { f_sync : state c; f_reader : reader; f_busy : option (nat * nat); f_made : list nat }.
Definition flow_init : flow := Flow (init c) new_reader None [].

(** A step of a call of an instrument or of a collection, or the start of a collection by another reader; the start of Produce by goroutine
    t of the reader; a step of the reader. *)
Inductive fact := FCall (l : label c) | FProduce (t : nat) | FReader (a : pact).

(** The goroutine has the lock and is about to call Produce (M/periodic.go:156-160). *)
Definition at_produce (x : pthread) : bool := match x with Per.LCollect Locked | CCollect _ Locked => true | _ => false end.
(** The step of the reader is the return of Produce; without a producer it is a crash instead. *)
Definition returns_production (r : reader) (a : pact) : option nat :=
  match a with
  | Go t => match rd_producer r, rd_threads r !! t with Some _, Some x => if at_produce x then Some t else None | _, _ => None end
  | _ => None
  end.

Definition fstep (f : flow) (a : fact) : option flow :=
  let 'Flow s r b m := f in
  match a with
  | FCall l =>
      match l with
      | LCollect rd' => if Nat.eqb rd' rd then None else s' ← step s l; Some (Flow s' r b m)
      | _ => s' ← step s l; Some (Flow s' r b m)
      end
  | FProduce t =>
      match returns_production r (Go t), b with
      | Some _, None => s' ← step s (LCollect rd); Some (Flow s' r (Some (t, length (s_thr s))) m)
      | _, _ => None
      end
  | FReader a =>
      r' ← pstep r a;
      match returns_production r a with
      | None => Some (Flow s r' b m)
      | Some t =>
          match b with
          | Some (t', k) => if Nat.eqb t' t then match s_thr s !! k with Some QDone => Some (Flow s r' None (m ++ [k])) | _ => None end else None
          | None => None
          end
      end
  end.
Fixpoint frun (f : flow) (l : list fact) : option flow :=
  match l with
  | [] => Some f
  | a :: l' => f' ← fstep f a; frun f' l'
  end.
End flow.
Arguments f_sync {c} _.
Arguments f_reader {c} _.
Arguments f_busy {c} _.
Arguments f_made {c} _.
Arguments FCall {c} _.
Arguments FProduce {c} _.
Arguments FReader {c} _.
Arguments fstep {c} rd f a.
Arguments frun {c} rd f l.
Arguments Flow {c} _ _ _ _.
