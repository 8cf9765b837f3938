(** A periodic reader that exports what the callbacks of its provider's asynchronous instruments observe, under every schedule: Conc and Per
    put together.  M stands for /repo/lightstep/sdk/metric.  The goroutines that observe, the collections of the other readers and the
    goroutines of this reader run at the same time; Produce (M/producer.go:46-127) is not one step but a whole collection of Conc. *)
From Coq Require Import ZArith Bool String.
From stdpp Require Import base list option strings.
From Verif Require Import Per Flow Num Agg Attr Async Conc.

Section deliv.
Context {N : arith} (c : acfg) (vr : nat -> nat) (decl : list (list nat)) (rd : nat).

(** [d_busy]: the call of Produce under way (M/periodic.go:160): the goroutine of the reader and its collection among those of Conc.
    [d_made]: the collection of each production so far.  The data of production n are the output of collection number [d_made !! n]
    (the buffer that Produce fills and that is given to the exporter, M/periodic.go:155-167; its reuse is C31 and C56). *)
Record sys := Sys { d_conc : cst N; d_reader : reader; d_busy : option (nat * nat); d_made : list nat }.
Definition sys_init : sys := Sys (c_init c) new_reader None [].

(** A step of an observation or of a collection, a call of an observer, or the start of a collection by another reader; the start of Produce by
    goroutine t of the reader when the callbacks [cbs] are registered (M/producer.go:101-105); a step of the reader. *)
Inductive dact := DConc (a : label (N:=N)) | DProduce (t : nat) (cbs : list nat) | DReader (a : pact).

Definition dstep (f : sys) (a : dact) : option sys :=
  let 'Sys s r b m := f in
  match a with
  | DConc l =>
      match l with
      | LBegin p _ => if Nat.eqb p rd then None else s' ← exec c vr decl s l; Some (Sys s' r b m)
      | _ => s' ← exec c vr decl s l; Some (Sys s' r b m)
      end
  | DProduce t cbs =>
      match returns_production r (Go t), b with
      | Some _, None => s' ← exec c vr decl s (LBegin rd cbs); Some (Sys s' r (Some (t, length (s_colls s))) m)
      | _, _ => None
      end
  | DReader a =>
      r' ← pstep r a;
      match returns_production r a with
      | None => Some (Sys s r' b m)
      | Some t =>
          match b with
          | Some (t', q) =>
              if Nat.eqb t' t then
                k ← s_colls s !! q;
                match k_phase k with KDone => Some (Sys s r' None (m ++ [q])) | _ => None end
              else None
          | None => None
          end
      end
  end.
Fixpoint drun (f : sys) (l : list dact) : option sys :=
  match l with
  | [] => Some f
  | a :: l' => f' ← dstep f a; drun f' l'
  end.
End deliv.
Arguments sys N : clear implicits.
Arguments Sys {N} _ _ _ _.
Arguments d_conc {N} _.
Arguments d_reader {N} _.
Arguments d_busy {N} _.
Arguments d_made {N} _.
Arguments dact N : clear implicits.
Arguments DConc {N} _.
Arguments DProduce {N} _ _.
Arguments DReader {N} _.
