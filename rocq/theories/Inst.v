(** Creation of instruments: the constructors of a meter and the callbacks given to them as options.  M stands for /repo/lightstep/sdk/metric. *)
From Coq Require Import ZArith Bool String.
From stdpp Require Import base list option strings.
From Verif Require Import Num Agg Attr Async.

(** ** Constructors *)
(** number.Kind (M/number/number.go:21-30). *)
Inductive numkind := Int64Kind | Float64Kind.
#[global] Instance numkind_eq_dec : EqDecision numkind. Proof. solve_decision. Defined.
(** The methods of the meter, with the number and instrument kinds each passes to synchronousInstrument or asynchronousInstrument
    (M/syncinst.go:160-198, M/asyncinst.go:96-154). *)
Definition constructors : list (string * (numkind * kind)) :=
  [("Int64Counter", (Int64Kind, SyncCounter));
   ("Int64UpDownCounter", (Int64Kind, SyncUpDownCounter));
   ("Int64Gauge", (Int64Kind, SyncGauge));
   ("Int64Histogram", (Int64Kind, SyncHistogram));
   ("Float64Counter", (Float64Kind, SyncCounter));
   ("Float64UpDownCounter", (Float64Kind, SyncUpDownCounter));
   ("Float64Gauge", (Float64Kind, SyncGauge));
   ("Float64Histogram", (Float64Kind, SyncHistogram));
   ("Int64ObservableCounter", (Int64Kind, AsyncCounter));
   ("Int64ObservableUpDownCounter", (Int64Kind, AsyncUpDownCounter));
   ("Int64ObservableGauge", (Int64Kind, AsyncGauge));
   ("Float64ObservableCounter", (Float64Kind, AsyncCounter));
   ("Float64ObservableUpDownCounter", (Float64Kind, AsyncUpDownCounter));
   ("Float64ObservableGauge", (Float64Kind, AsyncGauge))]%string.

(** ** Callbacks given at creation *)
Section inst.
Context {N : arith} (c : acfg).

(** How a callback came to be registered: with RegisterCallback, or as an option of the creation of instrument [i]; [nil]: the user's function is nil. *)
Inductive origin := ByRegister | ByCreation (i : nat) (nil : bool).
(** The meter ([Async.mst]); the origin of every callback ever registered; the callback of every run so far; the registrations the user was given. *)
Record ist := ISt { i_m : mst (N:=N); i_origin : list origin; i_table : list nat; i_handles : list nat }.
Definition i_init : ist := ISt (m_init c) [] [] [].

(** registerIntCallbacks and registerFloatCallbacks (M/asyncinst.go:74-94) for instrument [i]: each callback is wrapped in a function, which is
    never nil, and registered for that instrument alone; the registration and the error are dropped.  [fs]: for each callback, whether the user's function
    is there.  The second result numbers the callbacks.  In Go 1.22 and later, which go.mod asks for, each wrapper has its own [cb]. *)
Fixpoint register_callbacks (i : nat) (fs : list bool) (st : ist) : ist * list nat :=
  match fs with
  | [] => (st, [])
  | f :: fs =>
      match register c [Inst i] true (i_m st) with
      | (m, Some cb) =>
          let '(st, ids) := register_callbacks i fs (ISt m (i_origin st ++ [ByCreation i (negb f)]) (i_table st) (i_handles st)) in
          (st, cb :: ids)
      | (m, None) => register_callbacks i fs (ISt m (i_origin st) (i_table st) (i_handles st))
      end
  end.

(** intObserver.Observe and floatObserver.Observe (asyncinst.go:66-72): the observer a creation callback is given passes its own instrument on, whatever
    the user does; RegisterCallback's functions are given the observer itself.  [runs]: the callback of every run; [cb]: the callback that runs now. *)
Definition owner (os : list origin) (cb : nat) : option nat := match os !! cb with Some (ByCreation i _) => Some i | _ => None end.
Definition through (os : list origin) (runs : list nat) (cb : nat) (a : attempt (N:=N)) : attempt :=
  match (match at_cs a with None => Some cb | Some j => runs !! j end) ≫= owner os with
  | Some i => Attempt (at_cs a) (Inst i) (at_val a) (at_attrs a)
  | None => a
  end.
(** The wrapper of a nil function panics when it runs (asyncinst.go:77, 88). *)
Definition panics (os : list origin) (cb : nat) : bool := match os !! cb with Some (ByCreation _ b) => b | _ => false end.

(** What a program may do.  A registration can only be unregistered by a program that was given it. *)
Inductive iop := ICreate (i : nat) (fs : list bool) | IRegister (objs : list obj) (has_function : bool) | IUnregister (r : nat)
               | ICollect (order : list (entry (N:=N)) -> list (entry (N:=N))) (script : nat -> list (attempt (N:=N))) | ILate (a : attempt (N:=N)).
Inductive ires := IRCreated (ids : list nat) | IRRegistered (r : option nat) | IRUnregistered (ok : bool) | IRCollected (o : collected (N:=N)) | IRLate (x : result).
(** [None]: a panic. *)
Definition iexec (st : ist) (o : iop) : option (ist * ires) :=
  match o with
  | ICreate i fs => let '(st, ids) := register_callbacks i fs st in Some (st, IRCreated ids)
  | IRegister objs f =>
      match register c objs f (i_m st) with
      | (m, Some cb) => Some (ISt m (i_origin st ++ [ByRegister]) (i_table st) (i_handles st ++ [cb]), IRRegistered (Some cb))
      | (m, None) => Some (ISt m (i_origin st) (i_table st) (i_handles st), IRRegistered None)
      end
  | IUnregister r =>
      if existsb (Nat.eqb r) (i_handles st)
      then let '(m, b) := unregister r (i_m st) in Some (ISt m (i_origin st) (i_table st) (i_handles st), IRUnregistered b)
      else Some (st, IRUnregistered false)
  | ICollect order script =>
      if existsb (panics (i_origin st)) (m_cbs (i_m st)) then None
      else
        let runs := i_table st ++ m_cbs (i_m st) in
        let '(m, o) := collect_for c order (fun cb => map (through (i_origin st) runs cb) (script cb)) (i_m st) in
        Some (ISt m (i_origin st) runs (i_handles st), IRCollected o)
  | ILate a =>
      match mexec c (i_m st) (OLate (through (i_origin st) (i_table st) (length (i_origin st)) a)) with
      | (m, RLate x) => Some (ISt m (i_origin st) (i_table st) (i_handles st), IRLate x)
      | _ => None
      end
  end.
Fixpoint irun (st : ist) (l : list iop) : option (ist * list ires) :=
  match l with
  | [] => Some (st, [])
  | o :: l => match iexec st o with
              | Some (st, r) => match irun st l with Some (st, rs) => Some (st, r :: rs) | None => None end
              | None => None
              end
  end.
End inst.
Arguments ICreate {N} _ _.
Arguments IRegister {N} _ _.
Arguments IUnregister {N} _.
Arguments ICollect {N} _ _.
Arguments ILate {N} _.
Arguments IRCreated {N} _.
Arguments IRRegistered {N} _.
Arguments IRUnregistered {N} _.
Arguments IRCollected {N} _.
Arguments IRLate {N} _.
Arguments i_m {N} _.
Arguments i_origin {N} _.
Arguments i_table {N} _.
Arguments i_handles {N} _.
Arguments ISt {N} _ _ _ _.
