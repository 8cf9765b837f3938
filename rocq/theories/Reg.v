(** RegisterCallback, Unregister and collections of one meter, at once: the list of callbacks as Go keeps it.
    M stands for /repo/lightstep/sdk/metric.  Unregister does not take the lock of the meter.
    Simplification: reading or writing a slice (three words) is one step, and steps of goroutines interleave. *)
From Coq Require Import Bool.
From stdpp Require Import base list option.

(** A slice of callbacks: its array and its length.  An array is its elements up to its capacity; nil is None.  Callbacks and registrations have
    the numbers of their registration. *)
Record header := Header { h_arr : nat; h_len : nat }.
Notation array := (list (option nat)).
(** Goroutines in Unregister (M/meter.go:93-115) of registration r: before [mr.lock.Lock]; before [mr.meter.callbacks] is read; before
    cbs[i] is compared; before the last element is read; before cbs[i] is written; before [mr.meter.callbacks] is written; before
    [mr.callback] is nil and the lock is released; returned nil (true) or ErrAlreadyUnregistered.
    Goroutines in collectFor (M/producer.go:91-127): in the loop over the callbacks; after it; crashed. *)
Inductive rthread :=
  | UWant (r : nat)
  | URead (r : nat)
  | UScan (r : nat) (h : header) (i : nat)
  | UTake (r : nat) (h : header) (i : nat)
  | UPut (r : nat) (h : header) (i : nat) (x : option nat)
  | UCut (r : nat) (h : header)
  | UClear (r : nat)
  | UDone (r : nat) (ok : bool)
  | CLoop (h : header) (i : nat)
  | CDone
  | CCrash.
(** What can be seen: registrations, returns of Unregister, collections that begin, the runs of callbacks, collections that have run them. *)
Inductive revent :=
  | ERegister (r : nat)
  | EUnregistered (t r : nat) (ok : bool)
  | ECollect (t : nat)
  | ERun (t r : nat)
  | ECollected (t : nat).
(** A registration (M/meter.go:53-59): whether its callback is there, and whether its lock is held. *)
Record registration := Registration { rg_there : bool; rg_locked : bool }.
Record rstate := RState { s_arrays : list array; s_callbacks : header; s_regs : list registration; s_threads : list rthread; s_log : list revent }.
(** A new meter: a nil slice. *)
Definition rinit : rstate := RState [[]] (Header 0 0) [] [] [].

Inductive ract := ARegister | AUnregister (r : nat) | ACollect | AGo (t : nat).

Section reg.
(** The capacity that append adds beyond the new element, for a full slice of a length. *)
Context (grow : nat -> nat).

(** append(s, x). *)
Definition append_to (arrays : list array) (h : header) (x : nat) : list array * header :=
  let a := default [] (arrays !! h_arr h) in
  if Nat.ltb (h_len h) (length a) then (<[h_arr h := <[h_len h := Some x]> a]> arrays, Header (h_arr h) (S (h_len h)))
  else (arrays ++ [take (h_len h) a ++ [Some x] ++ replicate (grow (h_len h)) None], Header (length arrays) (S (h_len h))).

Definition element (s : rstate) (h : header) (i : nat) : option nat := a ← s_arrays s !! h_arr h; x ← a !! i; x.
Definition to (s : rstate) (t : nat) (x : rthread) : rstate := RState (s_arrays s) (s_callbacks s) (s_regs s) (<[t := x]> (s_threads s)) (s_log s).
Definition say (s : rstate) (e : revent) : rstate := RState (s_arrays s) (s_callbacks s) (s_regs s) (s_threads s) (s_log s ++ [e]).
Definition spawn (s : rstate) (x : rthread) : rstate := RState (s_arrays s) (s_callbacks s) (s_regs s) (s_threads s ++ [x]) (s_log s).
Definition set_reg (s : rstate) (r : nat) (x : registration) : rstate := RState (s_arrays s) (s_callbacks s) (<[r := x]> (s_regs s)) (s_threads s) (s_log s).

Definition rgo (s : rstate) (t : nat) : option rstate :=
  match s_threads s !! t with
  | Some (UWant r) =>
      match s_regs s !! r with
      | Some (Registration true false) => Some (to (set_reg s r (Registration true true)) t (URead r))
      | Some (Registration false false) => Some (say (to s t (UDone r false)) (EUnregistered t r false))
      | _ => None
      end
  | Some (URead r) => Some (to s t (UScan r (s_callbacks s) 0))
  | Some (UScan r h i) =>
      Some (to s t (if Nat.ltb i (h_len h) then if bool_decide (element s h i = Some r) then UTake r h i else UScan r h (S i) else UClear r))
  | Some (UTake r h i) => Some (to s t (UPut r h i (element s h (h_len h - 1))))
  | Some (UPut r h i x) =>
      let a := default [] (s_arrays s !! h_arr h) in
      Some (to (RState (<[h_arr h := <[i := x]> a]> (s_arrays s)) (s_callbacks s) (s_regs s) (s_threads s) (s_log s)) t (UCut r h))
  | Some (UCut r h) => Some (to (RState (s_arrays s) (Header (h_arr h) (h_len h - 1)) (s_regs s) (s_threads s) (s_log s)) t (UClear r))
  | Some (UClear r) => Some (say (to (set_reg s r (Registration false false)) t (UDone r true)) (EUnregistered t r true))
  | Some (CLoop h i) =>
      if Nat.ltb i (h_len h) then
        match element s h i with
        | Some r => Some (say (to s t (CLoop h (S i))) (ERun t r))
        | None => Some (to s t CCrash)                              (* Run of a nil *Callback *)
        end
      else Some (say (to s t CDone) (ECollected t))
  | _ => None
  end.
Definition rstep (s : rstate) (a : ract) : option rstate :=
  match a with
  | ARegister =>                                                    (* M/meter.go:76-90, with the lock of the meter *)
      let r := length (s_regs s) in
      let '(arrays, h) := append_to (s_arrays s) (s_callbacks s) r in
      Some (RState arrays h (s_regs s ++ [Registration true false]) (s_threads s) (s_log s ++ [ERegister r]))
  | AUnregister r => if Nat.ltb r (length (s_regs s)) then Some (spawn s (UWant r)) else None
  | ACollect => Some (say (spawn s (CLoop (s_callbacks s) 0)) (ECollect (length (s_threads s))))   (* M/producer.go:101-105, with that lock *)
  | AGo t => rgo s t
  end.
Fixpoint rrun (s : rstate) (l : list ract) : option rstate :=
  match l with
  | [] => Some s
  | a :: l' => s' ← rstep s a; rrun s' l'
  end.
End reg.
