(** Model of /repo/lightstep/sdk/metric/internal/doevery/doevery.go (E below): diagnostics limited by call site. *)
From Coq Require Import ZArith Bool Lia.
From stdpp Require Import base list option.
Local Open Scope Z_scope.

(** invocationKey (E:38-46): a file and a line, here a number. *)
Definition key := nat.
(** Where a goroutine is in TimePeriod (E:70-114).  Durations and times are nanoseconds; a goroutine is idle while it runs f, which may
    call TimePeriod again. *)
Inductive pc :=
  | Idle
  | Want (k : key) (d : Z)                 (* before mu.Lock (E:95) *)
  | Look (k : key) (d : Z)                 (* the mutex is held: before the map and the clock are read (E:98-100) *)
  | Mark (k : key) (d : Z)                 (* invoking: before the map is written (E:102) *)
  | Unlock (r : option (key * Z))          (* before the deferred mu.Unlock (E:96); Some when f is to run *)
  | Run (r : option (key * Z)).            (* before f() (E:82 or E:113) *)
(** The clock (time.Now and time.Since use its monotonic reading), mu, mostRecentInvocationMap and the goroutines (E:25-35). *)
Record state := State { st_now : Z; st_lock : option nat; st_last : key -> option Z; st_pc : nat -> pc }.
Definition set_pc (f : nat -> pc) (th : nat) (p : pc) : nat -> pc := fun x => if decide (x = th) then p else f x.
Definition set_last (f : key -> option Z) (k : key) (t : Z) : key -> option Z := fun x => if decide (x = k) then Some t else f x.
Definition initial (t0 : Z) : state := State t0 None (fun _ => None) (fun _ => Idle).

(** What can be seen: calls with the key of the caller (None when runtime.Caller fails), panics for negative durations, decisions with
    the time they were taken, and the runs of f with the decision they come from. *)
Inductive event :=
  | ECall (th : nat) (k : option key) (d : Z)
  | EPanic (th : nat)
  | EAdmit (th : nat) (k : key) (d : Z) (t : Z)
  | ERefuse (th : nat) (k : key) (d : Z) (t : Z)
  | EInvoke (th : nat) (r : option (key * Z)) (t : Z).

(** E:100: !ok || time.Since(prev) > dur. *)
Definition invoking (prev : option Z) (now d : Z) : bool := match prev with None => true | Some p => d <? now - p end.

Inductive step : state -> list event -> state -> Prop :=
  (* time passes *)
  | step_tick s dt : 0 <= dt -> step s [] (State (st_now s + dt) (st_lock s) (st_last s) (st_pc s))
  (* E:71-73 *)
  | step_panic s th k d : st_pc s th = Idle -> d < 0 -> step s [ECall th k d; EPanic th] s
  (* E:76-84 *)
  | step_unknown s th d : st_pc s th = Idle -> 0 <= d -> step s [ECall th None d] (State (st_now s) (st_lock s) (st_last s) (set_pc (st_pc s) th (Run None)))
  (* E:76-93 *)
  | step_call s th k d : st_pc s th = Idle -> 0 <= d -> step s [ECall th (Some k) d] (State (st_now s) (st_lock s) (st_last s) (set_pc (st_pc s) th (Want k d)))
  (* E:95 *)
  | step_lock s th k d : st_pc s th = Want k d -> st_lock s = None -> step s [] (State (st_now s) (Some th) (st_last s) (set_pc (st_pc s) th (Look k d)))
  (* E:98-101 *)
  | step_look s th k d : st_pc s th = Look k d -> invoking (st_last s k) (st_now s) d = true ->
      step s [] (State (st_now s) (st_lock s) (st_last s) (set_pc (st_pc s) th (Mark k d)))
  | step_refuse s th k d : st_pc s th = Look k d -> invoking (st_last s k) (st_now s) d = false ->
      step s [ERefuse th k d (st_now s)] (State (st_now s) (st_lock s) (st_last s) (set_pc (st_pc s) th (Unlock None)))
  (* E:102 *)
  | step_mark s th k d : st_pc s th = Mark k d ->
      step s [EAdmit th k d (st_now s)] (State (st_now s) (st_lock s) (set_last (st_last s) k (st_now s)) (set_pc (st_pc s) th (Unlock (Some (k, st_now s)))))
  (* E:96, 104-110 *)
  | step_unlock s th r : st_pc s th = Unlock r ->
      step s [] (State (st_now s) None (st_last s) (set_pc (st_pc s) th (match r with Some _ => Run r | None => Idle end)))
  (* E:82, 113 *)
  | step_run s th r : st_pc s th = Run r -> step s [EInvoke th r (st_now s)] (State (st_now s) (st_lock s) (st_last s) (set_pc (st_pc s) th Idle)).

Inductive runs : state -> list event -> state -> Prop :=
  | runs_nil s : runs s [] s
  | runs_step s l s' l' s'' : runs s l s' -> step s' l' s'' -> runs s (l ++ l') s''.
