(** What a user can observe of a periodic reader. *)
From Coq Require Import ZArith Bool String.
From stdpp Require Import base list option strings.
From Verif Require Import Per.

(** One collection: goroutine, producer, number, exporter method, error. *)
Record session := Session { s_t : nat; s_producer : string; s_n : nat; s_method : method; s_err : option string }.
Definition events (s : session) : list event :=
  [EProduce (s_t s) (s_producer s) (s_n s); ECall (s_t s) (s_method s) (s_n s); EReturn (s_t s) (s_method s) (s_err s)].
(** The log without what is given to otel.Handle. *)
Definition is_handle (e : event) : bool := match e with EHandle _ => true | _ => false end.
Definition exports (l : list event) : list event := List.filter (fun e => negb (is_handle e)) l.
(** The log is a sequence of whole collections, numbered 0, 1, ..., and perhaps the start of one more. *)
Definition one_at_a_time (l : list event) (ss : list session) (rest : list event) : Prop :=
  exports l = concat (map events ss) ++ rest /\ map s_n ss = seq 0 (length ss) /\
  (rest = [] \/ exists s, s_n s = length ss /\ rest = [EProduce (s_t s) (s_producer s) (s_n s)] \/
                s_n s = length ss /\ rest = [EProduce (s_t s) (s_producer s) (s_n s); ECall (s_t s) (s_method s) (s_n s)]).
(** The collections of goroutine t. *)
Definition sessions_of (t : nat) (ss : list session) : list session := List.filter (fun s => Nat.eqb (s_t s) t) ss.
(** Periodic exports. *)
Definition periodic (e : event) : bool := match e with ECall _ Export _ | EReturn _ Export _ => true | _ => false end.
(** The errors of periodic exports, and the errors given to otel.Handle. *)
Definition export_errors (l : list event) : list string := omap (fun e => match e with EReturn _ Export (Some x) => Some x | _ => None end) l.
Definition handled (l : list event) : list string := omap (fun e => match e with EHandle (Some x) => Some x | _ => None end) l.
(** The histories in which the reader is registered before anything else happens, as NewMeterProvider does (M/provider.go:62-90). *)
Definition started (x : string) (l : list pact) : list pact := ARegister x :: l.
(** Steps of goroutines that are inside the reader, other than the ticks of the timer. *)
Definition internal (a : pact) : bool := match a with Go _ | Exported _ _ => true | _ => false end.
Definition returned (x : pthread) : bool := match x with CReturned _ _ | LDone => true | _ => false end.
(** The goroutine of the timer. *)
Definition is_loop (x : pthread) : bool := match x with LSelect | LCollect _ | LDone => true | _ => false end.
(** The goroutines of a history in the order in which they start, each with the exporter method that it is for: the timer loop of the first
    registration, the calls of ForceFlush and the calls of Shutdown. *)
Fixpoint callers (registered : bool) (l : list pact) : list method :=
  match l with
  | [] => []
  | ARegister _ :: l' => if registered then callers true l' else Export :: callers true l'
  | AFlush :: l' => Flush :: callers registered l'
  | AShut :: l' => Final :: callers registered l'
  | _ :: l' => callers registered l'
  end.
(** Ticks of the timer that were taken, and periodic exports that were begun. *)
Definition ticks (l : list pact) : nat := length (List.filter (fun a => match a with Tick _ => true | _ => false end) l).
Definition begun (l : list event) : nat := length (List.filter (fun e => match e with ECall _ Export _ => true | _ => false end) l).
(** The timer's goroutine is between a tick and the call of the exporter. *)
Definition about_to_export (x : pthread) : bool := match x with LCollect (Locking | Locked | Produced _) => true | _ => false end.
(** Registrations, and those that were reported as refused. *)
Definition registrations (l : list pact) : nat := length (List.filter (fun a => match a with ARegister _ => true | _ => false end) l).
Definition refused (l : list event) : nat := length (List.filter (fun e => match e with EHandle None => true | _ => false end) l).
