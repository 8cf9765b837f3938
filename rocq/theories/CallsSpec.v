(** What a user can observe of ForceFlush and Shutdown of a provider. *)
From Coq Require Import ZArith Bool String.
From stdpp Require Import base list option strings.
From Verif Require Import Per PerSpec Calls.

(** A history of the readers, providers and calls. *)
Definition lived (kinds : list bool) (l : list xact) (w : world) : Prop := xrun (new_world kinds) l = Some w.
(** What goroutine t of a reader did. *)
Definition doer (e : event) : option nat := match e with EProduce t _ _ | ECall t _ _ | EReturn t _ _ => Some t | EHandle _ => None end.
Definition done_by (t : nat) (l : list event) : list event := List.filter (fun e => bool_decide (doer e = Some t)) l.
(** The exporter method that is called for a call of a provider. *)
Definition method_of (final : bool) : method := if final then Final else Flush.
(** Between two states of a periodic reader its goroutine t made one whole collection: it produced data, gave them to that exporter method and waited
    for its return, with error e. *)
Definition collected (before after : reader) (t : nat) (final : bool) (e : option string) : Prop :=
  exists since y n, rd_log after = rd_log before ++ since /\ rd_producer after = Some y /\
  done_by t (rd_log before) = [] /\
  done_by t since = [EProduce t y n; ECall t (method_of final) n; EReturn t (method_of final) e].
(** One reader has served the call: a manual reader does nothing and returns nil. *)
Definition served (before after : option xreader) (final : bool) (t : option nat) (e : option string) : Prop :=
  match before, after with
  | Some (Periodic b), Some (Periodic a) => exists t', t = Some t' /\ collected b a t' final e
  | Some (Manual _ _), Some (Manual _ _) => t = None /\ e = None
  | _, _ => False
  end.
(** Where the error of a call stands. *)
Definition returns (x : position) : option (list string) := match x with Back _ errs => Some errs | _ => None end.
Definition some_errors (es : list (option string)) : list string := omap id es.
(** Steps inside the program, other than ticks, new calls and new providers. *)
Definition inside (a : xact) : bool := match a with AGo _ => true | AReader _ a => internal a | _ => false end.
Definition over (x : position) : bool := match x with Back _ _ | Refused => true | _ => false end.
