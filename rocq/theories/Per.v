(** The periodic reader under any number of goroutines (M/periodic.go; M stands for /repo/lightstep/sdk/metric).
    One step is one atomic action of one goroutine. *)
From Coq Require Import ZArith Bool String.
From stdpp Require Import base list option strings.
Local Open Scope Z_scope.

(** NewPeriodicReader (periodic.go:64-88): the interval and the timeout, in nanoseconds; the only option is WithTimeout. *)
Definition default_interval : Z := 30000000000.
Definition new_periodic (interval : Z) (timeouts : list Z) : Z * Z :=
  let timeout := fold_left (fun _ d => d) timeouts interval in
  (if interval <=? 0 then default_interval else interval, if timeout <=? 0 then default_interval else timeout).

(** The methods of the exporter (periodic.go:31-46): periodic export, flush, and the final export. *)
Inductive method := Export | Flush | Final.
(** Where a goroutine is in collect (periodic.go:155-167): before Lock; before Produce; before the method is called, with the number of the
    production; in the method; before the deferred Unlock, with the error. *)
Inductive phase :=
  | Locking
  | Locked
  | Produced (n : nat)
  | Calling (n : nat)
  | Unlocking (e : option string).
Inductive pthread :=
  | LSelect                                        (* start, at the select (112-126) *)
  | LCollect (p : phase)                           (* collectWithTimeout (128-132) *)
  | LDone
  | CStop                                          (* Shutdown (138-142): before stop() *)
  | CWait                                          (* before Wait returns *)
  | CCollect (m : method) (p : phase)              (* ForceFlush (148-150) or Shutdown, in collect *)
  | CReturned (m : method) (e : option string)
  | CPanic.                                        (* a nil func or a nil interface is called *)

(** What can be seen from outside: productions, by number, of the registered producer; calls of the exporter and their returns; errors given
    to otel.Handle, where None is the refused registration. *)
Inductive event :=
  | EProduce (t : nat) (producer : string) (n : nat)
  | ECall (t : nat) (m : method) (n : nat)
  | EReturn (t : nat) (m : method) (e : option string)
  | EHandle (e : option string).

Record reader := Reader {
  rd_producer : option string;
  rd_canceled : bool;                              (* the context of stop *)
  rd_wait : nat;                                   (* the WaitGroup *)
  rd_lock : bool;
  rd_count : nat;                                  (* productions so far *)
  rd_threads : list pthread;
  rd_log : list event
}.
Definition new_reader : reader := Reader None false 0 false 0 [] [].

(** Register by a provider, the start of ForceFlush or Shutdown, a step of goroutine t.  [Tick]: the select takes the ticker.
    [Exported t e]: the exporter's method returns. *)
Inductive pact := ARegister (producer : string) | AFlush | AShut | Tick (t : nat) | Go (t : nat) | Exported (t : nat) (e : option string).

#[global] Instance method_dec : EqDecision method.
Proof. solve_decision. Defined.
#[global] Instance phase_dec : EqDecision phase.
Proof. solve_decision. Defined.

(** A step in collect: the new phase (None: returned with the error), and the new reader; goroutine t calls method m. *)
Inductive cresult := At (p : phase) | Return (e : option string) | Panic.
Definition collect_step (r : reader) (t : nat) (m : method) (p : phase) : option (reader * cresult) :=
  let 'Reader pr ca wt lk ct th lg := r in
  match p with
  | Locking => if lk then None else Some (Reader pr ca wt true ct th lg, At Locked)
  | Locked =>
      match pr with
      | None => Some (Reader pr ca wt false ct th lg, Panic)
      | Some x => Some (Reader pr ca wt lk (S ct) th (lg ++ [EProduce t x ct]), At (Produced ct))
      end
  | Produced n => Some (Reader pr ca wt lk ct th (lg ++ [ECall t m n]), At (Calling n))
  | Calling _ => None
  | Unlocking e => Some (Reader pr ca wt false ct th lg, Return e)
  end.
Definition set_thread (r : reader) (t : nat) (x : pthread) : reader :=
  let 'Reader pr ca wt lk ct th lg := r in Reader pr ca wt lk ct (<[t := x]> th) lg.
Definition log_event (r : reader) (e : event) : reader :=
  let 'Reader pr ca wt lk ct th lg := r in Reader pr ca wt lk ct th (lg ++ [e]).
Definition spawn (r : reader) (x : pthread) : reader :=
  let 'Reader pr ca wt lk ct th lg := r in Reader pr ca wt lk ct (th ++ [x]) lg.

Definition pstep (r : reader) (a : pact) : option reader :=
  let 'Reader pr ca wt lk ct th lg := r in
  match a with
  | ARegister x =>                                                          (* 96-109 *)
      match pr with
      | Some _ => Some (log_event r (EHandle None))
      | None => Some (Reader (Some x) false (S wt) lk ct (th ++ [LSelect]) lg)
      end
  | AFlush => Some (spawn r (CCollect Flush Locking))
  | AShut => Some (spawn r CStop)
  | Tick t =>
      match th !! t with
      | Some LSelect => Some (set_thread r t (LCollect Locking))
      | _ => None
      end
  | Exported t e =>
      match th !! t with
      | Some (LCollect (Calling n)) => Some (set_thread (log_event r (EReturn t Export e)) t (LCollect (Unlocking e)))
      | Some (CCollect m (Calling n)) => Some (set_thread (log_event r (EReturn t m e)) t (CCollect m (Unlocking e)))
      | _ => None
      end
  | Go t =>
      match th !! t with
      | Some LSelect => if ca then Some (Reader pr ca (pred wt) lk ct (<[t := LDone]> th) lg) else None    (* ctx.Done(); wait.Done() *)
      | Some (LCollect p) =>
          '(r', c) ← collect_step r t Export p;
          match c with
          | At p' => Some (set_thread r' t (LCollect p'))
          | Return None => Some (set_thread r' t LSelect)
          | Return (Some e) => Some (set_thread (log_event r' (EHandle (Some e))) t LSelect)
          | Panic => Some (set_thread r' t CPanic)
          end
      | Some CStop =>
          match pr with
          | None => Some (set_thread r t CPanic)                             (* pr.stop is nil *)
          | Some _ => Some (Reader pr true wt lk ct (<[t := CWait]> th) lg)
          end
      | Some CWait => match wt with O => Some (set_thread r t (CCollect Final Locking)) | S _ => None end
      | Some (CCollect m p) =>
          '(r', c) ← collect_step r t m p;
          match c with
          | At p' => Some (set_thread r' t (CCollect m p'))
          | Return e => Some (set_thread r' t (CReturned m e))
          | Panic => Some (set_thread r' t CPanic)
          end
      | _ => None
      end
  end.
Fixpoint prun (r : reader) (l : list pact) : option reader :=
  match l with
  | [] => Some r
  | a :: l' => r' ← pstep r a; prun r' l'
  end.
