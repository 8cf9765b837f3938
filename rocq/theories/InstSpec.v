(** Vocabulary for C62.  Nothing in this file models Go code. *)
From Coq Require Import ZArith Bool String.
From stdpp Require Import base list option strings.
From Verif Require Import Num Agg Attr Async AsyncSpec Inst.

(** ** What the name of a constructor says: the type of number, whether callbacks observe the instrument, and the sort of instrument. *)
Definition strip (p s : string) : option string := if String.prefix p s then Some (substring (String.length p) (String.length s) s) else None.
Definition number_word (s : string) : option (numkind * string) :=
  match strip "Int64" s, strip "Float64" s with
  | Some t, _ => Some (Int64Kind, t)
  | None, Some t => Some (Float64Kind, t)
  | None, None => None
  end.
Definition sort_word (observable : bool) (s : string) : option kind :=
  if bool_decide (s = "Counter"%string) then Some (if observable then AsyncCounter else SyncCounter)
  else if bool_decide (s = "UpDownCounter"%string) then Some (if observable then AsyncUpDownCounter else SyncUpDownCounter)
  else if bool_decide (s = "Gauge"%string) then Some (if observable then AsyncGauge else SyncGauge)
  else if bool_decide (s = "Histogram"%string) then (if observable then None else Some SyncHistogram)
  else None.
Definition says (s : string) : option (numkind * kind) :=
  match number_word s with
  | Some (n, t) => match strip "Observable" t with
                   | Some u => pair n <$> sort_word true u
                   | None => pair n <$> sort_word false t
                   end
  | None => None
  end.

Section spec.
Context {N : arith} (c : acfg).
(** Instrument [i] is one of this meter. *)
Definition of_meter (i : nat) : Prop := exists inst, a_insts c !! i = Some inst /\ ai_meter inst = a_meter c.

(** ** From the calls of a program and their results *)
(** The callbacks registered by creations, each with its instrument. *)
Definition made (l : list (iop (N:=N))) (rs : list (ires (N:=N))) : list (nat * nat) :=
  p ← zip l rs; match p with (ICreate i _, IRCreated ids) => map (fun r => (r, i)) ids | _ => [] end.
(** The callbacks RegisterCallback registered, and those Unregister removed. *)
Definition given (l : list (iop (N:=N))) (rs : list (ires (N:=N))) : list nat :=
  omap (fun p => match p with (IRegister _ _, IRRegistered (Some r)) => Some r | _ => None end) (zip l rs).
Definition taken (l : list (iop (N:=N))) (rs : list (ires (N:=N))) : list nat :=
  omap (fun p => match p with (IUnregister r, IRUnregistered true) => Some r | _ => None end) (zip l rs).

(** How often callbacks have run so far; each run hands out an observer, and these are numbered. *)
Definition runs_so_far (rs : list (ires (N:=N))) : nat := list_sum (map (fun r => match r with IRCollected o => length (co_ran o) | _ => 0 end) rs).

(** ** The observations of a collection: those that were recorded, in order; of a creation callback for its own instrument, of the others for the
    instrument they name. *)
Definition said_one (i : option nat) (p : attempt (N:=N) * result) : option (obs (N:=N)) :=
  match p, i with
  | (a, Recorded), Some i => Some (i, obs_set c (at_attrs a), at_val a)
  | (Attempt _ (Inst i) n l, Recorded), None => Some (i, obs_set c l, n)
  | _, _ => None
  end.
Definition said (by_creation : list (nat * nat)) (script : nat -> list (attempt (N:=N))) (ran : list (nat * list result)) : list obs :=
  r ← ran; omap (said_one (snd <$> find (fun p => Nat.eqb p.1 r.1) by_creation)) (zip (script r.1) r.2).
End spec.
