(** Vocabulary for C17-C20.  Nothing in this file models Go code. *)
From Coq Require Import ZArith Bool String.
From stdpp Require Import base list option strings.
From Verif Require Import Num Agg AggSpec Attr Async.
Local Open Scope Z_scope.

Section spec.
Context {N : arith} (c : acfg).

(** ** What was observed in one collection: a list of (instrument, attributes, number). *)
Definition names (l : list (obs (N:=N))) : list (nat * list kv) := remove_dups (map fst l).
(** The last number observed for an instrument and attribute set. *)
Definition last_seen (l : list (obs (N:=N))) (p : nat * list kv) : option N :=
  list.last (omap (fun o => if bool_decide (o.1 = p) then Some o.2 else None) l).
(** How many times view [v] is fed by instrument [i] (normally 0 or 1). *)
Definition feeds (v i : nat) : nat :=
  match a_insts c !! i with Some x => length (List.filter (Nat.eqb v) (ai_views x)) | None => 0%nat end.
(** What view [v] is given: for each of the series of its instruments, the attributes the view keeps and the last number. *)
Definition inputs (v : nat) (w : aview) (l : list (obs (N:=N))) : list (list kv * N) :=
  p ← names l;
  match last_seen l p with Some n => replicate (feeds v p.1) (view_key w p.2, n) | None => [] end.
Definition at_key (k : list kv) (l : list (list kv * N)) : list N := map snd (List.filter (fun p => bool_decide (p.1 = k)) l).
(** The number of different attribute sets among them. *)
Definition distinct (l : list (list kv * N)) : nat := length (remove_dups (map fst l)).

(** ** The observations of a collection that were recorded, from what the callbacks did and were answered. *)
Definition recorded_one (x : attempt (N:=N) * result) : option obs :=
  match x with
  | (Attempt _ (Inst i) n l, Recorded) => Some (i, obs_set c l, n)
  | _ => None
  end.
Definition recorded (script : nat -> list (attempt (N:=N))) (ran : list (nat * list result)) : list obs :=
  r ← ran; omap recorded_one (zip (script r.1) r.2).

(** ** Histories: each collection with what was recorded in it and what it reported. *)
Fixpoint collections (os : list (mop (N:=N))) (rs : list (mres (N:=N))) : list (list (obs (N:=N)) * collected (N:=N)) :=
  match os, rs with
  | OCollect _ script :: os, RCollect o :: rs => (recorded script (co_ran o), o) :: collections os rs
  | _ :: os, _ :: rs => collections os rs
  | _, _ => []
  end.
Definition fair (os : list (mop (N:=N))) : Prop := forall order script es, OCollect order script ∈ os -> order es ≡ₚ es.
(** The points of view [v] in a collection, and the one for the attributes [k]. *)
Definition points (v : nat) (o : collected (N:=N)) : list (list kv * N) := default [] (co_points o !! v).

(** ** Which callbacks are registered after a history *)
(** The registrations that succeeded are numbered 0, 1, ... in order. *)
Definition registered_ids (os : list (mop (N:=N))) : list nat :=
  seq 0 (length (List.filter (fun o => match o with ORegister objs f => bool_decide (is_Some (new_callback c objs f)) | _ => false end) os)).
(** Registration [r] was made by the operation before some [OUnregister r]. *)
Definition unregistered (os : list (mop (N:=N))) (r : nat) : Prop :=
  exists os1 os2, os = os1 ++ OUnregister r :: os2 /\ r ∈ registered_ids os1.
(** The instruments the [r]-th registration that succeeded was for. *)
Definition insts_of (l : list obj) : list nat := omap (fun x => match x with Inst i => Some i | Foreign => None end) l.
Definition declared (os : list (mop (N:=N))) : list (list nat) :=
  omap (fun o => match o with ORegister objs f => if bool_decide (is_Some (new_callback c objs f)) then Some (insts_of objs) else None | _ => None end) os.
Definition runs_before (rs : list (mres (N:=N))) : nat :=
  list_sum (map (fun r => match r with RCollect o => length (co_ran o) | _ => 0%nat end) rs).

(** ** When an observation is allowed: the observer is the one of callback [r], running now as the [j]-th run ever, its registration
    names the instrument, the instrument exists, accepts the number and is enabled. *)
Definition allowed (os : list (mop (N:=N))) (r j : nat) (a : attempt (N:=N)) : Prop :=
  default j (at_cs a) = j /\
  exists i inst ds, at_obj a = Inst i /\ declared os !! r = Some ds /\ i ∈ ds /\ a_insts c !! i = Some inst /\
    range_test (at_val a) (ai_kind inst) = true /\ ai_views inst <> [].
End spec.

(** ** The changes of a total that is present at some collections and absent at others; a total that was absent counts from 0. *)
Fixpoint changes (before : option Z) (totals : list (option Z)) : list Z :=
  match totals with
  | [] => []
  | None :: ts => changes None ts
  | Some x :: ts => x - default 0 before :: changes (Some x) ts
  end.
(** The total for attributes [k] among the inputs of a view. *)
Definition total_at (k : list kv) (l : list (list kv * Int64)) : option Z :=
  if bool_decide (k ∈ map fst l) then Some (zsum (at_key k l)) else None.
(** In this collection view [w] was given fewer attribute sets than its limit, and not the overflow set itself. *)
Definition roomy {N : arith} (w : aview) (l : list (list kv * N)) : Prop :=
  overflow_set ∉ map fst l /\ (distinct l < av_limit w)%nat.
