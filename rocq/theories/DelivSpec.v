(** Words used to state what callbacks' observations reach the exporter of a periodic reader.  Nothing in this file models Go code. *)
From Coq Require Import ZArith Bool String.
From stdpp Require Import base list option strings.
From Verif Require Import Per PerSpec Num Agg AggSpec Attr Async AsyncSpec Conc Deliv.

Section spec.
Context {N : arith} (rd : nat).
Implicit Types (f : sys N).

(** What a history asks of the instruments, and of the reader. *)
Definition conc_steps (l : list (dact N)) : list (label (N:=N)) :=
  flat_map (fun a => match a with DConc a => [a] | DProduce _ cbs => [LBegin rd cbs] | DReader _ => [] end) l.
Definition read_steps (l : list (dact N)) : list pact := flat_map (fun a => match a with DReader a => [a] | _ => [] end) l.
(** The collections in the order in which they began: the reader of each and the callbacks that were registered then. *)
Definition begun (tr : list (label (N:=N))) : list (nat * list nat) := omap (fun a => match a with LBegin p cbs => Some (p, cbs) | _ => None end) tr.
(** The callbacks that were run in collection [q], in order. *)
Definition ran (s : cst N) (q : nat) : list nat := map r_cb (List.filter (fun r => Nat.eqb (r_coll r) q) (s_runs s)).
(** The data of production [n] are the output of collection [k], number [q]. *)
Definition data_of f (n q : nat) (k : coll N) : Prop := d_made f !! n = Some q /\ s_colls (d_conc f) !! q = Some k.
(** The data of production [n] were given to the exporter, which has returned: the whole of collection [s] of the reader (PerSpec). *)
Definition given f (n : nat) (s : session) : Prop := exists ss rest, one_at_a_time (rd_log (d_reader f)) ss rest /\ s ∈ ss /\ s_n s = n.
(** The numbers of the productions given to the exporter, in order. *)
Definition given_in_order f : list nat := omap (fun e => match e with ECall _ _ n => Some n | _ => None end) (rd_log (d_reader f)).
End spec.

(** What the points [pts] of a view [w] with the inputs [ins] (AsyncSpec) are: with room for all attribute sets, one point for each, with the sum of
    its numbers or, for a gauge, one of them; without, some attribute sets are counted under the overflow set instead. *)
Definition shows {N : arith} (w : aview) (ins pts : list (list kv * N)) : Prop :=
  ((distinct ins < av_limit w)%nat ->
     NoDup (map fst pts) /\ (forall key, key ∈ map fst pts <-> key ∈ map fst ins) /\
     (forall key x, (key, x) ∈ pts -> if av_gauge w then x ∈ at_key key ins else adds (at_key key ins) x)) /\
  (exists place : list kv -> list kv, (forall key, place key = key \/ place key = overflow_set) /\
     (length pts <= av_limit w)%nat /\ NoDup (map fst pts) /\
     (forall key, key ∈ map fst pts <-> key ∈ map place (map fst ins)) /\
     (forall key x, (key, x) ∈ pts -> let vals := at_key key (map (fun p => (place p.1, p.2)) ins) in if av_gauge w then x ∈ vals else adds vals x)).
