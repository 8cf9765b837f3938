(** Vocabulary for C63.  Nothing in this file models Go code. *)
From Coq Require Import ZArith Bool String.
From stdpp Require Import base list option strings.
From Verif Require Import Num Agg Attr Async AsyncSpec Conc.

Section spec.
Context {N : arith} (c : acfg) (vr : nat -> nat) (decl : list (list nat)).

Definition reached (tr : list (label (N:=N))) (s : cst N) : Prop := execs c vr decl (c_init c) tr = Some s.

(** The configuration: an instrument names existing views only, each once. *)
Definition sound : Prop :=
  forall i inst, a_insts c !! i = Some inst -> NoDup (ai_views inst) /\ Forall (fun v => (v < length (a_views c))%nat) (ai_views inst).

(** Collections of reader [p] do not overlap. *)
Definition one_at_a_time (p : nat) (s : cst N) : Prop :=
  forall q q' k k', s_colls s !! q = Some k -> s_colls s !! q' = Some k' -> k_reader k = p -> k_reader k' = p ->
    k_phase k <> KDone -> k_phase k' <> KDone -> q = q'.
(** Callbacks run for reader [p] wait for the goroutines they started: once the callback has returned, no call on its observer is beyond
    the test that refuses it. *)
Definition waited (p : nat) (s : cst N) : Prop :=
  forall t x r k, s_thr s !! t = Some x -> s_runs s !! t_run x = Some r -> s_colls s !! r_coll r = Some k -> k_reader k = p ->
    r_live r = false -> t_pc x = TCheck \/ exists a, t_pc x = TEnd a.
(** Both, at any time; nothing is asked of other readers. *)
Definition orderly (p : nat) (tr : list (label (N:=N))) : Prop :=
  forall tr1 tr2 s, tr = tr1 ++ tr2 -> reached tr1 s -> one_at_a_time p s /\ waited p s.

(** Call [a] returned before call [b] was made. *)
Definition before (tr : list (label (N:=N))) (a b : nat) : Prop :=
  exists tr1 tr2 s, tr = tr1 ++ tr2 /\ reached tr1 s /\ (exists x r, s_thr s !! a = Some x /\ t_pc x = TEnd r) /\ (length (s_thr s) <= b)%nat.

(** The calls recorded in collection [q] for instruments that feed view [v]. *)
Definition recorded_in (s : cst N) (q v t : nat) : Prop :=
  exists x r, s_thr s !! t = Some x /\ t_pc x = TEnd Recorded /\ s_runs s !! t_run x = Some r /\ r_coll r = q /\
    (0 < feeds c v (inst_of x))%nat.
Definition obs_of (x : thr N) : obs := (inst_of x, t_set x, t_val x).
(** [l] is what view [v] was told in collection [q]: all those observations, each once, in an order in which they could have been made
    one after the other. *)
Definition told (tr : list (label (N:=N))) (s : cst N) (q v : nat) (l : list (obs (N:=N))) : Prop :=
  exists ts, NoDup ts /\ (forall t, t ∈ ts <-> recorded_in s q v t) /\
    (forall i j a b, (i < j)%nat -> ts !! i = Some a -> ts !! j = Some b -> ~ before tr b a) /\
    l = omap (fun t => obs_of <$> s_thr s !! t) ts.

(** The points of view [v] in the output of a collection. *)
Definition reports (k : coll N) (v : nat) : list (list (list kv * N)) :=
  map snd (List.filter (fun o => Nat.eqb o.1 v) (k_out k)).
(** Collection [q0] is the one before [q] of the same reader. *)
Definition previous (s : cst N) (q0 q : nat) : Prop :=
  exists k0 k, s_colls s !! q0 = Some k0 /\ s_colls s !! q = Some k /\ k_reader k0 = k_reader k /\ (q0 < q)%nat /\
    forall q1 k1, s_colls s !! q1 = Some k1 -> k_reader k1 = k_reader k -> (q0 < q1)%nat -> (q1 < q)%nat -> False.
Definition first (s : cst N) (q : nat) : Prop :=
  exists k, s_colls s !! q = Some k /\ forall q1 k1, s_colls s !! q1 = Some k1 -> k_reader k1 = k_reader k -> (q1 < q)%nat -> False.
End spec.
