(** What the callers of a synchronized Storage may rely on: linearizability.  Only the methods of Agg, which are plain functions, are mentioned. *)
From Coq Require Import ZArith Bool.
From stdpp Require Import base list option.
From Verif Require Import Num Agg Atom.
Local Open Scope Z_scope.

(** A call that is not interrupted: the new contents and the result. *)
Definition seq_call {N} (m : methods N) (seq : Z) (c : acall N (sto m)) (s : sto m) : sto m * result (sto m) :=
  match c with
  | CUpdate n => (m_update m seq n s, None)
  | CMove => ((m_move m s).1, Some (m_move m s).2)
  | CCopy => (s, Some (m_copy m s))
  | CMerge from => (m_merge m from s, None)
  end.

(** One call in a sequential history: who, on which Storage, what, with which sequence number, and what it returned. *)
Record entry (N S : Type) := Entry { e_thread : nat; e_obj : nat; e_call : acall N S; e_seq : Z; e_res : result S }.
Arguments Entry {_ _} _ _ _ _ _.
Arguments e_thread {_ _} _.
Arguments e_obj {_ _} _.
Arguments e_call {_ _} _.
Arguments e_seq {_ _} _.
Arguments e_res {_ _} _.

(** [serial m h f]: the calls [h], one after the other on Storages that were new, return what [h] says and leave the contents [f]. *)
Inductive serial {N} (m : methods N) : list (entry N (sto m)) -> (nat -> sto m) -> Prop :=
  | serial_nil : serial m [] (fun _ => m_new)
  | serial_snoc h f e v :
      serial m h f ->
      seq_call m (e_seq e) (e_call e) (f (e_obj e)) = (v, e_res e) ->
      serial m (h ++ [e]) (fun o => if decide (o = e_obj e) then v else f o).

(** In the events [log] the call of [t] ended before that of [u] began. *)
Definition ended_before {S} (log : list (aevent (S:=S))) (t u : nat) : Prop :=
  exists l1 r l2, log = l1 ++ AEnd t r :: l2 /\ ABegin u ∈ l2.

(** [h] explains what happened up to the state [s]. *)
Record explains {N} (m : methods N) (s : astate (N:=N) (S:=sto m)) (h : list (entry N (sto m))) (f : nat -> sto m) : Prop := {
  (* it is a sequential history *)
  ex_serial : serial m h f;
  (* each call is there at most once *)
  ex_once : NoDup (e_thread <$> h);
  (* only calls that were made *)
  ex_made : forall e, e ∈ h -> exists x, as_thr s !! e_thread e = Some x /\ at_obj x = e_obj e /\ at_call x = e_call e;
  (* all calls that have returned, with the results they returned *)
  ex_ended : forall t r, AEnd t r ∈ as_log s -> exists e, e ∈ h /\ e_thread e = t /\ e_res e = r;
  (* in an order that agrees with real time *)
  ex_order : forall h1 e h2 e', h = h1 ++ e :: h2 -> e' ∈ h2 -> ~ ended_before (as_log s) (e_thread e') (e_thread e);
  (* the Storages that are not locked have the contents it leaves *)
  ex_contents : forall o, as_lock s o = None -> as_val s o = f o
}.
Definition linearizable {N} (m : methods N) (s : astate (N:=N) (S:=sto m)) : Prop := exists h f, explains m s h f.

(** The next access of goroutine [t]. *)
Definition plain {S R} (p : prog S R) : Prop := match p with Read _ _ | Write _ _ => True | _ => False end.
Definition accesses {S R} (p : prog S R) : Prop := match p with Read _ _ | Write _ _ | Atomic _ _ => True | _ => False end.
(** A data race: two goroutines are about to access one Storage, at least one of them not through sync/atomic (two reads of a field count too). *)
Definition race {N S} (s : astate (N:=N) (S:=S)) : Prop :=
  exists t u x y, t <> u /\ as_thr s !! t = Some x /\ as_thr s !! u = Some y /\ at_obj x = at_obj y /\ plain (at_cur x) /\ accesses (at_cur y).
(** A goroutine is about to unlock a mutex that it has not locked. *)
Definition bad_unlock {N S} (s : astate (N:=N) (S:=S)) : Prop :=
  exists t x k, as_thr s !! t = Some x /\ at_cur x = Unlock k /\ as_lock s (at_obj x) <> Some t.
(** All calls have returned. *)
Definition all_ended {N S} (s : astate (N:=N) (S:=S)) : Prop :=
  forall t, (t < length (as_thr s))%nat -> exists r, AEnd t r ∈ as_log s.
(** The number of calls in a schedule. *)
Definition calls {N S} (ls : list (alabel (N:=N) (S:=S))) : nat := length (List.filter (fun l => match l with LCall _ _ => true | _ => false end) ls).

(** The sequence numbers of the gauges: every Update has its own, and a later one has a greater one. *)
Definition tickets {N S} (log : list (aevent (S:=S))) (h : list (entry N S)) : Prop :=
  (forall e n, e ∈ h -> e_call e = CUpdate n -> 2 <= e_seq e) /\
  (forall e e' n n', e ∈ h -> e' ∈ h -> e_call e = CUpdate n -> e_call e' = CUpdate n' -> e_seq e = e_seq e' -> e = e') /\
  (forall e e' n n', e ∈ h -> e' ∈ h -> e_call e = CUpdate n -> e_call e' = CUpdate n' -> ended_before log (e_thread e) (e_thread e') -> e_seq e < e_seq e').

(** The calls that have returned and their results. *)
Definition returned {S} (log : list (aevent (S:=S))) : list (nat * result S) := omap (fun e => match e with AEnd t r => Some (t, r) | _ => None end) log.
(** What the calls on Storage [o] have brought in, less what they have taken out, when [size] measures a Storage and [one] an update. *)
Definition balance {N S} (one : N -> Z) (size : S -> Z) (s : astate (N:=N) (S:=S)) (o : nat) : Z :=
  foldr Z.add 0 (map (fun p : nat * result S => match as_thr s !! p.1 with
    | Some x => if decide (at_obj x = o) then
                  match at_call x, p.2 with CUpdate n, _ => one n | CMerge from, _ => size from | CMove, Some to => - size to | _, _ => 0 end
                else 0
    | None => 0 end) (returned (as_log s))).

(** The aggregators of /repo: sums of int64 and float64 numbers, gauges, minmaxsumcounts, and histograms whatever the methods of the library are. *)
Inductive aggregator : forall (N : arith) (m : methods N), (acall N (sto m) -> prog (sto m) (result (sto m))) -> Prop :=
  | a_sum_int N : aggregator N (sum_methods N) (sum_body N (add_int N))
  | a_sum_float N (D : EqDecision (num N)) : aggregator N (sum_methods N) (sum_body N (add_float N))
  | a_gauge N : aggregator N (gauge_methods N) (gauge_body N)
  | a_mmsc N : aggregator N (mmsc_methods N) (mmsc_body N)
  | a_library (N : arith) (m : methods N) : (forall q q' n s, m_update m q n s = m_update m q' n s) -> aggregator N m (lib_body m).
