(** Property C32: the periodic reader. *)
From Coq Require Import ZArith Bool String Lia.
From stdpp Require Import base list option strings.
From Verif Require Import Per PerSpec PerProofs PerMore.

Lemma inv_serial r ss : inv r ss -> exists rest, one_at_a_time (rd_log r) ss rest.
Proof.
  destruct r as [pr ca wt lk ct th lg]. intros (L & [N1 N2] & _). destruct lk; cbn in L.
  - destruct L as (t & x & m & p & y & T & I & P & U & Y & X & Nu & C). exists (opened t y m p). split; [done|]. split; [done|].
    destruct p; cbn in *; try (by left); right; exists (Session t y n m None); subst n; [left|right]; done.
  - destruct L as (U & X & C). exists []. split; [cbn; by rewrite app_nil_r|]. split; [done|]. by left.
Qed.
(** In every history the calls of the exporter follow one another: each collection produces its own data, hands exactly that data to the
    exporter and waits for its return before the next collection produces. *)
Theorem C32_one_at_a_time l r : prun new_reader l = Some r -> exists ss rest, one_at_a_time (rd_log r) ss rest.
Proof.
  intros E. destruct (prun_inv _ _ _ _ new_inv E) as [ss J]. exists ss. by apply inv_serial.
Qed.
(** Each call of ForceFlush or Shutdown that has returned made exactly one collection, with the method of its name, and returned its error;
    a call that has not returned has not finished one, except that it may be about to return. *)
Theorem C32_exactly_once l r : prun new_reader l = Some r -> exists ss rest, one_at_a_time (rd_log r) ss rest /\
  (forall t m e, rd_threads r !! t = Some (CReturned m e) -> map (fun s => (s_method s, s_err s)) (sessions_of t ss) = [(m, e)]) /\
  (forall t, rd_threads r !! t = Some CStop \/ rd_threads r !! t = Some CWait -> sessions_of t ss = []) /\
  (forall s, s ∈ ss -> rd_producer r = Some (s_producer s)).
Proof.
  intros E. destruct (prun_inv _ _ _ _ new_inv E) as [ss J]. cbn in J. exists ss. pose proof (inv_serial _ _ J) as O.
  destruct r as [pr ca wt lk ct th lg]. destruct J as (L & [N1 N2] & [M1 M2] & _).
  destruct O as [rest O]. exists rest. split; [done|]. cbn. split; [|split].
  - intros t m e T. by destruct (M1 t _ T).
  - intros t [T|T]; specialize (M1 t _ T); cbn in M1; by destruct (sessions_of t ss).
  - intros s Hs. by apply (proj1 (list.Forall_forall _ _) N2).
Qed.
(** Each goroutine uses the exporter method that it is for: the timer exports, ForceFlush flushes, and Shutdown makes the final export. *)
Theorem C32_methods l r : prun new_reader l = Some r ->
  length (rd_threads r) = length (callers false l) /\
  (forall t m n, ECall t m n ∈ rd_log r -> callers false l !! t = Some m) /\ (forall t m e, EReturn t m e ∈ rd_log r -> callers false l !! t = Some m) /\
  (forall t m e, rd_threads r !! t = Some (CReturned m e) -> callers false l !! t = Some m).
Proof.
  intros E. destruct (prun_methods l [] new_reader r new_methods E) as [F G]. cbn [app] in *. split; [symmetry; by eapply Forall2_length|].
  split; [|split].
  - intros t m n H. exact (proj1 (list.Forall_forall _ _) G _ H).
  - intros t m e H. exact (proj1 (list.Forall_forall _ _) G _ H).
  - intros t m e H. destruct (ok_at _ _ _ _ F H) as (m' & C & -> & _). done.
Qed.
(** Every tick that the timer's goroutine takes begins one periodic export, and there are no others. *)
Theorem C32_ticks l r : prun new_reader l = Some r ->
  (ticks l = begun (rd_log r) /\ forall t x, rd_threads r !! t = Some x -> about_to_export x = false) \/
  (ticks l = S (begun (rd_log r)) /\ exists t x, rd_threads r !! t = Some x /\ about_to_export x = true).
Proof.
  intros E. pose proof (prun_ticks l [] new_reader [] r new_inv new_methods E) as T. cbn in T. destruct (prun_inv _ _ _ _ new_inv E) as [ss J].
  destruct (on_way_one _ _ J) as [(t & x & H1 & H2 & O)|[N O]]; [right|left]; (split; [lia|]); [|done]. by exists t, x.
Qed.
(** Until Shutdown is called the timer goes on: its goroutine is at the select, where it can take the next tick, or in an export. *)
Definition loopy (x : pthread) : bool := match x with LSelect | LCollect _ => true | _ => false end.
Definition runs (th : list pthread) : Prop := (forall t, th !! t <> Some CStop) /\ exists x, th !! 0 = Some x /\ loopy x = true.
Lemma runs_insert th t x x' : runs th -> th !! t = Some x -> x' <> CStop -> (loopy x = true -> loopy x' = true) -> runs (<[t := x']> th).
Proof.
  intros [N (x0 & T0 & L0)] T Ne L. pose proof (lookup_lt_Some _ _ _ T) as Lt. split.
  - intros u U. destruct (decide (u = t)) as [->|D]; [rewrite list_lookup_insert in U by done; congruence|]. rewrite list_lookup_insert_ne in U by done. by apply (N u).
  - destruct (decide (t = 0)) as [->|D]; [exists x'; rewrite list_lookup_insert by done; split; [done|apply L; congruence]|].
    exists x0. by rewrite list_lookup_insert_ne.
Qed.
Lemma runs_new th x : runs th -> x <> CStop -> runs (th ++ [x]).
Proof.
  intros [N (x0 & T0 & L0)] Ne. split; [|exists x0; split; [by apply lookup_app_l_Some|done]].
  intros u U. apply lookup_app_Some in U as [U|[_ U]]; [by apply (N u)|]. apply list_lookup_singleton_Some in U as [_ U]. congruence.
Qed.
Definition running (r : reader) : Prop := rd_canceled r = false /\ rd_producer r <> None /\ runs (rd_threads r).
Lemma pstep_running r a r' : running r -> a <> AShut -> pstep r a = Some r' -> running r'.
Proof.
  destruct r as [pr ca wt lk ct th lg]. intros (C & P & R) A S. cbn in C, P, R. subst ca. destruct pr as [x|]; [|done].
  destruct a as [y| | |t|t|t e]; cbn in S; try done.
  - by injection S as <-.
  - injection S as <-. split; [done|]. split; [done|]. by apply runs_new.
  - destruct (th !! t) as [[]|] eqn:T; try done. injection S as <-. split; [done|]. split; [done|]. by eapply runs_insert.
  - destruct (th !! t) as [[ |p| | | |m p| | ]|] eqn:T; try done.
    + destruct p as [| |n|n|e]; cbn in S; try (destruct lk; [done|]); try done; try (destruct e); injection S as <-;
        (split; [done|]); (split; [done|]); by eapply runs_insert.
    + by destruct (proj1 R t).
    + destruct wt; [|done]. injection S as <-. split; [done|]. split; [done|]. by eapply runs_insert.
    + destruct p as [| |n|n|e]; cbn in S; try (destruct lk; [done|]); try done; injection S as <-; (split; [done|]); (split; [done|]); by eapply runs_insert.
  - destruct (th !! t) as [[ |p| | | |m p| | ]|] eqn:T; try done; destruct p; try done; injection S as <-; (split; [done|]); (split; [done|]); by eapply runs_insert.
Qed.
Theorem C32_runs x l r : prun new_reader (started x l) = Some r -> AShut ∉ l ->
  (rd_threads r !! 0 = Some LSelect /\ is_Some (pstep r (Tick 0))) \/ exists p, rd_threads r !! 0 = Some (LCollect p).
Proof.
  intros E A. assert (R : running r).
  { cbn in E. set (r1 := Reader _ _ _ _ _ _ _) in E. assert (R1 : running r1) by (split; [done|]; split; [done|]; split; [by intros [|t]|by exists LSelect]).
    clearbody r1. revert r1 R1 E. induction l as [|a l IH]; intros r1 R1 E; [by injection E as <-|]. cbn in E. apply not_elem_of_cons in A as [A1 A2].
    destruct (pstep r1 a) as [r2|] eqn:S; [|done]. apply (IH A2 r2); [|done]. by eapply pstep_running. }
  destruct R as (_ & _ & _ & x0 & T & L). destruct x0; try done; [left|right; by eexists]. split; [done|]. destruct r as [pr ca wt lk ct th lg]. cbn in *. rewrite T. by eexists.
Qed.
(** After the exporter's shutdown method has been called, no periodic export runs or begins. *)
Theorem C32_nothing_after l r l1 t n l2 : prun new_reader l = Some r -> rd_log r = l1 ++ ECall t Final n :: l2 ->
  forall e, e ∈ l2 -> periodic e = false.
Proof.
  intros E X e He. destruct (prun_inv _ _ _ _ new_inv E) as [ss J]. destruct r as [pr ca wt lk ct th lg].
  destruct J as (_ & _ & _ & _ & _ & [_ Q]). cbn in X. by apply (proj1 (list.Forall_forall _ _) (Q _ _ _ _ X)).
Qed.
(** The shutdown method is called only when the timer loop has ended. *)
Theorem C32_waits l r t n : prun new_reader l = Some r -> ECall t Final n ∈ rd_log r ->
  (exists t0, rd_threads r !! t0 = Some LDone) /\ forall t0, rd_threads r !! t0 <> Some LSelect /\ forall p, rd_threads r !! t0 <> Some (LCollect p).
Proof.
  intros E H. destruct (prun_inv _ _ _ _ new_inv E) as [ss J]. destruct r as [pr ca wt lk ct th lg].
  destruct J as (_ & _ & _ & P & _ & [F _]). destruct (F t n H) as [-> PN]. destruct pr as [y|]; [|done]. cbn in P |- *.
  destruct P as (t0 & x0 & T0 & I0 & U & W & _). destruct (decide (x0 = LDone)) as [->|Ne]; [|by rewrite bool_decide_eq_false_2 in W].
  split; [by exists t0|]. intros t1. split.
  - intros T1. assert (t1 = t0) as -> by (by eapply U). congruence.
  - intros p T1. assert (t1 = t0) as -> by (by eapply U). congruence.
Qed.
(** The errors of periodic exports are given to the error handler, each once and in order; at most the last one is still on its way. *)
Theorem C32_errors l r : prun new_reader l = Some r ->
  exists rest, export_errors (rd_log r) = handled (rd_log r) ++ rest /\ length rest <= 1 /\
  (rest <> [] -> exists t e, rd_threads r !! t = Some (LCollect (Unlocking (Some e))) /\ rest = [e]).
Proof.
  intros E. destruct (prun_inv _ _ _ _ new_inv E) as [ss J]. destruct r as [pr ca wt lk ct th lg]. destruct J as (_ & _ & _ & P & _).
  destruct pr as [y|]; cbn [loop_ok] in P; cbn [rd_log rd_threads].
  - destruct P as (t0 & x0 & T0 & I0 & U & W & X). exists (pending x0). split; [done|]. unfold pending.
    destruct x0 as [|[| | | |[e|]]| | | | | |]; cbn; (split; [lia|]); try done. intros _. by exists t0, e.
  - destruct P as (_ & _ & X & Y). exists []. rewrite X, Y. split; [done|]. split; [cbn; lia|done].
Qed.
(** When the provider registers itself first, nothing panics, and the first registration stays. *)
Theorem C32_registered x l r : prun new_reader (started x l) = Some r -> rd_producer r = Some x /\ forall t, rd_threads r !! t <> Some CPanic.
Proof.
  intros E. cbn in E. set (r1 := Reader _ _ _ _ _ _ _) in E.
  destruct (pstep_inv _ (ARegister x) r1 _ new_inv eq_refl) as [s J].
  assert (NP1 : no_panic r1) by (split; [done|]; by intros [|t]).
  destruct (prun_no_panic _ _ _ _ J NP1 E) as [[_ NP] P]. split; [by rewrite P|done].
Qed.
(** Every registration but the first is refused, with a report. *)
Theorem C32_refused x l r : prun new_reader (started x l) = Some r -> refused (rd_log r) = registrations l.
Proof.
  intros E. destruct (C32_registered _ _ _ E) as [P _]. pose proof (prun_refused _ _ _ E) as R. unfold is_registered in R. rewrite P in R.
  change (registrations (started x l)) with (S (registrations l)) in R. cbn in R. lia.
Qed.
(** ForceFlush and Shutdown return: while one has not returned, some goroutine in the reader can take a step other than a tick, and only so
    many such steps can follow one another. *)
Theorem C32_returns x l r : prun new_reader (started x l) = Some r ->
  (forall t y, rd_threads r !! t = Some y -> is_loop y = false -> returned y = false -> exists a, internal a = true /\ is_Some (pstep r a)) /\
  exists n, forall l' r', forallb internal l' = true -> prun r l' = Some r' -> length l' <= n.
Proof.
  intros E. destruct (C32_registered _ _ _ E) as [P NP]. destruct (prun_inv _ _ _ _ new_inv E) as [ss J]. split.
  - intros t y T H R. eapply progress; try done; [by rewrite P|]. intros ->. by apply (NP t).
  - exists (todo r). intros l' r' I E'. pose proof (prun_todo _ _ _ I E'). lia.
Qed.
(** The interval and the timeout of a reader are positive whatever was asked for, and are what was asked for when that is positive. *)
Theorem C32_periods interval ts : (0 < (new_periodic interval ts).1)%Z /\ (0 < (new_periodic interval ts).2)%Z /\
  ((0 < interval)%Z -> (new_periodic interval ts).1 = interval /\ (ts = [] -> (new_periodic interval ts).2 = interval)) /\
  (forall ts' d, ts = ts' ++ [d] -> (0 < d)%Z -> (new_periodic interval ts).2 = d).
Proof.
  unfold new_periodic, default_interval. cbn. repeat split.
  - destruct (Z.leb_spec interval 0); lia.
  - match goal with |- context [Z.leb ?a 0] => destruct (Z.leb_spec a 0) end; lia.
  - destruct (Z.leb_spec interval 0); lia.
  - intros ->. cbn. destruct (Z.leb_spec interval 0); lia.
  - intros ts' d -> H. rewrite fold_left_app. cbn. destruct (Z.leb_spec d 0); lia.
Qed.

Module Ex32.
  Local Open Scope string_scope.
  (** A tick races with a flush and a shutdown; the export fails; a second provider registers. *)
  Definition l := started "p" [Tick 0; AFlush; AShut; ARegister "q"; Go 0; Go 0; Go 2; Go 0; Exported 0 (Some "down"); Go 0;
    Tick 0; Go 1; Go 1; Go 1; Exported 1 None; Go 1; Go 0; Go 0; Go 0; Exported 0 None; Go 0; Go 0; Go 2; Go 2; Go 2; Go 2; Exported 2 (Some "late"); Go 2].
  Example log : rd_log <$> prun new_reader l = Some
    [EHandle None; EProduce 0 "p" 0; ECall 0 Export 0; EReturn 0 Export (Some "down"); EHandle (Some "down");
     EProduce 1 "p" 1; ECall 1 Flush 1; EReturn 1 Flush None; EProduce 0 "p" 2; ECall 0 Export 2; EReturn 0 Export None;
     EProduce 2 "p" 3; ECall 2 Final 3; EReturn 2 Final (Some "late")].
  Proof. vm_compute. reflexivity. Qed.
  Example threads : rd_threads <$> prun new_reader l = Some [LDone; CReturned Flush None; CReturned Final (Some "late")].
  Proof. vm_compute. reflexivity. Qed.
  Example calls : callers false l = [Export; Flush; Final] /\ ticks l = 2. Proof. split; vm_compute; reflexivity. Qed.
  (** While Shutdown waits, it is not blocked for ever. *)
  Example waiting : rd_threads <$> prun new_reader (started "p" [AShut; Tick 0; Go 1]) = Some [LCollect Locking; CWait].
  Proof. vm_compute. reflexivity. Qed.
  (** Before any Shutdown, after an export that failed. *)
  Example goes_on : rd_threads <$> prun new_reader (started "p" [AFlush; Tick 0; Go 0; Go 0; Go 0; Exported 0 (Some "down"); Go 0]) = Some [LSelect; CCollect Flush Locking].
  Proof. vm_compute. reflexivity. Qed.
  Example times : new_periodic 0 [] = (30000000000%Z, 30000000000%Z) /\ new_periodic 5 [7; -1]%Z = (5%Z, 30000000000%Z).
  Proof. done. Qed.
End Ex32.
(** Shutdown or ForceFlush before the registration panics. *)
Theorem C32_unregistered_refuted : exists l r t, prun new_reader l = Some r /\ rd_threads r !! t = Some CPanic.
Proof. exists [AShut; Go 0]. eexists. exists 0. split; [reflexivity|]. done. Qed.
(** Shutdown cancels the loop but an export whose tick was already taken still begins. *)
Theorem C32_cancel_stops_exports_refuted : exists l r t, prun new_reader l = Some r /\ rd_canceled r = true /\
  exists r', pstep r (Tick t) = Some r'.
Proof. exists (started "p" [AShut; Go 1]). eexists. exists 0. split; [reflexivity|]. split; [done|]. by eexists. Qed.

Print Assumptions C32_one_at_a_time.
Print Assumptions C32_exactly_once.
Print Assumptions C32_methods.
Print Assumptions C32_ticks.
Print Assumptions C32_runs.
Print Assumptions C32_nothing_after.
Print Assumptions C32_waits.
Print Assumptions C32_errors.
Print Assumptions C32_registered.
Print Assumptions C32_refused.
Print Assumptions C32_returns.
Print Assumptions C32_periods.
Print Assumptions C32_unregistered_refuted.
Print Assumptions C32_cancel_stops_exports_refuted.
