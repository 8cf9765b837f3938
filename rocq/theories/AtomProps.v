(** C66: the methods of the aggregators, whose accesses to memory interleave in any way, act as if each were one action. *)
From Coq Require Import ZArith Bool Lia SpecFloat.
From stdpp Require Import base list option.
From Verif Require Import Num Agg Atom AtomSpec AtomProofs AtomMore AtomBound AtomCas AtomLast.
Local Open Scope Z_scope.

(** However the accesses of any number of calls interleave, there is a sequential order of the calls that explains all results and contents. *)
Theorem C66_linearizable (N : arith) (m : methods N) body :
  aggregator N m body ->
  forall ls s, arun body (a_init m_new) ls = Some s -> linearizable m s.
Proof.
  intros [N0|N0 D|N0|N0|N0 m0 U] ls s R.
  - exact (lin_run _ _ false (sum_int_ok N0) ls s R).
  - exact (lin_run _ _ false (sum_float_ok N0) ls s R).
  - exact (lin_run _ _ true (gauge_ok N0) ls s R).
  - exact (lin_run _ _ true (mmsc_ok N0) ls s R).
  - exact (lin_run _ _ true (fun c q => lib_ok m0 c q U) ls s R).
Qed.

(** No two goroutines access a Storage at the same time except through sync/atomic, and no mutex is unlocked by a goroutine that has not locked it. *)
Theorem C66_no_race (N : arith) (m : methods N) body :
  aggregator N m body ->
  forall ls s, arun body (a_init m_new) ls = Some s -> ~ race s /\ ~ bad_unlock s.
Proof.
  assert (G : forall (N : Type) (m : methods N) body lk, (forall c q, pend m lk c q (body c)) -> forall ls s, arun body (a_init m_new) ls = Some s -> ~ race s /\ ~ bad_unlock s).
  { intros N0 m0 b lk Ok ls s R. destruct (inv_run m0 b lk Ok ls _ _ _ _ (inv_init m0 lk) R) as (h & f & I). split; [by apply (inv_race m0 lk s h f)|by apply (inv_unlock m0 lk s h f)]. }
  intros [N0|N0 D|N0|N0|N0 m0 U] ls s R.
  - exact (G _ _ _ false (sum_int_ok N0) ls s R).
  - exact (G _ _ _ false (sum_float_ok N0) ls s R).
  - exact (G _ _ _ true (gauge_ok N0) ls s R).
  - exact (G _ _ _ true (mmsc_ok N0) ls s R).
  - exact (G _ _ _ true (fun c q => lib_ok m0 c q U) ls s R).
Qed.

(** No deadlock: while a call has not returned, some goroutine can go on. *)
Theorem C66_goes_on (N : arith) (m : methods N) body :
  aggregator N m body ->
  forall ls s, arun body (a_init m_new) ls = Some s -> ~ all_ended s -> exists t, is_Some (astep body s (LGo t)).
Proof.
  assert (G : forall (N : Type) (m : methods N) body lk, (forall c q, pend m lk c q (body c)) -> forall ls s, arun body (a_init m_new) ls = Some s -> ~ all_ended s -> exists t, is_Some (astep body s (LGo t))).
  { intros N0 m0 b lk Ok ls s R. destruct (inv_run m0 b lk Ok ls _ _ _ _ (inv_init m0 lk) R) as (h & f & I). by apply (inv_go m0 b lk s h f). }
  intros [N0|N0 D|N0|N0|N0 m0 U] ls s R.
  - exact (G _ _ _ false (sum_int_ok N0) ls s R).
  - exact (G _ _ _ false (sum_float_ok N0) ls s R).
  - exact (G _ _ _ true (gauge_ok N0) ls s R).
  - exact (G _ _ _ true (mmsc_ok N0) ls s R).
  - exact (G _ _ _ true (fun c q => lib_ok m0 c q U) ls s R).
Qed.

Lemma fewer a n K : (a <= Datatypes.S K * n -> K <= 12 -> a <= n * (3 * n + 13))%nat.
Proof. nia. Qed.
Lemma fewer2 a n : (a <= n * (3 * n + 1) -> a <= n * (3 * n + 13))%nat.
Proof. nia. Qed.
(** No livelock: the number of calls bounds the number of all their steps, whatever the schedule; the compare-and-swap loop too is left.
    With C66_goes_on, every schedule that goes on as long as it can ends with all calls returned. *)
Theorem C66_bounded (N : arith) (m : methods N) body :
  aggregator N m body ->
  forall ls s, arun body (a_init m_new) ls = Some s -> (length ls <= calls ls * (3 * calls ls + 13))%nat.
Proof.
  intros [N0|N0 D|N0|N0|N0 m0 U] ls s R.
  - exact (fewer _ _ 2 (short_run _ _ 2 (sum_int_short N0) ls s R) ltac:(lia)).
  - exact (fewer2 _ _ (cas_run N0 ls s R)).
  - exact (fewer _ _ 12 (short_run _ _ 12 (gauge_short N0) ls s R) ltac:(lia)).
  - exact (fewer _ _ 12 (short_run _ _ 12 (mmsc_short N0) ls s R) ltac:(lia)).
  - exact (fewer _ _ 12 (short_run _ _ 12 (lib_short m0) ls s R) ltac:(lia)).
Qed.
(** Except for the loop the bound is linear: an int64 sum takes one step and returns, and a call that locks takes at most 12 steps, its return included. *)
Theorem C66_bounded_linear (N : arith) :
  (forall ls s, arun (sum_body N (add_int N)) (a_init zero) ls = Some s -> (length ls <= 3 * calls ls)%nat) /\
  (forall ls s, arun (gauge_body N) (a_init (m_new (m:=gauge_methods N))) ls = Some s -> (length ls <= 13 * calls ls)%nat) /\
  (forall ls s, arun (mmsc_body N) (a_init (m_new (m:=mmsc_methods N))) ls = Some s -> (length ls <= 13 * calls ls)%nat) /\
  (forall (m : methods N) ls s, arun (lib_body m) (a_init m_new) ls = Some s -> (length ls <= 13 * calls ls)%nat).
Proof.
  split; [|split; [|split]].
  - exact (short_run _ _ 2 (sum_int_short N)).
  - exact (short_run _ _ 12 (gauge_short N)).
  - exact (short_run _ _ 12 (mmsc_short N)).
  - intros m. exact (short_run _ _ 12 (lib_short m)).
Qed.

(** The order that explains a run of gauges gives each Update a sequence number of its own, greater than those of the Updates that had returned before it began. *)
Theorem C66_tickets (N : arith) ls s :
  Z.of_nat (length ls) < 2 ^ 64 - 2 -> arun (gauge_body N) (a_init (m_new (m:=gauge_methods N))) ls = Some s ->
  exists h f, explains (gauge_methods N) s h f /\ tickets (as_log s) h.
Proof.
  intros B R. destruct (inv_run (gauge_methods N) (gauge_body N) true (gauge_ok N) ls _ _ _ _ (inv_init (gauge_methods N) true) R) as (h & f & I).
  exists h, f. split; [exact (inv_explains _ _ _ _ _ I)|]. exact (tinv_tickets N (length ls) s h f (tinv_run N ls 0 _ s B (tinv_init N) R) I).
Qed.

(** A gauge that is read after an Update returned reports its number, when every other call that could change the gauge returned before the Update began or
    began after the read returned. *)
Theorem C66_gauge_last (N : arith) ls s t u o n r xt xu :
  Z.of_nat (length ls) < 2 ^ 64 - 2 -> arun (gauge_body N) (a_init (m_new (m:=gauge_methods N))) ls = Some s ->
  as_thr s !! t = Some xt -> at_obj xt = o -> at_call xt = CUpdate n ->
  as_thr s !! u = Some xu -> at_obj xu = o -> at_call xu = CMove \/ at_call xu = CCopy ->
  ended_before (as_log s) t u -> AEnd u r ∈ as_log s ->
  (forall v y, v <> t -> v <> u -> as_thr s !! v = Some y -> at_obj y = o -> at_call y <> CCopy -> ended_before (as_log s) v t \/ ended_before (as_log s) u v) ->
  exists g, r = Some g /\ gauge_report g = n.
Proof.
  intros B R Ht Eo Ec Hu Eo' Ec' Be. destruct (C66_tickets N ls s B R) as (h & f & X & T).
  exact (gauge_last N s h f t u o n r xt xu X T Ht Eo Ec Hu Eo' Ec' (ended_before_end (gauge_methods N) _ _ _ Be) Be).
Qed.

(** Nothing is lost and nothing counted twice: when all calls have returned, a sum of int64 numbers holds what was added less what was moved out. *)
Theorem C66_conserved_sum ls s o :
  arun (sum_body Int64 (add_int Int64)) (a_init (0 : num Int64)) ls = Some s -> all_ended s ->
  exists k, as_val s o = balance (fun n : num Int64 => n) (fun v : num Int64 => v) s o + k * 2 ^ 64.
Proof.
  intros R AE. pose proof (C66_linearizable _ _ _ (a_sum_int Int64) ls s R) as (h & f & X).
  assert (ND : NoDup ((returned (as_log s)).*1)) by (apply (returned_once (sum_methods Int64) (sum_body Int64 (add_int Int64)) ls (a_init (m_new (m:=sum_methods Int64))) s); [by apply NoDup_nil_2|exact R]).
  destruct (inv_run (sum_methods Int64) _ false (sum_int_ok Int64) ls _ _ _ _ (inv_init (sum_methods Int64) false) R) as (h' & f' & I).
  cut (exists k, f o = foldr Z.add 0 (map (gain (sum_methods Int64) (fun n => n) (fun v => v) o) h) + k * 2 ^ 64).
  { intros [k Hk]. exists k. etransitivity; [exact (ex_contents _ _ _ _ X o (iv_free _ _ _ _ _ I eq_refl o))|]. etransitivity; [exact Hk|]. f_equal.
    symmetry. exact (balance_gain (sum_methods Int64) _ _ s h f o X ND AE). }
  apply (serial_gain (sum_methods Int64) (fun n => n) (fun v => v) h f o); [by exists 0| |apply X].
  intros q c v v' r SC.
  assert (W : forall x, exists k, wrap x = x + k * 2 ^ 64).
  { intros x. unfold wrap. exists (- ((x + 9223372036854775808) / 18446744073709551616)). rewrite Zmod_eq_full by done. lia. }
  destruct c as [n| | |w]; cbn in SC; injection SC as <- <-; cbn; [apply W|exists 0; cbn; lia|exists 0; lia|apply W].
Qed.

(** The same for the count of a minmaxsumcount. *)
Theorem C66_conserved_count (N : arith) ls s o :
  arun (mmsc_body N) (a_init (m_new (m:=mmsc_methods N))) ls = Some s -> all_ended s ->
  exists k, mm_count (as_val s o) = balance (fun _ : N => 1) mm_count s o + k * 2 ^ 64.
Proof.
  intros R AE.
  destruct (inv_run (mmsc_methods N) _ true (mmsc_ok N) ls _ _ _ _ (inv_init (mmsc_methods N) true) R) as (h & f & I).
  pose proof (inv_explains _ _ _ _ _ I) as X.
  assert (ND : NoDup ((returned (as_log s)).*1)) by (apply (returned_once (mmsc_methods N) (mmsc_body N) ls (a_init (m_new (m:=mmsc_methods N))) s); [by apply NoDup_nil_2|exact R]).
  assert (Un : as_lock s o = None).
  { destruct (as_lock s o) as [t|] eqn:L; [|done]. exfalso. destruct (iv_holder _ _ _ _ _ I o t L) as (x & Hx & Eo).
    destruct (AE t (lookup_lt_Some _ _ _ Hx)) as [r Hr]. rewrite <- Eo in L.
    destruct (iv_stage _ _ _ _ _ I t x Hx) as [_ NL _ _|e _ _ _ _ _ NE|e _ _ NL _]; [done|by apply (NE r)|done]. }
  cut (exists k, mm_count (f o) = foldr Z.add 0 (map (gain (mmsc_methods N) (fun _ => 1) mm_count o) h) + k * 2 ^ 64).
  { intros [k Hk]. exists k. etransitivity; [exact (f_equal mm_count (ex_contents _ _ _ _ X o Un))|]. etransitivity; [exact Hk|]. f_equal.
    symmetry. exact (balance_gain (mmsc_methods N) _ _ s h f o X ND AE). }
  apply (serial_gain (mmsc_methods N) (fun _ => 1) mm_count h f o); [by exists 0| |apply X].
  intros q c v v' r SC.
  assert (W : forall x, exists k, uwrap x = x + k * 2 ^ 64).
  { intros x. unfold uwrap. exists (- (x / 18446744073709551616)). rewrite Zmod_eq_full by done. lia. }
  destruct c as [n| | |w]; cbn in SC; injection SC as <- <-; cbn; [apply W|exists 0; cbn; lia|exists 0; lia|apply W].
Qed.

Module Ex66.
#[local] Instance Float64_dec : EqDecision (num Float64).
Proof. intros x y. unfold Decision. cbn in *. decide equality; try apply bool_dec; try apply Pos.eq_dec; apply Z.eq_dec. Defined.
Notation one := (S754_finite false 4503599627370496 (-52)).
Notation fbody := (sum_body Float64 (add_float Float64)).
(** Two goroutines add 1 to a float64 and both read 0: the second compare-and-swap fails and is tried again. *)
Definition two : list (alabel (N:=num Float64) (S:=num Float64)) :=
  [LCall 0 (CUpdate one); LCall 0 (CUpdate one); LGo 0; LGo 1; LGo 0; LGo 1; LGo 1; LGo 1; LGo 1; LGo 0; LGo 1].
Example two_sum : option_map (fun s => as_val s 0%nat) (arun fbody (a_init zero) two) = Some (S754_finite false 4503599627370496 (-51)).
Proof. vm_compute. done. Qed.
Example two_agg : aggregator Float64 (sum_methods Float64) fbody /\ (length two, calls two) = (11, 2)%nat.
Proof. split; [apply a_sum_float|]. vm_compute. done. Qed.
(** A minmaxsumcount: a Move waits while an Update is half done, a second Update takes place after it. *)
Definition mixed : list (alabel (N:=num Int64) (S:=mmsc (num Int64))) :=
  [LCall 0 (CUpdate 5); LCall 0 CMove; LGo 0; LGo 0; LGo 0; LCall 0 (CUpdate (-3)); LGo 0; LGo 0; LGo 0; LGo 0; LGo 0; LGo 0; LGo 1; LGo 0;
   LGo 1; LGo 1; LGo 1; LGo 1; LGo 1; LGo 1; LGo 1; LGo 1; LGo 1; LGo 1;
   LGo 2; LGo 2; LGo 2; LGo 2; LGo 2; LGo 2; LGo 2; LGo 2; LGo 2; LGo 2].
Notation mrun := (arun (mmsc_body Int64) (a_init (m_new (m:=mmsc_methods Int64)))).
Example mixed_ends :
  option_map (fun s => (returned (as_log s), as_val s 0%nat, as_lock s 0%nat)) (mrun mixed) =
  Some ([(0%nat, None); (1%nat, Some (MMSC 5 5 5 1)); (2%nat, None)], MMSC (-3) (-3) (-3) 1, None).
Proof. vm_compute. done. Qed.
Example mixed_waits : mrun (take 5 mixed ++ [LGo 1%nat]) = None.
Proof. vm_compute. done. Qed.
Example mixed_balance : option_map (fun s => balance (fun _ => 1) mm_count s 0) (mrun mixed) = Some 1.
Proof. vm_compute. done. Qed.
(** Gauges: an Update returns, then two other goroutines read. *)
Definition gauged : list (alabel (N:=num Int64) (S:=gauge (num Int64))) :=
  ([LCall 0 (CUpdate 7)] ++ replicate 6 (LGo 0) ++ [LCall 0 CCopy; LCall 0 CMove] ++ replicate 5 (LGo 1) ++ replicate 6 (LGo 2)).
Example gauged_reads :
  option_map (fun s => as_log s) (arun (gauge_body Int64) (a_init (m_new (m:=gauge_methods Int64))) gauged) =
  Some [ABegin 0; AEnd 0 None; ABegin 1; ABegin 2; AEnd 1 (Some (Gauge 7 2)); AEnd 2 (Some (Gauge 7 2))].
Proof. vm_compute. done. Qed.
Example gauged_before : ended_before [ABegin 0; AEnd 0 None; ABegin 1; ABegin 2; AEnd 1 (Some (Gauge 7 2)); AEnd 2 (Some (Gauge 7 2))] 0 2.
Proof. exists [ABegin 0], None, [ABegin 1; ABegin 2; AEnd 1 (Some (Gauge 7 2)); AEnd 2 (Some (Gauge 7 2))]. split; [done|]. apply elem_of_cons. right. apply elem_of_cons. by left. Qed.
(** int64 sums: three goroutines. *)
Definition ints : list (alabel (N:=num Int64) (S:=num Int64)) := [LCall 0 (CUpdate 4); LCall 0 CMove; LCall 0 (CMerge 9); LGo 0; LGo 1; LGo 2; LGo 2; LGo 1; LGo 0].
Example ints_end : option_map (fun s => (as_val s 0%nat, returned (as_log s), balance (fun n : num Int64 => n) (fun v : num Int64 => v) s 0)) (arun (sum_body Int64 (add_int Int64)) (a_init (0 : num Int64)) ints) =
  Some (9, [(2%nat, None); (1%nat, Some 4); (0%nat, None)], 9).
Proof. vm_compute. done. Qed.
End Ex66.

Print Assumptions C66_linearizable.
Print Assumptions C66_no_race.
Print Assumptions C66_goes_on.
Print Assumptions C66_bounded.
Print Assumptions C66_bounded_linear.
Print Assumptions C66_tickets.
Print Assumptions C66_gauge_last.
Print Assumptions C66_conserved_sum.
Print Assumptions C66_conserved_count.
