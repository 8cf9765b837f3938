(** C57: from a measurement to the exporter.  Words are in FlowSpec, SyncSpec and PerSpec. *)
From Coq Require Import ZArith Bool String Lia.
From stdpp Require Import base list list_numbers option strings.
From Verif Require Import Per PerSpec PerProofs PerProps Base SyncModel SyncSpec SyncSafe SyncEx Flow FlowSpec FlowProofs.

(** * C57: what was measured before ForceFlush or Shutdown was called has been given to the exporter when it returns *)
(** Let the measurements [measured_by_now rd f1] be made by calls that had returned when ForceFlush or Shutdown was called, under any schedule of calls,
    ticks, collections of other readers and other calls of ForceFlush and Shutdown.  When it has returned, it has made one export of its own, with the
    method of its name, whose error it returned.  Every such measurement of a cumulative stream is in the data of that very export, and every one of
    a delta stream in the data of that export or of one before it that has ended (unless its point was suppressed as not changed).
    [account] says which measurements each point is the aggregate of. *)
Theorem C57_delivered : forall (c : config) (rd : nat) l1 f1 a l2 f2 m e,
  frun rd (flow_init c) l1 = Some f1 -> frun rd f1 (FReader a :: l2) = Some f2 -> a = AFlush \/ a = AShut ->
  rd_threads (f_reader f2) !! length (rd_threads (f_reader f1)) = Some (CReturned m e) ->
  calm (calls_made rd (l1 ++ FReader a :: l2)) ->
  m = match a with AFlush => Flush | _ => Final end /\
  exists out sup pend n s, account (f_sync f2) out sup pend /\
    exported f2 n s /\ s_t s = length (rd_threads (f_reader f1)) /\ s_method s = m /\ s_err s = e /\
    forall x u, measured_by_now rd f1 x u ->
      if vdelta c (u_view u) then
        (exists n' s', n' <= n /\ exported f2 n' s' /\ in_data f2 out n' x) \/ (exists i p, s_drop (f_sync f2) !! i = Some p /\ x ∈ sup i)
      else in_data f2 out n x.
Proof.
  intros c rd l1 f1 a l2 f2 m e R1 R2 A T CALM. split; [|by eapply delivered].
  destruct (frun_parts _ _ _ _ R1) as [_ P1]. assert (R : frun rd (flow_init c) (l1 ++ FReader a :: l2) = Some f2) by (by rewrite frun_app, R1).
  destruct (frun_parts _ _ _ _ R) as [_ P2]. cbn [f_reader flow_init] in P1, P2.
  destruct (C32_methods _ _ P1) as (L1 & _). destruct (C32_methods _ _ P2) as (_ & _ & _ & M). specialize (M _ _ _ T).
  rewrite reader_steps_app in M. rewrite L1 in M. revert M A. clear.
  assert (G : forall l b l', callers b (l ++ l') = callers b l ++ callers (b || existsb (fun a => match a with ARegister _ => true | _ => false end) l) l').
  { induction l as [|x l IH]; intros b l'; cbn; [by rewrite orb_false_r|].
    destruct x; cbn; rewrite ?IH; try done. by destruct b. }
  rewrite G, lookup_app_r, Nat.sub_diag by done. intros M [-> | ->]; cbn in M; by injection M as <-.
Qed.
(** The exporter is called once for each production, in order; a measurement of a delta stream is in the data of one production at most; and the data are of
    measurements of the reader's own streams. *)
Theorem C57_once : forall (c : config) (rd : nat) l f, frun rd (flow_init c) l = Some f ->
  exporter_calls f = seq 0 (length (exporter_calls f)) /\
  forall out sup pend, account (f_sync f) out sup pend -> forall x n, in_data f out n x ->
    exists u, s_log (f_sync f) !! x = Some u /\ read_by c rd (u_view u) /\
    (vdelta c (u_view u) = true -> forall n', in_data f out n' x -> n' = n).
Proof.
  intros c rd l f R. split.
  - destruct (frun_parts _ _ _ _ R) as [_ P]. cbn in P. destruct (C32_one_at_a_time _ _ P) as (ss & rest & O). exact (calls_of_session _ _ _ O).
  - intros out sup pend AC x n D. destruct (in_own _ _ _ _ _ _ _ _ R AC D) as (u & U & V). exists u. split; [done|]. split; [done|].
    intros DL n' D'. by eapply in_one.
Qed.
(** The data of a production do not change once Produce has returned, so the exporter is given all of them. *)
Theorem C57_complete : forall (c : config) (rd : nat) l1 f1 l2 f2 n k i p,
  frun rd (flow_init c) l1 = Some f1 -> frun rd f1 l2 = Some f2 ->
  f_made f1 !! n = Some k -> s_out (f_sync f2) !! i = Some p -> p_tid p = k -> s_out (f_sync f1) !! i = Some p.
Proof. intros c rd l1 f1 l2 f2 n k i p R1 R2. by eapply sealed. Qed.
(** What the exporter is called with has been produced: number n is called only when production n has ended. *)
Theorem C57_called_after : forall (c : config) (rd : nat) l f n, frun rd (flow_init c) l = Some f -> n ∈ exporter_calls f ->
  exists k, f_made f !! n = Some k /\ s_thr (f_sync f) !! k = Some QDone.
Proof.
  intros c rd l f n R H. pose proof (ginv_run _ _ _ R) as G. destruct (frun_parts _ _ _ _ R) as [_ P]. cbn in P.
  destruct (prun_inv _ _ _ _ new_inv P) as [ss J]. cbn [app] in J. pose proof (called_below _ _ _ J H) as L. rewrite <- (g_count _ _ _ G) in L.
  destruct (lookup_lt_is_Some_2 _ _ L) as [k K]. exists k. split; [done|]. apply (g_done _ _ _ G). by eapply elem_of_list_lookup_2.
Qed.
(** While a call of ForceFlush or Shutdown has not returned, something can happen without a new call: a step of a call or a collection under way,
    the start of a production, or a step inside the reader. *)
Theorem C57_progress : forall (c : config) (rd : nat) y l f t x, wf c ->
  frun rd (flow_init c) (FReader (ARegister y) :: l) = Some f -> rd_threads (f_reader f) !! t = Some x -> is_loop x = false -> returned x = false ->
  exists b f', fstep rd f b = Some f' /\ match b with FReader a => internal a = true | FProduce _ => True | FCall (LStep _ _) => True | _ => False end.
Proof.
  intros c rd y l f t x WF R T L N. destruct (frun_parts _ _ _ _ R) as [_ P]. cbn [f_reader flow_init] in P.
  change (reader_steps (FReader (ARegister y) :: l)) with (started y (reader_steps l)) in P.
  destruct (C32_returns _ _ _ P) as [Q _]. destruct (Q _ _ T L N) as (a & I & S). by eapply flow_progress.
Qed.

Module Ex57.
  Local Open Scope Z_scope.
  Definition c := ex_config 101 4 6 false.
  (** Calls and collections as in SyncEx; Produce run to its end by a goroutine of the reader; a step of the reader. *)
  Inductive what := W (a : SyncEx.act) | P (t : nat) | R (a : pact).
  Definition facts (w : what) (f : flow c) : list (fact c) :=
    match w with
    | W a => map FCall (play1 101 4 6 false a (f_sync f)).1
    | P t => FProduce t :: map FCall (steps 101 4 6 false 500 (length (s_thr (f_sync f))) (begin 101 4 6 false (LCollect 1) (f_sync f))).1
    | R a => [FReader a]
    end.
  Fixpoint plays (l : list what) (f : flow c) : list (fact c) :=
    match l with
    | [] => []
    | w :: l => let fs := facts w f in fs ++ plays l (default f (frun 1 f fs))
    end.
  Definition ran (f : flow c) (l : list (fact c)) : bool := match frun 1 f l with Some _ => true | None => false end.
  Definition fafter (f : flow c) (l : list (fact c)) : flow c := default f (frun 1 f l).
  Lemma ran_run f l : ran f l = true -> frun 1 f l = Some (fafter f l).
  Proof. unfold ran, fafter. by destruct (frun 1 f l). Qed.
  (** Reader 1 has a cumulative and a delta stream of instrument 0.  A tick exports the first call; a second call returns while that export, which will
      fail, is under way; ForceFlush is called; a third call and a collection of reader 0 run at the same time. *)
  Definition l1 := plays [R (ARegister "p"); W (Call 0 (1,1) 5); R (Tick 0); R (Go 0); P 0; R (Go 0); R (Go 0); W (Call 0 (1,2) 7)] (flow_init c).
  Definition f1 := fafter (flow_init c) l1.
  Definition l2 := plays [W (Begin 0 (2,3) 1); W (Steps 3 2); R (Exported 0 (Some "down")); R (Go 0); R (Go 1); P 1; W (Coll 0); R (Go 1); R (Go 1); W (Finish 3);
    R (Exported 1 None); R (Go 1)] (default f1 (fstep 1 f1 (FReader AFlush))).
  Definition f2 := fafter f1 (FReader AFlush :: l2).
  Example run1 : frun 1 (flow_init c) l1 = Some f1. Proof. apply ran_run. vm_compute. reflexivity. Qed.
  Example run2 : frun 1 f1 (FReader AFlush :: l2) = Some f2. Proof. apply ran_run. vm_compute. reflexivity. Qed.
  Example returned2 : rd_threads (f_reader f2) !! length (rd_threads (f_reader f1)) = Some (CReturned Flush None). Proof. vm_compute. reflexivity. Qed.
  Example calm2 : calm (calls_made 1 (l1 ++ FReader AFlush :: l2)). Proof. apply few_calm. vm_compute. reflexivity. Qed.
  (** Measurements 1 and 2 are of the first call, 4 and 5 of the second, on the cumulative and the delta stream. *)
  Example before : Forall (fun x => exists u, measured_by_now 1 f1 x u) [1; 2; 4; 5]%nat.
  Proof. repeat constructor; (eexists; split; [vm_compute; reflexivity|]); (split; [vm_compute; reflexivity|]); eexists; split; vm_compute; reflexivity. Qed.
  (** Points of production 0 and production 1 (thread, stream, series, sum). *)
  Example made : f_made f2 = [1; 4]%nat /\ exporter_calls f2 = [0; 1]%nat. Proof. vm_compute. done. Qed.
  Example points : map row (s_out (f_sync f2)) =
    [(1, 1, (1, 0), 5); (1, 2, (1, 0), 5); (4, 1, (1, 0), 12); (4, 2, (1, 0), 7); (5, 0, (1, 1), 5); (5, 0, (1, 2), 7)].
  Proof. vm_compute. done. Qed.
  (** The delta measurement 2 is in no data but those of the failed export. *)
  Lemma series_in (lg : list (upd c)) x u : lg !! x = Some u -> u_view u = 2%nat -> u_key u = (1, 0) ->
    forallb (fun x => match lg !! x with Some u => negb (Nat.eqb (u_view u) 2 && bool_decide (u_key u = (1, 0))) | None => false end
              || Nat.eqb x 2 || Nat.eqb x 5) (seq 0 (length lg)) = true -> x = 2%nat \/ x = 5%nat.
  Proof.
    intros U V K E. rewrite forallb_forall in E. specialize (E x). rewrite U, V, (bool_decide_eq_true_2 (u_key u = _)) in E by done. cbn [negb andb orb Nat.eqb] in E.
    assert (H : In x (seq 0 (length lg))) by (apply in_seq; apply lookup_lt_Some in U; lia).
    apply E, orb_true_iff in H as [H|H]; apply Nat.eqb_eq in H; auto.
  Qed.
  Lemma series2 x : in_series (f_sync f2) 2 (1, 0) x -> x = 2%nat \/ x = 5%nat.
  Proof. intros (u & U & V & K). apply (series_in _ x u U V K). vm_compute. reflexivity. Qed.
  Lemma two_sum (val : nat -> Z) l : val 2%nat = 5 -> val 5%nat = 7 -> NoDup l -> 2%nat ∈ l -> (forall x, x ∈ l -> x = 2%nat \/ x = 5%nat) ->
    msum (M:=Zmon) val l <> 7.
  Proof.
    intros V2 V5 ND IN IN2 E. destruct l as [|a [|b [|d l]]].
    - by apply elem_of_nil in IN.
    - apply elem_of_list_singleton in IN as <-. cbn in E. rewrite V2 in E. done.
    - apply list.NoDup_cons in ND as [N1 _]. rewrite elem_of_list_singleton in N1.
      pose proof (IN2 a ltac:(left)) as [-> | ->]; pose proof (IN2 b ltac:(right; left)) as [-> | ->]; try done; cbn in E; rewrite V2, V5 in E; done.
    - apply list.NoDup_cons in ND as [N1 ND]. apply list.NoDup_cons in ND as [N2 ND]. rewrite !elem_of_cons in N1. rewrite !elem_of_cons in N2.
      pose proof (IN2 a ltac:(left)). pose proof (IN2 b ltac:(right; left)). pose proof (IN2 d ltac:(right; right; left)). intuition congruence.
  Qed.
  Lemma points2 (out : list (point c)) i (p : point c) : out !! i = Some p -> p_view p = 2%nat ->
    forallb (fun p : point c => negb (Nat.eqb (p_view p) 2) || Nat.eqb (p_tid p) 1 || Z.eqb (p_agg p) 7) out = true -> p_tid p = 1%nat \/ p_agg p = 7.
  Proof.
    intros Hp V E. rewrite forallb_forall in E. specialize (E p (proj1 (elem_of_list_In _ _) (elem_of_list_lookup_2 _ _ _ Hp))). rewrite V in E.
    cbn [negb orb Nat.eqb] in E. apply orb_true_iff in E as [E|E]; [left; by apply Nat.eqb_eq|right; by apply Z.eqb_eq].
  Qed.
  Lemma where2 out sup pend i p : account (f_sync f2) out sup pend -> s_out (f_sync f2) !! i = Some p -> 2%nat ∈ out i -> p_tid p = 1%nat.
  Proof.
    intros AC Hp IN. pose proof (acc_out _ _ _ _ AC _ _ Hp) as (ND & IS & SUM).
    assert (V : p_view p = 2%nat /\ p_key p = (1, 0)).
    { destruct (IS _ IN) as (u & U & U1 & U2). rewrite <- U1, <- U2. clear -U. vm_compute in U. injection U as <-. done. }
    destruct V as [V K]. rewrite V, K in IS.
    destruct (points2 _ _ _ Hp V) as [E|E]; [vm_compute; reflexivity|done|]. exfalso. rewrite SUM in E.
    apply (two_sum (value (f_sync f2)) (out i)); [vm_compute; reflexivity|vm_compute; reflexivity|done|done| |exact E].
    intros x Hx. by apply series2, IS.
  Qed.
End Ex57.

Lemma first_session lg ss rest s t y m t' m' e : one_at_a_time lg ss rest -> s ∈ ss -> s_n s = 0 ->
  take 3 (exports lg) = [EProduce t y 0; ECall t m 0; EReturn t' m' e] -> s_err s = e.
Proof.
  intros (X & N & _) IN Z0 E. destruct ss as [|s0 ss]; [by apply elem_of_nil in IN|].
  assert (s = s0) as ->.
  { apply elem_of_cons in IN as [->|IN]; [done|]. exfalso. cbn in N. injection N as _ N. apply elem_of_list_In, (in_map s_n) in IN. rewrite N, Z0 in IN.
    apply in_seq in IN. lia. }
  rewrite X in E. cbn in E. by injection E.
Qed.
(** The last part cannot say more: ForceFlush may return nil although something measured before is in no data that were exported without an error,
    because what a failed export of a delta stream contained is not sent again. *)
Theorem C57_nil_means_received_refuted : exists (c : config) rd l1 f1 l2 f2, frun rd (flow_init c) l1 = Some f1 /\ frun rd f1 (FReader AFlush :: l2) = Some f2 /\
  rd_threads (f_reader f2) !! length (rd_threads (f_reader f1)) = Some (CReturned Flush None) /\
  exists x u, measured_by_now rd f1 x u /\ s_drop (f_sync f2) = [] /\
  forall out sup pend n s, account (f_sync f2) out sup pend -> exported f2 n s -> in_data f2 out n x -> s_err s <> None.
Proof.
  exists Ex57.c, 1, Ex57.l1, Ex57.f1, Ex57.l2, Ex57.f2. split; [exact Ex57.run1|]. split; [exact Ex57.run2|]. split; [exact Ex57.returned2|].
  destruct (proj1 (list.Forall_forall _ _) Ex57.before 2) as [u U]; [right; left|]. exists 2, u. split; [done|]. split; [vm_compute; done|].
  intros out sup pend n s AC (ss & rest & O & IN & <-) (i & p & Hp & I2 & M). pose proof (Ex57.where2 _ _ _ _ _ AC Hp I2) as T. rewrite T in M.
  rewrite (proj1 Ex57.made) in M. assert (s_n s = 0) as Z0 by (destruct (s_n s) as [|[|k]]; done).
  rewrite (first_session _ _ _ _ 0 "p" Export 0 Export (Some "down"%string) O IN Z0); [done|]. vm_compute. reflexivity.
Qed.

Print Assumptions C57_delivered.
Print Assumptions C57_once.
Print Assumptions C57_complete.
Print Assumptions C57_called_after.
Print Assumptions C57_progress.
Print Assumptions C57_nil_means_received_refuted.
