(** Properties C01-C10 and C16 of synchronous instruments, for every configuration, every schedule [ls] of calls,
    collections and thread steps, and the state it leads to.  The vocabulary is in SyncSpec (and the model
    in SyncModel); the proofs are elsewhere.  Each group ends with concrete cases that meet the hypotheses. *)
From Coq Require Import ZArith Bool.
From stdpp Require Import base list option.
From Verif Require Import Base SyncModel SyncInv SyncSpec SyncVisRun SyncLive SyncIdle SyncQuiet SyncMore SyncSafe SyncFacts SyncEx.
Local Open Scope Z_scope.

(** * C01: exactly once *)

(** Every measurement recorded is in exactly one delta point of its stream, or in exactly one suppressed point
    (whose aggregate shows no change), or still held; every point is the aggregate of its measurements. *)
Theorem C01_exactly_once : forall (c : config) (ls : list (label c)) (s : state c),
  run (init c) ls = Some s -> exists out sup pend, account s out sup pend.
Proof. intros c. exact account_run. Qed.
(** A call that has returned has recorded its number once on each stream of its instrument ... *)
Theorem C01_call_recorded : forall (c : config) (ls : list (label c)) (s : state c) t o k n,
  run (init c) ls = Some s -> calls ls !! t = Some (LObserve o k n) -> s_thr s !! t = Some PDone ->
  recorded_by s t = map (fun v => (v, n)) (iviews c o).
Proof. intros c. exact returned_recorded. Qed.
(** ... and one that has not, at most once. *)
Theorem C01_call_unfinished : forall (c : config) (ls : list (label c)) (s : state c) t o k n,
  run (init c) ls = Some s -> calls ls !! t = Some (LObserve o k n) ->
  exists m, recorded_by s t = map (fun v => (v, n)) (take m (iviews c o)).
Proof. intros c. exact unfinished_recorded. Qed.
(** Nothing is recorded but what calls pass. *)
Theorem C01_nothing_else : forall (c : config) (ls : list (label c)) (s : state c) x u,
  run (init c) ls = Some s -> s_log s !! x = Some u ->
  exists o k, calls ls !! u_tid u = Some (LObserve o k (u_num u)) /\ u_view u ∈ iviews c o.
Proof. intros c. exact nothing_else_recorded. Qed.

(** A delta stream has a point only for a series that changed: one in which something was measured, if a series without measurements shows no change. *)
Theorem C01_no_empty_points : forall (c : config) (ls : list (label c)) (s : state c) i p,
  run (init c) ls = Some s -> s_out s !! i = Some p -> vdelta c (p_view p) = true ->
  c_change c (p_view p) (p_agg p) = true /\
  (c_change c (p_view p) mu = false -> forall out sup pend, account s out sup pend -> out i <> []).
Proof.
  intros c ls s i p R Hp D. pose proof (point_changed ls s R i p Hp D) as Ch. split; [done|]. intros C0 out sup pend A E.
  destruct (acc_out _ _ _ _ A i p Hp) as (_ & _ & M). rewrite E in M. cbn in M. congruence.
Qed.

Module Case1.
  (* two instruments, three views, two readers, a call overlapping a collection, colliding fingerprints *)
  Definition c := ex_config 5 4 6 false.
  Definition ls : list (label c) :=
    sched 5 4 6 false [Call 0 (1,1) 5; Begin 0 (1,2) 7; Steps 1 5; BeginColl 0; Steps 2 6; Finish 1; Finish 2; Coll 1; Call 1 (1,9) 2;
                 Begin 0 (1,1) (-5); Steps 5 3; Coll 0; Coll 1].
  Definition s : state c := after 5 4 6 false ls.
  Example ok : run (init c) ls = Some s. Proof. apply ran_run. vm_compute. reflexivity. Qed.
  Example points : map row (s_out s) =
    [(2, 0, (1, 1), 5); (2, 0, (1, 2), 7); (3, 1, (1, 0), 12); (3, 2, (1, 0), 12); (7, 1, (1, 0), 14)].
  Proof. vm_compute. done. Qed.
  Example returned : lrow <$> calls ls !! 1%nat = Some (Some (0, (1,2), 7)) /\ done_at s 1 = true /\
    map urow (recorded_by s 1) = [(0, 7); (1, 7); (2, 7)].
  Proof. vm_compute. done. Qed.
  Example unfinished : lrow <$> calls ls !! 5%nat = Some (Some (0, (1,1), -5)) /\ map urow (recorded_by s 5) = [(0, -5)].
  Proof. vm_compute. done. Qed.
End Case1.

(** * C02: cumulative points *)

(** At a collection with no call in flight, each point of a cumulative stream is the aggregate of all
    measurements of its series ever made ... *)
Theorem C02_complete : forall (c : config) (ls0 : list (label c)) s0 rd ls s, quiet ls0 s0 rd ls s ->
  forall i (p : point c), s_out s !! i = Some p -> p_tid p = length (s_thr s0) -> vdelta c (p_view p) = false ->
  p_agg p = measured s (p_view p) (p_key p).
Proof. intros c. exact quiet_point. Qed.
(** ... and each series with a measurement has exactly one point. *)
Theorem C02_one_point : forall (c : config) (ls0 : list (label c)) s0 rd ls s, quiet ls0 s0 rd ls s ->
  forall v k x, in_series s v k x -> read_by c rd v -> vdelta c v = false ->
  exists i (p : point c), (s_out s !! i = Some p /\ p_tid p = length (s_thr s0) /\ p_view p = v /\ p_key p = k) /\
    forall i' (p' : point c), s_out s !! i' = Some p' -> p_tid p' = length (s_thr s0) -> p_view p' = v -> p_key p' = k -> i' = i.
Proof.
  intros c ls0 s0 rd ls s Q v k x H1 H2. apply views_of_iff in H2. exact (quiet_unique ls0 s0 rd ls s Q v k x H1 H2).
Qed.
(** Under the cardinality limits and with no call in flight, "all measurements of the series" are exactly what the
    calls passed with attributes that the view filters to that series. *)
Theorem C02_all_calls : forall (c : config) (ls : list (label c)) s v k,
  run (init c) ls = Some s -> fits ls -> (forall t p, s_thr s !! t = Some p -> flying p = false) ->
  c_ignore c = false -> (forall v k k', c_keq c k k' = true -> c_vkey c v k = c_vkey c v k') ->
  (forall x n, c_inj c x n = c_inj c 0%nat n) ->
  measured s v k = called ls v k.
Proof. intros c. exact measured_called. Qed.
(** In every schedule, quiet or not, a collection outputs at most one point for a series. *)
Theorem C02_at_most_one_point : forall (c : config) (ls : list (label c)) s, run (init c) ls = Some s ->
  NoDup (map (fun p => (p_tid p, p_view p, p_key p)) (s_out s)).
Proof. intros c. exact out_unique. Qed.

Module Case2.
  (* a collection by reader 1 of a cumulative and a delta view, another collection running at the same time *)
  Definition c := ex_config 101 4 6 false.
  Definition ls0 : list (label c) :=
    sched 101 4 6 false [Call 0 (1,1) 5; Coll 1; Begin 0 (1,2) 7; Steps 2 8; Call 1 (2,9) 2; Finish 2; BeginColl 0].
  Definition s0 : state c := after 101 4 6 false ls0.
  Definition ls : list (label c) :=
    drop (S (length ls0)) (sched 101 4 6 false [Call 0 (1,1) 5; Coll 1; Begin 0 (1,2) 7; Steps 2 8; Call 1 (2,9) 2; Finish 2; BeginColl 0;
                                      BeginColl 1; Steps 5 4; Steps 4 3; Finish 5; Steps 4 9]).
  Definition s : state c := after 101 4 6 false (ls0 ++ LCollect 1 :: ls).
  Example q : quiet ls0 s0 1 ls s.
  Proof.
    apply b_quiet. vm_compute. reflexivity.
  Qed.
  Example points : map row (s_out s) =
    [(1, 1, (1, 0), 5); (1, 2, (1, 0), 5); (5, 1, (1, 0), 12); (5, 1, (2, 0), 2); (5, 2, (1, 0), 7)].
  Proof. vm_compute. done. Qed.
  Example s_run : run (init c) (ls0 ++ LCollect 1 :: ls) = Some s. Proof. apply ran_run. vm_compute. reflexivity. Qed.
  Example no_calls : forall t p, s_thr s !! t = Some p -> flying p = false.
  Proof. apply b_none_spec. vm_compute. done. Qed.
  Lemma fit : fits (ls0 ++ LCollect 1 :: ls).
  Proof.
    assert (K0 : keys_of (ls0 ++ LCollect 1 :: ls) 0 = [(1, 1); (1, 2)]) by (vm_compute; done).
    assert (K1 : keys_of (ls0 ++ LCollect 1 :: ls) 1 = [(2, 9)]) by (vm_compute; done).
    assert (K2 : forall o, keys_of (ls0 ++ LCollect 1 :: ls) (S (S o)) = []) by (intros o; vm_compute; done).
    constructor.
    - intros [|[|o]]; rewrite ?K0, ?K1, ?K2; vm_compute; done.
    - intros [|[|[|v]]] H; try (vm_compute; lia). vm_compute in H. lia.
    - intros [|[|o]] k k'; rewrite ?K0, ?K1, ?K2; rewrite ?elem_of_cons, ?elem_of_nil;
        intros H1 H2; destruct_or?; subst; vm_compute; done.
  Qed.
  Example sound : forall v k k', c_keq c k k' = true -> c_vkey c v k = c_vkey c v k'.
  Proof.
    intros v [a b] [a' b'] H. cbn in H. apply andb_prop in H as [H1 H2]. apply Z.eqb_eq in H1, H2. cbn in H1, H2. by subst.
  Qed.
  Example counted : measured s 1 (1, 0) = 12 /\ called (ls0 ++ LCollect 1 :: ls) 1 (1, 0) = 12. Proof. vm_compute. done. Qed.
End Case2.

(** * C03: a call that returned before a collection began is visible to it *)
Theorem C03_visible : forall (c : config) (ls0 : list (label c)) s0 rd ls s,
  run (init c) ls0 = Some s0 ->
  run s0 (LCollect rd :: ls) = Some s ->
  calm (ls0 ++ LCollect rd :: ls) ->
  s_thr s !! length (s_thr s0) = Some QDone ->
  exists out sup pend, account s out sup pend /\
    forall x u, s_log s0 !! x = Some u -> s_thr s0 !! u_tid u = Some PDone -> read_by c rd (u_view u) ->
      if vdelta c (u_view u) then
        (exists i, (i < length (s_out s))%nat /\ x ∈ out i) \/ (exists i, (i < length (s_drop s))%nat /\ x ∈ sup i)
      else exists i p, s_out s !! i = Some p /\ p_tid p = length (s_thr s0) /\ x ∈ out i.
Proof.
  intros c ls0 s0 rd ls s H1 H2 H3 H4. destruct (visible_run ls0 s0 rd ls s H1 H2 H3 H4) as (out & sup & pend & A & B).
  exists out, sup, pend. split; [done|]. intros x u Hx Hd Hv. apply views_of_iff in Hv. exact (B x u Hx Hd Hv).
Qed.
(** The hypothesis [calm] holds when fewer than 2^32 calls are made in all. *)
Theorem C03_calm : forall (c : config) (ls : list (label c)),
  Z.of_nat (length (List.filter is_call ls)) < 4294967296 -> calm ls.
Proof. intros c. exact few_calm. Qed.
(** Case2 meets the hypotheses ([Case2.q] contains them): the call with number 7 returned before thread 5 began. *)
Example C03_case : lrow <$> calls Case2.ls0 !! 2%nat = Some (Some (0, (1, 2), 7)) /\ done_at Case2.s0 2 = true /\
  map urow (recorded_by Case2.s0 2) = [(0, 7); (1, 7); (2, 7)] /\ read_by Case2.c 1 1 /\ read_by Case2.c 1 2.
Proof. do 3 (split; [vm_compute; done|]). split; eexists; split; vm_compute; reflexivity. Qed.

(** * C04: readers are independent *)
(** For each stream of each reader, whatever other readers do: reported plus suppressed plus held is all that was measured. *)
Theorem C04_each_stream_complete : forall (c : config) (ls : list (label c)) s v k, run (init c) ls = Some s ->
  measured s v k = mop (if vdelta c v then mop (total (s_out s) v k) (total (s_drop s) v k) else mu) (held s v k).
Proof. intros c. exact conserved_view. Qed.
(** A collection outputs points of its own reader's streams only. *)
Theorem C04_own_reader : forall (c : config) (ls : list (label c)) s i (p : point c), run (init c) ls = Some s -> s_out s !! i = Some p ->
  exists rd, calls ls !! p_tid p = Some (LCollect rd) /\ read_by c rd (p_view p).
Proof. intros c. exact point_reader. Qed.
Example C04_case : measured Case1.s 0 (1, 1) = 0 /\ measured Case1.s 1 (1, 0) = 14 /\ held Case1.s 0 (1, 1) = -5 /\
  total (s_out Case1.s) 0 (1, 1) = 5 /\ measured Case1.s 2 (1, 0) = 12.
Proof. vm_compute. done. Qed.

(** * C05: reclamation *)
(** A record removed from memory is used by no call and holds nothing; *)
Theorem C05_removed_record : forall (c : config) (ls : list (label c)) s i r,
  run (init c) ls = Some s -> s_recs s !! i = Some r -> r_live r = false ->
  (forall t p, s_thr s !! t = Some p -> uses i p = false) /\
  (forall j a, r_accs r !! j = Some a -> a_cur a = mu).
Proof. intros c. exact removed_record. Qed.
(** an output entry removed from its view holds nothing, and only delta views remove entries; *)
Theorem C05_removed_entry : forall (c : config) (ls : list (label c)) s h hd,
  run (init c) ls = Some s -> s_holds s !! h = Some hd -> h_live hd = false ->
  h_sto hd = mu /\ vdelta c (h_view hd) = true.
Proof. intros c. exact removed_entry. Qed.
(** a call only ever uses a record that is in memory, with entries that are in their views. *)
Theorem C05_used_live : forall (c : config) (ls : list (label c)) s t p i,
  run (init c) ls = Some s -> s_thr s !! t = Some p -> uses i p = true ->
  exists r, s_recs s !! i = Some r /\ r_live r = true /\
    forall j a, r_accs r !! j = Some a -> exists hd, s_holds s !! a_hold a = Some hd /\ h_live hd = true.
Proof. intros c. exact used_live. Qed.

Module Case5.
  Definition c := ex_config 101 4 6 false.
  (* a record and its delta entries are evicted by collections while another call is using its record *)
  Definition ls : list (label c) :=
    sched 101 4 6 false [Call 0 (1,1) 5; Begin 0 (2,2) 7; Steps 1 6; Coll 0; Coll 1; Coll 0; Coll 1; Coll 0; Coll 1].
  Definition s : state c := after 101 4 6 false ls.
  Example ok : run (init c) ls = Some s. Proof. apply ran_run. vm_compute. reflexivity. Qed.
  Example removed : map r_live (s_recs s) = [false; true] /\ map h_live (s_holds s) = [false; true; false; true; true; true].
  Proof. vm_compute. done. Qed.
  Example used : option_map (uses 1) (s_thr s !! 1%nat) = Some true. Proof. vm_compute. done. Qed.
End Case5.

(** * C06: idle series *)
(** A step that removes a record comes after at least [c_periods] visits in a row that found it idle. *)
Theorem C06_kept : forall (c : config) (ls : list (label c)) s t ch s' i r r',
  run (init c) ls = Some s -> calm ls -> step s (LStep t ch) = Some s' ->
  s_recs s !! i = Some r -> r_live r = true -> s_recs s' !! i = Some r' -> r_live r' = false ->
  c_periods c <= Z.of_nat (idle_visits ls i).
Proof. intros c. exact evicted_after_idle. Qed.
(** A visit that is the [c_periods]-th idle one, while no call uses the record, removes it: from then on the
    record is gone, or that visit has not ended yet. *)
Theorem C06_evicted : forall (c : config) (ls : list (label c)) s t ch s1 q i,
  run (init c) ls = Some s -> calm (ls ++ [LStep t ch]) -> 1 <= c_periods c ->
  s_thr s !! t = Some (QLoad q i) -> step s (LStep t ch) = Some s1 ->
  c_periods c <= Z.of_nat (idle_visits (ls ++ [LStep t ch]) i) ->
  (forall t' p, s_thr s !! t' = Some p -> uses i p = false) ->
  forall ls' s', run s1 ls' = Some s' ->
    gone s' i \/ exists p q, s_thr s' !! t = Some p /\ visiting i p = Some q.
Proof. intros c. exact idle_evicted. Qed.

(** An output entry of a delta view to which no record in memory refers is removed by the next collection that looks at it
    and finds no change in it. *)
Theorem C06_entry : forall (c : config) (ls : list (label c)) s t ch rd vs v todo h hd s1,
  run (init c) ls = Some s -> s_thr s !! t = Some (QColl rd vs v todo) -> todo !! ch = Some h ->
  s_holds s !! h = Some hd -> vdelta c v = true -> c_change c v (h_sto hd) = false ->
  unreferenced s h -> step s (LStep t ch) = Some s1 ->
  forall ls' s', run s1 ls' = Some s' ->
    dead s' h \/ exists p, s_thr s' !! t = Some p /\ deciding h p = true.
Proof. intros c. exact entry_removed. Qed.

Module Case6.
  Definition c := ex_config 101 4 6 false.
  (* the second visit by an idle collection, up to its look at the record *)
  Definition ls : list (label c) :=
    sched 101 4 6 false [Call 0 (1,1) 5; Coll 0; Coll 0; BeginColl 1; Steps 3 2].
  Definition s : state c := after 101 4 6 false ls.
  Example ok : run (init c) ls = Some s. Proof. apply ran_run. vm_compute. reflexivity. Qed.
  Example looking : match s_thr s !! 3%nat with Some (QLoad _ i) => i = 0%nat | _ => False end. Proof. vm_compute. done. Qed.
  Example visits : idle_visits ls 0 = 1%nat /\ idle_visits (ls ++ [LStep 3 0]) 0 = 2%nat. Proof. vm_compute. done. Qed.
  Example nobody : forall t' p, s_thr s !! t' = Some p -> uses 0 p = false.
  Proof.
    apply b_nobody_spec. vm_compute. reflexivity.
  Qed.
  Example is_calm : calm (ls ++ [LStep 3 0]). Proof. apply few_calm. vm_compute. done. Qed.
  (* four steps later the record is removed *)
  Definition ls' : list (label c) :=
    sched 101 4 6 false [Call 0 (1,1) 5; Coll 0; Coll 0; BeginColl 1; Steps 3 15].
  Example before : map r_live (s_recs (after 101 4 6 false ls')) = [true] /\ idle_visits ls' 0 = 2%nat. Proof. vm_compute. done. Qed.
  Example evicts : option_map (fun s => map r_live (s_recs s)) (step (after 101 4 6 false ls') (LStep 3 0)) = Some [false].
  Proof. vm_compute. done. Qed.
  (* the record is gone; the next collection looks at its entry in view 0, and removes it *)
  Definition ls3 (n : nat) : list (label c) :=
    sched 101 4 6 false [Call 0 (1,1) 5; Coll 0; Coll 0; Coll 1; BeginColl 0; Steps 4 n].
  Definition s3 n : state c := after 101 4 6 false (ls3 n).
  Example ok3 : run (init c) (ls3 6) = Some (s3 6). Proof. apply ran_run. vm_compute. reflexivity. Qed.
  Example looking3 : match s_thr (s3 6) !! 4%nat with Some (QColl _ _ v todo) => v = 0%nat /\ todo = [0]%nat | _ => False end /\
    match s_holds (s3 6) !! 0%nat with Some hd => h_live hd = true /\ c_change c 0 (h_sto hd) = false | None => False end.
  Proof. vm_compute. done. Qed.
  Lemma nothing_live (s : state c) h : forallb (fun r => negb (r_live r)) (s_recs s) = true -> unreferenced s h.
  Proof.
    rewrite forallb_forall. intros H i r j a Hr Hl. apply elem_of_list_lookup_2, elem_of_list_In in Hr.
    specialize (H _ Hr). by rewrite Hl in H.
  Qed.
  Example unreferenced3 : unreferenced (s3 6) 0. Proof. apply nothing_live. vm_compute. reflexivity. Qed.
  Example removed3 : map h_live (s_holds (s3 9)) = [false; true; true]. Proof. vm_compute. done. Qed.
End Case6.

(** * C07: progress *)
(** Some thread can always take a step until all have ended ([wf]: instruments feed existing streams only). *)
Theorem C07_no_deadlock : forall (c : config) (ls : list (label c)) s t p,
  wf c -> run (init c) ls = Some s -> s_thr s !! t = Some p -> ended p = false -> exists t', can_step s t'.
Proof. intros c. exact no_deadlock. Qed.
(** A lookup never finds a record marked for removal (an odd counter), *)
Theorem C07_lookup_usable : forall (c : config) (ls : list (label c)) s o k i r,
  run (init c) ls = Some s -> s_wl s !! o = Some None ->
  find_read o k s = Some i \/ find_write o k s = Some i -> s_recs s !! i = Some r -> Z.even (r_val r) = true.
Proof. intros c. exact found_mapped. Qed.
(** so inserting a record never has to be retried, *)
Theorem C07_no_retry : forall (c : config) (ls : list (label c)) s t o k n ch s',
  run (init c) ls = Some s -> s_thr s !! t = Some (PWrite o k n) -> step s (LStep t ch) = Some s' ->
  exists i, s_thr s' !! t = Some (PInit i n).
Proof. intros c. exact insertion_never_retries. Qed.
(** and no thread ever reaches a place the model marks as impossible: a missing record or entry, or a collection
    that has to initialise a record. *)
Theorem C07_never_bad : forall (c : config) (ls : list (label c)) s t,
  run (init c) ls = Some s -> s_thr s !! t <> Some PBad.
Proof. intros c. exact never_bad. Qed.

(** A call takes a bounded number of steps of its own, whatever the other threads do: it never spins. *)
Theorem C07_call_steps : forall (c : config) (ls : list (label c)) s t o k n,
  run (init c) ls = Some s -> calls ls !! t = Some (LObserve o k n) ->
  (steps_of ls t <= 2 * length (iviews c o) + 7)%nat.
Proof. intros c. exact call_steps. Qed.
(** So does a collection: [W] bounds the streams of an instrument, [R] the records ever made and [H] the entries ever made. *)
Theorem C07_collection_steps : forall (c : config) W R H, (forall o, (length (iviews c o) <= W)%nat) ->
  forall (ls : list (label c)) s t rd,
  run (init c) ls = Some s -> calls ls !! t = Some (LCollect rd) ->
  (length (s_recs s) <= R)%nat -> (length (s_holds s) <= H)%nat ->
  (steps_of ls t <= 2 + length (c_insts c) * (2 + R * (6 + 3 * W)) + length (c_views c) * (2 + 3 * H))%nat.
Proof. intros c. exact collection_steps. Qed.
Example C07_case_steps : (forall o, (length (iviews Case1.c o) <= 3)%nat) /\ steps_of Case1.ls 0 = 13%nat /\ steps_of Case1.ls 1 = 13%nat /\ steps_of Case1.ls 2 = 32%nat /\ length (s_recs Case1.s) = 3%nat /\ length (s_holds Case1.s) = 4%nat.
Proof. split; [intros [|[|[|o]]]; vm_compute; lia|]. vm_compute. done. Qed.

Example C07_case_wf : wf Case1.c.
Proof.
  intros o l v. destruct o as [|[|[|o]]]; cbn; intros E; inversion E; subst; rewrite ?elem_of_cons, elem_of_nil; lia.
Qed.
Module Case7.
  Definition c := ex_config 101 4 6 false.
  (* a call waiting for a collection that holds the instrument's lock *)
  Definition ls : list (label c) := sched 101 4 6 false [Call 0 (1,1) 5; BeginColl 0; Steps 1 2; Begin 0 (1,2) 7].
  Definition s : state c := after 101 4 6 false ls.
  Example ok : run (init c) ls = Some s. Proof. apply ran_run. vm_compute. reflexivity. Qed.
  Example waits : match step s (LStep 2 0) with None => True | _ => False end /\ ended (default QDone (s_thr s !! 2%nat)) = false. Proof. vm_compute. done. Qed.
  Definition ls2 : list (label c) := sched 101 4 6 false [Call 0 (1,1) 5; Begin 0 (1,2) 7; Steps 1 1].
  Example inserting : match s_thr (after 101 4 6 false ls2) !! 1%nat with Some (PWrite o k _) => o = 0%nat /\ k = (1,2) | _ => False end /\
    s_wl (after 101 4 6 false ls2) !! 0%nat = Some None /\ find_read (c:=c) 0 (1,1) (after 101 4 6 false ls2) = Some 0%nat.
  Proof. vm_compute. done. Qed.
End Case7.

(** * C08: cardinality limit of a view *)
Theorem C08_limit : forall (c : config) (ls : list (label c)) s v,
  run (init c) ls = Some s -> (1 <= vlimit c v)%nat -> (vsize v s <= vlimit c v)%nat.
Proof. intros c. exact view_limit. Qed.
Theorem C08_points : forall (c : config) (ls : list (label c)) s t v,
  run (init c) ls = Some s -> (1 <= vlimit c v)%nat ->
  (length (List.filter (fun p => Nat.eqb (p_tid p) t && Nat.eqb (p_view p) v) (s_out s)) <= vlimit c v)%nat.
Proof. intros c. exact points_limit. Qed.
(** A full view holds the overflow series, and gives it to every call with attributes it does not hold. *)
Theorem C08_overflow_present : forall (c : config) (ls : list (label c)) s v,
  run (init c) ls = Some s -> (1 <= vlimit c v)%nat -> vsize v s = vlimit c v ->
  exists h hd, s_holds s !! h = Some hd /\ h_live hd = true /\ h_view hd = v /\ h_key hd = c_ovkey c.
Proof. intros c. exact view_full. Qed.
Theorem C08_overflow_used : forall (c : config) (ls : list (label c)) s t i n j r v s',
  run (init c) ls = Some s -> s_thr s !! t = Some (PInitV i n j) -> s_recs s !! i = Some r ->
  iviews c (r_inst r) !! j = Some v -> (1 <= vlimit c v)%nat -> vsize v s = vlimit c v ->
  (forall h hd, s_holds s !! h = Some hd -> h_live hd = true -> h_view hd = v -> h_key hd <> c_vkey c v (r_attrs r)) ->
  step s (LStep t 0) = Some s' ->
  vsize v s' = vlimit c v /\ length (s_holds s') = length (s_holds s) /\
  exists r' a hd, s_recs s' !! i = Some r' /\ r_accs r' = r_accs r ++ [a] /\ s_holds s' !! a_hold a = Some hd /\ h_key hd = c_ovkey c.
Proof. intros c. exact full_folds. Qed.

Module Case8.
  Definition c := ex_config 101 3 20 false.
  (* limit 3: two series, the overflow series, then a call with new attributes about to look for its entry *)
  Definition ls : list (label c) :=
    sched 101 3 20 false [Call 0 (1,0) 5; Call 0 (2,0) 5; Call 0 (3,0) 5; Call 0 (1,0) 1; Begin 0 (4,0) 5; Steps 4 3].
  Definition s : state c := after 101 3 20 false ls.
  Example ok : run (init c) ls = Some s. Proof. apply ran_run. vm_compute. reflexivity. Qed.
  Example full : vsize 0 s = 3%nat /\ vlimit c 0 = 3%nat /\ match s_thr s !! 4%nat with Some (PInitV i _ j) => i = 3%nat /\ j = 0%nat | _ => False end /\
    map erow (s_holds s) = [(0,(1,0)); (1,(1,0)); (2,(1,0)); (0,(2,0)); (1,(2,0)); (2,(2,0));
                                             (0,(-1,0)); (1,(-1,0)); (2,(-1,0))].
  Proof. vm_compute. done. Qed.
  Example steps : match step s (LStep 4 0) with Some _ => True | None => False end. Proof. vm_compute. done. Qed.
End Case8.

(** * C09: cardinality limit of an instrument *)
(** [nfp o s] is the number of distinct fingerprints held for instrument [o], [C] bounds the calls in flight at one time. *)
Theorem C09_limit : forall (c : config) C (ls : list (label c)) s o,
  run (init c) ls = Some s -> 1 <= c_ilimit c -> (1 <= C)%nat ->
  (forall l s', l `prefix_of` ls -> run (init c) l = Some s' -> (in_flight s' <= C)%nat) ->
  nfp o s <= c_ilimit c - 1 + Z.of_nat C.
Proof. intros c. exact inst_limit. Qed.
(** Without overlapping calls the limit is exact. *)
Theorem C09_sequential : forall (c : config) (ls : list (label c)) s o,
  run (init c) ls = Some s -> 1 <= c_ilimit c ->
  (forall l s', l `prefix_of` ls -> run (init c) l = Some s' -> (in_flight s' <= 1)%nat) ->
  nfp o s <= c_ilimit c.
Proof. intros c ls s o R L H. pose proof (inst_limit 1 ls s o R L (le_n _) H). lia. Qed.
(** When different attributes have different fingerprints, or collisions are ignored, each fingerprint has one record. *)
Theorem C09_records : forall (c : config) (ls : list (label c)) s o,
  (c_ignore c = true \/ forall k k', c_fp c k = c_fp c k' -> c_keq c k k' = true) ->
  run (init c) ls = Some s ->
  Z.of_nat (length (List.filter (fun r => r_live r && Nat.eqb (r_inst r) o) (s_recs s))) = nfp o s.
Proof. intros c. exact records_fps. Qed.
(** With overlapping calls the configured limit itself can be exceeded: the test is made before the lock for
    writing is taken. *)
Theorem C09_exact_limit_refuted : exists (c : config) (ls : list (label c)) s,
  run (init c) ls = Some s /\ 1 <= c_ilimit c /\ c_ilimit c < nfp 0 s.
Proof.
  exists (ex_config 101 9 3 false).
  exists (sched 101 9 3 false [Call 0 (1,0) 5; Begin 0 (2,0) 5; Begin 0 (3,0) 5; Begin 0 (4,0) 5; Steps 1 1; Steps 2 1; Steps 3 1;
                         Finish 1; Finish 2; Finish 3]).
  eexists. split; [apply ran_run; vm_compute; reflexivity|]. vm_compute. done.
Qed.
Module Case9.
  Definition c := ex_config 101 9 3 false.
  Definition ls : list (label c) :=
    sched 101 9 3 false [Call 0 (1,0) 5; Call 0 (2,0) 5; Call 0 (3,0) 5; Call 0 (4,0) 5; Coll 0].
  Definition s : state c := after 101 9 3 false ls.
  Example ok : run (init c) ls = Some s. Proof. apply ran_run. vm_compute. reflexivity. Qed.
  Fixpoint prefixes {X} (l : list X) : list (list X) := match l with [] => [[]] | x :: l => [] :: map (cons x) (prefixes l) end.
  Lemma prefix_in {X} (l k : list X) : l `prefix_of` k -> In l (prefixes k).
  Proof.
    revert l. induction k as [|x k IH]; intros l [z E].
    - destruct l; [by left|done].
    - destruct l as [|y l]; [by left|]. cbn in E. inversion E; subst. right. apply in_map, IH. by exists z.
  Qed.
  Example one_at_a_time : forall l s', l `prefix_of` ls -> run (init c) l = Some s' -> (in_flight s' <= 1)%nat.
  Proof.
    assert (H : forallb (fun l => match run (init c) l with Some s' => Nat.leb (in_flight s') 1 | None => true end) (prefixes ls) = true)
      by (vm_compute; done).
    rewrite forallb_forall in H. intros l s' P R. specialize (H _ (prefix_in _ _ P)). rewrite R in H. by apply Nat.leb_le.
  Qed.
  Example holds_three : nfp 0 s = 3. Proof. vm_compute. done. Qed.
End Case9.

(** * C10: the right series *)
(** With collision checking on, for every fingerprint function: a measurement is recorded on the series of
    its caller's attributes, or on an overflow series. *)
Theorem C10_right_series : forall (c : config) (ls : list (label c)) s x u, run (init c) ls = Some s -> s_log s !! x = Some u ->
  c_ignore c = false -> (forall v k k', c_keq c k k' = true -> c_vkey c v k = c_vkey c v k') ->
  exists o k, calls ls !! u_tid u = Some (LObserve o k (u_num u)) /\
    (u_key u = c_vkey c (u_view u) k \/ u_key u = c_vkey c (u_view u) (c_ovk c) \/ u_key u = c_ovkey c).
Proof. intros c. exact right_series. Qed.
(** Below the limits it is never the overflow series. *)
Theorem C10_no_overflow : forall (c : config) (ls : list (label c)) s x u, run (init c) ls = Some s -> fits ls -> s_log s !! x = Some u ->
  c_ignore c = false -> (forall v k k', c_keq c k k' = true -> c_vkey c v k = c_vkey c v k') ->
  exists o k, calls ls !! u_tid u = Some (LObserve o k (u_num u)) /\ u_key u = c_vkey c (u_view u) k.
Proof. intros c. exact right_series_fits. Qed.
(** Cases: [Case1] has two attribute lists with one fingerprint on one instrument; [Case2.fit] and [Case2.sound] meet
    the hypotheses of the second theorem. *)
Module Case10.
  Definition c := ex_config 2 9 9 false.
  Definition ls : list (label c) := sched 2 9 9 false [Call 0 (1,1) 5; Call 0 (1,3) 7; Coll 0].
  Example collide : c_fp c (1,1) = c_fp c (1,3) /\ c_ignore c = false. Proof. vm_compute. done. Qed.
  Example apart : map (fun p => (p_key p, p_agg p)) (s_out (after 2 9 9 false ls)) = [((1,1), 5); ((1,3), 7)]. Proof. vm_compute. done. Qed.
End Case10.
(** With collision checking off, measurements with different attributes can be merged. *)
Theorem C10_ignoring_collisions_refuted : exists (c : config) (ls : list (label c)) x s u o k,
  run (init c) ls = Some s /\ s_log s !! x = Some u /\ calls ls !! u_tid u = Some (LObserve o k (u_num u)) /\
  u_key u <> c_vkey c (u_view u) k /\ u_key u <> c_ovkey c.
Proof.
  exists (ex_config 2 9 9 true), (sched 2 9 9 true [Call 0 (1,1) 5; Call 0 (1,3) 7]), 3%nat. apply b_misplaced. vm_compute. reflexivity.
Qed.

(** * C16: delta and cumulative views agree *)
(** Two collections (perhaps the same one) with no call in flight and none in between: the running total of the delta
    stream [v] is the point of the cumulative stream [w], for streams with the same filter on the same instruments. *)
Theorem C16_agree : forall (c : config) (ls0 ls0' : list (label c)) s0 s0' rd rd' ls ls' s v w i p,
  quiet ls0 s0 rd ls s -> quiet ls0' s0' rd' ls' s -> ls0 ++ LCollect rd :: ls = ls0' ++ LCollect rd' :: ls' ->
  read_by c rd v -> vdelta c v = true -> read_by c rd' w -> vdelta c w = false ->
  fits (ls0 ++ LCollect rd :: ls) -> c_ignore c = false ->
  (forall v k k', c_keq c k k' = true -> c_vkey c v k = c_vkey c v k') ->
  (forall x n, c_inj c x n = c_inj c 0%nat n) -> (forall a, c_change c v a = false -> a = mu) ->
  (forall k, c_vkey c v k = c_vkey c w k) ->
  (forall o, length (List.filter (Nat.eqb v) (iviews c o)) = length (List.filter (Nat.eqb w) (iviews c o))) ->
  s_out s !! i = Some p -> p_tid p = length (s_thr s0') -> p_view p = w ->
  total (s_out s) v (p_key p) = p_agg p.
Proof.
  intros c ls0 ls0' s0 s0' rd rd' ls ls' s v w i p Q1 Q2 E V1 D1 V2. apply views_of_iff in V1, V2.
  exact (delta_cumulative ls0 ls0' s0 s0' rd rd' ls ls' s v w i p Q1 Q2 E V1 D1 V2).
Qed.

Module Case16.
  Definition c := Case2.c.
  (* views 2 (delta) and 1 (cumulative) of reader 1 have one filter; measure instrument 0 only *)
  Definition acts0 := [Call 0 (1,1) 5; Coll 1; Begin 0 (1,2) 7; Steps 2 8; Call 0 (2,9) 2; Finish 2; BeginColl 0].
  Definition ls0 : list (label c) := sched 101 4 6 false acts0.
  Definition s0 : state c := after 101 4 6 false ls0.
  Definition ls : list (label c) :=
    drop (S (length ls0)) (sched 101 4 6 false (acts0 ++ [BeginColl 1; Steps 5 4; Steps 4 3; Finish 5; Steps 4 9])).
  Definition s : state c := after 101 4 6 false (ls0 ++ LCollect 1 :: ls).
  Example q : quiet ls0 s0 1 ls s.
  Proof.
    apply b_quiet. vm_compute. reflexivity.
  Qed.
  Example agree : map row (s_out s) =
    [(1, 1, (1, 0), 5); (1, 2, (1, 0), 5); (5, 1, (1, 0), 12); (5, 1, (2, 0), 2); (5, 2, (1, 0), 7); (5, 2, (2, 0), 2)] /\
    total (s_out s) 2 (1, 0) = 12 /\ total (s_out s) 2 (2, 0) = 2.
  Proof. vm_compute. done. Qed.
End Case16.

Print Assumptions C01_exactly_once.
Print Assumptions C01_call_recorded.
Print Assumptions C01_call_unfinished.
Print Assumptions C01_nothing_else.
Print Assumptions C01_no_empty_points.
Print Assumptions C02_complete.
Print Assumptions C02_one_point.
Print Assumptions C02_all_calls.
Print Assumptions C02_at_most_one_point.
Print Assumptions C03_visible.
Print Assumptions C03_calm.
Print Assumptions C04_each_stream_complete.
Print Assumptions C04_own_reader.
Print Assumptions C05_removed_record.
Print Assumptions C05_removed_entry.
Print Assumptions C05_used_live.
Print Assumptions C06_kept.
Print Assumptions C06_evicted.
Print Assumptions C06_entry.
Print Assumptions C07_no_deadlock.
Print Assumptions C07_lookup_usable.
Print Assumptions C07_no_retry.
Print Assumptions C07_never_bad.
Print Assumptions C07_call_steps.
Print Assumptions C07_collection_steps.
Print Assumptions C08_limit.
Print Assumptions C08_points.
Print Assumptions C08_overflow_present.
Print Assumptions C08_overflow_used.
Print Assumptions C09_limit.
Print Assumptions C09_sequential.
Print Assumptions C09_records.
Print Assumptions C09_exact_limit_refuted.
Print Assumptions C10_right_series.
Print Assumptions C10_no_overflow.
Print Assumptions C10_ignoring_collisions_refuted.
Print Assumptions C16_agree.
