(** Properties C12-C15: rejected measurements, integer sums, min/max/sum/count, gauges.  The vocabulary is in AggSpec. *)
From Coq Require Import ZArith Lia Bool SpecFloat String.
From stdpp Require Import base list option.
From Verif Require Import Base SyncModel SyncSpec SyncFacts SyncQuiet SyncMore Num Agg AggSpec AggProofs Attr AggSync.
Local Open Scope Z_scope.

(** * C12: rejected measurements *)
(** Exactly these numbers are rejected: *)
Theorem C12_exactly_int : forall (n : Int64) k,
  range_test n k = false <-> (k = SyncCounter \/ k = SyncHistogram) /\ (n : Z) < 0.
Proof. exact range_int64. Qed.
Theorem C12_exactly_float : forall (n : Float64) k,
  range_test n k = false <->
  n = S754_nan \/ (exists s, n = S754_infinity s) \/ ((k = SyncCounter \/ k = SyncHistogram) /\ exists m e, n = S754_finite true m e).
Proof. exact range_float64. Qed.
(** Leaving all rejected calls (and calls on disabled instruments) out of a history changes nothing. *)
Theorem C12_no_effect : forall (N : arith) c emb to_k kinds limit proc (l : list (api N)) s,
  api_run c emb to_k kinds limit proc s l = api_run c emb to_k kinds limit proc s (List.filter (accepted c kinds) l).
Proof.
  intros N c emb to_k kinds limit proc l. induction l as [|a l IH]; intros s; [done|]. cbn [List.filter api_run].
  destruct (accepted c kinds a) eqn:E; cbn [api_run].
  - destruct (api_step _ _ _ _ _ _ s a); [apply IH|done].
  - destruct a as [o k n|rd|t ch]; try done. cbn [accepted api_step] in *.
    destruct (Nat.ltb o (length (c_insts c))); [|apply IH]. cbn in E. rewrite E. apply IH.
Qed.
Module Case12.
  (* a negative counter value is dropped, -0 and a negative gauge value are kept; numbers are counted only *)
  Definition c : config := attr_config (fun _ => 0) Zmon spec_float (fun _ _ => 1) (fun _ a => negb (a =? 0)) (fun _ => None)
                             [View true 0 9] [[0]; [0]]%nat 2 9 false.
  Definition kinds (o : nat) := match o with O => SyncCounter | _ => SyncGauge end.
  Definition l : list (api Float64) :=
    [ACall 0 [] (S754_finite true 3 0 : Float64); ACall 0 [] (S754_zero true : Float64); ACall 0 [] (S754_nan : Float64);
     ACall 1 [] (S754_finite true 3 0 : Float64); ACall 7 [] (S754_zero false : Float64)].
  Example kept : map (accepted c kinds) l = [false; true; false; true; false].
  Proof. vm_compute. done. Qed.
  Example runs : match api_run (N:=Float64) c (fun n => n) (fun k => k) kinds 0 (fun _ => None) (init c) l with
                 | Some s => length (s_thr s) = 2%nat | None => False end.
  Proof. vm_compute. done. Qed.
End Case12.

(** * C13: integer sums *)
(** After any program of Updates, Moves, Merges and Copies over any number of cells, each cell is the sum of the
    measurements it contains, as a signed 64-bit integer. *)
Theorem C13_exact : forall (os : list (op Int64)) i, measures int64 os ->
  cell (execs (sum_methods Int64) os) i = wrap (zsum (numbers os i)).
Proof. exact sum_int64. Qed.
(** [wrap x] is the one int64 that differs from [x] by a multiple of 2^64. *)
Theorem C13_wrap : forall x y, int64 y -> (wrap x = y <-> exists k, y = x + k * 18446744073709551616).
Proof.
  intros x y H. split.
  - intros <-. apply wrap_mod.
  - intros [k E]. rewrite <- (wrap_id y H). apply wrap_cong. replace (x - y) with (- k * 18446744073709551616) by lia. apply Z.mod_mul. lia.
Qed.
(** Float sums are the sum of the measurements in some order and grouping of the additions. *)
Theorem C13_float : forall (os : list (op Float64)) i, adds (numbers os i) (cell (execs (sum_methods Float64) os) i).
Proof. intros os i. exact (sum_adds Float64 os i). Qed.
(** The order matters for floats. *)
Theorem C13_float_order_refuted : exists (os os' : list (op Float64)), numbers os 0 ≡ₚ numbers os' 0 /\
  cell (execs (sum_methods Float64) os) 0%nat <> cell (execs (sum_methods Float64) os') 0%nat.
Proof.
  pose (big := S754_finite false 4503599627370496 60 : Float64). pose (neg := S754_finite true 4503599627370496 60 : Float64).
  pose (one := S754_finite false 4503599627370496 (-52) : Float64).
  exists [Update 0 one; Update 0 big; Update 0 neg], [Update 0 big; Update 0 neg; Update 0 one]. split.
  - vm_compute. etransitivity; [apply Permutation_cons_append|]. done.
  - vm_compute. done.
Qed.
(** A sum has a change, and is exported with delta temporality, unless it is 0 (modulo 2^64). *)
Theorem C13_change : forall (os : list (op Int64)) i, measures int64 os ->
  m_change (sum_methods Int64) (cell (execs (sum_methods Int64) os) i) = true <-> wrap (zsum (numbers os i)) <> 0.
Proof. intros os i M. rewrite (C13_exact os i M). cbn. rewrite negb_true_iff, Z.eqb_neq. done. Qed.
Theorem C13_float_change : forall (os : list (op Float64)) i,
  m_change (sum_methods Float64) (cell (execs (sum_methods Float64) os) i) = false <-> exists s, cell (execs (sum_methods Float64) os) i = S754_zero s.
Proof.
  intros os i. destruct (cell (execs (sum_methods Float64) os) i) as [s|s| |s m e]; cbn; split; try done; try (by exists s); try (by intros [? ?]).
  all: by destruct s.
Qed.
Module Case13.
  (* a record (0) is updated, moved to a snapshot (1), merged into an output (2), updated again while the output is copied (3) *)
  Definition os : list (op Int64) :=
    [Update 0 (9223372036854775807 : Int64); Update 0 (5 : Int64); Move 0 1; Update 0 (-7 : Int64); Merge 1 2; Copy 2 3; Move 0 1; Merge 1 2].
  Example int : measures int64 os.
  Proof. intros i n H. repeat (apply elem_of_cons in H as [H|H]; [inversion H; subst; vm_compute; done|]). by apply elem_of_nil in H. Qed.
  Example cells : map (fun i => cell (execs (sum_methods Int64) os) i) [0; 1; 2; 3]%nat = [0; -7; 9223372036854775805; -9223372036854775804] /\
    numbers os 2 = [9223372036854775807; 5; -7].
  Proof. vm_compute. done. Qed.
End Case13.

(** * C14: min, max, sum and count *)
Theorem C14_int : forall (os : list (op Int64)) i, measures int64 os -> few os ->
  let s := cell (execs (mmsc_methods Int64) os) i in
  mm_count s = Z.of_nat (length (numbers os i)) /\ (mm_sum s : Z) = wrap (zsum (numbers os i)) /\
  (numbers os i <> [] -> least (mm_min s) (numbers os i) /\ greatest (mm_max s) (numbers os i)).
Proof.
  intros os i M F s. destruct (mmsc_summary (N:=Int64) int64 ordered_int64 os i M F) as (C & A & H). unfold numbers. rewrite map_length. split_and!; [done| |].
  - apply (adds_int64 _ _ A). by apply (numbers_measured int64).
  - intros H0. apply H. intros E. apply H0. by rewrite E.
Qed.
(** Floats that are not NaN: the sum is taken in some order. *)
Theorem C14_float : forall (os : list (op Float64)) i, measures (fun x => x <> S754_nan) os -> few os ->
  let s := cell (execs (mmsc_methods Float64) os) i in
  mm_count s = Z.of_nat (length (numbers os i)) /\ adds (numbers os i) (mm_sum s) /\
  (numbers os i <> [] -> least (mm_min s) (numbers os i) /\ greatest (mm_max s) (numbers os i)).
Proof.
  intros os i M F s. destruct (mmsc_summary (N:=Float64) _ ordered_float64 os i M F) as (C & A & H). unfold numbers. rewrite map_length. split_and!; [done|done|].
  intros H0. apply H. intros E. apply H0. by rewrite E.
Qed.
(** There is a change exactly when something was measured. *)
Lemma count_change {N : arith} (s : mmsc N) (l : list N) : mm_count s = Z.of_nat (length l) -> m_change (mmsc_methods N) s = true <-> l <> [].
Proof. intros C. cbn. rewrite C, negb_true_iff, Z.eqb_neq. destruct l; cbn; split; done || lia. Qed.
Theorem C14_int_change : forall (os : list (op Int64)) i, measures int64 os -> few os ->
  m_change (mmsc_methods Int64) (cell (execs (mmsc_methods Int64) os) i) = true <-> numbers os i <> [].
Proof. intros os i M F. apply count_change, (C14_int os i M F). Qed.
Theorem C14_float_change : forall (os : list (op Float64)) i, measures (fun x => x <> S754_nan) os -> few os ->
  m_change (mmsc_methods Float64) (cell (execs (mmsc_methods Float64) os) i) = true <-> numbers os i <> [].
Proof. intros os i M F. apply count_change, (C14_float os i M F). Qed.
Module Case14.
  Definition os : list (op Int64) := [Update 0 (4 : Int64); Update 0 (-3 : Int64); Move 0 1; Update 0 (9 : Int64); Merge 1 2; Move 0 1; Merge 1 2; Move 0 1; Merge 1 2].
  Example int : measures int64 os.
  Proof. intros i n H. repeat (apply elem_of_cons in H as [H|H]; [inversion H; subst; vm_compute; done|]). by apply elem_of_nil in H. Qed.
  Example is_few : few os.
  Proof.
    intros k i. do 10 (destruct k as [|k]; [destruct i as [|[|[|i]]]; vm_compute; done|]). destruct i as [|[|[|i]]]; vm_compute; done.
  Qed.
  Example cells : cell (execs (mmsc_methods Int64) os) 2%nat = MMSC (-3 : Int64) (9 : Int64) (10 : Int64) 3 /\ numbers os 2 = [4; -3; 9].
  Proof. vm_compute. done. Qed.
End Case14.

(** * C15: gauges *)
(** With fewer than 2^64-2 Updates, a cell that contains measurements reports the one made last; one that contains none
    reports no change. *)
Theorem C15_last : forall (N : arith) (os : list (op N)) i,
  Z.of_nat (length (List.filter is_update os)) < 18446744073709551614 -> contents os i <> [] ->
  latest (gauge_report (cell (execs (gauge_methods N) os) i)) (contents os i) /\
  m_change (gauge_methods N) (cell (execs (gauge_methods N) os) i) = true.
Proof. intros N os i. exact (gauge_latest os i). Qed.
Theorem C15_unset : forall (N : arith) (os : list (op N)) i,
  Z.of_nat (length (List.filter is_update os)) < 18446744073709551614 -> contents os i = [] ->
  m_change (gauge_methods N) (cell (execs (gauge_methods N) os) i) = false /\ gauge_report (cell (execs (gauge_methods N) os) i) = zero.
Proof. intros N os i. exact (gauge_unset os i). Qed.
(** The times are those of the Updates in the program. *)
Theorem C15_times : forall (N : Type) (os : list (op N)) i t n, (t, n) ∈ contents os i -> exists j, os !! t = Some (Update j n).
Proof. intros N os i t n. apply contents_times. Qed.
Module Case15.
  (* two records of one series; the one set first is merged last *)
  Definition os : list (op Int64) := [Update 0 (4 : Int64); Update 1 (3 : Int64); Move 1 2; Merge 2 5; Move 0 2; Merge 2 5].
  Example case : Z.of_nat (length (List.filter is_update os)) < 18446744073709551614 /\ contents os 5 = [(1%nat, 3); (0%nat, 4)] /\
    gauge_report (cell (execs (gauge_methods Int64) os) 5%nat) = (3 : Int64) /\ contents os 0 = [].
  Proof. vm_compute. done. Qed.
End Case15.

(** Overlapping Updates: the sequence number is taken before the lock (gauge.go:141-147).  [Begin] is a call up to there, on
    cell [i] with number [n]; [Store] is the rest of the [k]-th call. *)
Inductive half := Begin (i : nat) (n : Z) | Store (k : nat).
Definition half_step (st : list (nat * Z * Z) * (nat -> gauge Int64)) (h : half) : list (nat * Z * Z) * (nat -> gauge Int64) :=
  match h with
  | Begin i n => (st.1 ++ [(i, n, 2 + Z.of_nat (length st.1))], st.2)
  | Store k => match st.1 !! k with
               | Some (i, n, seq) => (st.1, putc i (m_update (gauge_methods Int64) seq n (st.2 i)) st.2)
               | None => st
               end
  end.
Definition halves (hs : list half) : nat -> gauge Int64 := (fold_left half_step hs ([], fun _ => m_new (m:=gauge_methods Int64))).2.
(** One series, two records: the value of call 1 is reported although call 2 began after call 1 had returned, and has returned. *)
Theorem C15_overlapping_updates_refuted : exists hs a b,
  hs = [Begin 0 10; Begin 1 20; Store 1; Begin 0 30; Store 2; Store 0] /\
  a = halves hs 0%nat /\ b = halves hs 1%nat /\
  let m := m_merge (gauge_methods Int64) in
  gauge_report (m b (m a m_new)) = (20 : Int64) /\ gauge_report (m a (m b m_new)) = (20 : Int64).
Proof. eexists _, _, _. split; [reflexivity|]. split; [reflexivity|]. split; [reflexivity|]. vm_compute. done. Qed.

(** * The same in the synchronous model, under every schedule *)
Lemma snd_mop (M N : cmon) (p q : Pmon M N) : snd (mop p q) = mop (snd p) (snd q). Proof. done. Qed.
Lemma fst_mop (M N : cmon) (p q : Pmon M N) : fst (mop p q) = mop (fst p) (fst q). Proof. done. Qed.
Lemma max_mop (p q : Maxmon) : mop p q = max_of p q. Proof. done. Qed.
Lemma z_mop (p q : Zmon) : mop p q = p + q. Proof. done. Qed.
Lemma count_mop (a b : Aggmon) : a_count (mop a b) = a_count a + a_count b.
Proof. unfold a_count. rewrite (snd_mop Sum64mon), (snd_mop Lastmon), (snd_mop Minmon), (snd_mop Maxmon), z_mop. reflexivity. Qed.
Lemma max_mop' (a b : Aggmon) : a_max (mop a b) = max_of (a_max a) (a_max b).
Proof. unfold a_max. rewrite (snd_mop Sum64mon), (snd_mop Lastmon), (snd_mop Minmon), (fst_mop Maxmon), max_mop. reflexivity. Qed.
Lemma count_one x n (a : Aggmon) : a_count (mop (one x n) a) = 1 + a_count a.
Proof. rewrite count_mop. done. Qed.
Lemma max_one x n (a : Aggmon) : a_max (mop (one x n) a) = max_of (Some n) (a_max a).
Proof. rewrite max_mop'. done. Qed.
Lemma min_one x n (a : Aggmon) : a_min (mop (one x n) a) = min_of (Some n) (a_min a). Proof. done. Qed.
Lemma sum_one x n (a : Aggmon) : a_sum (mop (one x n) a) = wrap (wrap n + a_sum a). Proof. done. Qed.
Section reported.
Context (farm : string -> Z) (kinds : nat -> agg_kind) (keys : nat -> option (list string)) (views : list view).
Context (insts : list (list nat)) (periods ilimit : Z) (ignore : bool).
Notation c := (int_config farm kinds keys views insts periods ilimit ignore).
(** The number of measurement [x]. *)
Definition number (s : state c) (x : nat) : Z := match s_log s !! x with Some u => u_num u | None => 0 end.
Definition logged (s : state c) (ids : list nat) : Prop := forall x, x ∈ ids -> exists u, s_log s !! x = Some u.

Lemma logged_cons s x ids : logged s (x :: ids) -> (exists u, s_log s !! x = Some u) /\ logged s ids.
Proof. intros H. split; [apply H; left|]. intros y Hy. apply H. by right. Qed.
Lemma msum_cons {M : cmon} {X} (f : X -> M) x l : msum f (x :: l) = mop (f x) (msum f l).
Proof. done. Qed.
Lemma value_one s x u : s_log s !! x = Some u -> SyncSpec.value (c:=c) s x = one x (number s x).
Proof. intros H. unfold SyncSpec.value, number. rewrite H. done. Qed.
Lemma agg_sum s ids : logged s ids -> a_sum (msum (SyncSpec.value (c:=c) s) ids) = wrap (zsum (map (number s) ids)).
Proof.
  induction ids as [|x ids IH]; intros H; [done|]. apply logged_cons in H as [[u Hu] H]. rewrite msum_cons, (value_one s x u Hu). specialize (IH H).
  change (map (number s) (x :: ids)) with (number s x :: map (number s) ids). cbn [zsum].
  change (c_mon c) with Aggmon. rewrite sum_one. change (c_mon c) with Aggmon in IH. rewrite IH.
  by rewrite wrap_add.
Qed.
Lemma agg_count s ids : logged s ids -> a_count (msum (SyncSpec.value (c:=c) s) ids) = Z.of_nat (length ids).
Proof.
  induction ids as [|x ids IH]; intros H; [done|]. apply logged_cons in H as [[u Hu] H]. rewrite msum_cons, (value_one s x u Hu). specialize (IH H).
  change (c_mon c) with Aggmon. rewrite count_one. change (c_mon c) with Aggmon in IH. rewrite IH. cbn [length]. lia.
Qed.
Lemma agg_min s ids : logged s ids -> ids <> [] ->
  exists m, a_min (msum (SyncSpec.value (c:=c) s) ids) = Some m /\ least (N:=Int64) m (map (number s) ids).
Proof.
  induction ids as [|x ids IH]; intros H NE; [done|]. apply logged_cons in H as [[u Hu] H]. rewrite msum_cons, (value_one s x u Hu). specialize (IH H).
  change (c_mon c) with Aggmon. rewrite min_one. change (c_mon c) with Aggmon in IH.
  destruct ids as [|y ids].
  - exists (number s x). split; [done|]. split; [left|]. intros z Hz. apply elem_of_list_singleton in Hz as ->. cbn. apply Z.ltb_ge. lia.
  - destruct (IH ltac:(done)) as (m & -> & H1 & H2). cbn [min_of]. exists (Z.min (number s x) m). split; [done|]. cbn [map] in *. split.
    + destruct (Z.min_spec (number s x) m) as [[_ ->]|[_ ->]]; [left|by right].
    + intros z Hz. apply elem_of_cons in Hz as [->|Hz]; cbn; apply Z.ltb_ge; [lia|]. specialize (H2 z Hz). cbn in H2. apply Z.ltb_ge in H2. lia.
Qed.
Lemma agg_max s ids : logged s ids -> ids <> [] ->
  exists m, a_max (msum (SyncSpec.value (c:=c) s) ids) = Some m /\ greatest (N:=Int64) m (map (number s) ids).
Proof.
  induction ids as [|x ids IH]; intros H NE; [done|]. apply logged_cons in H as [[u Hu] H]. rewrite msum_cons, (value_one s x u Hu). specialize (IH H).
  change (c_mon c) with Aggmon. rewrite max_one. change (c_mon c) with Aggmon in IH.
  destruct ids as [|y ids].
  - exists (number s x). split; [done|]. split; [left|]. intros z Hz. apply elem_of_list_singleton in Hz as ->. cbn. apply Z.ltb_ge. lia.
  - destruct (IH ltac:(done)) as (m & -> & H1 & H2). cbn [max_of]. exists (Z.max (number s x) m). split; [done|]. cbn [map] in *. split.
    + destruct (Z.max_spec (number s x) m) as [[_ ->]|[_ ->]]; [by right|left].
    + intros z Hz. apply elem_of_cons in Hz as [->|Hz]; cbn; apply Z.ltb_ge; [lia|]. specialize (H2 z Hz). cbn in H2. apply Z.ltb_ge in H2. lia.
Qed.
Lemma agg_last s ids : logged s ids -> ids <> [] ->
  exists x, x ∈ ids /\ (forall y, y ∈ ids -> (y <= x)%nat) /\ a_last (msum (SyncSpec.value (c:=c) s) ids) = Some (x, number s x).
Proof.
  induction ids as [|x ids IH]; intros H NE; [done|]. apply logged_cons in H as [[u Hu] H]. rewrite msum_cons, (value_one s x u Hu). specialize (IH H).
  change (exists z, z ∈ x :: ids /\ (forall y, y ∈ x :: ids -> (y <= z)%nat) /\
            last_of (Some (x, number s x)) (a_last (msum (SyncSpec.value (c:=c) s) ids)) = Some (z, number s z)).
  destruct ids as [|y ids].
  - exists x. split_and!; [left| |done]. intros z Hz. apply elem_of_list_singleton in Hz as ->. done.
  - destruct (IH ltac:(done)) as (z & Hz & Mz & ->). unfold last_of. destruct (older_spec (x, number s x) (z, number s z)) as [O|O]; cbn [fst snd] in O.
    + exists z. split_and!; [by right| |done]. intros w Hw. apply elem_of_cons in Hw as [->|Hw]; [lia|auto].
    + exists x. split_and!; [left| |done]. intros w Hw. apply elem_of_cons in Hw as [->|Hw]; [done|]. specialize (Mz w Hw).
      destruct (Nat.lt_trichotomy x z) as [?|[->|?]]; [naive_solver| |lia]. exfalso. apply O. right. split; [done|lia].
Qed.
Lemma made_logged s p ids : made_of (c:=c) s p ids -> logged s ids.
Proof. intros (_ & H & _) x Hx. destruct (H x Hx) as (u & Hu & _). by exists u. Qed.

(** Whatever the schedule, each point shows the sum, the count, the least, the greatest and the latest of exactly the
    measurements in it ([account] says which). *)
Definition shows (s : state c) (p : point c) (ids : list nat) : Prop :=
  a_sum (p_agg p) = wrap (zsum (map (number s) ids)) /\
  a_count (p_agg p) = Z.of_nat (length ids) /\
  (ids <> [] ->
     (exists m, a_min (p_agg p) = Some m /\ least (N:=Int64) m (map (number s) ids)) /\
     (exists m, a_max (p_agg p) = Some m /\ greatest (N:=Int64) m (map (number s) ids)) /\
     (exists x, x ∈ ids /\ (forall y, y ∈ ids -> (y <= x)%nat) /\ a_last (p_agg p) = Some (x, number s x))).
Lemma made_shows s p ids : made_of (c:=c) s p ids -> shows s p ids.
Proof.
  intros M. pose proof (made_logged s p ids M) as L. destruct M as (_ & _ & E). unfold shows. rewrite E.
  split_and!; [by apply agg_sum|by apply agg_count|]. intros NE. split_and!; [by apply agg_min|by apply agg_max|by apply agg_last].
Qed.
Lemma points_show (ls : list (label c)) s : run (init c) ls = Some s ->
  exists out sup pend, account s out sup pend /\ forall i p, s_out s !! i = Some p -> shows s p (out i).
Proof.
  intros R. destruct (account_run ls s R) as (out & sup & pend & A). exists out, sup, pend. split; [done|].
  intros i p Hp. apply made_shows. by apply (acc_out _ _ _ _ A).
Qed.
Lemma quiet_shows (ls0 : list (label c)) s0 rd ls s : quiet ls0 s0 rd ls s ->
  forall i (p : point c), s_out s !! i = Some p -> p_tid p = length (s_thr s0) -> vdelta c (p_view p) = false ->
  exists ids, (forall x, x ∈ ids <-> in_series s (p_view p) (p_key p) x) /\ NoDup ids /\ shows s p ids.
Proof.
  intros Q i p Hp Tp Dp. pose proof (quiet_point _ _ _ _ _ Q i p Hp Tp Dp) as E. exists (ids_of s (p_view p) (p_key p)).
  assert (S1 : forall x, x ∈ ids_of s (p_view p) (p_key p) <-> in_series s (p_view p) (p_key p) x).
  { intros x. unfold ids_of, in_series. rewrite elem_of_list_In, filter_In, in_seq. split.
    - intros [_ H]. destruct (s_log s !! x) as [u|] eqn:Hu; [|done]. exists u. split; [done|].
      unfold same_series in H. apply andb_true_iff in H as [H1 H2]. apply Nat.eqb_eq in H1. by apply bool_decide_eq_true in H2.
    - intros (u & Hu & Hv & Hk). rewrite Hu. split.
      + apply lookup_lt_Some in Hu. lia.
      + unfold same_series. rewrite Hv, Hk, Nat.eqb_refl. by apply bool_decide_eq_true. }
  assert (ND : NoDup (ids_of s (p_view p) (p_key p))).
  { apply NoDup_ListNoDup. apply List.NoDup_filter. apply seq_NoDup. }
  split; [exact S1|]. split; [exact ND|]. apply made_shows. split_and!; [exact ND| |exact E]. intros x Hx. by apply S1.
Qed.
End reported.

Theorem C13_reported : forall farm kinds keys views insts periods ilimit ignore,
  let c := int_config farm kinds keys views insts periods ilimit ignore in
  forall (ls : list (label c)) s, run (init c) ls = Some s ->
  exists out sup pend, account s out sup pend /\
    forall i p, s_out s !! i = Some p -> a_sum (p_agg p) = wrap (zsum (map (fun x => match s_log s !! x with Some u => u_num u | None => 0 end) (out i))).
Proof.
  intros farm kinds keys views insts periods ilimit ignore c ls s R.
  destruct (points_show farm kinds keys views insts periods ilimit ignore ls s R) as (out & sup & pend & A & H).
  exists out, sup, pend. split; [exact A|]. intros i p Hp. by destruct (H i p Hp).
Qed.
Theorem C14_reported : forall farm kinds keys views insts periods ilimit ignore,
  let c := int_config farm kinds keys views insts periods ilimit ignore in
  forall (ls : list (label c)) s, run (init c) ls = Some s ->
  exists out sup pend, account s out sup pend /\
    forall i p, s_out s !! i = Some p -> out i <> [] ->
      let ns : list Int64 := map (fun x => match s_log s !! x with Some u => u_num u | None => 0 end) (out i) in
      a_count (p_agg p) = Z.of_nat (length ns) /\ a_sum (p_agg p) = wrap (zsum ns) /\
      (exists m, a_min (p_agg p) = Some m /\ least (N:=Int64) m ns) /\ (exists m, a_max (p_agg p) = Some m /\ greatest (N:=Int64) m ns).
Proof.
  intros farm kinds keys views insts periods ilimit ignore c ls s R.
  destruct (points_show farm kinds keys views insts periods ilimit ignore ls s R) as (out & sup & pend & A & H).
  exists out, sup, pend. split; [exact A|]. intros i p Hp NE. destruct (H i p Hp) as (H1 & H2 & H3). destruct (H3 NE) as (H4 & H5 & _).
  cbn zeta. rewrite map_length. done.
Qed.
(** At a collection with no call in flight, a cumulative gauge point is the last measurement of its series. *)
Theorem C15_reported : forall farm kinds keys views insts periods ilimit ignore,
  let c := int_config farm kinds keys views insts periods ilimit ignore in
  forall (ls0 : list (label c)) s0 rd ls s, quiet ls0 s0 rd ls s ->
  forall i (p : point c) y, s_out s !! i = Some p -> p_tid p = length (s_thr s0) -> vdelta c (p_view p) = false ->
  in_series s (p_view p) (p_key p) y ->
  exists x u, s_log s !! x = Some u /\ in_series s (p_view p) (p_key p) x /\
    (forall x', in_series s (p_view p) (p_key p) x' -> (x' <= x)%nat) /\ a_last (p_agg p) = Some (x, u_num u).
Proof.
  intros farm kinds keys views insts periods ilimit ignore c ls0 s0 rd ls s Q i p y Hp Tp Dp Hy.
  destruct (quiet_shows farm kinds keys views insts periods ilimit ignore ls0 s0 rd ls s Q i p Hp Tp Dp) as (ids & I & _ & _ & _ & H).
  destruct H as (_ & _ & x & Hx & Mx & E).
  { intros ->. apply I in Hy. by apply elem_of_nil in Hy. }
  apply I in Hx. destruct Hx as (u & Hu & Hv & Hk). exists x, u. unfold number in E. rewrite Hu in E. split_and!; [done|by exists u| |done].
  intros x' Hx'. apply Mx. by apply I.
Qed.
(** A point of a delta stream of a gauge was set, at every collection of every history. *)
Theorem C15_delta_set : forall farm kinds keys views insts periods ilimit ignore,
  let c := int_config farm kinds keys views insts periods ilimit ignore in
  forall (ls : list (label c)) s i (p : point c), run (init c) ls = Some s -> s_out s !! i = Some p ->
  kinds (p_view p) = KGauge -> vdelta c (p_view p) = true ->
  exists x u, s_log s !! x = Some u /\ u_view u = p_view p /\ u_key u = p_key p /\ a_last (p_agg p) = Some (x, u_num u).
Proof.
  intros farm kinds keys views insts periods ilimit ignore c ls s i p R Hp K D.
  pose proof (point_changed ls s R i p Hp D) as Ch.
  destruct (points_show farm kinds keys views insts periods ilimit ignore ls s R) as (out & sup & pend & A & H).
  destruct (H i p Hp) as (_ & _ & H3). destruct H3 as (_ & _ & x & Hx & _ & E).
  { intros E. destruct (acc_out _ _ _ _ A i p Hp) as (_ & _ & M). rewrite E in M. change (agg_change (kinds (p_view p)) (p_agg p) = true) in Ch.
    rewrite K in Ch. assert (Z : a_last (p_agg p) = None) by (etransitivity; [apply (f_equal a_last M)|done]). cbn [agg_change] in Ch. by rewrite Z in Ch. }
  destruct (acc_out _ _ _ _ A i p Hp) as (_ & M & _). destruct (M x Hx) as (u & Hu & Hv & Hk). exists x, u. unfold number in E. rewrite Hu in E. done.
Qed.
Definition first_unset (farm : _ -> Z) (kinds : nat -> agg_kind) keys views insts periods ilimit ignore : bool :=
  let c := int_config farm kinds keys views insts periods ilimit ignore in
  match run (init c) ([LObserve (c:=c) 0 [("a", VInt 1)]%string 7] ++ replicate 4 (LStep 0 0) ++ [LCollect 0] ++ replicate 7 (LStep 1 0)) with
  | Some s => match s_out s with
              | p :: _ => match kinds (p_view p), vdelta c (p_view p), a_last (p_agg p) with KGauge, false, None => true | _, _, _ => false end
              | [] => false
              end
  | None => false
  end.
Lemma unset_first farm kinds keys views insts periods ilimit ignore : first_unset farm kinds keys views insts periods ilimit ignore = true ->
  let c := int_config farm kinds keys views insts periods ilimit ignore in
  exists (ls : list (label c)) s i (p : point c), run (init c) ls = Some s /\ s_out s !! i = Some p /\
  kinds (p_view p) = KGauge /\ vdelta c (p_view p) = false /\ a_last (p_agg p) = None.
Proof.
  intros E. unfold first_unset in E. cbv zeta in *. set (c := int_config _ _ _ _ _ _ _ _) in *. destruct (run (init c) _) as [s|] eqn:R in E; [|done]. destruct (s_out s) as [|p o] eqn:O; [done|].
  destruct (kinds (p_view p)) eqn:K in E; try done. destruct (vdelta c (p_view p)) eqn:D in E; try done. destruct (a_last (p_agg p)) eqn:L in E; try done.
  eexists _, s, 0%nat, p. split; [exact R|]. rewrite O. done.
Qed.
(** A comment in the code says that only a delta stream could have an unset gauge: a cumulative stream has one when a collection comes between the
    lookup and the Update of a first call.  The point then shows 0 and the error handler is given "unset gauge access" (gauge.go:84-98). *)
Theorem C15_cumulative_set_refuted : exists farm kinds keys views insts periods ilimit ignore,
  let c := int_config farm kinds keys views insts periods ilimit ignore in
  exists (ls : list (label c)) s i (p : point c), run (init c) ls = Some s /\ s_out s !! i = Some p /\
  kinds (p_view p) = KGauge /\ vdelta c (p_view p) = false /\ a_last (p_agg p) = None.
Proof.
  exists (fun s => Z.of_nat (String.length s)), (fun _ => KGauge), (fun _ => None), [View false 0 9], [[0]%nat], 2, 9, false.
  apply unset_first. vm_compute. reflexivity.
Qed.
Module CaseAgg.
  (* a sum (delta), a gauge and a minmaxsumcount (cumulative) of one instrument, read by one reader *)
  Definition c : config :=
    int_config (fun s => Z.of_nat (String.length s)) (fun v => match v with O => KSum | 1%nat => KGauge | _ => KMMSC end) (fun _ => Some ["a"%string])
      [View true 0 9; View false 0 9; View false 0 9] [[0; 1; 2]%nat] 2 9 false.
  Definition call (b n : Z) : label c := LObserve (c:=c) 0 [("a", VInt 1); ("b", VInt b)]%string n.
  Definition ls0 : list (label c) := [call 1 7] ++ replicate 20 (LStep 0 0) ++ [call 2 (-4)] ++ replicate 20 (LStep 1 0).
  Fixpoint go (s : state c) (ls : list (label c)) : state c * list (label c) :=
    match ls with
    | [] => (s, [])
    | l :: ls => match step s l with Some s' => let '(r, k) := go s' ls in (r, l :: k) | None => go s ls end
    end.
  Definition run0 := (go (init c) ls0).2.
  Definition all := (go (init c) (ls0 ++ [LCollect 0] ++ replicate 60 (LStep 2 0))).2.
  Definition rest := drop (S (length run0)) all.
  Definition prow (p : point c) := (Z.of_nat (p_tid p), Z.of_nat (p_view p), p_key p, a_sum (p_agg p), option_map snd (a_last (p_agg p)), (a_min (p_agg p), a_max (p_agg p), a_count (p_agg p))).
  Example ran : match run (init c) (run0 ++ LCollect 0 :: rest) with Some s =>
      map prow (s_out s) = [(2, 0, [("a"%string, VInt 1)], 3, Some (-4), (Some (-4), Some 7, 2));
                            (2, 1, [("a"%string, VInt 1)], 3, Some (-4), (Some (-4), Some 7, 2));
                            (2, 2, [("a"%string, VInt 1)], 3, Some (-4), (Some (-4), Some 7, 2))]
      /\ match s_thr s !! 2%nat with Some QDone => true | _ => false end = true | None => False end.
  Proof. vm_compute. done. Qed.
End CaseAgg.

Print Assumptions C12_exactly_int.
Print Assumptions C12_exactly_float.
Print Assumptions C12_no_effect.
Print Assumptions C13_exact.
Print Assumptions C13_wrap.
Print Assumptions C13_float.
Print Assumptions C13_float_order_refuted.
Print Assumptions C13_change.
Print Assumptions C13_float_change.
Print Assumptions C14_int.
Print Assumptions C14_float.
Print Assumptions C14_int_change.
Print Assumptions C14_float_change.
Print Assumptions C15_last.
Print Assumptions C15_unset.
Print Assumptions C15_times.
Print Assumptions C15_overlapping_updates_refuted.
Print Assumptions C13_reported.
Print Assumptions C14_reported.
Print Assumptions C15_reported.
Print Assumptions C15_delta_set.
Print Assumptions C15_cumulative_set_refuted.
