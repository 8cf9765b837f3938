(** The properties of SyncProps in the form in which they are stated there, put together from the lemmas. *)
From Coq Require Import ZArith Lia Bool.
From stdpp Require Import base list option.
From Verif Require Import Base Lib SyncModel SyncInv SyncStep SyncStepB SyncCases SyncCons SyncTag SyncRun SyncSpec SyncOnce SyncCall
  SyncVis SyncVisRun SyncEmit SyncLimit SyncLive SyncIdle SyncFit SyncQuiet SyncSafe.
Local Open Scope Z_scope.

Section facts.
Context {c : config}.
Notation key := (c_key c).

Lemma find_holder_spec v (k : key) (s : state c) h : find_holder v k s = Some h ->
  exists hd, s_holds s !! h = Some hd /\ h_live hd = true /\ h_view hd = v /\ h_key hd = k.
Proof.
  intros H. apply find_first_Some in H as (hd & Hh & E). exists hd. rewrite !andb_true_iff in E. destruct E as [[E1 E2] E3].
  apply Nat.eqb_eq in E2. apply bool_decide_eq_true_1 in E3. done.
Qed.
Lemma account_run ls (s : state c) : run (init c) ls = Some s -> exists out sup pend, account s out sup pend.
Proof.
  intros R. destruct (tagged_run c _ _ R) as (ts & TR & TE).
  exists (tags_of c (s_out ts)), (tags_of c (s_drop ts)), (pending c ts). rewrite <- TE. apply account_tagged. by eexists.
Qed.

Lemma returned_recorded ls (s : state c) t o k n :
  run (init c) ls = Some s -> calls ls !! t = Some (LObserve o k n) -> s_thr s !! t = Some PDone ->
  recorded_by s t = map (fun v => (v, n)) (iviews c o).
Proof.
  intros R Hc Ht. destruct (CI_run _ _ R) as ((_ & C) & _). specialize (C _ _ Ht). rewrite Hc in C. destruct C as [_ ->].
  cbn [progress]. by rewrite firstn_all.
Qed.

Lemma unfinished_recorded ls (s : state c) t o k n :
  run (init c) ls = Some s -> calls ls !! t = Some (LObserve o k n) ->
  exists m, recorded_by s t = map (fun v => (v, n)) (take m (iviews c o)).
Proof.
  intros R Hc. destruct (CI_run _ _ R) as ((C1 & C) & _).
  assert (exists p, s_thr s !! t = Some p) as (p & Hp).
  { apply lookup_lt_is_Some. rewrite <- C1. by eapply lookup_lt_Some. }
  specialize (C _ _ Hp). rewrite Hc in C. destruct C as [_ ->]. by eexists.
Qed.

Lemma nothing_else_recorded ls (s : state c) x u :
  run (init c) ls = Some s -> s_log s !! x = Some u ->
  exists o k, calls ls !! u_tid u = Some (LObserve o k (u_num u)) /\ u_view u ∈ iviews c o.
Proof.
  intros R Hx. destruct (CI_run _ _ R) as (_ & _ & C). destruct (C _ _ Hx) as (o & k & n & a & H1 & -> & H2 & _). by exists o, k.
Qed.

Lemma conserved_view ls (s : state c) v k : run (init c) ls = Some s ->
  measured s v k = mop (if vdelta c v then mop (total (s_out s) v k) (total (s_drop s) v k) else mu) (held s v k).
Proof.
  intros R. rewrite <- log_sum_measured, held_stored. apply (conserved_reachable s). by eexists.
Qed.

Lemma right_series ls (s : state c) x u : run (init c) ls = Some s -> s_log s !! x = Some u ->
  c_ignore c = false -> (forall v k k', c_keq c k k' = true -> c_vkey c v k = c_vkey c v k') ->
  exists o k, calls ls !! u_tid u = Some (LObserve o k (u_num u)) /\
    (u_key u = c_vkey c (u_view u) k \/ u_key u = c_vkey c (u_view u) (c_ovk c) \/ u_key u = c_ovkey c).
Proof.
  intros R Hx IG KE. destruct (CI_run _ _ R) as (_ & _ & C). destruct (C _ _ Hx) as (o & k & n & a & H1 & -> & H2 & S & G).
  exists o, k. split; [done|].
  assert (S1 : forall k0, serves1 k0 a -> c_vkey c (u_view u) a = c_vkey c (u_view u) k0).
  { intros k0 [->|(_ & [I|[I|I]])]; [done|congruence| |]; [symmetry|]; by apply KE. }
  destruct G as [->|[_ ->]]; [|auto]. destruct S as [S|[_ S]]; apply S1 in S; auto.
Qed.
Lemma right_series_fits ls (s : state c) x u : run (init c) ls = Some s -> fits ls -> s_log s !! x = Some u ->
  c_ignore c = false -> (forall v k k', c_keq c k k' = true -> c_vkey c v k = c_vkey c v k') ->
  exists o k, calls ls !! u_tid u = Some (LObserve o k (u_num u)) /\ u_key u = c_vkey c (u_view u) k.
Proof.
  intros R FT Hx IG KE. destruct (CI_fits _ _ R FT) as (_ & _ & C). destruct (C _ _ Hx) as (o & k & n & a & H1 & -> & H2 & S & G).
  exists o, k. split; [done|].
  assert (S1 : forall k0, serves1 k0 a -> c_vkey c (u_view u) a = c_vkey c (u_view u) k0).
  { intros k0 [->|(_ & [I|[I|I]])]; [done|congruence| |]; [symmetry|]; by apply KE. }
  destruct G as [->|[? _]]; [|done]. destruct S as [S|[? _]]; [|done]. by apply S1.
Qed.

Lemma view_limit ls (s : state c) v : run (init c) ls = Some s -> (1 <= vlimit c v)%nat -> (vsize v s <= vlimit c v)%nat.
Proof. intros R L. by apply (VL_run _ _ R v L). Qed.
Lemma points_limit ls (s : state c) t v : run (init c) ls = Some s -> (1 <= vlimit c v)%nat ->
  (length (List.filter (fun p => Nat.eqb (p_tid p) t && Nat.eqb (p_view p) v) (s_out s)) <= vlimit c v)%nat.
Proof.
  intros R L. destruct (s_thr s !! t) as [p|] eqn:Ht.
  - pose proof (PL_run _ _ R t p v Ht L) as P. unfold npts, pts in P. rewrite filter_app, app_length in P. lia.
  - destruct (EI_run _ _ R) as (_ & E & _).
    assert (length (List.filter (fun p : point c => Nat.eqb (p_tid p) t && Nat.eqb (p_view p) v) (s_out s)) = 0%nat); [|lia].
    rewrite (filter_none (fun p : point c => Nat.eqb (p_tid p) t && Nat.eqb (p_view p) v)); [done|]. intros p Hp.
    destruct (E p) as (q & Hq & _); [unfold pts; apply elem_of_app; by left|].
    apply andb_false_iff. left. apply Nat.eqb_neq. congruence.
Qed.
Lemma view_full ls (s : state c) v : run (init c) ls = Some s -> (1 <= vlimit c v)%nat -> vsize v s = vlimit c v ->
  exists h hd, s_holds s !! h = Some hd /\ h_live hd = true /\ h_view hd = v /\ h_key hd = c_ovkey c.
Proof. intros R L. by apply (VL_run _ _ R v L). Qed.

(** A call that needs a series entry of view [v] for attributes the view does not hold, when the view is full. *)
Lemma full_folds ls (s : state c) t i n j r v s' :
  run (init c) ls = Some s -> s_thr s !! t = Some (PInitV i n j) -> s_recs s !! i = Some r ->
  iviews c (r_inst r) !! j = Some v -> (1 <= vlimit c v)%nat -> vsize v s = vlimit c v ->
  (forall h hd, s_holds s !! h = Some hd -> h_live hd = true -> h_view hd = v -> h_key hd <> c_vkey c v (r_attrs r)) ->
  step s (LStep t 0) = Some s' ->
  vsize v s' = vlimit c v /\ length (s_holds s') = length (s_holds s) /\
  exists r' a hd, s_recs s' !! i = Some r' /\ r_accs r' = r_accs r ++ [a] /\ s_holds s' !! a_hold a = Some hd /\ h_key hd = c_ovkey c.
Proof.
  intros R Ht Hr Hv L F N S. destruct (view_full _ _ _ R L F) as (h0 & hd0 & H1 & H2 & H3 & H4).
  cbn [step] in S. rewrite Ht in S. cbn [step_pc] in S. rewrite Hr, Hv in S.
  destruct (s_il s !! v) as [[|]|] eqn:IL; try done.
  assert (find_holder v (c_vkey c v (r_attrs r)) s = None) as FH.
  { destruct (find_holder v (c_vkey c v (r_attrs r)) s) as [h|] eqn:E; [|done]. exfalso.
    destruct (find_holder_spec _ _ _ _ E) as (hd & Q1 & Q2 & Q3 & Q4). by eapply N. }
  destruct (find_holder v (c_ovkey c) s) as [h|] eqn:E.
  2: { exfalso. unfold find_holder in E. pose proof (find_first_None _ _ E _ _ H1) as X. cbn in X.
       rewrite H2, H3, Nat.eqb_refl, bool_decide_eq_true_2 in X by done. done. }
  unfold get_or_create in S. rewrite FH, F, Nat.eqb_refl, E in S.
  destruct (find_holder_spec _ _ _ _ E) as (hd & Q1 & Q2 & Q3 & Q4). rewrite Q1 in S. injection S as <-. snorm.
  split; [|split].
  - rewrite <- F, !vsize_filter. cbn [s_holds set_holds goto upd_rec upd_hold set_thr set_recs].
    clear -Q1. revert h Q1. induction (s_holds s) as [|x l IH]; intros [|h] Q; try done.
    + cbn in Q. inversion Q; subst. cbn [insert list_insert List.filter]. change (in_view v (h_setaux (h_aux hd + 1) hd)) with (in_view v hd). by destruct (in_view v hd).
    + cbn [insert list_insert List.filter]. cbn in Q. specialize (IH _ Q). destruct (in_view v x); cbn [length]; [f_equal|]; exact IH.
  - by rewrite insert_length.
  - exists (r_setaccs (fun l => l ++ [Acc mu h]) r), (Acc mu h), (h_setaux (h_aux hd + 1) hd).
    split; [apply list_lookup_insert; by eapply lookup_lt_Some|]. split; [done|].
    split; [|done]. cbn [a_hold]. apply list_lookup_insert. by eapply lookup_lt_Some.
Qed.

Lemma inst_limit C ls (s : state c) o : run (init c) ls = Some s -> 1 <= c_ilimit c -> (1 <= C)%nat ->
  (forall l s', l `prefix_of` ls -> run (init c) l = Some s' -> (in_flight s' <= C)%nat) ->
  nfp o s <= c_ilimit c - 1 + Z.of_nat C.
Proof.
  intros R L LC H. pose proof (IL_run C _ _ R H o) as I. pose proof (nfp_nonov o s) as N. unfold nfp. lia.
Qed.

(** C16 *)
Lemma called_same ls v w (k : key) :
  (forall k', c_vkey c v k' = c_vkey c w k') ->
  (forall o, length (List.filter (Nat.eqb v) (iviews c o)) = length (List.filter (Nat.eqb w) (iviews c o))) ->
  called ls v k = called ls w k.
Proof.
  intros EK EC. unfold called. apply msum_ext. intros l _. destruct l as [o k' n|rd|t ch]; try done.
  assert (G : forall v' l, msum (fun x => only (Nat.eqb x v' && bool_decide (c_vkey c x k' = k)) (c_inj c 0%nat n)) l =
    msum (fun _ : nat => only (bool_decide (c_vkey c v' k' = k)) (c_inj c 0%nat n)) (seq 0 (length (List.filter (Nat.eqb v') l)))).
  { intros v' l. induction l as [|x l IH]; [done|]. cbn [msum List.filter]. rewrite IH.
    rewrite (Nat.eqb_sym v' x). destruct (Nat.eqb_spec x v') as [->|]; cbn [andb only].
    - cbn [length seq msum]. f_equal. rewrite <- seq_shift. clear. generalize (seq 0 (length (List.filter (Nat.eqb v') l))).
      intros q. induction q as [|y q IHq]; [done|]. cbn. by rewrite IHq.
    - by rewrite mop_unit. }
  rewrite !G, EC, EK. done.
Qed.
Lemma out_unique ls (s : state c) : run (init c) ls = Some s -> NoDup (map (fun p => (p_tid p, p_view p, p_key p)) (s_out s)).
Proof.
  intros R. destruct (EI_run _ _ R) as (N & _). unfold pts in N. rewrite map_app in N. by apply list.NoDup_app in N as (N & _).
Qed.
Lemma delta_cumulative (ls0 ls0' : list (label c)) s0 s0' rd rd' ls ls' s v w i p :
  quiet ls0 s0 rd ls s -> quiet ls0' s0' rd' ls' s -> ls0 ++ LCollect rd :: ls = ls0' ++ LCollect rd' :: ls' ->
  v ∈ views_of c rd -> vdelta c v = true -> w ∈ views_of c rd' -> vdelta c w = false ->
  fits (ls0 ++ LCollect rd :: ls) -> c_ignore c = false ->
  (forall v k k', c_keq c k k' = true -> c_vkey c v k = c_vkey c v k') ->
  (forall x n, c_inj c x n = c_inj c 0%nat n) -> (forall a, c_change c v a = false -> a = mu) ->
  (forall k, c_vkey c v k = c_vkey c w k) ->
  (forall o, length (List.filter (Nat.eqb v) (iviews c o)) = length (List.filter (Nat.eqb w) (iviews c o))) ->
  s_out s !! i = Some p -> p_tid p = length (s_thr s0') -> p_view p = w ->
  total (s_out s) v (p_key p) = p_agg p.
Proof.
  intros Q Q' E Hv Dv Hw Dw FT IG KE IN CH FK FI Hp Tp Vp.
  assert (R : run (init c) (ls0 ++ LCollect rd :: ls) = Some s) by (rewrite run_app, (qc_start _ _ _ _ _ Q); apply (qc_run _ _ _ _ _ Q)).
  assert (NC : forall t p, s_thr s !! t = Some p -> flying p = false).
  { destruct (calmed_run ls0 s0 (LCollect rd :: ls) s (qc_start _ _ _ _ _ Q) (qc_run _ _ _ _ _ Q) (qc_none _ _ _ _ _ Q)) as [C _].
    - intros o k n H. apply elem_of_cons in H as [H|H]; [done|]. by eapply (qc_calls _ _ _ _ _ Q).
    - exact C. }
  rewrite (quiet_delta_out _ _ _ _ _ Q v (p_key p) (fun ids => CH _) Hv Dv).
  rewrite (quiet_point _ _ _ _ _ Q' _ _ Hp Tp) by (by rewrite Vp). rewrite Vp.
  rewrite !(measured_called _ _ _ _ R FT NC IG KE IN). by apply called_same.
Qed.
End facts.
