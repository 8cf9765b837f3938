(** Collections with no call in flight (C02, C16): what they output is what was measured. *)
From Coq Require Import ZArith Lia Bool.
From stdpp Require Import base list option.
From Verif Require Import Base Lib SyncModel SyncInv SyncStep SyncStepB SyncCases SyncCons SyncRun SyncSpec SyncOnce SyncCall SyncVis SyncVisRun SyncEmit SyncFit.
Local Open Scope Z_scope.

Section quiet.
Context {c : config}.
Notation A := (car (c_mon c)).
Notation st := (state c).
Notation key := (c_key c).
Implicit Types (ls : list (label c)) (s : st) (p : pc c).

Ltac acc_split := try match goal with S1 : _ = _ \/ exists _, _ = set_holds _ _ /\ _ |- _ =>
  destruct S1 as [->|(?k0 & -> & -> & ?F)] end.

Lemma held_stored s v k : held s v k = stored v k s.
Proof. reflexivity. Qed.

Lemma log_sum_measured s v k : log_sum v k (s_log s) = measured s v k.
Proof.
  unfold log_sum, measured, ids_of.
  assert (G : forall l n, (forall i u, l !! i = Some u -> s_log s !! (n + i)%nat = Some u) ->
    log_sum_from (fun u => of_series v k (u_view u) (u_key u)) n l =
    msum (value s) (List.filter (fun x => match s_log s !! x with Some u => same_series v k (u_view u) (u_key u) | None => false end)
      (seq n (length l)))).
  { induction l as [|u l IH]; intros n H; [done|]. cbn [log_sum_from length seq List.filter].
    pose proof (H 0%nat u eq_refl) as H0. rewrite Nat.add_0_r in H0. rewrite H0.
    rewrite (IH (S n)) by (intros i u0 Hi; rewrite Nat.add_succ_comm; by apply H).
    change (of_series v k (u_view u) (u_key u)) with (same_series v k (u_view u) (u_key u)).
    destruct (same_series v k (u_view u) (u_key u)); cbn [msum only].
    - f_equal. unfold value. by rewrite H0.
    - by rewrite mop_unit. }
  rewrite (G _ 0%nat); [done|]. intros i u Hi. exact Hi.
Qed.

Lemma elem_ids s v k x : x ∈ ids_of s v k <-> in_series s v k x.
Proof.
  unfold ids_of, in_series. rewrite elem_of_list_In, filter_In. split.
  - intros [_ H]. destruct (s_log s !! x) as [u|]; [|done]. apply of_series_true in H as [H1 H2]. exists u. auto.
  - intros (u & Hu & <- & <-). split.
    + apply in_seq. apply lookup_lt_Some in Hu. lia.
    + rewrite Hu. apply of_series_refl.
Qed.
Lemma ids_NoDup s v k : NoDup (ids_of s v k).
Proof. apply NoDup_ListNoDup. apply List.NoDup_filter, seq_NoDup. Qed.

Definition calmed s : Prop := forall t p, s_thr s !! t = Some p -> flying p = false.
Lemma calmed_step s t s' : stepR s t s' -> calmed s -> calmed s' /\ s_log s' = s_log s.
Proof.
  intros H C. assert (FF : forall p', s_thr s' = <[t:=p']> (s_thr s) -> flying p' = false -> calmed s').
  { intros p' E Hf t0 p0. rewrite E. intros H0. apply lookup_insert_inv in H0 as [(<- & <- & _)|(_ & H0)]; [done|by eapply C]. }
  stepR_cases H; acc_split; try (by specialize (C _ _ Ht)); (split; [|done]);
    (eapply FF; [snorm; reflexivity|]); try done; by destruct ph as [[]|].
Qed.

Lemma calmed_run ls0 s0 ls s : run (init c) ls0 = Some s0 -> run s0 ls = Some s -> calmed s0 ->
  (forall o k n, LObserve o k n ∉ ls) -> calmed s /\ s_log s = s_log s0.
Proof.
  intros R0 R C N. revert s R. induction ls as [|l ls IH] using rev_ind; intros s R.
  { cbn in R. inversion R; subst. done. }
  rewrite run_app in R. destruct (run s0 ls) as [s1|] eqn:R1; [|done].
  destruct (IH) with (s := s1) as [C1 E1]; [intros o k n H; apply (N o k n); apply elem_of_app; by left|done|].
  cbn [run] in R. destruct (step s1 l) as [s2|] eqn:S; [|done]. inversion R; subst s2. clear R.
  assert (I1 : Inv s1) by (apply reachable_inv; exists (ls0 ++ ls); by rewrite run_app, R0).
  destruct l as [o k n|rd|t ch]; cbn [step] in S.
  - destruct (N o k n). apply elem_of_app. right. left.
  - inversion S; subst. split; [|done]. intros t p Hp. snorm. apply lookup_snoc in Hp as [Hp|[-> ->]]; [by eapply C1|done].
  - destruct (s_thr s1 !! t) as [p|] eqn:Ht; [|done]. apply (step_cases _ _ _ _ _ I1 Ht) in S.
    destruct (calmed_step _ _ _ S C1) as [C2 E2]. split; [done|congruence].
Qed.

(** Every measurement in the log of a state without calls in flight was made by a call that has returned. *)
Lemma log_done ls s x u : run (init c) ls = Some s -> calmed s -> s_log s !! x = Some u -> s_thr s !! u_tid u = Some PDone.
Proof.
  intros R C Hx. destruct (CI_run _ _ R) as ((C1 & C2) & _ & C4). destruct (C4 _ _ Hx) as (o & k & n & a & Hc & _).
  assert (u_tid u < length (s_thr s))%nat as L by (rewrite <- C1; by eapply lookup_lt_Some).
  apply lookup_lt_is_Some in L as (p & Hp). specialize (C2 _ _ Hp). rewrite Hc in C2. destruct C2 as [C2 _].
  specialize (C _ _ Hp). rewrite Hp. destruct p; try done.
Qed.

(** Every point belongs to a view of the reader that collected it. *)
Lemma point_view ls s pt : run (init c) ls = Some s -> pt ∈ pts s ->
  exists rd, calls ls !! p_tid pt = Some (LCollect rd) /\ p_view pt ∈ views_of c rd.
Proof.
  revert ls s pt. 
  assert (G : forall ls s, run (init c) ls = Some s -> (forall pt, pt ∈ pts s -> 
     exists rd, calls ls !! p_tid pt = Some (LCollect rd) /\ p_view pt ∈ views_of c rd)); [|intros ls s pt R; by apply G].
  apply (run_ind (fun ls s => forall pt, pt ∈ pts s -> exists rd, calls ls !! p_tid pt = Some (LCollect rd) /\ p_view pt ∈ views_of c rd)).
  - intros pt H. by apply elem_of_nil in H.
  - intros ls s o k n R I P Ho pt Hp. destruct (P pt Hp) as (rd & H1 & H2). exists rd. rewrite calls_snoc. split; [|done]. by apply lookup_app_l_Some.
  - intros ls s rd0 R I P pt Hp. destruct (P pt Hp) as (rd & H1 & H2). exists rd. rewrite calls_snoc. split; [|done]. by apply lookup_app_l_Some.
  - intros ls s t ch0 s' R I I' P H pt Hq. rewrite calls_snoc, app_nil_r.
    destruct (CI_run _ _ R) as ((C1 & C2) & _). destruct (EI_run _ _ R) as (_ & _ & EP).
    assert (X : forall rd v a k p, s_thr s !! t = Some p -> coll_pc rd p -> (match p with QColl rd' _ v' _ | QDecide rd' _ v' _ _ _ _ => rd' = rd /\ v' = v | _ => False end) ->
       pt = Point t v k a -> exists rd, calls ls !! p_tid pt = Some (LCollect rd) /\ p_view pt ∈ views_of c rd).
    { intros rd v a k p Hp1 Hc Hm ->. cbn. pose proof (EP _ _ Hp1) as PL. pose proof (C2 _ _ Hp1) as C5.
      assert (t < length (calls ls))%nat as L by (rewrite C1; by eapply lookup_lt_Some).
      apply lookup_lt_is_Some in L as (l & Hl). rewrite Hl in C5.
      destruct l as [o1 k1 n1|rd1|]; [by destruct p, C5| |by destruct p, C5].
      exists rd1. split; [done|]. destruct C5 as [C5 _].
      destruct p; try done; destruct Hm as [-> ->]; cbn in C5; subst rd1; apply PL; left. }
    assert (Z : forall q, pt ∈ s_out s ++ [q] ++ s_drop s \/ pt ∈ s_out s ++ s_drop s ++ [q] -> pt ∈ pts s \/ pt = q).
    { intros q. unfold pts. rewrite !elem_of_app, !elem_of_list_singleton. tauto. }
    stepR_cases H; acc_split; try (by apply P); unfold pts in Hq; snorm; rewrite <- ?app_assoc in Hq.
    + destruct (Z _ (or_introl Hq)) as [Hzz|Hzz]; [by apply P|eapply (X rd v); [exact Ht|reflexivity|done|exact Hzz]].
    + destruct (Z _ (or_introl Hq)) as [Hzz|Hzz]; [by apply P|eapply (X rd v); [exact Ht|reflexivity|done|exact Hzz]].
    + destruct (Z _ (or_intror Hq)) as [Hzz|Hzz]; [by apply P|eapply (X rd v); [exact Ht|reflexivity|done|exact Hzz]].
    + destruct (Z _ (or_intror Hq)) as [Hzz|Hzz]; [by apply P|eapply (X rd v); [exact Ht|reflexivity|done|exact Hzz]].
Qed.

Section one.
Context ls0 s0 rd ls s (R0 : run (init c) ls0 = Some s0) (R1 : run s0 (LCollect rd :: ls) = Some s).
Notation T := (length (s_thr s0)).
Context (seen : exists out sup pend, account s out sup pend /\
    forall x u, s_log s !! x = Some u -> u_view u ∈ views_of c rd ->
      if vdelta c (u_view u) then
        (exists i, (i < length (s_out s))%nat /\ x ∈ out i) \/ (exists i, (i < length (s_drop s))%nat /\ x ∈ sup i)
      else exists i (p : point c), s_out s !! i = Some p /\ p_tid p = T /\ x ∈ out i).

Lemma s_run : run (init c) (ls0 ++ LCollect rd :: ls) = Some s.
Proof. rewrite run_app, R0. apply R1. Qed.

(** Every point of the collection in a cumulative view is the aggregate of the whole series. *)
Theorem seen_point i (p : point c) : s_out s !! i = Some p -> p_tid p = T -> vdelta c (p_view p) = false ->
  p_agg p = measured s (p_view p) (p_key p).
Proof.
  intros Hi Ht Hd. destruct seen as (out & sup & pend & AC & V).
  destruct (acc_out _ _ _ _ AC _ _ Hi) as (N & H1 & ->). apply msum_perm. apply NoDup_Permutation; [done|apply ids_NoDup|].
  intros x. rewrite elem_ids. split; [by apply H1|]. intros (u & Hu & Ev & Ek).
  destruct (EI_run _ _ s_run) as (ND & EM & EP).
  assert (HV : u_view u ∈ views_of c rd).
  { assert (p ∈ pts s) as Hp by (unfold pts; apply elem_of_app; left; by eapply elem_of_list_lookup_2).
    destruct (point_view _ _ _ s_run Hp) as (rd' & Hc & Hv). rewrite Ht in Hc.
    destruct (CI_run _ _ R0) as ((L & _) & _).
    unfold calls in Hc. rewrite filter_app in Hc. cbn [List.filter] in Hc. fold (calls ls0) in Hc. rewrite <- L, list_lookup_middle in Hc by done.
    inversion Hc; subst. by rewrite Ev. }
  specialize (V x u Hu HV). rewrite Ev, Hd in V. destruct V as (i' & p' & Hi' & Ht' & Hx).
  assert (i' = i); [|by subst].
  destruct (acc_out _ _ _ _ AC _ _ Hi') as (_ & H2 & _). destruct (H2 _ Hx) as (u' & Hu' & Ev' & Ek').
  assert (u' = u) by congruence. subst u'.
  assert (sig p' = sig p) as ES by (unfold sig; congruence).
  assert (Hs : map sig (pts s) !! i = Some (sig p)) by (unfold pts; rewrite map_app; apply lookup_app_l_Some; by rewrite list_lookup_fmap, Hi).
  assert (Hs' : map sig (pts s) !! i' = Some (sig p)) by (unfold pts; rewrite map_app; apply lookup_app_l_Some; rewrite list_lookup_fmap, Hi'; cbn; by rewrite ES).
  by eapply NoDup_lookup.
Qed.

(** Every measured series of a cumulative view of the reader has exactly one point. *)
Theorem seen_unique v k x : in_series s v k x -> v ∈ views_of c rd -> vdelta c v = false ->
  exists i (p : point c), (s_out s !! i = Some p /\ p_tid p = T /\ p_view p = v /\ p_key p = k) /\
    forall i' (p' : point c), s_out s !! i' = Some p' -> p_tid p' = T -> p_view p' = v -> p_key p' = k -> i' = i.
Proof.
  intros (u & Hu & Ev & Ek) Hv Hd. destruct seen as (out & sup & pend & AC & V).
  specialize (V x u Hu). rewrite Ev, Hd in V. destruct (V Hv) as (i & p & Hi & Ht & Hx). exists i, p.
  destruct (acc_out _ _ _ _ AC _ _ Hi) as (_ & H2 & _). destruct (H2 _ Hx) as (u' & Hu' & Ev' & Ek').
  assert (u' = u) by congruence. subst u'. split; [split_and!; [done|done|congruence|congruence]|].
  intros i' p' Hi' Ht' Hv' Hk'. destruct (EI_run _ _ s_run) as (ND & _).
  assert (sig p' = sig p) as ES by (unfold sig; congruence).
  assert (Hs : map sig (pts s) !! i = Some (sig p)) by (unfold pts; rewrite map_app; apply lookup_app_l_Some; by rewrite list_lookup_fmap, Hi).
  assert (Hs' : map sig (pts s) !! i' = Some (sig p)) by (unfold pts; rewrite map_app; apply lookup_app_l_Some; rewrite list_lookup_fmap, Hi'; cbn; by rewrite ES).
  by eapply NoDup_lookup.
Qed.

(** The points of a delta view up to the end of the collection add up to what was measured. *)
Theorem seen_delta v k : v ∈ views_of c rd -> vdelta c v = true ->
  mop (total (s_out s) v k) (total (s_drop s) v k) = measured s v k.
Proof.
  intros Hv Hd. destruct seen as (out & sup & pend & AC & V).
  assert (RE : reachable s) by (eexists; apply s_run).
  pose proof (conserved_reachable s RE v k) as C. rewrite log_sum_measured in C. rewrite C. unfold emitted. rewrite Hd, <- held_stored.
  assert (held s v k = mu) as ->; [|by rewrite mop_unit_r].
  rewrite (acc_held _ _ _ _ AC). apply msum_unit. intros x Hx. destruct (s_log s !! x) as [u|] eqn:Hu; [|done].
  destruct (same_series v k (u_view u) (u_key u)) eqn:E; [|done]. exfalso. apply of_series_true in E as [Ev _].
  pose proof (acc_delta _ _ _ _ AC x u Hu) as D. rewrite Ev in D. specialize (D Hd). rewrite bool_decide_eq_true_2 in D by done. cbn [one_if] in D.
  specialize (V x u Hu). rewrite Ev, Hd in V.
  assert (CP : forall (l : nat -> list nat) n i, (i < n)%nat -> x ∈ l i -> (0 < count_in l n x)%nat).
  { intros l n i Hi Hl. unfold count_in. assert (i ∈ List.filter (fun i => bool_decide (x ∈ l i)) (seq 0 n)) as HF.
    { rewrite elem_of_list_In, filter_In, in_seq. split; [lia|]. by apply bool_decide_eq_true. }
    destruct (List.filter _ _); [by apply elem_of_nil in HF|cbn; lia]. }
  destruct (V Hv) as [(i & Hi & Hl)|(i & Hi & Hl)]; pose proof (CP _ _ _ Hi Hl); lia.
Qed.
Corollary seen_delta_out v k :
  (forall ids, c_change c v (msum (value s) ids) = false -> msum (value s) ids = mu) ->
  v ∈ views_of c rd -> vdelta c v = true -> total (s_out s) v k = measured s v k.
Proof.
  intros HC Hv Hd. rewrite <- (seen_delta v k Hv Hd).
  assert (total (s_drop s) v k = mu) as ->; [|by rewrite mop_unit_r].
  destruct seen as (out & sup & pend & AC & _).
  apply msum_unit. intros p Hp. apply elem_of_list_lookup in Hp as (i & Hi).
  destruct (acc_sup _ _ _ _ AC _ _ Hi) as [(_ & _ & E) F]. rewrite E in F |- *.
  destruct (same_series v k (p_view p) (p_key p)) eqn:SS; [|done]. unfold same_series in SS. apply andb_true_iff in SS as [SV _].
  apply Nat.eqb_eq in SV. rewrite SV in F. by rewrite (HC _ F).
Qed.
End one.

Section two.
Context ls0 s0 rd ls s (Q : quiet ls0 s0 rd ls s).
Notation T := (length (s_thr s0)).
Lemma q_run : run (init c) (ls0 ++ LCollect rd :: ls) = Some s.
Proof. rewrite run_app, (qc_start _ _ _ _ _ Q). apply (qc_run _ _ _ _ _ Q). Qed.
Lemma q_log : calmed s /\ s_log s = s_log s0.
Proof.
  refine (calmed_run ls0 s0 (LCollect rd :: ls) s (qc_start _ _ _ _ _ Q) (qc_run _ _ _ _ _ Q) (qc_none _ _ _ _ _ Q) _).
  intros o k n H. apply elem_of_cons in H as [H|H]; [done|]. by eapply (qc_calls _ _ _ _ _ Q).
Qed.
Lemma q_visible : exists out sup pend, account s out sup pend /\
    forall x u, s_log s !! x = Some u -> u_view u ∈ views_of c rd ->
      if vdelta c (u_view u) then
        (exists i, (i < length (s_out s))%nat /\ x ∈ out i) \/ (exists i, (i < length (s_drop s))%nat /\ x ∈ sup i)
      else exists i (p : point c), s_out s !! i = Some p /\ p_tid p = T /\ x ∈ out i.
Proof.
  destruct q_log as [_ E].
  destruct (visible_run ls0 s0 rd ls s (qc_start _ _ _ _ _ Q) (qc_run _ _ _ _ _ Q) (qc_calm _ _ _ _ _ Q) (qc_end _ _ _ _ _ Q))
    as (out & sup & pend & AC & V).
  exists out, sup, pend. split; [done|]. intros x u Hx Hv. rewrite E in Hx. apply V; try done.
  by eapply (log_done ls0); [apply (qc_start _ _ _ _ _ Q)|exact (qc_none _ _ _ _ _ Q)|].
Qed.

Theorem quiet_point i (p : point c) : s_out s !! i = Some p -> p_tid p = T -> vdelta c (p_view p) = false ->
  p_agg p = measured s (p_view p) (p_key p).
Proof. exact (seen_point ls0 s0 rd ls s (qc_start _ _ _ _ _ Q) (qc_run _ _ _ _ _ Q) q_visible i p). Qed.
Theorem quiet_unique v k x : in_series s v k x -> v ∈ views_of c rd -> vdelta c v = false ->
  exists i (p : point c), (s_out s !! i = Some p /\ p_tid p = T /\ p_view p = v /\ p_key p = k) /\
    forall i' (p' : point c), s_out s !! i' = Some p' -> p_tid p' = T -> p_view p' = v -> p_key p' = k -> i' = i.
Proof. exact (seen_unique ls0 s0 rd ls s (qc_start _ _ _ _ _ Q) (qc_run _ _ _ _ _ Q) q_visible v k x). Qed.
Theorem quiet_delta v k : v ∈ views_of c rd -> vdelta c v = true ->
  mop (total (s_out s) v k) (total (s_drop s) v k) = measured s v k.
Proof. exact (seen_delta ls0 s0 rd ls s (qc_start _ _ _ _ _ Q) (qc_run _ _ _ _ _ Q) q_visible v k). Qed.
Corollary quiet_delta_out v k :
  (forall ids, c_change c v (msum (value s) ids) = false -> msum (value s) ids = mu) ->
  v ∈ views_of c rd -> vdelta c v = true -> total (s_out s) v k = measured s v k.
Proof. exact (seen_delta_out ls0 s0 rd ls s (qc_start _ _ _ _ _ Q) (qc_run _ _ _ _ _ Q) q_visible v k). Qed.
End two.

(** ** From measurements to calls *)
Lemma msum_mop {M : cmon} {X} (f g : X -> M) l : msum (fun x => mop (f x) (g x)) l = mop (msum f l) (msum g l).
Proof. induction l as [|x l IH]; cbn [msum]; [by rewrite mop_unit|]. rewrite IH. mac. Qed.
Lemma msum_only {M : cmon} (a : M) m n t : (m <= t < m + n)%nat -> msum (fun x => only (Nat.eqb t x) a) (seq m n) = a.
Proof.
  revert m. induction n as [|n IH]; intros m H; [lia|]. cbn [seq msum]. destruct (Nat.eqb_spec t m) as [->|Hne]; cbn [only].
  - rewrite msum_unit; [apply mop_unit_r|]. intros x Hx. apply elem_of_list_In, in_seq in Hx. destruct (Nat.eqb_spec m x); [lia|done].
  - rewrite mop_unit. apply IH. lia.
Qed.
Lemma msum_group {M : cmon} {X} (f : X -> M) (tid : X -> nat) l n : (forall x, x ∈ l -> (tid x < n)%nat) ->
  msum f l = msum (fun t => msum f (List.filter (fun x => Nat.eqb (tid x) t) l)) (seq 0 n).
Proof.
  induction l as [|x l IH]; intros H; cbn [msum List.filter].
  { symmetry. by apply msum_unit. }
  rewrite IH by (intros y Hy; apply H; by right).
  rewrite <- (msum_only (f x) 0 n (tid x)) at 1 by (specialize (H x (elem_of_list_here _ _)); lia).
  rewrite <- msum_mop. apply msum_ext. intros t _. destruct (Nat.eqb (tid x) t); cbn [only msum]; [done|by rewrite mop_unit].
Qed.
Lemma msum_map {M : cmon} {X Y} (f : Y -> M) (g : X -> Y) l : msum f (map g l) = msum (fun x => f (g x)) l.
Proof. induction l as [|x l IH]; cbn [map msum]; [done|by rewrite IH]. Qed.
Lemma msum_index {M : cmon} {X} (f : X -> M) l n : 
  msum f l = msum (fun t => match l !! (t - n)%nat with Some x => f x | None => mu end) (seq n (length l)).
Proof.
  revert n. induction l as [|x l IH]; intros n; cbn [length seq msum]; [done|]. rewrite Nat.sub_diag. cbn [lookup list_lookup]. f_equal.
  rewrite (IH (S n)). apply msum_ext. intros t Ht. apply elem_of_list_In, in_seq in Ht. replace (t - n)%nat with (S (t - S n)) by lia. done.
Qed.
Lemma called_calls ls v k : called ls v k = called (calls ls) v k.
Proof.
  unfold called, calls. induction ls as [|l ls IH]; cbn [msum List.filter]; [done|]. rewrite IH.
  destruct l; cbn [msum]; try done. by rewrite mop_unit.
Qed.

Theorem measured_called LS s v k :
  run (init c) LS = Some s -> fits LS -> (forall t p, s_thr s !! t = Some p -> flying p = false) ->
  c_ignore c = false -> (forall v k k', c_keq c k k' = true -> c_vkey c v k = c_vkey c v k') ->
  (forall x n, c_inj c x n = c_inj c 0%nat n) ->
  measured s v k = called LS v k.
Proof.
  intros R FT C IG KE ST. destruct (CI_fits _ _ R FT) as ((C1 & C2) & _ & C4).
  rewrite <- log_sum_measured, called_calls. unfold log_sum.
  assert (E : forall l n, log_sum_from (fun u => of_series v k (u_view u) (u_key u)) n l =
    msum (fun u : upd c => only (of_series v k (u_view u) (u_key u)) (c_inj c 0%nat (u_num u))) l).
  { induction l as [|u l IH]; intros n; cbn [log_sum_from msum]; [done|]. by rewrite IH, (ST n). }
  rewrite E. rewrite (msum_group _ (@u_tid c) _ (length (calls LS))).
  2: { intros u Hu. apply elem_of_list_lookup in Hu as (x & Hx). destruct (C4 _ _ Hx) as (o & k' & n & a & Hc & _). by eapply lookup_lt_Some. }
  unfold called. rewrite (msum_index _ (calls LS) 0). apply msum_ext. intros t Ht. apply elem_of_list_In, in_seq in Ht. rewrite Nat.sub_0_r.
  assert (t < length (calls LS))%nat as L by lia. pose proof L as L'. rewrite C1 in L'.
  apply lookup_lt_is_Some in L as (l & Hl). apply lookup_lt_is_Some in L' as (p & Hp).
  pose proof (C2 _ _ Hp) as CC. rewrite Hl in CC |- *. specialize (C _ _ Hp).
  destruct l as [o k' n|rd|]; [|destruct CC as [_ CC]|done].
  - destruct CC as [CP CR]. assert (p = PDone) as -> by (by destruct p). cbn [progress] in CR. rewrite take_ge in CR by done.
    unfold recorded_by in CR.
    set (g := fun z : nat * c_num c => only (M:=c_mon c) (Nat.eqb z.1 v && bool_decide (c_vkey c z.1 k' = k)) (c_inj c 0%nat z.2)).
    transitivity (msum g (map (fun v' => (v', n)) (iviews c o))).
    + rewrite <- CR, msum_map. apply msum_ext. intros u Hu. unfold g. cbn [fst snd].
      apply elem_of_list_In, filter_In in Hu as [Hu Et]. apply Nat.eqb_eq in Et.
      apply elem_of_list_In, elem_of_list_lookup in Hu as (x & Hx). destruct (C4 _ _ Hx) as (o1 & k1 & n1 & a & Hc & _ & _ & SV & GK).
      rewrite Et, Hl in Hc. inversion Hc; subst o1 k1 n1.
      assert (c_vkey c (u_view u) a = c_vkey c (u_view u) k') as EK.
      { destruct SV as [[->|[_ SV]]|[SV _]]; [done| |done]. rewrite IG in SV. destruct SV as [SV|[SV|SV]]; [done|symmetry; by apply KE|by apply KE]. }
      destruct GK as [GK|[GK _]]; [|done]. rewrite GK, EK. done.
    + rewrite msum_map. apply msum_ext. intros v' _. done.
  - unfold recorded_by in CC. apply map_eq_nil in CC. by rewrite CC.
Qed.
End quiet.
