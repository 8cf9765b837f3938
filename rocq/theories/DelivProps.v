(** C67: from an observation to the exporter.  Words are in DelivSpec, ConcSpec, AsyncSpec and PerSpec. *)
From Coq Require Import ZArith Bool String Lia.
From stdpp Require Import base list list_numbers option strings.
From Verif Require Import Per PerSpec PerProofs PerProps Base Flow FlowProofs Num Agg AggSpec Attr Async AsyncSpec Conc ConcSpec ConcInv ConcProps Deliv DelivSpec DelivProofs.
Local Open Scope nat_scope.

(** * C67: ForceFlush and Shutdown run the callbacks and give the exporter what they observed *)
(** The collections of a periodic reader never overlap, whatever is called at the same time: its lock is enough. *)
Theorem C67_single : forall (N : arith) (c : acfg) (vr : nat -> nat) decl rd l (f : sys N),
  drun c vr decl rd (sys_init c) l = Some f -> ConcSpec.one_at_a_time rd (d_conc f).
Proof. intros N c vr decl rd l f R. by eapply single. Qed.

(** When ForceFlush or Shutdown returns, it has made one export of its own, with the method of its name, whose error it returned.  The data of that export
    are those of a whole collection that began after the call did, in which each callback registered when it began was run once, in order. *)
Theorem C67_delivered : forall (N : arith) (c : acfg) (vr : nat -> nat) decl rd l1 (f1 : sys N) a l2 f2 m e,
  drun c vr decl rd (sys_init c) l1 = Some f1 -> drun c vr decl rd f1 (DReader a :: l2) = Some f2 -> a = AFlush \/ a = AShut ->
  rd_threads (d_reader f2) !! length (rd_threads (d_reader f1)) = Some (CReturned m e) ->
  m = match a with AFlush => Flush | _ => Final end /\
  exists n s q k cbs, given f2 n s /\ s_t s = length (rd_threads (d_reader f1)) /\ s_method s = m /\ s_err s = e /\
    data_of f2 n q k /\ k_phase k = KDone /\ length (s_colls (d_conc f1)) <= q /\
    begun (conc_steps rd (l1 ++ DReader a :: l2)) !! q = Some (rd, cbs) /\ ran (d_conc f2) q = cbs.
Proof.
  intros N c vr decl rd l1 f1 a l2 f2 m e R1 R2 A T.
  assert (R : drun c vr decl rd (sys_init c) (l1 ++ DReader a :: l2) = Some f2) by (by rewrite drun_app, R1).
  split.
  - destruct (drun_parts _ _ _ _ _ _ _ R1) as [_ P1]. destruct (drun_parts _ _ _ _ _ _ _ R) as [_ P2]. cbn [d_reader sys_init] in P1, P2.
    destruct (C32_methods _ _ P1) as (L1 & _). destruct (C32_methods _ _ P2) as (_ & _ & _ & M). specialize (M _ _ _ T).
    rewrite read_steps_app in M. rewrite L1 in M. revert M A. clear.
    assert (G : forall l b l', callers b (l ++ l') = callers b l ++ callers (b || existsb (fun a => match a with ARegister _ => true | _ => false end) l) l').
    { induction l as [|x l IH]; intros b l'; cbn; [by rewrite orb_false_r|].
      destruct x; cbn; rewrite ?IH; try done. by destruct b. }
    rewrite G, lookup_app_r, Nat.sub_diag by done. intros M [-> | ->]; cbn in M; by injection M as <-.
  - destruct (delivered _ _ _ _ _ _ _ _ _ _ _ R1 R2 (le_n _) T) as (n & s & q & k & G & S1 & S2 & S3 & D & Rk & Dn & L).
    pose proof (binv_run _ _ _ _ _ (reached_conc _ _ _ _ _ _ R)) as B. destruct D as [M K].
    assert (BQ : map fst (begun (conc_steps rd (l1 ++ DReader a :: l2))) !! q = Some rd).
    { rewrite (b_begun _ _ B). change (map (k_reader (N:=N))) with (fmap (M:=list) (k_reader (N:=N))). by rewrite list_lookup_fmap, K, <- Rk. }
    change (map (fst (A:=nat) (B:=list nat))) with (fmap (M:=list) (fst (A:=nat) (B:=list nat))) in BQ. rewrite list_lookup_fmap in BQ.
    destruct (begun _ !! q) as [[p cbs]|] eqn:E; [|done]. cbn in BQ. injection BQ as ->.
    exists n, s, q, k, cbs. do 4 (split; [done|]). split; [by split|]. split; [done|]. split; [done|]. split; [done|].
    pose proof (b_ran _ _ B _ _ _ _ K E) as H. unfold todo_of in H. rewrite Dn, app_nil_r in H. done.
Qed.

(** Once the callbacks of the reader wait for the goroutines they start, the data of every production of every cumulative view or gauge are exactly what
    the view was told in its collection; nothing else need be asked. *)
Theorem C67_told : forall (N : arith) (c : acfg) (vr : nat -> nat) decl rd l (f : sys N) v w n q k,
  sound c -> drun c vr decl rd (sys_init c) l = Some f ->
  (forall tr1 tr2 s, conc_steps rd l = tr1 ++ tr2 -> reached c vr decl tr1 s -> waited rd s) ->
  a_views c !! v = Some w -> vr v = rd -> stateful w = false -> 1 <= av_limit w -> data_of f n q k ->
  exists o pts, told c vr decl (conc_steps rd l) (d_conc f) q v o /\ reports k v = [pts] /\ shows w (inputs c v w o) pts.
Proof.
  intros N c vr decl rd l f v w n q k SD R W Hw Hv Hst Hl [M K]. subst rd.
  destruct (d_done _ _ (dinv_run _ _ _ _ _ _ R) q (elem_of_list_lookup_2 _ _ _ M)) as (k0 & K0 & Rk & D). assert (k0 = k) as -> by congruence.
  destruct (C63_cumulative N c vr decl (conc_steps (vr v) l) (d_conc f) q k v w SD (reached_conc _ _ _ _ _ _ R) (orderly_run _ _ _ _ _ _ R W) Hw Hst Hl K Rk D) as (o & pts & H1 & H2 & H3 & H4).
  exists o, pts. split; [done|]. split; [done|]. by split.
Qed.
(** What is recorded in a collection that began after a call of ForceFlush or Shutdown was observed after it: the data are fresh. *)
Theorem C67_fresh : forall (N : arith) (c : acfg) (vr : nat -> nat) decl rd l1 (f1 : sys N) l2 f2 q v t,
  drun c vr decl rd (sys_init c) l1 = Some f1 -> drun c vr decl rd f1 l2 = Some f2 ->
  length (s_colls (d_conc f1)) <= q -> recorded_in c (d_conc f2) q v t -> length (s_thr (d_conc f1)) <= t.
Proof.
  intros N c vr decl rd l1 f1 l2 f2 q v t R1 R2. destruct (drun_parts _ _ _ _ _ _ _ R2) as [P _]. eapply recorded_later; [by eapply reached_conc|exact P].
Qed.
(** A delta view: production n+1 says by how much each series changed since production n. *)
Theorem C67_delta : forall (N : arith) (c : acfg) (vr : nat -> nat) decl rd l (f : sys N) v w,
  sound c -> drun c vr decl rd (sys_init c) l = Some f ->
  (forall tr1 tr2 s, conc_steps rd l = tr1 ++ tr2 -> reached c vr decl tr1 s -> waited rd s) ->
  a_views c !! v = Some w -> vr v = rd -> stateful w = true -> 1 <= av_limit w ->
  (forall q k o, s_colls (d_conc f) !! q = Some k -> k_reader k = rd -> k_phase k = KDone -> told c vr decl (conc_steps rd l) (d_conc f) q v o -> roomy w (inputs c v w o)) ->
  exists fl : nat -> list (obs (N:=N)), forall n q k, data_of f n q k ->
    told c vr decl (conc_steps rd l) (d_conc f) q v (fl q) /\
    exists pts, reports k v = [pts] /\
    forall prev, n = 0 /\ prev = [] \/ (exists n0 q0, n = S n0 /\ d_made f !! n0 = Some q0 /\ prev = inputs c v w (fl q0)) ->
    let ins := inputs c v w (fl q) in
    forall key,
      (key ∉ map fst ins -> at_key key pts = []) /\
      (key ∈ map fst ins -> key ∉ map fst prev -> exists x, adds (at_key key ins) x /\ at_key key pts = [x]) /\
      (key ∈ map fst ins -> key ∈ map fst prev -> exists x y, adds (at_key key ins) x /\ adds (at_key key prev) y /\
         at_key key pts = if eqb (sub x y) zero then [] else [sub x y]).
Proof.
  intros N c vr decl rd l f v w SD R W Hw Hv Hst Hl Room. subst rd.
  destruct (C63_delta N c vr decl (conc_steps (vr v) l) (d_conc f) v w SD (reached_conc _ _ _ _ _ _ R) (orderly_run _ _ _ _ _ _ R W) Hw Hst Hl Room) as (fl & H).
  exists fl. intros n q k [M K]. destruct (d_done _ _ (dinv_run _ _ _ _ _ _ R) q (elem_of_list_lookup_2 _ _ _ M)) as (k0 & K0 & Rk & D). assert (k0 = k) as -> by congruence.
  destruct (H q k K Rk D) as (H1 & pts & H2 & H3). split; [done|]. exists pts. split; [done|]. intros prev Hp. apply H3.
  destruct Hp as [[-> ->]|(n0 & q0 & -> & M0 & ->)]; [left|right].
  - split; [by eapply first_made|done].
  - exists q0. split; [by eapply previous_made|done].
Qed.

(** The exporter is called once for each production, in order, with productions of different collections; and only when the collection has ended. *)
Theorem C67_once : forall (N : arith) (c : acfg) (vr : nat -> nat) decl rd l (f : sys N), drun c vr decl rd (sys_init c) l = Some f ->
  given_in_order f = seq 0 (length (given_in_order f)) /\ NoDup (d_made f) /\
  forall n, n ∈ given_in_order f -> exists q k, data_of f n q k /\ k_reader k = rd /\ k_phase k = KDone.
Proof.
  intros N c vr decl rd l f R. pose proof (dinv_run _ _ _ _ _ _ R) as G. destruct (drun_parts _ _ _ _ _ _ _ R) as [_ P]. cbn in P. split; [|split].
  - destruct (C32_one_at_a_time _ _ P) as (ss & rest & O). exact (calls_of_session _ _ _ O).
  - apply (d_once _ _ G).
  - intros n H. destruct (prun_inv _ _ _ _ new_inv P) as [ss J]. cbn [app] in J. pose proof (called_below _ _ _ J H) as L. rewrite <- (d_count _ _ G) in L.
    destruct (lookup_lt_is_Some_2 _ _ L) as [q M]. destruct (d_done _ _ G _ (elem_of_list_lookup_2 _ _ _ M)) as (k & K & Rk & D). by exists q, k.
Qed.
(** The data of a production do not change once Produce has returned, so the exporter is given all of them. *)
Theorem C67_complete : forall (N : arith) (c : acfg) (vr : nat -> nat) decl rd l1 (f1 : sys N) l2 f2 n q k,
  drun c vr decl rd (sys_init c) l1 = Some f1 -> drun c vr decl rd f1 l2 = Some f2 -> data_of f1 n q k ->
  exists k2, data_of f2 n q k2 /\ k_out k2 = k_out k.
Proof. intros N c vr decl rd l1 f1 l2 f2 n q k R1 R2 D. destruct (made_kept _ _ _ _ _ _ _ _ _ _ _ R1 R2 D) as (k2 & D2 & E & _). by exists k2. Qed.
(** While a call of ForceFlush or Shutdown has not returned, something can happen without a new call: a step of a collection or of an observation under way,
    the start of a production, or a step inside the reader. *)
Theorem C67_progress : forall (N : arith) (c : acfg) (vr : nat -> nat) decl rd y l (f : sys N) t x, sound c -> a_views c <> [] ->
  drun c vr decl rd (sys_init c) (DReader (ARegister y) :: l) = Some f -> rd_threads (d_reader f) !! t = Some x -> is_loop x = false -> returned x = false ->
  exists b f', dstep c vr decl rd f b = Some f' /\
    match b with DReader a => internal a = true | DProduce _ _ => True | DConc (LGo _ _) | DConc (LStep _) => True | _ => False end.
Proof.
  intros N c vr decl rd y l f t x SD NE R T L NR. destruct (drun_parts _ _ _ _ _ _ _ R) as [_ P]. cbn [d_reader sys_init] in P.
  change (read_steps (DReader (ARegister y) :: l)) with (started y (read_steps l)) in P.
  destruct (C32_returns _ _ _ P) as [Q _]. destruct (Q _ _ T L NR) as (a & I & [r' S]). clear Q.
  destruct (returns_production (d_reader f) a) as [u|] eqn:Q.
  - pose proof (returns_go _ _ _ Q) as ->. pose proof (dinv_run _ _ _ _ _ _ R) as G.
    destruct (d_busy f) as [[t' q]|] eqn:B.
    + destruct (d_work _ _ G _ _ B) as (NM & (k & K & Rk) & x1 & X & A & PR). destruct (returns_at _ _ Q) as (_ & x' & X' & A').
      assert (t' = u) as ->.
      { destruct (prun_inv _ _ _ _ new_inv P) as [ss J]. destruct (d_reader f) as [pr ca wt lk ct th lg]. destruct J as (LK & _). cbn in X, X'.
        assert (H : forall x, at_produce x = true -> holding x) by (intros [|[]| | | |m []| |] Hx; try done; eexists _, _; (split; [reflexivity|done])).
        unfold lock_ok in LK. destruct lk.
        - destruct LK as (t0 & x0 & m & p & y0 & _ & _ & _ & U & _). rewrite (U _ _ X (H _ A)). by rewrite (U _ _ X' (H _ A')).
        - destruct LK as (U & _). by destruct (U _ _ X (H _ A)). }
      assert (k_phase k = KDone \/ k_phase k <> KDone) as [D|D] by (destruct (k_phase k); auto).
      * exists (DReader (Go u)). destruct f as [s r b m]. cbn in B, S, K, Q. subst b. cbn [dstep]. rewrite S. cbn [mbind option_bind]. cbn in Q |- *. rewrite Q, Nat.eqb_refl, K. cbn. rewrite D. eexists. by split.
      * destruct (C63_collection_goes_on _ _ _ _ _ _ _ _ SD NE (reached_conc _ _ _ _ _ _ R) K D) as (b & [s' S2] & HB). exists (DConc b).
        destruct f as [s r bb m]. cbn [d_conc] in S2. cbn [dstep]. destruct HB as [-> | (t2 & -> & _)]; rewrite S2; eexists; by split.
    + exists (DProduce u []). destruct f as [s r b m]. cbn in B, Q. subst b. cbn [dstep]. cbn in Q |- *. rewrite Q. eexists. by split.
  - exists (DReader a). destruct f as [s r b m]. cbn in S, Q. cbn [dstep]. rewrite S. cbn. rewrite Q. eexists. by split.
Qed.

Module Ex67.
  Import Ex63.
  Local Open Scope nat_scope.
  Local Open Scope list_scope.
  (** Collection 0 of [Ex63], now made for a tick of the reader; ForceFlush is called in the middle of it; a collection of another reader and the rest of
      collection 0 follow, whose export fails; then the collection of ForceFlush, in which A is 9 and B is 2 again. *)
  Definition l1 : list (dact Int64) := [DReader (ARegister "p"); DReader (Tick 0); DReader (Go 0); DProduce 0 [0]] ++ map DConc (drop 1 race).
  Definition l2 : list (dact Int64) := map DConc (other ++ rest0) ++ map DReader [Go 0; Go 0; Exported 0 (Some "down"%string); Go 0; Go 1] ++ [DProduce 1 [0]] ++
    map DConc (drop 1 second) ++ map DReader [Go 1; Go 1; Exported 1 None; Go 1].
  Definition run := drun (N:=Int64) c vr decl 0.
  Definition after (f : sys Int64) l : sys Int64 := default f (run f l).
  Definition ran_ok (f : sys Int64) l : bool := match run f l with Some _ => true | None => false end.
  Lemma ran_run f l : ran_ok f l = true -> run f l = Some (after f l).
  Proof. unfold ran_ok, after. by destruct (run f l). Qed.
  Definition f1 := after (sys_init c) l1.
  Definition f2 := after f1 (DReader AFlush :: l2).
  Example run1 : run (sys_init c) l1 = Some f1. Proof. apply ran_run. vm_compute. reflexivity. Qed.
  Example run2 : run f1 (DReader AFlush :: l2) = Some f2. Proof. apply ran_run. vm_compute. reflexivity. Qed.
  Example returned2 : rd_threads (d_reader f2) !! length (rd_threads (d_reader f1)) = Some (CReturned Flush None). Proof. vm_compute. reflexivity. Qed.
  Example waits : forall tr1 tr2 s, conc_steps 0 (l1 ++ DReader AFlush :: l2) = tr1 ++ tr2 -> reached c vr decl tr1 s -> waited 0 s.
  Proof. intros tr1 tr2 s E H. apply waitedb_ok. revert E H. apply each_ok. vm_compute. reflexivity. Qed.
  (** One collection of the reader had begun when ForceFlush was called; its own is number 2 (1 is of the other reader).  Views 0 and 1 are cumulative,
      view 2 is delta. *)
  Example began : length (s_colls (d_conc f1)) = 1 /\ length (s_thr (d_conc f1)) = 3 /\ d_made f2 = [0; 2] /\ given_in_order f2 = [0; 1] /\ ran (d_conc f2) 2 = [0].
  Proof. vm_compute. done. Qed.
  Example data : outs [0; 1; 2] (d_conc f2) = expected.1.1. Proof. vm_compute. reflexivity. Qed.
  Example rooms : forall q k o, s_colls (d_conc f2) !! q = Some k -> k_reader k = 0 -> k_phase k = KDone ->
    told c vr decl (conc_steps 0 (l1 ++ DReader AFlush :: l2)) (d_conc f2) q 2 o -> roomy (AView true false None 3) (inputs c 2 (AView true false None 3) o).
  Proof.
    intros q k o _ _ _ Ht. refine (few (conc_steps 0 (l1 ++ DReader AFlush :: l2)) (d_conc f2) (AView true false None 3) q 2 o _ eq_refl Ht).
    apply list.Forall_forall. apply (bool_decide_unpack _). vm_compute. exact I.
  Qed.
  (** In the middle, when ForceFlush waits for the lock of the reader and collection 0 is not over, something can happen. *)
  Definition f3 := after f1 [DReader AFlush].
  Example run3 : run f1 [DReader AFlush] = Some f3. Proof. apply ran_run. vm_compute. reflexivity. Qed.
  Example waiting : rd_threads (d_reader f3) !! 1 = Some (CCollect Flush Locking) /\ option_map fst (d_busy f3) = Some 0. Proof. vm_compute. done. Qed.
End Ex67.

Print Assumptions C67_single.
Print Assumptions C67_delivered.
Print Assumptions C67_told.
Print Assumptions C67_fresh.
Print Assumptions C67_delta.
Print Assumptions C67_once.
Print Assumptions C67_complete.
Print Assumptions C67_progress.
