(** C63: observations of any number of goroutines, in collections of any number of readers, at the same time. *)
From Coq Require Import ZArith Bool String Lia.
From stdpp Require Import base list option strings.
From Verif Require Import Num Agg AggSpec AggProofs Attr Async AsyncSpec AsyncProofs AsyncRun AsyncHist Conc ConcSpec ConcProofs ConcStep ConcInv ConcLoc ConcHist ConcMore.
Local Open Scope Z_scope.

(** ** A collection of a cumulative view or a gauge reports, once, what the view was told in it: every observation answered "recorded" by
    callbacks of this collection, as if made one after the other in some order that agrees with the order of calls that did not overlap. *)
Theorem C63_cumulative : forall (N : arith) (c : acfg) (vr : nat -> nat) decl tr (s : cst N) q k v w,
  sound c -> reached c vr decl tr s -> orderly c vr decl (vr v) tr ->
  a_views c !! v = Some w -> stateful w = false -> (1 <= av_limit w)%nat ->
  s_colls s !! q = Some k -> k_reader k = vr v -> k_phase k = KDone ->
  exists l pts, told c vr decl tr s q v l /\ reports k v = [pts] /\
    let ins := inputs c v w l in
    ((distinct ins < av_limit w)%nat ->
       NoDup (map fst pts) /\ (forall key, key ∈ map fst pts <-> key ∈ map fst ins) /\
       (forall key x, (key, x) ∈ pts -> if av_gauge w then x ∈ at_key key ins else adds (at_key key ins) x)) /\
    (exists place : list kv -> list kv, (forall key, place key = key \/ place key = overflow_set) /\
       (length pts <= av_limit w)%nat /\ NoDup (map fst pts) /\
       (forall key, key ∈ map fst pts <-> key ∈ map place (map fst ins)) /\
       (forall key x, (key, x) ∈ pts -> let vals := at_key key (map (fun p => (place p.1, p.2)) ins) in if av_gauge w then x ∈ vals else adds vals x)).
Proof.
  intros N c vr decl tr s q k v w sd Hs Ho Hw Hst Hlim Hk Hr Hd.
  destruct (history c vr decl v w sd Hw Hlim tr s Hs Ho) as (fl & fd & H). destruct (H q k Hk Hr Hd) as (Ht & Hrep & _).
  destruct Hrep as [Hrep T]. { intros E. congruence. }
  exists (fl q), (fd q). split; [done|]. split. { rewrite Hrep. unfold collect_view. by rewrite Hst. }
  split; [intros Hdist; exact (totals_fit w _ _ T Hdist)|]. destruct T as (T1 & T2 & T3 & T4 & _). exists (route (fd q)). split_and!; auto.
  intros key. unfold route. case_bool_decide; auto.
Qed.

(** With 64-bit integers: the sum modulo 2^64 of the last value told for each series. *)
Theorem C63_int : forall (c : acfg) (vr : nat -> nat) decl tr (s : cst Int64) q k v w,
  sound c -> reached c vr decl tr s -> orderly c vr decl (vr v) tr ->
  a_views c !! v = Some w -> stateful w = false -> av_gauge w = false -> (1 <= av_limit w)%nat ->
  s_colls s !! q = Some k -> k_reader k = vr v -> k_phase k = KDone ->
  exists l pts, told c vr decl tr s q v l /\ reports k v = [pts] /\
    let ins := inputs c v w l in
    ((distinct ins < av_limit w)%nat -> Forall int64 (map snd ins : list Z) ->
       forall key x, (key, x) ∈ pts -> (x : Z) = wrap (zsum (at_key key ins))).
Proof.
  intros c vr decl tr s q k v w sd Hs Ho Hw Hst Hg Hlim Hk Hr Hd.
  destruct (C63_cumulative Int64 c vr decl tr s q k v w sd Hs Ho Hw Hst Hlim Hk Hr Hd) as (l & pts & Ht & Hp & Hfit & _).
  exists l, pts. split; [done|]. split; [done|]. intros ins Hdist Hi key x Hin. destruct (Hfit Hdist) as (_ & _ & H).
  specialize (H key x Hin). rewrite Hg in H. apply (adds_int64 _ _ H).
  rewrite list.Forall_forall in Hi |- *. intros z Hz. apply Hi. unfold at_key in Hz.
  apply elem_of_list_fmap in Hz as (p & -> & Hp'). apply elem_of_list_fmap. exists p. split; [done|].
  apply elem_of_list_In. apply elem_of_list_In in Hp'. by apply filter_In in Hp' as [? _].
Qed.

(** ** A collection of a delta view reports the changes of these totals since the collection before of the same reader.  One order for each
    collection explains all reports. *)
Theorem C63_delta : forall (N : arith) (c : acfg) (vr : nat -> nat) decl tr (s : cst N) v w,
  sound c -> reached c vr decl tr s -> orderly c vr decl (vr v) tr ->
  a_views c !! v = Some w -> stateful w = true -> (1 <= av_limit w)%nat ->
  (forall q k l, s_colls s !! q = Some k -> k_reader k = vr v -> k_phase k = KDone -> told c vr decl tr s q v l -> roomy w (inputs c v w l)) ->
  exists fl : nat -> list (obs (N:=N)),
  forall q k, s_colls s !! q = Some k -> k_reader k = vr v -> k_phase k = KDone ->
    told c vr decl tr s q v (fl q) /\
    exists pts, reports k v = [pts] /\
    forall prev, first s q /\ prev = [] \/ (exists q0, previous s q0 q /\ prev = inputs c v w (fl q0)) ->
    let ins := inputs c v w (fl q) in
    forall key,
      (key ∉ map fst ins -> at_key key pts = []) /\
      (key ∈ map fst ins -> key ∉ map fst prev -> exists x, adds (at_key key ins) x /\ at_key key pts = [x]) /\
      (key ∈ map fst ins -> key ∈ map fst prev -> exists x y, adds (at_key key ins) x /\ adds (at_key key prev) y /\
         at_key key pts = if eqb (sub x y) zero then [] else [sub x y]).
Proof.
  intros N c vr decl tr s v w sd Hs Ho Hw Hst Hlim Hroom.
  destruct (history c vr decl v w sd Hw Hlim tr s Hs Ho) as (fl & fd & H).
  assert (Hg : av_gauge w = false). { unfold stateful in Hst. destruct (av_gauge w), (av_delta w); done. }
  assert (All : forall n q k, (q < n)%nat -> s_colls s !! q = Some k -> k_reader k = vr v -> k_phase k = KDone ->
    clean vr v w fd (rd s) q /\ totals_of w (fd q) (inputs c v w (fl q)) /\ overflow_set ∉ map fst (fd q)).
  { induction n as [|n IH]; intros q k Hq Hk Hr Hd; [lia|]. destruct (H q k Hk Hr Hd) as (Ht & Hrep & Hbef).
    assert (Hc : clean vr v w fd (rd s) q).
    { intros _ q0 Hq0 (k0 & Hk0 & Hr0)%rd_lookup. apply (IH q0 k0); [lia|done|done|]. by apply (Hbef q0 k0). }
    destruct (Hrep Hc) as [_ T]. split; [done|]. split; [done|]. apply get_None. apply (totals_roomy w _ _ T). by eapply Hroom. }
  exists fl. intros q k Hk Hr Hd. destruct (H q k Hk Hr Hd) as (Ht & Hrep & Hbef). split; [done|].
  destruct (All (S q) q k ltac:(lia) Hk Hr Hd) as (Hc & T & _). destruct (Hrep Hc) as [Hpts _].
  eexists. split; [exact Hpts|]. intros prev Hprev ins key.
  pose proof (Hroom q k (fl q) Hk Hr Hd Ht) as [_ Hdist]. destruct (totals_fit _ _ _ T Hdist) as (Hnd & Hkeys & Hval). fold ins in Hkeys, Hval.
  set (d := prior_of vr v fd (rd s) q).
  assert (Hpr : (forall p, p ∈ map fst d <-> p ∈ map fst prev) /\ forall p y, (p, y) ∈ d -> adds (at_key p prev) y).
  { destruct Hprev as [[(k1 & Hk1 & Hf) ->]|(q0 & (k0 & k1 & Hk0 & Hk1 & E & Hlt & Hno) & ->)]; assert (k1 = k) as -> by congruence.
    - unfold d, prior_of. rewrite prevq_None; [split; [done|by intros p y ?%elem_of_nil]|]. intros q1 (k1 & Hk1' & Hr1)%rd_lookup Hq1. apply (Hf q1 k1); [done|congruence|done].
    - assert (Hr0 : k_reader k0 = vr v) by congruence. assert (Hd0 : k_phase k0 = KDone) by (by apply (Hbef q0 k0)).
      unfold d, prior_of. rewrite (prevq_Some vr v (rd s) q0).
      + destruct (All (S q0) q0 k0 ltac:(lia) Hk0 Hr0 Hd0) as (_ & T0 & _). pose proof (Hroom q0 k0 (fl q0) Hk0 Hr0 Hd0 (proj1 (H q0 k0 Hk0 Hr0 Hd0))) as [_ Hd1].
        destruct (totals_fit _ _ _ T0 Hd1) as (_ & K1 & K2). split; [done|]. intros p y Hp. specialize (K2 p y Hp). unfold agg in K2. by rewrite Hg in K2.
      + apply rd_lookup. by exists k0.
      + done.
      + intros q1 (k2 & Hk2 & Hr2)%rd_lookup Ha Hb. apply (Hno q1 k2); [done|congruence|done|done]. }
  destruct Hpr as [Hpk Hpv]. rewrite (collect_stateful w (fd q) d key Hst Hnd). unfold agg in Hval. rewrite Hg in Hval.
  rewrite <- Hkeys, <- Hpk. split_and!.
  - intros Hn. apply get_None in Hn. by rewrite Hn.
  - intros Hin Hn. apply get_is_Some in Hin as [x Hx]. apply get_None in Hn. rewrite Hx, Hn. exists x. split; [|done]. apply Hval. by apply get_elem.
  - intros Hin Hin2. apply get_is_Some in Hin as [x Hx]. apply get_is_Some in Hin2 as [y Hy]. rewrite Hx, Hy. exists x, y.
    split_and!; [apply Hval; by apply get_elem|apply Hpv; by apply get_elem|done].
Qed.

(** ** A call made after its callback returned is never recorded, whatever runs at the same time. *)
Theorem C63_late : forall (N : arith) (c : acfg) (vr : nat -> nat) decl tr1 tr2 (s1 s2 : cst N) j r t x,
  reached c vr decl tr1 s1 -> s_runs s1 !! j = Some r -> r_live r = false -> execs c vr decl s1 tr2 = Some s2 ->
  s_thr s2 !! t = Some x -> (length (s_thr s1) <= t)%nat -> t_run x = j -> t_pc x = TCheck \/ t_pc x = TEnd AfterReturn.
Proof.
  intros N c vr decl tr1 tr2 s1 s2 j r t x _ Hr Hl E Hx Ht Hj. eapply (late_run c vr decl tr2 s1 s2 j); eauto. by exists r.
Qed.

(** ** No deadlock: whatever happened before, a collection that is not over can go on, or a call on one of its observers can; a call that did not return
    can go on, or another call on an observer of the same collection can, or that collection can. *)
Definition of_collection {N : arith} (s : cst N) (q t : nat) : Prop := exists x r, s_thr s !! t = Some x /\ s_runs s !! t_run x = Some r /\ r_coll r = q.
Theorem C63_collection_goes_on : forall (N : arith) (c : acfg) (vr : nat -> nat) decl tr (s : cst N) q k,
  sound c -> a_views c <> [] -> reached c vr decl tr s -> s_colls s !! q = Some k -> k_phase k <> KDone ->
  exists a, is_Some (exec c vr decl s a) /\ (a = LGo q 0 \/ exists t, a = LStep t /\ of_collection s q t).
Proof.
  intros N c vr decl tr s q k sd Hne Hs Hk Hd. destruct (a_views c) as [|w ws] eqn:Ew; [done|]. assert (Hw : a_views c !! 0%nat = Some w) by (by rewrite Ew).
  destruct (ginv_run c vr decl 0 w tr s Hw Hs) as [G CO]. destruct (pends_run c vr decl 0 w tr s Hw Hs) as [P IR].
  assert (Go : (forall i todo, k_phase k = KSnap (i :: todo) None -> k_lock k = Free) -> exists a, is_Some (exec c vr decl s a) /\ (a = LGo q 0 \/ exists t, a = LStep t /\ of_collection s q t)).
  { intros Hf. exists (LGo q 0). split; [by eapply (go_some c vr s q k)|by left]. }
  destruct (k_lock k) as [|t|] eqn:El.
  - by apply Go.
  - destruct (lock_owner c vr s q k t G Hk El) as (x & td & accs & Hx & Hq & Hpc). exists (LStep t). split.
    + apply (step_some c vr decl s t x G sd Hx); by rewrite Hpc.
    + right. exists t. split; [done|]. apply thr_of_Some in Hq as (_ & r & Hr & Hq). by exists x, r.
  - apply Go. intros i todo Hph. apply (i_snap _ _ _ _ _ (g_coll _ _ _ G _ _ Hk)) in El as (td & pend & E). congruence.
Qed.
Theorem C63_call_goes_on : forall (N : arith) (c : acfg) (vr : nat -> nat) decl tr (s : cst N) t x,
  sound c -> a_views c <> [] -> reached c vr decl tr s -> s_thr s !! t = Some x -> (forall a, t_pc x <> TEnd a) ->
  exists q a, of_collection s q t /\ is_Some (exec c vr decl s a) /\ (a = LGo q 0 \/ exists t', a = LStep t' /\ of_collection s q t').
Proof.
  intros N c vr decl tr s t x sd Hne Hs Hx Hpc. destruct (a_views c) as [|w ws] eqn:Ew; [done|]. assert (Hw : a_views c !! 0%nat = Some w) by (by rewrite Ew).
  destruct (ginv_run c vr decl 0 w tr s Hw Hs) as [G CO]. destruct (g_thr _ _ _ G _ _ Hx) as [r Hr]. destruct (g_run _ _ _ G _ _ Hr) as [k Hk].
  assert (Hoc : of_collection s (r_coll r) t) by (by exists x, r). exists (r_coll r).
  destruct (k_lock k) as [|t'|] eqn:El.
  - exists (LStep t). split; [done|]. split; [|right; by exists t]. apply (step_some c vr decl s t x G sd Hx Hpc). intros _ r' k' Hr' Hk'. congruence.
  - destruct (lock_owner c vr s (r_coll r) k t' G Hk El) as (x' & td & accs & Hx' & Hq & Hpc'). exists (LStep t'). split; [done|]. split.
    + apply (step_some c vr decl s t' x' G sd Hx'); by rewrite Hpc'.
    + right. exists t'. split; [done|]. apply thr_of_Some in Hq as (_ & r' & Hr' & Hq'). by exists x', r'.
  - assert (Hd : k_phase k <> KDone). { apply (i_snap _ _ _ _ _ (g_coll _ _ _ G _ _ Hk)) in El as (td & pend & E). congruence. }
    destruct (C63_collection_goes_on N c vr decl tr s (r_coll r) k sd ltac:(by rewrite Ew) Hs Hk Hd) as (a & Ha & H). by exists a.
Qed.

(** ** Concrete runs *)
Module Ex63.
Definition oneb {N} (p : nat) (s : cst N) : bool :=
  let ks := seq 0 (length (s_colls s)) in
  let on q := match s_colls s !! q with Some k => Nat.eqb (k_reader k) p && match k_phase k with KDone => false | _ => true end | None => false end in
  forallb (fun q => forallb (fun q' => negb (on q && on q') || Nat.eqb q q') ks) ks.
Definition waitedb {N} (p : nat) (s : cst N) : bool :=
  forallb (fun x => match s_runs s !! t_run x with
    | Some r => match s_colls s !! r_coll r with
        | Some k => negb (Nat.eqb (k_reader k) p) || r_live r || match t_pc x with TCheck | TEnd _ => true | _ => false end
        | None => true end
    | None => true end) (s_thr s).
Lemma oneb_ok {N} p (s : cst N) : oneb p s = true -> one_at_a_time p s.
Proof.
  unfold oneb. intros H q q' k k' Hk Hk' Hr Hr' Hn Hn'. rewrite forallb_forall in H.
  assert (Hq : List.In q (seq 0 (length (s_colls s)))). { apply in_seq. apply lookup_lt_Some in Hk. lia. }
  assert (Hq' : List.In q' (seq 0 (length (s_colls s)))). { apply in_seq. apply lookup_lt_Some in Hk'. lia. }
  specialize (H q Hq). rewrite forallb_forall in H. specialize (H q' Hq'). rewrite Hk, Hk', Hr, Hr', Nat.eqb_refl in H. cbn in H.
  destruct (k_phase k), (k_phase k'); cbn in H; try done; by apply Nat.eqb_eq.
Qed.
Lemma waitedb_ok {N} p (s : cst N) : waitedb p s = true -> waited p s.
Proof.
  unfold waitedb. intros H t x r k Hx Hr Hk Hp Hl. rewrite forallb_forall in H. specialize (H x). rewrite Hr, Hk, Hp, Hl, Nat.eqb_refl in H. cbn in H.
  destruct (t_pc x); eauto; discriminate H; apply elem_of_list_In; by eapply elem_of_list_lookup_2.
Qed.
Definition each {N : arith} (f : cst N -> bool) c vr decl (tr : list (label (N:=N))) : bool :=
  forallb (fun n => match execs c vr decl (c_init c) (take n tr) with Some s => f s | None => true end) (seq 0 (S (length tr))).
Lemma each_ok {N : arith} (f : cst N -> bool) c vr decl tr : each f c vr decl tr = true -> forall tr1 tr2 s, tr = tr1 ++ tr2 -> reached c vr decl tr1 s -> f s = true.
Proof.
  unfold each. intros H tr1 tr2 s -> Hs. rewrite forallb_forall in H. specialize (H (length tr1)). rewrite take_app in H. unfold reached in Hs. rewrite Hs in H.
  apply H. apply in_seq. rewrite app_length. lia.
Qed.
Lemma orderly_ok {N : arith} c vr decl p (tr : list (label (N:=N))) : each (fun s => oneb p s && waitedb p s) c vr decl tr = true -> orderly c vr decl p tr.
Proof.
  intros H tr1 tr2 s E Hs. apply (each_ok _ _ _ _ _ H tr1 tr2 s E) in Hs. apply andb_true_iff in Hs as [H1 H2]. split; [by apply oneb_ok|by apply waitedb_ok].
Qed.
Definition soundb (c : acfg) : bool := forallb (fun i => bool_decide (NoDup (ai_views i)) && forallb (fun v => Nat.ltb v (length (a_views c))) (ai_views i)) (a_insts c).
Lemma soundb_ok c : soundb c = true -> sound c.
Proof.
  unfold soundb. intros H i inst Hi. rewrite forallb_forall in H. specialize (H inst). apply andb_true_iff in H as [H1 H2]; [|apply elem_of_list_In; by eapply elem_of_list_lookup_2].
  split; [by apply bool_decide_eq_true in H1|]. apply list.Forall_forall. intros v Hv. rewrite forallb_forall in H2. apply Nat.ltb_lt. apply H2. by apply elem_of_list_In.
Qed.
(** What is left of a state when all is said: for each collection its reader, whether it is over and what it reports for each view; the answers of calls;
    the attributes and numbers they were made with. *)
Definition report (vs : list nat) (k : coll Int64) : nat * bool * list (list (list (list kv * Z))) :=
  (k_reader k, match k_phase k with KDone => true | _ => false end, map (reports k) vs).
Definition outs (vs : list nat) (s : cst Int64) := map (report vs) (s_colls s).
Definition answers (s : cst Int64) : list (option result) := map (fun x => match t_pc x with TEnd r => Some r | _ => None end) (s_thr s).
Definition numbers (s : cst Int64) : list (list kv * Z) := map (fun x => (t_set x, t_val x)) (s_thr s).
Lemma done_of k b : match k_phase (N:=Int64) k with KDone => true | _ => false end = b -> b = true -> k_phase k = KDone.
Proof. intros <-. by destruct (k_phase k). Qed.

Lemma from_seen {N : arith} {B} (f : cst N -> B) c vr decl tr b : option_map f (execs c vr decl (c_init c) tr) = Some b -> exists s, reached c vr decl tr s /\ f s = b.
Proof. unfold reached. destruct (execs c vr decl (c_init c) tr) as [s|]; cbn; [|done]. intros [= <-]. by exists s. Qed.

Open Scope string_scope.
(** Views 0 and 1: cumulative sums; 2: delta sum; 3: cumulative sum of another reader.  One counter that feeds all. *)
Definition c : acfg := ACfg 0 [AView false false None 3; AView false false None 3; AView true false None 3; AView false false None 3] [AInst 0 AsyncCounter [0; 1; 2; 3]%nat] 100.
Definition vr (v : nat) : nat := if Nat.eqb v 3 then 1%nat else 0%nat.
Definition decl : list (list nat) := [[0%nat]].
Definition A : list kv := [("a", VInt 1)].
Definition B : list kv := [("b", VInt 2)].
Definition obs1 (j : nat) (n : Z) (l : list kv) : label (N:=Int64) := LObserve (N:=Int64) j (Inst 0) n l.
Definition steps (t n : nat) : list (label (N:=Int64)) := replicate n (LStep t).
Definition gos (q n : nat) : list (label (N:=Int64)) := replicate n (LGo q 0).
(** Two goroutines observe 5 and 7 for A at the same time; one more observes 2 for B.  Calls 0 and 1 update view 0 in one order, view 1 in the other. *)
Definition race : list (label (N:=Int64)) :=
  [LBegin 0 [0%nat]; LGo 0 0; obs1 0 5 A; obs1 0 7 A] ++ [LStep 0; LStep 1; LStep 0; LStep 0; LStep 0; LStep 0; LStep 0; LStep 1] ++
  [LStep 1; LStep 0; LStep 0; LStep 1; LStep 0; LStep 1; LStep 0; LStep 1] ++ [obs1 0 2 B] ++ steps 2 10.
(** The callback returns; the collection of reader 0 ends. *)
Definition rest0 : list (label (N:=Int64)) := gos 0 2 ++ gos 0 8 ++ gos 0 1 ++ gos 0 4.
(** A collection of reader 1 starts meanwhile; then a second one of reader 0, in which A is 9 and B is 2 again. *)
Definition second : list (label (N:=Int64)) :=
  [LBegin 0 [0%nat]; LGo 2 0; obs1 2 9 A] ++ steps 4 10 ++ [obs1 2 2 B] ++ steps 5 10 ++ gos 2 2 ++ gos 2 8 ++ gos 2 5.
Definition other : list (label (N:=Int64)) := [LBegin 1 [0%nat]; LGo 1 0; obs1 1 4 A; LStep 3; LStep 3; LStep 3].
Definition whole : list (label (N:=Int64)) := race ++ other ++ rest0 ++ second ++ [obs1 0 1 A; LStep 6].
Definition summary (s : cst Int64) := (outs [0; 1; 2]%nat s, answers s, numbers s).
Definition expected : list (nat * bool * list (list (list (list kv * Z)))) * list (option result) * list (list kv * Z) :=
  ([(0%nat, true, [[[(A, 5); (B, 2)]]; [[(A, 7); (B, 2)]]; [[(A, 7); (B, 2)]]]);
    (1%nat, false, [[]; []; []]);
    (0%nat, true, [[[(A, 9); (B, 2)]]; [[(A, 9); (B, 2)]]; [[(A, 2)]]])],
   [Some Recorded; Some Recorded; Some Recorded; None; Some Recorded; Some Recorded; Some AfterReturn],
   [(A, 5); (A, 7); (B, 2); (A, 4); (A, 9); (B, 2); (A, 1)]).
Example final_seen : option_map summary (execs c vr decl (c_init c) whole) = Some expected.
Proof. vm_compute. reflexivity. Qed.
Example c_sound : sound c.
Proof. apply soundb_ok. vm_compute. reflexivity. Qed.
Example whole_orderly : orderly c vr decl 0 whole.
Proof. apply orderly_ok. vm_compute. reflexivity. Qed.
Lemma whole_reached : exists s, reached c vr decl whole s /\ summary s = expected.
Proof. exact (from_seen summary c vr decl whole expected final_seen). Qed.
(** The attributes of what was told are those of calls. *)
Lemma told_keys {N : arith} (c0 : acfg) vr0 decl0 tr (s : cst N) q v w l key : told c0 vr0 decl0 tr s q v l -> key ∈ map fst (inputs c0 v w l) ->
  exists x, x ∈ s_thr s /\ key = view_key w (t_set x).
Proof.
  intros (ts & _ & _ & _ & ->) (p & -> & Hp)%elem_of_list_fmap. unfold inputs in Hp. apply elem_of_list_bind in Hp as (nm & Hp & Hnm).
  unfold names in Hnm. rewrite elem_of_remove_dups in Hnm. apply elem_of_list_fmap in Hnm as (o & -> & Ho). apply elem_of_list_omap in Ho as (t & Ht & Ho).
  destruct (s_thr s !! t) as [x|] eqn:Hx; [|done]. injection Ho as <-. exists x. split; [by eapply elem_of_list_lookup_2|].
  cbn in Hp. destruct (last_seen _ _); [|by apply elem_of_nil in Hp]. apply elem_of_replicate in Hp as [-> _]. done.
Qed.
Lemma few tr s w q v l : (forall z, z ∈ map fst (numbers s) -> view_key w z ∈ [A; B]) -> av_limit w = 3%nat ->
  told c vr decl tr s q v l -> roomy w (inputs c v w l).
Proof.
  intros Hnum Hlim Ht.
  assert (Hk : forall key, key ∈ map fst (inputs c v w l) -> key ∈ [A; B]).
  { intros key Hin. destruct (told_keys _ _ _ _ _ _ _ w _ _ Ht Hin) as (x & Hx & ->). apply Hnum.
    unfold numbers. rewrite map_map. apply elem_of_list_fmap. exists x. split; [reflexivity|exact Hx]. }
  split.
  - intros Hin. apply Hk in Hin. revert Hin. apply (bool_decide_unpack _). vm_compute. exact I.
  - unfold distinct. rewrite Hlim. enough (length (remove_dups (map fst (inputs c v w l))) <= length [A; B])%nat by (cbn in *; lia).
    apply submseteq_length. apply NoDup_submseteq; [apply NoDup_remove_dups|]. intros key. rewrite elem_of_remove_dups. apply Hk.
Qed.
Lemma of_report vs k p b l : report vs k = (p, b, l) -> k_reader k = p /\ (b = true -> k_phase k = KDone) /\ map (reports k) vs = l.
Proof. unfold report. intros [= H1 H2 H3]. split; [done|]. split; [by apply done_of|done]. Qed.
Lemma outs_at vs s o q p b l : outs vs s = o -> o !! q = Some (p, b, l) -> exists k, s_colls s !! q = Some k /\ k_reader k = p /\ (b = true -> k_phase k = KDone) /\ map (reports k) vs = l.
Proof.
  unfold outs. intros <-. change (map ?f ?l) with (fmap (M:=list) f l). rewrite list_lookup_fmap. destruct (s_colls s !! q) as [k|]; [|done].
  intros H. apply (inj Some) in H. exists k. split; [done|]. by apply of_report.
Qed.
Lemma readers_of vs s o : outs vs s = o -> map k_reader (s_colls s) = map (fun x => x.1.1) o.
Proof. intros <-. unfold outs. by rewrite map_map. Qed.
Lemma previous_ok (s : cst Int64) R q0 q : map k_reader (s_colls s) = R -> R !! q0 = R !! q -> is_Some (R !! q) -> (q0 < q)%nat ->
  forallb (fun q1 => negb (bool_decide (R !! q1 = R !! q))) (seq (S q0) (q - S q0)) = true -> previous s q0 q.
Proof.
  intros <-. change (map ?f ?l) with (fmap (M:=list) f l). rewrite !list_lookup_fmap. intros E [p Hp] Hlt H. rewrite forallb_forall in H.
  destruct (s_colls s !! q) as [k|] eqn:Hk; [|done]. destruct (s_colls s !! q0) as [k0|] eqn:Hk0; [|done]. exists k0, k. injection E as E.
  split; [done|]. split; [done|]. split; [done|]. split; [done|]. intros q1 k1 Hk1 Hr Ha Hb. specialize (H q1). rewrite list_lookup_fmap, Hk1 in H. cbn in H. rewrite Hr, bool_decide_eq_true_2 in H by done.
  discriminate H. apply in_seq. lia.
Qed.

(** All hypotheses of the theorems hold in this run, and the conclusions are about two goroutines that observe the same attributes at the same time, two
    collections of one reader, one of another reader in between, a call on an observer of a callback that returned. *)
Example ex_cumulative : exists s k, sound c /\ reached c vr decl whole s /\ orderly c vr decl (vr 0) whole /\ s_colls s !! 0%nat = Some k /\ k_reader k = vr 0 /\
  k_phase k = KDone /\ reports k 0 = [[(A, 5); (B, 2)] : list (list kv * Z)].
Proof.
  destruct whole_reached as (s & Hs & E). apply (f_equal (fun p => p.1.1)) in E.
  destruct (outs_at _ _ _ 0%nat _ _ _ E eq_refl) as (k & Hk & Hr & Hd & Hl). apply (f_equal (hd [])) in Hl. cbn [map hd] in Hl.
  exists s, k. split; [exact c_sound|]. split; [exact Hs|]. split; [exact whole_orderly|]. split; [exact Hk|]. split; [exact Hr|]. split; [exact (Hd eq_refl)|exact Hl].
Qed.
Example ex_delta : exists s k, sound c /\ reached c vr decl whole s /\ orderly c vr decl (vr 2) whole /\
  (forall q k0 l, s_colls s !! q = Some k0 -> k_reader k0 = vr 2 -> k_phase k0 = KDone -> told c vr decl whole s q 2 l -> roomy (AView true false None 3) (inputs c 2 (AView true false None 3) l)) /\
  s_colls s !! 2%nat = Some k /\ k_reader k = vr 2 /\ k_phase k = KDone /\ previous s 0 2 /\ reports k 2 = [[(A, 2)] : list (list kv * Z)].
Proof.
  destruct whole_reached as (s & Hs & E). pose proof (f_equal snd E) as En. apply (f_equal (fun p => p.1.1)) in E.
  destruct (outs_at _ _ _ 2%nat _ _ _ E eq_refl) as (k & Hk & Hr & Hd & Hl). apply (f_equal (fun l => nth 2 l [])) in Hl. cbn [map nth] in Hl.
  exists s, k. split; [exact c_sound|]. split; [exact Hs|]. split; [exact whole_orderly|]. split.
  { intros q k0 l _ _ _ Ht. apply (few whole s _ q 2 l); [|reflexivity|exact Ht]. intros z Hz. cbn [summary snd] in En. rewrite En in Hz.
    revert z Hz. apply list.Forall_forall. apply (bool_decide_unpack _). vm_compute. exact I. }
  split; [exact Hk|]. split; [exact Hr|]. split; [exact (Hd eq_refl)|]. split; [|exact Hl].
  apply (previous_ok s _ 0 2 (readers_of _ _ _ E)); [reflexivity|by eexists|lia|reflexivity].
Qed.
Definition pre : list (label (N:=Int64)) := race ++ other ++ rest0 ++ second.
Lemma app_split {N : arith} c0 vr0 decl0 (a b : list (label (N:=N))) s : reached c0 vr0 decl0 (a ++ b) s -> exists s1, reached c0 vr0 decl0 a s1 /\ execs c0 vr0 decl0 s1 b = Some s.
Proof. unfold reached. rewrite execs_app. destruct (execs _ _ _ _ a) as [s1|]; [|done]. intros H. by exists s1. Qed.
Lemma whole_pre : whole = (pre ++ [obs1 0 1 A; LStep 6])%list.
Proof. unfold whole, pre. by rewrite <- !app_assoc. Qed.
Lemma dead_run (s : cst Int64) l n : (map (fun r => r_live r) (s_runs s), length (s_thr s)) = (false :: l, n) -> exists r, s_runs s !! 0%nat = Some r /\ r_live r = false /\ length (s_thr s) = n.
Proof. destruct (s_runs s) as [|r rs]; intros [= H1 H2 H3]. by exists r. Qed.
Lemma det {N : arith} c0 vr0 decl0 tr (s s' : cst N) : reached c0 vr0 decl0 tr s -> reached c0 vr0 decl0 tr s' -> s = s'.
Proof. unfold reached. congruence. Qed.
Example ex_late : exists s1 s2 r x, reached c vr decl pre s1 /\ s_runs s1 !! 0%nat = Some r /\ r_live r = false /\ execs c vr decl s1 [obs1 0 1 A; LStep 6] = Some s2 /\
  s_thr s2 !! 6%nat = Some x /\ (length (s_thr s1) <= 6)%nat /\ t_pc x = TEnd AfterReturn.
Proof.
  destruct whole_reached as (s & Hs & E). apply (f_equal (fun p => p.1.2)) in E. cbn [summary fst snd] in E. rewrite whole_pre in Hs. apply app_split in Hs as (s1 & Hs1 & Hs).
  destruct (from_seen (fun s : cst Int64 => (map (fun r => r_live r) (s_runs s), length (s_thr s))) c vr decl pre ([false; true; false], 6%nat)) as (s1' & Hs1' & E1); [vm_compute; reflexivity|].
  rewrite <- (det _ _ _ _ _ _ Hs1 Hs1') in E1. apply dead_run in E1 as (r & Hr & Hl & Hlen).
  apply (f_equal (fun l => l !! 6%nat)) in E. unfold answers in E. change (map ?f ?l) with (fmap (M:=list) f l) in E. rewrite list_lookup_fmap in E.
  destruct (s_thr s !! 6%nat) as [x|] eqn:Hx; [|discriminate E]. cbn in E. exists s1, s, r, x. rewrite Hlen. split; [exact Hs1|]. split; [exact Hr|]. split; [exact Hl|]. split; [exact Hs|].
  split; [exact Hx|]. split; [apply le_n|]. destruct (t_pc x); try discriminate E. f_equal. by injection E.
Qed.
(** In the middle of [race] the first call is between two views and the second waits for it. *)
Example ex_goes_on : exists s k x, sound c /\ a_views c <> [] /\ reached c vr decl (take 9 race) s /\ s_colls s !! 0%nat = Some k /\ k_phase k <> KDone /\
  s_thr s !! 1%nat = Some x /\ (forall a, t_pc x <> TEnd a).
Proof.
  destruct (from_seen (fun s : cst Int64 => (map (fun k => match k_phase k with KDone => true | _ => false end) (s_colls s), map (fun x => match t_pc x with TEnd _ => true | _ => false end) (s_thr s)))
    c vr decl (take 9 race) ([false], [false; false])) as (s & Hs & E); [vm_compute; reflexivity|].
  destruct (s_colls s) as [|k ks] eqn:Ek; [discriminate E|]. destruct (s_thr s) as [|x0 [|x xs]] eqn:Ex; [discriminate E..|].
  exists s, k, x. split; [exact c_sound|]. split; [discriminate|]. split; [exact Hs|]. rewrite Ek, Ex. split; [reflexivity|]. cbn [map] in E.
  split. { intros Hp. rewrite Hp in E. discriminate E. } split; [reflexivity|]. intros a Ha. rewrite Ha in E. discriminate E.
Qed.
End Ex63.
(** ** Two views of one reader that are configured alike and fed by the same instrument can differ: of two numbers observed at the same time,
    each keeps one, not the same. *)
Theorem C63_views_refuted : exists (c : acfg) (vr : nat -> nat) decl tr (s : cst Int64) q k v1 v2 w,
  sound c /\ reached c vr decl tr s /\ orderly c vr decl (vr v1) tr /\ a_views c !! v1 = Some w /\ a_views c !! v2 = Some w /\ vr v1 = vr v2 /\
  (forall i, feeds c v1 i = feeds c v2 i) /\ s_colls s !! q = Some k /\ k_reader k = vr v1 /\ k_phase k = KDone /\
  reports k v1 = [[(Ex63.A, 5); (Ex63.B, 2)] : list (list kv * Z)] /\ reports k v2 = [[(Ex63.A, 7); (Ex63.B, 2)] : list (list kv * Z)].
Proof.
  destruct Ex63.whole_reached as (s & Hs & E). apply (f_equal (fun p => p.1.1)) in E.
  destruct (Ex63.outs_at _ _ _ 0%nat _ _ _ E eq_refl) as (k & Hk & Hr & Hd & Hl).
  pose proof (f_equal (hd []) Hl) as Hl0. apply (f_equal (fun l => nth 1 l [])) in Hl. cbn [map hd nth] in Hl, Hl0.
  exists Ex63.c, Ex63.vr, Ex63.decl, Ex63.whole, s, 0%nat, k, 0%nat, 1%nat, (AView false false None 3).
  split; [exact Ex63.c_sound|]. split; [exact Hs|]. split; [exact Ex63.whole_orderly|]. split; [reflexivity|]. split; [reflexivity|]. split; [reflexivity|].
  split. { intros [|i]; reflexivity. }
  split; [exact Hk|]. split; [exact Hr|]. split; [exact (Hd eq_refl)|]. split; [exact Hl0|exact Hl].
Qed.

(** ** Two collections of one reader at the same time: "Produce may be called concurrently" (M/reader.go:57).  Each runs the callback, which observes 7.
    One reports 14 for a cumulative sum, the other reports no point. *)
Module Ex63b.
Definition c : acfg := ACfg 0 [AView false false None 3] [AInst 0 AsyncCounter [0%nat]] 100.
Definition vr (v : nat) : nat := 0%nat.
Definition decl : list (list nat) := [[0%nat]].
Definition tr : list (label (N:=Int64)) :=
  [LBegin 0 [0%nat]; LBegin 0 [0%nat]; LGo 0 0; LGo 1 0; Ex63.obs1 0 7 Ex63.A; Ex63.obs1 1 7 Ex63.A] ++ Ex63.steps 0 6 ++ Ex63.steps 1 6 ++
  Ex63.gos 0 6 ++ Ex63.gos 1 6 ++ Ex63.gos 0 2 ++ Ex63.gos 1 2.
(** A callback that starts a goroutine and does not wait for it: its observation of 7 is answered "recorded", a 0 is reported. *)
Definition straggler : list (label (N:=Int64)) :=
  [LBegin 0 [0%nat]; LGo 0 0; Ex63.obs1 0 7 Ex63.A] ++ Ex63.steps 0 4 ++ Ex63.gos 0 8 ++ Ex63.steps 0 2.
Definition summary (s : cst Int64) := (Ex63.outs [0%nat] s, Ex63.answers s, Ex63.numbers s).
Lemma sound_c : sound c.
Proof. apply Ex63.soundb_ok. vm_compute. reflexivity. Qed.
Lemma tr_reached : exists s, reached c vr decl tr s /\ summary s = ([(0%nat, true, [[[(Ex63.A, 14)]]]); (0%nat, true, [[[]]])], [Some Recorded; Some Recorded], [(Ex63.A, 7); (Ex63.A, 7)]).
Proof. apply Ex63.from_seen. vm_compute. reflexivity. Qed.
Lemma straggler_reached : exists s, reached c vr decl straggler s /\ summary s = ([(0%nat, true, [[[(Ex63.A, 0)]]])], [Some Recorded], [(Ex63.A, 7)]).
Proof. apply Ex63.from_seen. vm_compute. reflexivity. Qed.
End Ex63b.
Theorem C63_overlap_refuted : exists (c : acfg) (vr : nat -> nat) decl tr (s : cst Int64) w k0 k1,
  sound c /\ reached c vr decl tr s /\ a_views c = [w] /\ stateful w = false /\ av_gauge w = false /\
  (forall tr1 tr2 s1, tr = tr1 ++ tr2 -> reached c vr decl tr1 s1 -> waited (vr 0%nat) s1) /\
  s_colls s = [k0; k1] /\ k_phase k0 = KDone /\ k_phase k1 = KDone /\
  Ex63.answers s = [Some Recorded; Some Recorded] /\ Ex63.numbers s = [(Ex63.A, 7); (Ex63.A, 7)] /\
  reports k0 0 = [[(Ex63.A, 14)] : list (list kv * Z)] /\ reports k1 0 = [[] : list (list kv * Z)].
Proof.
  destruct Ex63b.tr_reached as (s & Hs & E). pose proof (f_equal snd E) as En. pose proof (f_equal (fun p => p.1.2) E) as Ea. apply (f_equal (fun p => p.1.1)) in E.
  cbn [Ex63b.summary fst snd] in E, En, Ea.
  destruct (Ex63.outs_at _ _ _ 0%nat _ _ _ E eq_refl) as (k0 & Hk0 & _ & Hd0 & Hl0). destruct (Ex63.outs_at _ _ _ 1%nat _ _ _ E eq_refl) as (k1 & Hk1 & _ & Hd1 & Hl1).
  apply (f_equal (hd [])) in Hl0, Hl1. cbn [map hd] in Hl0, Hl1.
  exists Ex63b.c, Ex63b.vr, Ex63b.decl, Ex63b.tr, s, (AView false false None 3), k0, k1.
  split; [exact Ex63b.sound_c|]. split; [exact Hs|]. split; [reflexivity|]. split; [reflexivity|]. split; [reflexivity|].
  split. { intros tr1 tr2 s1 Etr H1. apply Ex63.waitedb_ok. revert Etr H1. apply Ex63.each_ok. vm_compute. reflexivity. }
  split. { apply (f_equal (@length _)) in E. unfold Ex63.outs in E. rewrite map_length in E. destruct (s_colls s) as [|a [|b [|? ?]]]; cbn in E; try discriminate E. cbn in Hk0, Hk1. congruence. }
  split; [exact (Hd0 eq_refl)|]. split; [exact (Hd1 eq_refl)|]. split; [exact Ea|]. split; [exact En|]. split; [exact Hl0|exact Hl1].
Qed.
Theorem C63_straggler_refuted : exists (c : acfg) (vr : nat -> nat) decl tr (s : cst Int64) w k,
  sound c /\ reached c vr decl tr s /\ a_views c = [w] /\ stateful w = false /\ av_gauge w = false /\
  (forall tr1 tr2 s1, tr = tr1 ++ tr2 -> reached c vr decl tr1 s1 -> one_at_a_time (vr 0%nat) s1) /\
  s_colls s = [k] /\ k_phase k = KDone /\
  Ex63.answers s = [Some Recorded] /\ Ex63.numbers s = [(Ex63.A, 7)] /\ reports k 0 = [[(Ex63.A, 0)] : list (list kv * Z)].
Proof.
  destruct Ex63b.straggler_reached as (s & Hs & E). pose proof (f_equal snd E) as En. pose proof (f_equal (fun p => p.1.2) E) as Ea. apply (f_equal (fun p => p.1.1)) in E.
  cbn [Ex63b.summary fst snd] in E, En, Ea.
  destruct (Ex63.outs_at _ _ _ 0%nat _ _ _ E eq_refl) as (k0 & Hk0 & _ & Hd0 & Hl0).
  apply (f_equal (hd [])) in Hl0. cbn [map hd] in Hl0.
  exists Ex63b.c, Ex63b.vr, Ex63b.decl, Ex63b.straggler, s, (AView false false None 3), k0.
  split; [exact Ex63b.sound_c|]. split; [exact Hs|]. split; [reflexivity|]. split; [reflexivity|]. split; [reflexivity|].
  split. { intros tr1 tr2 s1 Etr H1. apply Ex63.oneb_ok. revert Etr H1. apply Ex63.each_ok. vm_compute. reflexivity. }
  split. { apply (f_equal (@length _)) in E. unfold Ex63.outs in E. rewrite map_length in E. destruct (s_colls s) as [|a [|? ?]]; cbn in E; try discriminate E. cbn in Hk0. congruence. }
  split; [exact (Hd0 eq_refl)|]. split; [exact Ea|]. split; [exact En|]. exact Hl0.
Qed.

Print Assumptions C63_cumulative.
Print Assumptions C63_int.
Print Assumptions C63_delta.
Print Assumptions C63_late.
Print Assumptions C63_collection_goes_on.
Print Assumptions C63_call_goes_on.
Print Assumptions C63_views_refuted.
Print Assumptions C63_overlap_refuted.
Print Assumptions C63_straggler_refuted.
