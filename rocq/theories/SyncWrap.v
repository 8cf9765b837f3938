(** C03: the bound of 2^32 measurements between two collections is needed.  With exactly 2^32 of them the
    counter of updates is back where it was (M/internal/syncstate/sync.go:257-264) and the collection skips the series. *)
From Coq Require Import ZArith Bool Lia.
From stdpp Require Import base list option.
From Verif Require Import Base SyncModel SyncSpec SyncSafe SyncFacts SyncQuiet SyncMore.
Local Open Scope Z_scope.

(** One counter with one series and one delta stream, read by one reader. *)
Definition one_series : config :=
  Config Zmon Z (fun _ n => n) (fun _ a => negb (a =? 0)) unit (fun _ => 0) (fun _ _ => true) unit _
         (fun _ k => k) tt tt [View true 0 10] [[0%nat]] 2 10 false.
Notation c := one_series.

(** The state after [k] calls, the threads being [R], with record count [v], [u] updates counted and sum [z] in it. *)
Definition at_ (R : list (pc c)) (v u z : Z) (log : list (upd c)) : state c :=
  State [Rec (c:=c) 0 tt true v u 0 0 (ODone) [Acc (c:=c) z 0]] [Holder (c:=c) 0 tt true 1 0] R [None] [None] log [] [].

Lemma thr_at (R : list (pc c)) p : (R ++ [p]) !! length R = Some p.
Proof. by rewrite lookup_app_r, Nat.sub_diag by lia. Qed.
Lemma thr_put (R : list (pc c)) p p' : <[length R := p']> (R ++ [p]) = R ++ [p'].
Proof. by rewrite <-(Nat.add_0_r (length R)), insert_app_r. Qed.

Lemma one (s s' : state c) R p q : s_thr s = R ++ [p] -> step_pc s (length R) p 0 = Some (goto (length R) q s') -> s_thr s' = R ++ [p] ->
  step s (LStep (length R) 0) = Some (set_thr (fun _ => R ++ [q]) s').
Proof. intros E1 E2 E3. unfold step. rewrite E1, thr_at, E2. unfold goto, set_thr. by rewrite E3, thr_put. Qed.
Lemma more (s s' : state c) R p q ls : s_thr s = R ++ [p] -> step_pc s (length R) p 0 = Some (goto (length R) q s') -> s_thr s' = R ++ [p] ->
  run s (LStep (length R) 0 :: ls) = run (set_thr (fun _ => R ++ [q]) s') ls.
Proof. intros E1 E2 E3. cbn [run]. by rewrite (one s s' R p q E1 E2 E3). Qed.

(** A whole call. *)
Definition call1 (t : nat) : list (label c) := LObserve (c:=c) 0 tt 1 :: repeat (LStep (c:=c) t 0) 6.
Lemma call1_run (R : list (pc c)) u z log :
  run (at_ R 0 u z log) (call1 (length R)) = Some (at_ (R ++ [PDone]) 0 (u + 1) (z + 1) (log ++ [Upd (c:=c) (length R) 0 tt 1])).
Proof.
  unfold call1. cbn [repeat].
  transitivity (run (at_ (R ++ [PRead (c:=c) 0 tt 1]) 0 u z log) (repeat (LStep (c:=c) (length R) 0) 6)); [done|]. cbn [repeat].
  erewrite (more _ (at_ (R ++ [PRead (c:=c) 0 tt 1]) 2 u z log) R (PRead (c:=c) 0 tt 1) (PInit (c:=c) 0 1)); [|done|reflexivity|done].
  erewrite (more _ (at_ (R ++ [PInit (c:=c) 0 1]) 2 u z log) R (PInit (c:=c) 0 1) (PUpd (c:=c) 0 1 0)); [|done|reflexivity|done].
  erewrite (more _ (at_ (R ++ [PUpd (c:=c) 0 1 0]) 2 u (z + 1) (log ++ [Upd (c:=c) (length R) 0 tt 1])) R (PUpd (c:=c) 0 1 0) (PUpd (c:=c) 0 1 1)); [|done|reflexivity|done].
  erewrite (more _ (at_ (R ++ [PUpd (c:=c) 0 1 1]) 2 u (z + 1) (log ++ [Upd (c:=c) (length R) 0 tt 1])) R (PUpd (c:=c) 0 1 1) (PCount (c:=c) 0)); [|done|reflexivity|done].
  erewrite (more _ (at_ (R ++ [PCount (c:=c) 0]) 2 (u + 1) (z + 1) (log ++ [Upd (c:=c) (length R) 0 tt 1])) R (PCount (c:=c) 0) (PUnref (c:=c) 0)); [|done|reflexivity|done].
  erewrite (more _ (at_ (R ++ [PUnref (c:=c) 0]) 0 (u + 1) (z + 1) (log ++ [Upd (c:=c) (length R) 0 tt 1])) R (PUnref (c:=c) 0) PDone); [|done|reflexivity|done].
  done.
Qed.

(** The first call makes the record and the output entry. *)
Definition call0 : list (label c) := LObserve (c:=c) 0 tt 1 :: repeat (LStep (c:=c) 0 0) 9.
Lemma call0_run : run (init c) call0 = Some (at_ [PDone] 0 1 1 [Upd (c:=c) 0 0 tt 1]).
Proof. reflexivity. Qed.

Fixpoint many (n : nat) : list (label c) :=
  match n with O => call0 | S n => many n ++ call1 (S n) end.
Definition logs (n : nat) : list (upd c) := map (fun t => Upd (c:=c) t 0 tt 1) (seq 0 n).
Lemma run_cat (s : state c) l1 l2 : run s (l1 ++ l2) = match run s l1 with Some s' => run s' l2 | None => None end.
Proof. revert s. induction l1 as [|l l1 IH]; intros s; [done|]. cbn. destruct (step s l); [apply IH|done]. Qed.
Lemma many_run n : run (init c) (many n) = Some (at_ (repeat PDone (S n)) 0 (Z.of_nat (S n)) (Z.of_nat (S n)) (logs (S n))).
Proof.
  induction n as [|n IH]; [exact call0_run|]. cbn [many]. rewrite run_cat, IH.
  pose proof (call1_run (repeat PDone (S n)) (Z.of_nat (S n)) (Z.of_nat (S n)) (logs (S n))) as H. rewrite repeat_length in H. rewrite H. f_equal. f_equal.
  - rewrite <-repeat_cons. done.
  - lia.
  - lia.
  - unfold logs. rewrite (seq_S (S n) 0), map_app. done.
Qed.

(** The states inside a collection. *)
Definition in_ (R : list (pc c)) (u z ina : Z) (wl il : option nat) (log : list (upd c)) (drop : list (point c)) : state c :=
  State [Rec (c:=c) 0 tt true 0 u 0 ina ODone [Acc (c:=c) z 0]] [Holder (c:=c) 0 tt true 1 0] R [wl] [il] log [] drop.
Definition coll (t : nat) : list (label c) := repeat (LStep (c:=c) t 0) 11.
Lemma coll_run (R : list (pc c)) u z log : same32 u 0 = true ->
  run (at_ R 0 u z log) (LCollect 0 :: coll (length R)) = Some (in_ (R ++ [QDone]) u z 1 None None log [Point (c:=c) (length R) 0 tt 0]).
Proof.
  intros U. unfold coll.
  transitivity (run (in_ (R ++ [QLock (c:=c) 0 [0%nat]]) u z 0 None None log []) (repeat (LStep (c:=c) (length R) 0) 11)); [done|]. cbn [repeat].
  pose (t := length R).
  rewrite (more _ (in_ (R ++ [QLock (c:=c) 0 [0%nat]]) u z 0 (Some t) None log []) R (QLock (c:=c) 0 [0%nat]) (QRecs (c:=c) (Job 0 [] 0 [0%nat]))); [|done|reflexivity|done].
  rewrite (more _ (in_ (R ++ [QRecs (c:=c) (Job 0 [] 0 [0%nat])]) u z 0 (Some t) None log []) R (QRecs (c:=c) (Job 0 [] 0 [0%nat])) (QLoad (c:=c) (Job 0 [] 0 []) 0)); [|done|reflexivity|done].
  rewrite (more _ (in_ (R ++ [QLoad (c:=c) (Job 0 [] 0 []) 0]) u z 1 (Some t) None log []) R (QLoad (c:=c) (Job 0 [] 0 []) 0) (QRecs (c:=c) (Job 0 [] 0 [])));
    [|done|cbn -[same32 app length]; rewrite U; reflexivity|done].
  rewrite (more _ (in_ (R ++ [QRecs (c:=c) (Job 0 [] 0 [])]) u z 1 None None log []) R (QRecs (c:=c) (Job 0 [] 0 [])) (QLock (c:=c) 0 [])); [|done|reflexivity|done].
  rewrite (more _ (in_ (R ++ [QLock (c:=c) 0 []]) u z 1 None None log []) R (QLock (c:=c) 0 []) (QViews (c:=c) 0 [0%nat])); [|done|reflexivity|done].
  rewrite (more _ (in_ (R ++ [QViews (c:=c) 0 [0%nat]]) u z 1 None (Some t) log []) R (QViews (c:=c) 0 [0%nat]) (QColl (c:=c) 0 [] 0 [0%nat])); [|done|reflexivity|done].
  rewrite (more _ (in_ (R ++ [QColl (c:=c) 0 [] 0 [0%nat]]) u z 1 None (Some t) log []) R (QColl (c:=c) 0 [] 0 [0%nat]) (QPoint (c:=c) 0 [] 0 [] 0 1)); [|done|reflexivity|done].
  rewrite (more _ (in_ (R ++ [QPoint (c:=c) 0 [] 0 [] 0 1]) u z 1 None (Some t) log []) R (QPoint (c:=c) 0 [] 0 [] 0 1) (QDecide (c:=c) 0 [] 0 [] 0 1 0)); [|done|reflexivity|done].
  rewrite (more _ (in_ (R ++ [QDecide (c:=c) 0 [] 0 [] 0 1 0]) u z 1 None (Some t) log [Point (c:=c) t 0 tt 0]) R (QDecide (c:=c) 0 [] 0 [] 0 1 0) (QColl (c:=c) 0 [] 0 [])); [|done|reflexivity|done].
  rewrite (more _ (in_ (R ++ [QColl (c:=c) 0 [] 0 []]) u z 1 None None log [Point (c:=c) t 0 tt 0]) R (QColl (c:=c) 0 [] 0 []) (QViews (c:=c) 0 [])); [|done|reflexivity|done].
  rewrite (more _ (in_ (R ++ [QViews (c:=c) 0 []]) u z 1 None None log [Point (c:=c) t 0 tt 0]) R (QViews (c:=c) 0 []) QDone); [|done|reflexivity|done].
  done.
Qed.

Lemma calls_many n : calls (many n) = repeat (LObserve (c:=c) 0 tt 1) (S n).
Proof.
  induction n as [|n IH]; [done|]. cbn [many]. unfold calls in *. rewrite List.filter_app, IH. change (List.filter _ (call1 (S n))) with [LObserve (c:=c) 0 tt 1].
  exact (eq_sym (repeat_cons (S n) (LObserve (c:=c) 0 tt 1))).
Qed.
Lemma idle_threads (f : pc c -> Z) n : f PDone = 0 -> f QDone = 0 -> msum (M:=Zmon) f (repeat PDone n ++ [QDone]) = 0.
Proof. intros H1 H2. induction n as [|n IH]; cbn in *; [lia|]. rewrite IH. lia. Qed.

Lemma wrap n : Z.of_nat (S n) = 4294967296 ->
  exists (ls0 : list (label c)) s0 ls s,
    run (init c) ls0 = Some s0 /\ (forall t p, s_thr s0 !! t = Some p -> p = PDone) /\
    calls ls0 = repeat (LObserve (c:=c) 0 tt 1) (S n) /\
    run s0 (LCollect 0 :: ls) = Some s /\ (forall l, l ∈ ls -> exists t ch, l = LStep t ch) /\
    s_thr s !! length (s_thr s0) = Some QDone /\ read_by c 0 0 /\
    measured s 0 tt = 4294967296 /\ s_out s = [] /\ held s 0 tt = 4294967296.
Proof.
  intros N. pose proof (many_run n) as H0. revert H0. generalize (calls_many n). generalize (many n). rewrite N.
  assert (Sm : same32 4294967296 0 = true) by reflexivity.
  generalize (logs (S n)). generalize (S n). clear n N. intros n log ls0 C H0.
  pose proof (coll_run (repeat PDone n) 4294967296 4294967296 log Sm) as H1.
  set (s := in_ _ _ _ _ _ _ _ _) in H1.
  assert (Hh : held s 0 tt = 4294967296).
  { unfold held, held_by_collections. unfold s at 3. cbn [s_thr in_].
    rewrite (idle_threads _ n) by done. reflexivity. }
  exists ls0, (at_ (repeat PDone n) 0 4294967296 4294967296 log), (coll (length (repeat (PDone (c:=c)) n))), s. split; [exact H0|]. split.
  { intros t p Hp. cbn in Hp. apply elem_of_list_lookup_2, elem_of_list_In, repeat_spec in Hp. done. }
  split; [done|]. split; [exact H1|]. split.
  { intros l Hl. apply elem_of_list_In, repeat_spec in Hl. subst l. eauto. }
  split; [apply thr_at|]. split; [by exists (View true 0 10)|]. split; [|by split].
  assert (R : run (init c) (ls0 ++ LCollect 0 :: coll (length (repeat (PDone (c:=c)) n))) = Some s) by (by rewrite run_cat, H0).
  rewrite (conserved_view _ s 0 tt R), Hh. reflexivity.
Qed.

(** C03 is false without [calm]: after 2^32 calls, each adding 1 and all returned, a whole collection with nothing
    else going on reports nothing, although 2^32 was measured.  Nothing is lost: it is still held. *)
Theorem C03_wrap_refuted :
  exists (ls0 : list (label c)) s0 ls s,
    run (init c) ls0 = Some s0 /\ (forall t p, s_thr s0 !! t = Some p -> p = PDone) /\
    calls ls0 = repeat (LObserve (c:=c) 0 tt 1) (Z.to_nat 4294967296) /\
    run s0 (LCollect 0 :: ls) = Some s /\ (forall l, l ∈ ls -> exists t ch, l = LStep t ch) /\
    s_thr s !! length (s_thr s0) = Some QDone /\ read_by c 0 0 /\
    measured s 0 tt = 4294967296 /\ s_out s = [] /\ held s 0 tt = 4294967296.
Proof.
  assert (E : exists n, Z.of_nat (S n) = 4294967296 /\ Z.to_nat 4294967296 = S n).
  { exists (Z.to_nat 4294967295). lia. }
  destruct E as (n & E1 & E2). rewrite E2. exact (wrap n E1).
Qed.

Print Assumptions C03_wrap_refuted.
