(** C71: whatever callbacks observe and however collections, callbacks and calls that outlive them interleave, what the views of asynchronous instruments hold in memory,
    and what a collection reports of each, stays within the limit of the view. *)
From Coq Require Import ZArith Bool String Lia.
From stdpp Require Import base list option strings.
From Verif Require Import Num Agg Attr Async Conc ConcSpec ConcInv ConcKeys ConcProps ConcMem ConcOut.
Local Open Scope nat_scope.

(** Both maps of the view, so also the number that InMemorySize gives; no attribute set is held twice. *)
Theorem C71_bounded : forall (N : arith) c vr decl tr (s : cst N) v w y, reached c vr decl tr s -> a_views c !! v = Some w -> 1 <= av_limit w -> s_views s !! v = Some y ->
  in_memory w y <= av_limit w /\ length (w_data y) <= av_limit w /\ length (w_prior y) <= av_limit w /\ NoDup (map fst (w_data y)) /\ NoDup (map fst (w_prior y)).
Proof.
  intros N c vr decl tr s v w y R W L Y. destruct (mi_views _ _ (minv_reached c vr decl tr s R) v y w Y W L) as [(D1 & D2 & _) (P1 & P2 & _)].
  split_and!; try done. unfold in_memory. by destruct (stateful w).
Qed.
(** When a map is full, one of its attribute sets is the overflow set: no other attribute set gets the last place. *)
Theorem C71_reserved : forall (N : arith) c vr decl tr (s : cst N) v w y, reached c vr decl tr s -> a_views c !! v = Some w -> 1 <= av_limit w -> s_views s !! v = Some y ->
  length (List.filter (fun e => negb (bool_decide (e.1 = overflow_set))) (w_data y)) < av_limit w.
Proof.
  intros N c vr decl tr s v w y R W L Y. destruct (mi_views _ _ (minv_reached c vr decl tr s R) v y w Y W L) as [(D1 & D2 & D3) _].
  set (f := fun e : list kv * nat => negb (bool_decide (e.1 = overflow_set))).
  assert (LE : forall l, length (List.filter f l) <= length l) by (intros l; induction l as [|e l IH]; cbn; [done|destruct (f e); cbn; lia]).
  assert (LT : forall l, overflow_set ∈ map fst l -> length (List.filter f l) < length l).
  { intros l. induction l as [|e l IH]; cbn [map]; intros X; [by apply elem_of_nil in X|]. cbn [List.filter length]. apply elem_of_cons in X as [X|X].
    - assert (F : f e = false) by (unfold f; by rewrite bool_decide_eq_true_2). rewrite F. specialize (LE l). lia.
    - specialize (IH X). destruct (f e); cbn [length]; lia. }
  destruct (decide (length (w_data y) = av_limit w)) as [E|E]; [specialize (LT _ (D3 E)); lia|specialize (LE (w_data y)); lia].
Qed.
(** The "limit passed" error of getOrCreateEntry (base_instrument.go:152-163) is never reported, nor is an entry above the limit created: a full map always has
    the overflow set, so the second lookup succeeds. *)
Theorem C71_no_error : forall (N : arith) c vr decl tr (s : cst N) v w y, reached c vr decl tr s -> a_views c !! v = Some w -> 1 <= av_limit w -> s_views s !! v = Some y ->
  length (w_data y) = av_limit w -> exists h, (overflow_set, h) ∈ w_data y /\ forall key, key ∉ map fst (w_data y) -> find_storage (av_limit w) key y = (y, h).
Proof.
  intros N c vr decl tr s v w y R W L Y E. destruct (mi_views _ _ (minv_reached c vr decl tr s R) v y w Y W L) as [(D1 & _ & D3) _].
  destruct (cell overflow_set (w_data y)) as [h|] eqn:C; [|by destruct (cell_none _ _ C (D3 E))]. exists h. split; [by apply cell_in|].
  intros key K. unfold find_storage. destruct (cell key (w_data y)) as [h'|] eqn:F; [by destruct (K (cell_some _ _ _ F))|]. by rewrite E, Nat.eqb_refl, C.
Qed.
(** What a collection, finished or not, has put into its output for a view: no attribute set twice, and no more points than the limit, for every temporality. *)
Theorem C71_reported : forall (N : arith) c vr decl tr (s : cst N) q k v w pts, reached c vr decl tr s -> a_views c !! v = Some w -> 1 <= av_limit w ->
  s_colls s !! q = Some k -> pts ∈ reports k v -> length pts <= av_limit w /\ NoDup (map fst pts).
Proof.
  intros N c vr decl tr s q k v w pts R W L K X. unfold reports in X. change (map ?f ?l) with (f <$> l) in X. apply elem_of_list_fmap in X as (o & -> & X).
  apply elem_of_list_In, filter_In in X as [X E]. apply elem_of_list_In in X. apply Nat.eqb_eq in E. subst v.
  destruct (mi_out _ _ (minv_reached c vr decl tr s R) q k o w K X W L) as [A B]. by split.
Qed.

(** A collection that is over, however calls and other collections were mixed with it, has reported each view of its reader once and nothing else. *)
Theorem C71_whole : forall (N : arith) c vr decl tr (s : cst N) q k, reached c vr decl tr s -> s_colls s !! q = Some k -> k_phase k = KDone ->
  (forall v w, a_views c !! v = Some w -> vr v = k_reader k -> exists pts, reports k v = [pts] /\ (1 <= av_limit w -> length pts <= av_limit w /\ NoDup (map fst pts))) /\
  forall o, o ∈ k_out k -> o.1 < length (a_views c) /\ vr o.1 = k_reader k.
Proof.
  intros N c vr decl tr s q k R K D. pose proof (oinv_reached c vr decl tr s R q k K) as O. unfold out_at in O. rewrite D in O. split.
  - intros v w W V. destruct (one_report k v) as [pts RP].
    + rewrite O. apply NoDup_ListNoDup. apply List.NoDup_filter. apply seq_NoDup.
    + rewrite O. apply elem_of_list_In, filter_In. split; [|by apply Nat.eqb_eq]. apply in_seq. apply lookup_lt_Some in W. lia.
    + exists pts. split; [exact RP|]. intros L. apply (C71_reported N c vr decl tr s q k v w pts R W L K). rewrite RP. by apply elem_of_list_singleton.
  - intros o X. assert (Y : o.1 ∈ map fst (k_out k)) by (change (map ?f ?l) with (f <$> l); by apply elem_of_list_fmap_1).
    rewrite O in Y. apply elem_of_list_In, filter_In in Y as [Y1 Y2]. apply in_seq in Y1. apply Nat.eqb_eq in Y2. split; [lia|exact Y2].
Qed.

(** A limit of two, two collections of one reader at the same time, four attribute sets, and a call that has passed the check of its callback and goes on after both. *)
Module Ex71.
Import Ex63.
Open Scope string_scope.
Definition c : acfg := ACfg 0 [AView false false None 2; AView true false None 2] [AInst 0 AsyncCounter [0; 1]%nat] 100.
Definition vr (v : nat) : nat := 0%nat.
Definition decl : list (list nat) := [[0%nat]].
Definition C : list kv := [("c", VInt 3)].
Definition D : list kv := [("d", VInt 4)].
Definition tr : list (label (N:=Int64)) :=
  [LBegin 0 [0%nat]; LGo 0 0; LBegin 0 [0%nat]; LGo 1 0; obs1 0 5 A; obs1 1 7 B; obs1 0 2 C; obs1 1 3 D] ++ [LStep 3] ++ steps 0 8 ++ steps 1 8 ++ steps 2 8 ++
  gos 0 2 ++ gos 0 6 ++ gos 1 2 ++ gos 0 3 ++ gos 1 8 ++ steps 3 4.
Definition sizes (s : cst Int64) : list (nat * nat * nat) := map (fun p => (in_memory p.1 p.2, length (w_data p.2), length (w_prior p.2))) (combine (a_views c) (s_views s)).
Definition result (s : cst Int64) := (sizes s, outs [0; 1]%nat s).
Definition over : list (list kv * Z) := [(A, 5%Z); (overflow_set, 2%Z)].
Definition expected : list (nat * nat * nat) * list (nat * bool * list (list (list (list kv * Z)))) :=
  ([(1, 1, 0); (1, 2, 1)], [(0, false, [[over]; [over]]); (0, true, [[[]]; [[(overflow_set, (-7)%Z)]]])]).
(** The first collection reports two points, as many as the limit; in the end a map is full again.  (The -7 is no claim: two collections of one reader overlap.) *)
Example seen : option_map result (execs c vr decl (c_init c) tr) = Some expected.
Proof. vm_compute. reflexivity. Qed.
Lemma made : exists s, reached c vr decl tr s /\ result s = expected.
Proof. exact (from_seen result c vr decl tr expected seen). Qed.
Definition w1 : aview := AView true false None 2.
Example hyps : a_views c !! 1 = Some w1 /\ 1 <= av_limit w1.
Proof. split; [reflexivity|cbn; lia]. Qed.
Example bounded_case s := fun R y Y => C71_bounded Int64 c vr decl tr s 1 w1 y R (proj1 hyps) (proj2 hyps) Y.
Example reserved_case s := fun R y Y => C71_reserved Int64 c vr decl tr s 1 w1 y R (proj1 hyps) (proj2 hyps) Y.
(** The hypotheses of C71_reported are met, by a report of two points. *)
Example reported_case : exists s k, reached c vr decl tr s /\ s_colls s !! 0 = Some k /\ over ∈ reports k 1 /\ length over <= av_limit w1 /\ NoDup (map fst over).
Proof.
  destruct made as (s & R & E). apply (f_equal snd) in E. change (outs [0; 1]%nat s = expected.2) in E.
  destruct (outs_at [0; 1]%nat s _ 0 0 false [[over]; [over]] E eq_refl) as (k & K & _ & _ & P). exists s, k. split; [exact R|]. split; [exact K|].
  assert (X : over ∈ reports k 1) by (cbn [map] in P; injection P as _ ->; by apply elem_of_list_singleton). split; [exact X|].
  exact (C71_reported Int64 c vr decl tr s 0 k 1 w1 over R (proj1 hyps) (proj2 hyps) K X).
Qed.
(** In the end the map of view 1 is full. *)
Example full_case : exists s y, reached c vr decl tr s /\ s_views s !! 1 = Some y /\ length (w_data y) = av_limit w1.
Proof.
  destruct made as (s & R & E). apply (f_equal fst) in E. change (sizes s = expected.1) in E. exists s. unfold sizes in E.
  destruct (s_views s) as [|y0 [|y1 r]] eqn:V; [done..|]. exists y1. split; [exact R|]. split; [reflexivity|].
  apply (f_equal (fun l => snd (fst (nth 1 l (0, 0, 0))))) in E. exact E.
Qed.
Example no_error_case s := fun R y Y E => C71_no_error Int64 c vr decl tr s 1 w1 y R (proj1 hyps) (proj2 hyps) Y E.
(** The second collection is over. *)
Example whole_case : exists s k, reached c vr decl tr s /\ s_colls s !! 1 = Some k /\ k_phase k = KDone /\ exists pts, reports k 1 = [pts].
Proof.
  destruct made as (s & R & E). apply (f_equal snd) in E. change (outs [0; 1]%nat s = expected.2) in E.
  destruct (outs_at [0; 1]%nat s _ 1 0 true _ E eq_refl) as (k & K & RD & P & _). exists s, k. split; [exact R|]. split; [exact K|]. split; [by apply P|].
  destruct (proj1 (C71_whole Int64 c vr decl tr s 1 k R K (P eq_refl)) 1 w1 (proj1 hyps) (eq_sym RD)) as (pts & X & _). by exists pts.
Qed.
End Ex71.
Print Assumptions C71_bounded.
Print Assumptions C71_reserved.
Print Assumptions C71_reported.
Print Assumptions C71_whole.
Print Assumptions C71_no_error.
