(** C17-C20: asynchronous instruments. *)
From Coq Require Import ZArith Bool String Lia.
From stdpp Require Import base list option strings.
From Verif Require Import Num Agg AggSpec AggProofs Attr Async AsyncSpec AsyncProofs AsyncRun AsyncHist.
Local Open Scope Z_scope.

(** ** A concrete meter *)
Module Ex.
Open Scope string_scope.
(** Views 0: cumulative sum; 1: delta sum; 2: gauge; 3: cumulative sum that keeps the key "a" only.  At most 3 attribute sets each. *)
Definition views : list aview := [AView false false None 3; AView true false None 3; AView true true None 3; AView false false (Some ["a"]) 3].
(** Instruments 0: counter for views 0, 1 and 3; 1: gauge; 2: of another meter; 3: disabled. *)
Definition insts : list ainst := [AInst 0 AsyncCounter [0; 1; 3]%nat; AInst 0 AsyncGauge [2]%nat; AInst 7 AsyncCounter [0]%nat; AInst 0 AsyncCounter []].
Definition c : acfg := ACfg 0 views insts 100.
Definition A : list kv := [("a", VInt 1)].
Definition B : list kv := [("b", VInt 2)].
Definition AB : list kv := [("b", VInt 2); ("a", VInt 1)].
Definition same (es : list (entry (N:=Int64))) := es.
Definition by_me (i : nat) (n : Z) (l : list kv) : attempt (N:=Int64) := Attempt (N:=Int64) None (Inst i) n l.
Definition collect (f : nat -> list (attempt (N:=Int64))) : mop (N:=Int64) := OCollect same f.
Definition reg (l : list nat) : mop (N:=Int64) := ORegister (map Inst l) true.
(** Two callbacks; callback 0 observes A twice and AB; callback 1 observes the gauge, then an instrument it did not declare. *)
Definition script1 (cb : nat) : list (attempt (N:=Int64)) :=
  match cb with
  | 0%nat => [by_me 0 5 A; by_me 0 7 A; by_me 0 10 AB; by_me 3 4 A]
  | 1%nat => [by_me 1 (-3) B; by_me 0 100 A; Attempt (N:=Int64) None Foreign 1 A; Attempt (N:=Int64) (Some 0%nat) (Inst 0) 1 A]
  | _ => []
  end.
Definition script2 (cb : nat) : list (attempt (N:=Int64)) :=
  match cb with 0%nat => [by_me 0 9 A; by_me 0 10 AB] | _ => [] end.
Definition h1 : list (mop (N:=Int64)) := [reg [0; 3]%nat; reg [1]%nat].
Definition h2 : list (mop (N:=Int64)) := h1 ++ [collect script1; OLate (Attempt (N:=Int64) (Some 0%nat) (Inst 0) 1 A); collect script2].
Definition points_of (rs : list (mres (N:=Int64))) : list (list (list (list kv * Z))) :=
  omap (fun r => match r with RCollect o => Some (co_points o) | _ => None end) rs.
Definition answers_of (rs : list (mres (N:=Int64))) : list (list (nat * list result)) :=
  omap (fun r => match r with RCollect o => Some (co_ran o) | _ => None end) rs.
Definition sA : list kv := A.
Definition sAB : list kv := [("a", VInt 1); ("b", VInt 2)].
(** View 0: the last value of each attribute set; view 3: the sum of the last values; view 1: the full values, then the one that changed. *)
Example runs_points : points_of (mrun c (m_init c) h2).2 =
  [[[(sA, 7); (sAB, 10)]; [(sA, 7); (sAB, 10)]; [(B, -3)]; [(sA, 17)]];
   [[(sA, 9); (sAB, 10)]; [(sA, 2)]; []; [(sA, 19)]]].
Proof. vm_compute. reflexivity. Qed.
Example runs_answers : answers_of (mrun c (m_init c) h2).2 =
  [[(0%nat, [Recorded; Recorded; Recorded; Disabled]); (1%nat, [Recorded; NotDeclared; NotSDK; AfterReturn])];
   [(0%nat, [Recorded; Recorded]); (1%nat, [])]].
Proof. vm_compute. reflexivity. Qed.
End Ex.

(** ** C17: in each collection a cumulative view or gauge reports what its callbacks observed in that collection and nothing else: a point
    for each attribute set (after the view's filter), with the sum of the last observations of the series that have it, or one of them for a gauge. *)
Theorem C17_cumulative : forall (N : arith) (c : acfg) os m rs order script m' o v w,
  mrun (N:=N) c (m_init c) os = (m, rs) ->
  mexec c m (OCollect order script) = (m', RCollect o) -> (forall es, order es ≡ₚ es) ->
  a_views c !! v = Some w -> stateful w = false ->
  let ins := inputs c v w (recorded c script (co_ran o)) in
  (distinct ins < av_limit w)%nat ->
  NoDup (map fst (points v o)) /\
  (forall k, k ∈ map fst (points v o) <-> k ∈ map fst ins) /\
  (forall k x, (k, x) ∈ points v o -> if av_gauge w then x ∈ at_key k ins else adds (at_key k ins) x).
Proof.
  intros N c os m rs order script m' o v w Hrun E Hord Hw Hs ins Hd.
  pose proof (reached_run _ _ _ _ Hrun) as R.
  assert (Hlt : (v < length (m_views m))%nat). { rewrite (re_len _ _ _ _ R). by eapply lookup_lt_Some. }
  apply lookup_lt_is_Some in Hlt as [x0 Hx0]. pose proof (re_low _ _ _ _ R _ _ _ Hw Hs Hx0) as H0.
  destruct (collection_step c m order script m' o v w x0 E Hord Hw Hx0 H0 ltac:(lia)) as (d & Ht & Hp & _).
  unfold collect_view in Hp. rewrite Hs in Hp. cbn in Hp. rewrite Hp. exact (totals_fit w d ins Ht Hd).
Qed.

(** For integers, the wrapped sum. *)
Theorem C17_int : forall (c : acfg) os m rs order script m' o v w,
  mrun (N:=Int64) c (m_init c) os = (m, rs) ->
  mexec c m (OCollect order script) = (m', RCollect o) -> (forall es, order es ≡ₚ es) ->
  a_views c !! v = Some w -> stateful w = false -> av_gauge w = false ->
  let ins := inputs c v w (recorded c script (co_ran o)) in
  (distinct ins < av_limit w)%nat -> Forall int64 (map snd ins : list Z) ->
  forall k x, (k, x) ∈ points v o -> (x : Z) = wrap (zsum (at_key k ins)).
Proof.
  intros c os m rs order script m' o v w Hrun E Hord Hw Hs Hg ins Hd Hi k x Hin.
  destruct (C17_cumulative Int64 c os m rs order script m' o v w Hrun E Hord Hw Hs Hd) as (_ & _ & H).
  specialize (H k x Hin). rewrite Hg in H. apply (adds_int64 _ _ H).
  rewrite list.Forall_forall in Hi |- *. intros y Hy. apply Hi. unfold at_key in Hy.
  apply elem_of_list_fmap in Hy as (q & -> & Hq). apply elem_of_list_fmap. exists q. split; [done|].
  apply elem_of_list_In. apply elem_of_list_In in Hq. by apply filter_In in Hq as [? _].
Qed.

(** When there are too many attribute sets: at most [av_limit w] points; every series still counts in exactly one point, its own
    or that of the overflow set. *)
Theorem C17_overflow : forall (N : arith) (c : acfg) os m rs order script m' o v w,
  mrun (N:=N) c (m_init c) os = (m, rs) ->
  mexec c m (OCollect order script) = (m', RCollect o) -> (forall es, order es ≡ₚ es) ->
  a_views c !! v = Some w -> stateful w = false -> (1 <= av_limit w)%nat ->
  let ins := inputs c v w (recorded c script (co_ran o)) in
  exists place : list kv -> list kv,
    (forall k, place k = k \/ place k = overflow_set) /\
    (length (points v o) <= av_limit w)%nat /\ NoDup (map fst (points v o)) /\
    (forall k, k ∈ map fst (points v o) <-> k ∈ map place (map fst ins)) /\
    (forall k x, (k, x) ∈ points v o ->
       let vals := at_key k (map (fun p => (place p.1, p.2)) ins) in if av_gauge w then x ∈ vals else adds vals x).
Proof.
  intros N c os m rs order script m' o v w Hrun E Hord Hw Hs Hlim ins.
  pose proof (reached_run _ _ _ _ Hrun) as R.
  assert (Hlt : (v < length (m_views m))%nat). { rewrite (re_len _ _ _ _ R). by eapply lookup_lt_Some. }
  apply lookup_lt_is_Some in Hlt as [x0 Hx0]. pose proof (re_low _ _ _ _ R _ _ _ Hw Hs Hx0) as H0.
  destruct (collection_step c m order script m' o v w x0 E Hord Hw Hx0 H0 Hlim) as (d & (T1 & T2 & T3 & T4 & _) & Hp & _).
  unfold collect_view in Hp. rewrite Hs in Hp. cbn in Hp. rewrite Hp. exists (route d). split_and!; auto.
  intros k. unfold route. case_bool_decide; auto.
Qed.

(** ** C18: the points of a delta view are the changes of those totals. *)
Theorem C18_step : forall (N : arith) (c : acfg) os m rs order script m' o v w,
  mrun (N:=N) c (m_init c) os = (m, rs) -> fair os ->
  mexec c m (OCollect order script) = (m', RCollect o) -> (forall es, order es ≡ₚ es) ->
  a_views c !! v = Some w -> stateful w = true ->
  Forall (fun p => roomy w (inputs c v w p.1)) (collections c os rs) ->
  let ins := inputs c v w (recorded c script (co_ran o)) in
  roomy w ins ->
  let prev := match list.last (collections c os rs) with Some p => inputs c v w p.1 | None => [] end in
  forall k,
    (k ∉ map fst ins -> at_key k (points v o) = []) /\
    (k ∈ map fst ins -> k ∉ map fst prev -> exists x, adds (at_key k ins) x /\ at_key k (points v o) = [x]) /\
    (k ∈ map fst ins -> k ∈ map fst prev -> exists x y, adds (at_key k ins) x /\ adds (at_key k prev) y /\
       at_key k (points v o) = if eqb (sub x y) zero then [] else [sub x y]).
Proof.
  intros N c os m rs order script m' o v w Hrun Hf E Hord Hw Hs Hroom ins Hr prev k.
  destruct (stateful_state c os m rs v w Hrun Hf Hw Hs Hroom) as (d & Hd & Hl).
  destruct (collection_step c m order script m' o v w _ E Hord Hw Hd eq_refl) as (d' & Ht & Hp & _). { destruct Hr. lia. }
  destruct (totals_fit _ _ _ Ht (proj2 Hr)) as (Hnd & Hkeys & Hval). fold ins in Hkeys, Hval. cbn [d_prior] in Hp.
  assert (Hg : av_gauge w = false). { unfold stateful in Hs. destruct (av_gauge w), (av_delta w); done. }
  assert (Hprev : (forall q, q ∈ map fst d <-> q ∈ map fst prev) /\ forall q y, (q, y) ∈ d -> adds (at_key q prev) y).
  { unfold prev. destruct (list.last (collections c os rs)) as [p|] eqn:El.
    - rewrite list.Forall_forall in Hroom. pose proof (Hroom p ltac:(by eapply last_Some_elem_of)) as [_ Hdist].
      destruct (totals_fit _ _ _ Hl Hdist) as (_ & H1 & H2). split; [done|]. intros q y Hq. specialize (H2 q y Hq). unfold agg in H2. by rewrite Hg in H2.
    - subst d. split; [done|]. by intros q y ?%elem_of_nil. }
  destruct Hprev as [Hpk Hpv]. rewrite Hp, (collect_stateful w d' d k Hs Hnd). unfold agg in Hval. rewrite Hg in Hval.
  rewrite <- Hkeys, <- Hpk. split_and!.
  - intros Hk. apply get_None in Hk. by rewrite Hk.
  - intros Hk Hn. apply get_is_Some in Hk as [x Hx]. apply get_None in Hn. rewrite Hx, Hn. exists x. split; [|done]. apply Hval. by apply get_elem.
  - intros Hk Hk2. apply get_is_Some in Hk as [x Hx]. apply get_is_Some in Hk2 as [y Hy]. rewrite Hx, Hy. exists x, y.
    split_and!; [apply Hval; by apply get_elem|apply Hpv; by apply get_elem|done].
Qed.

(** Over a whole history of integers, the reported deltas add up to the changes of the total. *)
Theorem C18_changes : forall (c : acfg) os m rs v w k,
  mrun (N:=Int64) c (m_init c) os = (m, rs) -> fair os -> a_views c !! v = Some w -> stateful w = true ->
  Forall (fun p => roomy w (inputs c v w p.1)) (collections c os rs) ->
  wrap (zsum (p ← collections c os rs; at_key k (points v p.2))) =
  wrap (zsum (changes None (map (fun p => total_at k (inputs c v w p.1)) (collections c os rs)))).
Proof. exact delta_sum. Qed.

(** So for attributes that are observed in every collection from some time on, the deltas add up to the latest total (modulo 2^64). *)
Theorem C18_telescopes : forall (c : acfg) os m rs v w k early late l o,
  mrun (N:=Int64) c (m_init c) os = (m, rs) -> fair os -> a_views c !! v = Some w -> stateful w = true ->
  Forall (fun p => roomy w (inputs c v w p.1)) (collections c os rs) ->
  collections c os rs = early ++ late ++ [(l, o)] ->
  Forall (fun p => k ∉ map fst (inputs c v w p.1)) early ->
  Forall (fun p => k ∈ map fst (inputs c v w p.1)) (late ++ [(l, o)]) ->
  wrap (zsum (p ← collections c os rs; at_key k (points v p.2))) = wrap (zsum (at_key k (inputs c v w l))).
Proof.
  intros c os m rs v w k early late l o Hrun Hf Hw Hs Hroom Ec He Hl.
  rewrite (C18_changes c os m rs v w k Hrun Hf Hw Hs Hroom), Ec, map_app, changes_absent.
  2: { apply list.Forall_forall. intros t (p & -> & Hp)%elem_of_list_fmap. unfold total_at. rewrite bool_decide_eq_false_2; [done|].
       rewrite list.Forall_forall in He. by apply He. }
  rewrite (changes_steady None _ (map (fun p : list (obs (N:=Int64)) * collected (N:=Int64) => zsum (at_key (N:=Int64) k (inputs c v w p.1))) (late ++ [(l, o)]))).
  - rewrite map_app. cbn [map]. rewrite last_snoc. cbn. by rewrite Z.sub_0_r.
  - rewrite map_map. apply map_ext_in. intros p Hp%elem_of_list_In. unfold total_at. rewrite bool_decide_eq_true_2; [done|].
    rewrite list.Forall_forall in Hl. by apply Hl.
Qed.

(** It does not hold for attributes that are missing in between: here 7 is reported when the attributes appear and, after a collection without them, 9
    when they appear again, although the counter grew from 0 to 9 only. *)
Lemma fair_list {N : arith} (os : list (mop (N:=N))) :
  Forall (fun o => match o with OCollect order _ => forall es, order es ≡ₚ es | _ => True end) os -> fair os.
Proof. intros H order script es Hin. rewrite list.Forall_forall in H. exact (H _ Hin es). Qed.
#[local] Instance roomy_dec {N : arith} w (l : list (list kv * N)) : Decision (roomy w l).
Proof. unfold roomy. apply _. Defined.
(** The history [Ex.h2] meets the hypotheses of the theorems above, with attributes A in both collections: 7, then 2, make 9. *)
Example C18_case :
  fair Ex.h2 /\
  let colls := collections Ex.c Ex.h2 (mrun Ex.c (m_init Ex.c) Ex.h2).2 in
  length colls = 2%nat /\
  (forall v w, v ∈ [0; 1]%nat -> a_views Ex.c !! v = Some w ->
     Forall (fun p => roomy w (inputs Ex.c v w p.1)) colls /\ Forall (fun p => Ex.sA ∈ map fst (inputs Ex.c v w p.1)) colls) /\
  (p ← colls; at_key Ex.sA (points 1 p.2)) = [7; 2].
Proof.
  split. { apply fair_list. repeat (apply list.Forall_cons; split; [first [exact I|intros es; apply Permutation_refl]|]). by apply list.Forall_nil. }
  split; [vm_compute; reflexivity|]. split; [|vm_compute; reflexivity].
  intros v w Hv. repeat (apply elem_of_cons in Hv as [->|Hv]; [intros [= <-]; split; apply (bool_decide_unpack _); vm_compute; exact I|]).
  by apply elem_of_nil in Hv.
Qed.
Theorem C18_gap_refuted : exists (c : acfg) os v w k,
  fair (N:=Int64) os /\ a_views c !! v = Some w /\ stateful w = true /\
  let colls := collections c os (mrun c (m_init c) os).2 in
  Forall (fun p => roomy w (inputs c v w p.1)) colls /\
  zsum (p ← colls; at_key k (points v p.2)) = 16 /\
  option_map (fun p => zsum (at_key (N:=Int64) k (inputs c v w p.1))) (list.last colls) = Some 9.
Proof.
  exists Ex.c, [Ex.reg [0%nat]; Ex.collect (fun _ => [Ex.by_me 0 7 Ex.A]); Ex.collect (fun _ => []); Ex.collect (fun _ => [Ex.by_me 0 9 Ex.A])].
  exists 1%nat, (AView true false None 3), Ex.A.
  split. { apply fair_list. repeat (apply list.Forall_cons; split; [first [exact I|intros es; apply Permutation_refl]|]). by apply list.Forall_nil. }
  split; [reflexivity|]. split; [reflexivity|]. split; [apply (bool_decide_unpack _); vm_compute; exact I|].
  split; vm_compute; reflexivity.
Qed.

(** Nor does it hold for the overflow set: the total of a collection is added to that of the collections before (collectors.go:171-178).  Four attribute
    sets of value 1 each in every collection, at most 3 points: the overflow total is 2 each time, the deltas reported for it are 2, 2 and 2. *)
Definition totals_at (k : list kv) (rs : list (mres (N:=Int64))) (v : nat) : list Z :=
  r ← rs; match r with RCollect o => at_key k (points v o) | _ => [] end.
Theorem C18_overflow_refuted : exists (c : acfg) os, fair os /\
  let rs := (mrun (N:=Int64) c (m_init c) os).2 in
  totals_at overflow_set rs 0 = [2; 2; 2] /\ totals_at overflow_set rs 1 = [2; 2; 2].
Proof.
  pose (f := fun n : Z => [Ex.by_me 0 1 [("a"%string, VInt n)]]).
  pose (s := Ex.collect (fun _ => f 1 ++ f 2 ++ f 3 ++ f 4)).
  exists Ex.c, [Ex.reg [0%nat]; s; s; s].
  split. { apply fair_list. repeat (apply list.Forall_cons; split; [first [exact I|intros es; apply Permutation_refl]|]). by apply list.Forall_nil. }
  split; vm_compute; reflexivity.
Qed.

(** ** C19: an observation is recorded exactly when it is made with the observer of the callback that is running, for an instrument
    that callback was registered for, and with a number the instrument accepts (and some view of the reader wants the instrument). *)
Theorem C19_exactly : forall (N : arith) (c : acfg) os m rs order script m' o t r res,
  mrun (N:=N) c (m_init c) os = (m, rs) ->
  mexec c m (OCollect order script) = (m', RCollect o) -> co_ran o !! t = Some (r, res) ->
  length res = length (script r) /\
  forall n a x, script r !! n = Some a -> res !! n = Some x ->
    (x = Recorded <-> allowed c os r (runs_before rs + t) a).
Proof. exact @collect_allowed. Qed.

(** An observation made outside collections is refused and changes nothing. *)
Theorem C19_late : forall (N : arith) (c : acfg) os m rs a,
  mrun (N:=N) c (m_init c) os = (m, rs) -> mexec c m (OLate a) = (m, RLate AfterReturn).
Proof. intros N c os m rs a Hrun. exact (late_eq c m a _ (re_runs _ _ _ _ (reached_run _ _ _ _ Hrun))). Qed.

(** Observations that are not recorded have no effect: two collections in which the same observations are recorded report the same points and leave the same state. *)
Theorem C19_no_effect : forall (N : arith) (c : acfg) m order s s' m1 o1 m2 o2,
  mexec (N:=N) c m (OCollect order s) = (m1, RCollect o1) -> mexec c m (OCollect order s') = (m2, RCollect o2) ->
  recorded c s (co_ran o1) = recorded c s' (co_ran o2) -> m1 = m2 /\ co_points o1 = co_points o2.
Proof. exact @collect_same. Qed.
(** For instance the second callback of [Ex.script1] without its three refused observations. *)
Definition collected_of (x : mst (N:=Int64) * mres (N:=Int64)) : collected := match x.2 with RCollect o => o | _ => Collected [] [] end.
Example C19_no_effect_case :
  let m := (mrun Ex.c (m_init Ex.c) Ex.h1).1 in
  let s' := fun cb : nat => match cb with 0%nat => [Ex.by_me 0 5 Ex.A; Ex.by_me 0 7 Ex.A; Ex.by_me 0 10 Ex.AB] | _ => [Ex.by_me 1 (-3) Ex.B] end in
  let ran s := co_ran (collected_of (mexec Ex.c m (Ex.collect s))) in
  recorded Ex.c Ex.script1 (ran Ex.script1) = recorded Ex.c s' (ran s') /\ ran Ex.script1 <> ran s'.
Proof. cbv zeta. split; [vm_compute; reflexivity|]. vm_compute. done. Qed.

(** A goroutine of the callback can pass the check and act after the callback returned: then a point with value 0, which nobody observed, is
    reported by the next collection. *)
Theorem C19_in_flight_refuted : exists (c : acfg) os i l n order script k,
  let m := resume_late (N:=Int64) c i l n (mrun c (m_init c) os).1 in
  let o := collected_of (mexec c m (OCollect order script)) in
  (forall es, order es ≡ₚ es) /\
  get k (points 0 o) = Some 0 /\ k ∉ map (fun ob : obs (N:=Int64) => ob.1.2) (recorded c script (co_ran o)).
Proof.
  exists Ex.c, (Ex.h1 ++ [Ex.collect Ex.script1]), 0%nat, Ex.B, 55, Ex.same, Ex.script2, Ex.B.
  cbv zeta. split; [done|]. split; [vm_compute; reflexivity|]. apply (bool_decide_unpack _). vm_compute. exact I.
Qed.

(** ** C20: every collection runs each registered callback once, and no other. *)
Theorem C20_once : forall (N : arith) (c : acfg) os m rs order script m' o,
  mrun (N:=N) c (m_init c) os = (m, rs) ->
  mexec c m (OCollect order script) = (m', RCollect o) ->
  NoDup (map fst (co_ran o)) /\
  forall r, r ∈ map fst (co_ran o) <-> r ∈ registered_ids c os /\ ~ unregistered c os r.
Proof. exact @collect_once. Qed.

(** Registration succeeds exactly for a function and at least one instrument, all of this SDK and of this meter; otherwise it changes nothing. *)
Theorem C20_register : forall (N : arith) (c : acfg) os m rs objs f m' x,
  mrun (N:=N) c (m_init c) os = (m, rs) -> mexec c m (ORegister objs f) = (m', RRegister x) ->
  let valid := objs <> [] /\ f = true /\
    forall o, o ∈ objs -> exists i inst, o = Inst i /\ a_insts c !! i = Some inst /\ ai_meter inst = a_meter c in
  (x = Some (length (registered_ids c os)) /\ valid) \/ (x = None /\ m' = m /\ ~ valid).
Proof.
  intros N c os m rs objs f m' x Hrun E valid. unfold valid. rewrite <- (new_callback_ok c objs f). exact (register_spec c os m rs objs f m' x Hrun E).
Qed.

(** Unregister succeeds once for each registration and changes nothing afterwards. *)
Theorem C20_unregister : forall (N : arith) (c : acfg) os m rs r m' ok,
  mrun (N:=N) c (m_init c) os = (m, rs) -> mexec c m (OUnregister r) = (m', RUnregister ok) ->
  (ok = true <-> r ∈ registered_ids c os /\ ~ unregistered c os r) /\ (ok = false -> m' = m).
Proof. exact @unregister_spec. Qed.

(** Three callbacks, the first is unregistered twice: the second collection runs the other two. *)
Example C20_case :
  let os := [Ex.reg [0%nat]; Ex.reg [1%nat]; Ex.reg [0%nat]; Ex.reg [2%nat]; Ex.reg []; Ex.collect (fun _ => []); OUnregister 0; OUnregister 0; Ex.collect (fun _ => [])] in
  let rs := (mrun Ex.c (m_init Ex.c) os).2 in
  map (map fst) (Ex.answers_of rs) = [[0; 1; 2]; [2; 1]]%nat /\
  omap (fun r => match r with RUnregister b => Some b | _ => None end) rs = [true; false] /\
  omap (fun r => match r with RRegister x => Some x | _ => None end) rs = [Some 0; Some 1; Some 2; None; None]%nat.
Proof. vm_compute. auto. Qed.

Print Assumptions C17_cumulative.
Print Assumptions C17_int.
Print Assumptions C17_overflow.
Print Assumptions C18_step.
Print Assumptions C18_changes.
Print Assumptions C18_telescopes.
Print Assumptions C18_gap_refuted.
Print Assumptions C18_overflow_refuted.
Print Assumptions C19_exactly.
Print Assumptions C19_late.
Print Assumptions C19_no_effect.
Print Assumptions C19_in_flight_refuted.
Print Assumptions C20_once.
Print Assumptions C20_register.
Print Assumptions C20_unregister.
