(** C62: the constructors of a meter and the callbacks given to them. *)
From Coq Require Import ZArith Bool String Lia.
From stdpp Require Import base list option strings.
From Verif Require Import Lib Num Agg AggSpec Attr Async AsyncSpec AsyncProofs AsyncRun AsyncHist AsyncProps Inst InstSpec InstProofs InstMore.

(** Every constructor makes what its name says, and there is one for every sort of number and instrument. *)
Theorem C62_constructors :
  (forall name what, (name, what) ∈ constructors -> says name = Some what) /\
  (forall n k, exists name, (name, (n, k)) ∈ constructors) /\ NoDup (map fst constructors).
Proof.
  split; [|split].
  - assert (F : Forall (fun p => says p.1 = Some p.2) constructors) by (repeat (apply list.Forall_cons; split; [vm_compute; reflexivity|]); by apply list.Forall_nil).
    intros name what H. rewrite list.Forall_forall in F. exact (F _ H).
  - assert (X : forall n k, is_Some (List.find (fun p => bool_decide (p.2.1 = n) && bool_decide (p.2.2 = k)) constructors)).
    { intros [] []; vm_compute; eauto. }
    intros n k. destruct (X n k) as [[name [n' k']] E]. apply List.find_some in E as [Hi E]. cbn in E.
    apply andb_true_iff in E as [->%bool_decide_eq_true ->%bool_decide_eq_true]. exists name. by apply elem_of_list_In.
  - apply (bool_decide_unpack _). vm_compute. exact I.
Qed.

(** A creation registers every callback it is given, each a new one, whether or not the instrument exists already. *)
Theorem C62_created : forall (N : arith) (c : acfg) l st rs i fs st' ids,
  irun (N:=N) c (i_init c) l = Some (st, rs) -> iexec c st (ICreate i fs) = Some (st', IRCreated ids) -> of_meter c i ->
  length ids = length fs /\ NoDup ids /\ forall r, r ∈ ids -> r ∉ map fst (made l rs) /\ r ∉ given l rs.
Proof.
  intros N c l st rs i fs st' ids R E O. pose proof (sim_run _ _ _ _ R) as S. destruct (s_base _ _ _ _ S) as (os & mrs & B & _).
  cbn [iexec] in E. destruct (register_callbacks c i fs st) as [st1 ids1] eqn:Er. simplify_eq.
  destruct (register_callbacks_base c os mrs st i fs B O) as (_ & _ & _ & _ & _ & _ & _ & I'). rewrite Er in I'. cbn in I'. subst ids.
  split; [by rewrite seq_length|]. split; [apply NoDup_ListNoDup, seq_NoDup|]. intros r Hr. apply elem_of_list_In, in_seq in Hr. split.
  - intros ((r' & j) & -> & Hj)%elem_of_list_fmap. apply (s_made _ _ _ _ S) in Hj as [b Hb]. apply lookup_lt_Some in Hb. cbn in *. lia.
  - intros Hg. apply (s_given _ _ _ _ S) in Hg. apply (b_handles _ _ _ _ B) in Hg. apply lookup_lt_Some in Hg. lia.
Qed.

(** From then on every collection runs it exactly once, whatever is unregistered: a collection runs the callbacks of all creations and those of
    RegisterCallback that were not unregistered, and each of them once. *)
Theorem C62_once : forall (N : arith) (c : acfg) l st rs order script st' o,
  irun (N:=N) c (i_init c) l = Some (st, rs) -> iexec c st (ICollect order script) = Some (st', IRCollected o) ->
  NoDup (map fst (co_ran o)) /\
  forall r, r ∈ map fst (co_ran o) <-> r ∈ map fst (made l rs) \/ r ∈ given l rs /\ r ∉ taken l rs.
Proof.
  intros N c l st rs order script st' o R E. pose proof (sim_run _ _ _ _ R) as S.
  destruct (collect_as _ _ _ _ _ _ _ _ S E) as (os & mrs & script' & B & _ & E' & _ & F). split.
  - apply (collect_once c os _ mrs order script' _ o (b_run _ _ _ _ B) E').
  - intros r. rewrite F, (cbs_are c l rs st r S), elem_of_list_fmap. split; (intros [H|H]; [left|by right]).
    + destruct H as [i H]. by exists (r, i).
    + destruct H as ((r' & i) & -> & H). by exists i.
Qed.

(** What such a callback observes counts for its own instrument: with the observer it was given it is answered "recorded" for every number in range
    (or "disabled", when no view of the reader wants the instrument); with the observer of any earlier run, of whatever callback, it is refused. *)
Theorem C62_own : forall (N : arith) (c : acfg) l st rs order script st' o t r res i inst,
  irun (N:=N) c (i_init c) l = Some (st, rs) -> iexec c st (ICollect order script) = Some (st', IRCollected o) ->
  co_ran o !! t = Some (r, res) -> (r, i) ∈ made l rs -> a_insts c !! i = Some inst ->
  length res = length (script r) /\
  forall n a x, script r !! n = Some a -> res !! n = Some x ->
    (at_cs a = None -> x = if range_test (at_val a) (ai_kind inst) then if bool_decide (ai_views inst = []) then Disabled else Recorded else OutOfRange) /\
    (forall k, at_cs a = Some k -> (k < runs_so_far rs)%nat -> x = AfterReturn).
Proof.
  intros N c l st rs order script st' o t r res i inst R E Ht Hm Hi. pose proof (sim_run _ _ _ _ R) as S.
  destruct (collect_as _ _ _ _ _ _ _ _ S E) as (os & mrs & script' & B & _ & E' & Es & F).
  assert (Er : script' r = map (through (i_origin st) (i_table st ++ m_cbs (i_m st)) r) (script r)) by (by rewrite Es).
  destruct (collect_allowed c os _ mrs order script' _ o t r res (b_run _ _ _ _ B) E' Ht) as [L _]. rewrite Er, map_length in L. split; [done|].
  intros n a x Ha Hx.
  assert (Ha' : script' r !! n = Some (through (i_origin st) (i_table st ++ m_cbs (i_m st)) r a)) by (rewrite Er, list_lookup_fmap, Ha; done).
  destruct (answer_is _ _ _ _ _ _ _ _ _ _ _ _ _ _ (b_run _ _ _ _ B) E' Ht Ha' Hx) as [Hc ->]. cbv zeta. split.
  - intros Hcs. rewrite verdict_mine by (by rewrite through_cs, Hcs).
    rewrite (through_mine (i_origin st) _ r a (runs_before mrs + t)); [|by rewrite Hcs|by apply (runs_at c st os)].
    apply (s_made _ _ _ _ S) in Hm as [b Hb]. unfold owner. rewrite Hb. cbn [at_obj at_val]. rewrite (b_own _ _ _ _ B _ _ _ Hb). cbn [from_option id existsb].
    rewrite Nat.eqb_refl, Hi. cbn [orb]. destruct (range_test _ _); [|done]. by destruct (ai_views inst).
  - intros k Hk Hl. rewrite <- (table_length _ _ _ _ R), (b_table _ _ _ _ B) in Hl. apply verdict_other. rewrite through_cs, Hk. cbn. lia.
Qed.
(** Nothing is recorded when the program uses such an observer outside collections. *)
Theorem C62_late : forall (N : arith) (c : acfg) l st rs a,
  irun (N:=N) c (i_init c) l = Some (st, rs) -> iexec c st (ILate a) = Some (st, IRLate AfterReturn).
Proof.
  intros N c l st rs a R. pose proof (sim_run _ _ _ _ R) as [(os & mrs & B & _) _ _ _]. cbn [iexec].
  rewrite (late_eq c (i_m st) _ _ (re_runs _ _ _ _ (reached_run _ _ _ _ (b_run _ _ _ _ B)))). by destruct st.
Qed.

(** A cumulative view or gauge reports what the callbacks said in the collection: a point for every attribute set, with the sum of the last
    observations of the series that have it, or one of them for a gauge. *)
Theorem C62_points : forall (N : arith) (c : acfg) l st rs order script st' o v w,
  irun (N:=N) c (i_init c) l = Some (st, rs) -> iexec c st (ICollect order script) = Some (st', IRCollected o) -> (forall es, order es ≡ₚ es) ->
  a_views c !! v = Some w -> stateful w = false ->
  let ins := inputs c v w (said c (made l rs) script (co_ran o)) in
  (distinct ins < av_limit w)%nat ->
  NoDup (map fst (points v o)) /\
  (forall k, k ∈ map fst (points v o) <-> k ∈ map fst ins) /\
  (forall k x, (k, x) ∈ points v o -> if av_gauge w then x ∈ at_key k ins else adds (at_key k ins) x).
Proof.
  intros N c l st rs order script st' o v w R E Ho Hv Hs.
  destruct (said_recorded c l rs st order script st' o (sim_run _ _ _ _ R) E) as (os & mrs & script' & R' & E' & <-).
  exact (C17_cumulative N c os _ mrs order script' _ o v w R' E' Ho Hv Hs).
Qed.

(** A collection panics exactly when some creation was given a nil callback: the wrapper of asyncinst.go:76 and 87 hides it from the check in RegisterCallback,
    and nothing can remove it again. *)
Theorem C62_panics : forall (N : arith) (c : acfg) l st rs order script,
  irun (N:=N) c (i_init c) l = Some (st, rs) ->
  iexec c st (ICollect order script) = None <-> exists i fs, ICreate i fs ∈ l /\ of_meter c i /\ false ∈ fs.
Proof. intros N c l st rs order script R. exact (panics_iff c l st rs order script R). Qed.

(** ** A concrete program, with the meter of [AsyncProps.Ex]: the counter 0 is created with two callbacks and then again with one of these, the gauge 1 with
    one; a callback registered for the counter is unregistered again, and something that was never given is tried. *)
Module Ex62.
Import AsyncProps.Ex.
Local Open Scope Z_scope.
Definition own (n : Z) (l : list kv) : attempt (N:=Int64) := Attempt (N:=Int64) None Foreign n l.
Definition script (cb : nat) : list (attempt (N:=Int64)) :=
  match cb with
  | 0%nat => [own 5 A]
  | 1%nat => [own 7 AB; own 2 A]
  | 2%nat => [own (-3) B]
  | 4%nat => [own 6 A; Attempt (N:=Int64) (Some 0%nat) (Inst 0) 9 A]
  | _ => [by_me 0 1 A]
  end.
Definition l : list (iop (N:=Int64)) :=
  [ICreate 0 [true; true]; ICreate 1 [true]; IRegister [Inst 0%nat] true; ICreate 0 [true]; ICollect same script; IUnregister 3; IUnregister 0; ILate (own 4 A)].
Definition st : ist (N:=Int64) := match irun c (i_init c) l with Some (st, _) => st | None => i_init c end.
Definition rs : list (ires (N:=Int64)) := match irun c (i_init c) l with Some (_, rs) => rs | None => [] end.
Definition is_some {A} (x : option A) : bool := match x with Some _ => true | None => false end.
Definition ran_of (x : option (ist (N:=Int64) * ires (N:=Int64))) : list (nat * list result) :=
  match x with Some (_, IRCollected o) => co_ran o | _ => [] end.
Definition points_of (x : option (ist (N:=Int64) * ires (N:=Int64))) : list (list (list kv * Z)) :=
  match x with Some (_, IRCollected o) => co_points o | _ => [] end.
Example runs : irun c (i_init c) l = Some (st, rs).
Proof.
  assert (H : is_some (irun c (i_init c) l) = true) by (vm_compute; reflexivity).
  unfold st, rs. destruct (irun c (i_init c) l) as [[? ?]|]; done.
Qed.
Example results : made l rs = [(0, 0); (1, 0); (2, 1); (4, 0)]%nat /\ given l rs = [3%nat] /\ taken l rs = [3%nat] /\
  ran_of (iexec c st (ICollect same script)) = [(0, [Recorded]); (1, [Recorded; Recorded]); (2, [Recorded]); (4, [Recorded; AfterReturn])]%nat /\
  points_of (iexec c st (ICollect same script)) = [[(sA, 6); (sAB, 7)]; []; [(B, -3)]; [(sA, 13)]].
Proof. split_and!; vm_compute; reflexivity. Qed.
Example of_meters : of_meter c 0 /\ of_meter c 1 /\ ~ of_meter c 2.
Proof. unfold of_meter. split_and!; [eexists; split; reflexivity..|]. intros (x & [= <-] & H). done. Qed.
(** RegisterCallback refuses a nil function, creation does not. *)
Definition l_nil : list (iop (N:=Int64)) := [IRegister [Inst 0%nat] false; ICreate 0 [true; false]].
Example nil_case :
  match irun c (i_init c) l_nil with
  | Some (st, rs) => made l_nil rs = [(0, 0); (1, 0)]%nat /\ given l_nil rs = [] /\ is_some (iexec c st (ICollect same script)) = false
  | None => False
  end.
Proof. vm_compute. auto. Qed.
End Ex62.

Print Assumptions C62_constructors.
Print Assumptions C62_created.
Print Assumptions C62_once.
Print Assumptions C62_own.
Print Assumptions C62_late.
Print Assumptions C62_points.
Print Assumptions C62_panics.
