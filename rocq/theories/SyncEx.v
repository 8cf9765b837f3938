(** A concrete configuration and concrete schedules of the synchronous model, used to show that the
    hypotheses of the theorems of SyncProps are met.  Nothing here models Go code. *)
From Coq Require Import ZArith Bool.
From stdpp Require Import base list option.
From Verif Require Import Base SyncModel SyncRun SyncSpec SyncSafe.
Local Open Scope Z_scope.

(** Attributes are pairs; fingerprints collide modulo [m]; view 0 (delta, reader 0) keeps both members,
    views 1 (cumulative) and 2 (delta) of reader 1 keep the first only.  Instrument 0 feeds all views, instrument 1 view 1 only.
    [ig]: ignore collisions. *)
Definition ex_config (m : Z) (vlim : nat) (ilim : Z) (ig : bool) : config :=
  Config Zmon Z (fun _ n => n) (fun _ a => negb (a =? 0)) (Z * Z) (fun k => (3 * k.1 + k.2) mod m)
         (fun k k' => (k.1 =? k'.1) && (k.2 =? k'.2)) (Z * Z) _
         (fun v k => match v with O => k | _ => (k.1, 0) end) (-1, 0) (-1, 0)
         [View true 0 vlim; View false 1 vlim; View true 1 vlim] [[0; 1; 2]%nat; [1]%nat] 2 ilim ig.

(** A call run to its end, a collection run to its end, a call or collection begun, some steps of a thread. *)
Inductive act := Call (o : nat) (k : Z * Z) (n : Z) | Coll (rd : nat) | Begin (o : nat) (k : Z * Z) (n : Z)
               | BeginColl (rd : nat) | Steps (t n : nat) | Finish (t : nat).

Section play.
Context (m : Z) (vlim : nat) (ilim : Z) (ig : bool).
Notation c := (ex_config m vlim ilim ig).
Fixpoint steps (fuel t : nat) (s : state c) : list (label c) * state c :=
  match fuel with
  | O => ([], s)
  | S f => match step s (LStep t 0) with
           | Some s' => let '(ls, s'') := steps f t s' in (LStep t 0 :: ls, s'')
           | None => ([], s)
           end
  end.
Definition begin (l : label c) (s : state c) : state c := default s (step s l).
Definition play1 (a : act) (s : state c) : list (label c) * state c :=
  match a with
  | Call o k n => let '(ls, s') := steps 500 (length (s_thr s)) (begin (LObserve (c:=c) o k n) s) in (LObserve (c:=c) o k n :: ls, s')
  | Coll rd => let '(ls, s') := steps 500 (length (s_thr s)) (begin (LCollect rd) s) in (LCollect rd :: ls, s')
  | Begin o k n => ([LObserve (c:=c) o k n], begin (LObserve (c:=c) o k n) s)
  | BeginColl rd => ([LCollect rd], begin (LCollect rd) s)
  | Steps t n => steps n t s
  | Finish t => steps 500 t s
  end.
Fixpoint play (l : list act) (s : state c) : list (label c) :=
  match l with
  | [] => []
  | a :: l => let '(ls, s') := play1 a s in ls ++ play l s'
  end.
Definition sched (l : list act) : list (label c) := play l (init c).
Definition after (ls : list (label c)) : state c := default (init c) (run (init c) ls).
Definition ran (ls : list (label c)) : bool := match run (init c) ls with Some _ => true | None => false end.
Lemma ran_run ls : ran ls = true -> run (init c) ls = Some (after ls).
Proof. unfold ran, after. by destruct (run (init c) ls). Qed.

Definition b_none (s : state c) : bool := forallb (fun p => negb (flying p)) (s_thr s).
Lemma b_none_spec s : b_none s = true -> forall t p, s_thr s !! t = Some p -> flying p = false.
Proof.
  unfold b_none. rewrite forallb_forall. intros H t p Hp. apply negb_true_iff, H, elem_of_list_In. by eapply elem_of_list_lookup_2.
Qed.
Lemma b_nobody_spec i (s : state c) : forallb (fun p => negb (uses i p)) (s_thr s) = true ->
  forall t p, s_thr s !! t = Some p -> uses i p = false.
Proof.
  rewrite forallb_forall. intros H t p Hp. apply negb_true_iff, H, elem_of_list_In. by eapply elem_of_list_lookup_2.
Qed.
Lemma b_calls_spec (ls : list (label c)) : existsb is_call ls = false -> forall o k n, LObserve o k n ∉ ls.
Proof.
  intros H o k n Hin. apply not_true_iff_false in H. apply H, existsb_exists. exists (LObserve o k n). split; [by apply elem_of_list_In|done].
Qed.
Definition done_at (s : state c) (t : nat) : bool :=
  match s_thr s !! t with Some PDone | Some QDone => true | _ => false end.
Lemma b_quiet ls0 rd ls :
  ran ls0 && ran (ls0 ++ LCollect rd :: ls) && b_none (after ls0) && negb (existsb is_call ls) &&
  match s_thr (after (ls0 ++ LCollect rd :: ls)) !! length (s_thr (after ls0)) with Some QDone => true | _ => false end &&
  (Z.of_nat (length (List.filter is_call (ls0 ++ LCollect rd :: ls))) <? 4294967296) = true ->
  quiet ls0 (after ls0) rd ls (after (ls0 ++ LCollect rd :: ls)).
Proof.
  rewrite !andb_true_iff. intros (((((H1 & H2) & H3) & H4) & H5) & H6). apply ran_run in H1, H2. constructor.
  - done.
  - rewrite run_app, H1 in H2. exact H2.
  - by apply b_none_spec.
  - apply b_calls_spec. by apply negb_true_iff.
  - destruct (s_thr (after (ls0 ++ LCollect rd :: ls)) !! length (s_thr (after ls0))) as [[]|]; try done.
  - apply few_calm. by apply Z.ltb_lt.
Qed.
Lemma b_misplaced ls x :
  ran ls && match s_log (after ls) !! x with
            | Some u => match calls ls !! u_tid u with
                        | Some (LObserve o k n) => (n =? u_num u) && negb (bool_decide (u_key u = c_vkey c (u_view u) k)) &&
                                                   negb (bool_decide (u_key u = c_ovkey c))
                        | _ => false
                        end
            | None => false
            end = true ->
  exists s u o k, run (init c) ls = Some s /\ s_log s !! x = Some u /\ calls ls !! u_tid u = Some (LObserve o k (u_num u)) /\
    u_key u <> c_vkey c (u_view u) k /\ u_key u <> c_ovkey c.
Proof.
  rewrite andb_true_iff. intros [H1 H2]. apply ran_run in H1. destruct (s_log (after ls) !! x) as [u|] eqn:E1; [|done].
  destruct (calls ls !! u_tid u) as [[o k n| |]|] eqn:E2; try done. rewrite !andb_true_iff in H2. destruct H2 as [[H2 H3] H4].
  apply Z.eqb_eq in H2. subst n. apply negb_true_iff, bool_decide_eq_false_1 in H3, H4.
  exists (after ls), u, o, k. done.
Qed.
(** A point as a row: collection, view, series, aggregate; likewise what a call recorded. *)
Definition row (p : point c) : Z * Z * (Z * Z) * Z := (Z.of_nat (p_tid p), Z.of_nat (p_view p), p_key p, p_agg p).
Definition erow (h : holder c) : Z * (Z * Z) := (Z.of_nat (h_view h), h_key h).
Definition urow (u : nat * c_num c) : Z * Z := (Z.of_nat u.1, u.2).
Definition lrow (l : label c) : option (Z * (Z * Z) * Z) := match l with LObserve o k n => Some (Z.of_nat o, k, n) | _ => None end.
End play.
Arguments row {m vlim ilim ig} _.
Arguments erow {m vlim ilim ig} _.
Arguments urow {m vlim ilim ig} _.

Arguments lrow {m vlim ilim ig} _.
Arguments done_at {m vlim ilim ig} _ _.
