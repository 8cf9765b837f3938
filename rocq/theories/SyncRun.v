(** Induction over runs, with the schedule in view; predicates that hold of every stored aggregate. *)
From Coq Require Import ZArith Lia Bool.
From stdpp Require Import base list option.
From Verif Require Import Base Lib SyncModel SyncSpec SyncInv SyncStep SyncStepB SyncCases.
Local Open Scope Z_scope.

(** Names for the hypotheses of every kind of step. *)
Ltac stepR_cases H :=
  destruct H as
    [o k n k' i r Ht W Hk F Hr Hl Ho
    |o k n Ht W F1 F2
    |o k n i r Ht W F Hr Hl Ho
    |o k n Ht W F Hlt
    |i n r Ht Hr Ho
    |i n r Ht Hr Ho
    |i n j r v s1 h hd Ht Hr Ho Hj Hv W G S1 Hh Hl Hhv
    |i n j r Ht Hr Ho Hj Hv
    |i n j r a hd Ht Hr Ha Hh
    |i n j r Ht Hr Ha
    |i r Ht Hr
    |i r Ht Hr
    |rd Ht
    |rd o os Ht W
    |q Ht Hj
    |q ch i Ht Hj
    |q i r Ht Hr Hs Hp
    |q i r Ht Hr Hs Hp
    |q i r Ht Hr Hs
    |q i r Ht Hr Hv
    |q i r Ht Hr Hv
    |q i r Ht Hr Hv
    |q i r Ht Hr Hv
    |q i r Ht Hr Hs
    |q i unm r Ht Hr D Ho
    |q i mods ph j r a Ht Hr Ha
    |q i mods ph j r Ht Hr Ha Hph
    |q i mods j r Ht Hr Ha
    |q i mods ph j a r ac hd Ht Hr Ha Hh
    |q i mods ph j r ac hd Ht Hr Ha Hh Hph
    |rd Ht
    |rd v vs Ht W
    |rd vs v Ht
    |rd vs v todo ch h hd Ht Hc Hh Hl Hv D
    |rd vs v todo ch h hd Ht Hc Hh Hl Hv D
    |rd vs v todo h refs hd Ht Hh Hl Hv D
    |rd vs v todo h refs a hd Ht Hh Hl Hv D Hch
    |rd vs v todo h a hd Ht Hh Hl Hv D Hch
    |rd vs v todo h refs a hd Ht Hh Hl Hv D Hch Hz].

Ltac inv_I I := pose proof (I_wl _ _ _ _ _ I) as Iwl; pose proof (I_il _ _ _ _ _ I) as Iil;
  pose proof (I_T _ _ _ _ _ I) as IT; pose proof (I_R _ _ _ _ _ I) as IR;
  pose proof (I_H _ _ _ _ _ I) as IH; pose proof (I_U _ _ _ _ _ I) as IU.

Ltac snorm := cbn [goto set_thr upd_rec set_recs upd_hold set_holds set_wl set_il add_log add_out add_drop
                   s_recs s_holds s_thr s_wl s_il s_log s_out s_drop] in *.

Section run.
Context {c : config}.
Notation A := (car (c_mon c)).
Notation st := (state c).
Implicit Types (ls : list (label c)) (s : st).

Lemma run_app s ls ls' : run s (ls ++ ls') = match run s ls with Some s' => run s' ls' | None => None end.
Proof. revert s. induction ls as [|l ls IH]; intros s; cbn; [done|]. destruct (step s l); [apply IH|done]. Qed.

Lemma run_ind_from (P : list (label c) -> st -> Prop) ls0 s0 :
  run (init c) ls0 = Some s0 ->
  P ls0 s0 ->
  (forall ls s o k n, run (init c) ls = Some s -> Inv s -> P ls s -> (o < length (c_insts c))%nat ->
     P (ls ++ [LObserve o k n]) (set_thr (fun l => l ++ [PRead o k n]) s)) ->
  (forall ls s rd, run (init c) ls = Some s -> Inv s -> P ls s ->
     P (ls ++ [LCollect rd]) (set_thr (fun l => l ++ [QLock rd (seq 0 (length (c_insts c)))]) s)) ->
  (forall ls s t ch s', run (init c) ls = Some s -> Inv s -> Inv s' -> P ls s -> stepR s t s' ->
     P (ls ++ [LStep t ch]) s') ->
  forall ls s, run s0 ls = Some s -> P (ls0 ++ ls) s.
Proof.
  intros R0 P0 H1 H2 H3 ls. induction ls as [|l ls IHl] using rev_ind; intros s E.
  { cbn in E. inversion E; subst. by rewrite app_nil_r. }
  rewrite run_app in E. destruct (run s0 ls) as [s1|] eqn:E1; [|done].
  cbn in E. destruct (step s1 l) as [s2|] eqn:S; [|done]. inversion E; subst s2.
  specialize (IHl _ eq_refl).
  assert (run (init c) (ls0 ++ ls) = Some s1) as R1 by (by rewrite run_app, R0).
  assert (Inv s1) as I1 by (apply reachable_inv; by exists (ls0 ++ ls)).
  assert (Inv s) as I2 by (by eapply step_inv).
  rewrite app_assoc.
  destruct l as [o k n|rd|t ch]; cbn [step] in S.
  - destruct (Nat.ltb_spec o (length (c_insts c))); inversion S; subst. by apply H1.
  - inversion S; subst. by apply H2.
  - destruct (s_thr s1 !! t) as [p|] eqn:Ht; [|done]. apply (H3 _ s1); [done..|]. by eapply step_cases.
Qed.
Lemma run_ind (P : list (label c) -> st -> Prop) :
  P [] (init c) ->
  (forall ls s o k n, run (init c) ls = Some s -> Inv s -> P ls s -> (o < length (c_insts c))%nat ->
     P (ls ++ [LObserve o k n]) (set_thr (fun l => l ++ [PRead o k n]) s)) ->
  (forall ls s rd, run (init c) ls = Some s -> Inv s -> P ls s ->
     P (ls ++ [LCollect rd]) (set_thr (fun l => l ++ [QLock rd (seq 0 (length (c_insts c)))]) s)) ->
  (forall ls s t ch s', run (init c) ls = Some s -> Inv s -> Inv s' -> P ls s -> stepR s t s' ->
     P (ls ++ [LStep t ch]) s') ->
  forall ls s, run (init c) ls = Some s -> P ls s.
Proof. intros P0 H1 H2 H3 ls s R. by apply (run_ind_from P [] (init c)). Qed.

(** A predicate on aggregates, relative to the log, that is closed under everything the program
    does with aggregates, holds of every aggregate stored or output. *)
Section cells.
Context (P : list (upd c) -> A -> Prop).
Definition cells s : Prop :=
  (forall i r j a, s_recs s !! i = Some r -> r_accs r !! j = Some a -> P (s_log s) (a_cur a)) /\
  (forall h hd, s_holds s !! h = Some hd -> P (s_log s) (h_sto hd)) /\
  (forall t q i m ph j a, s_thr s !! t = Some (QMerge q i m ph j a) -> P (s_log s) a) /\
  (forall t rd vs v todo h refs a, s_thr s !! t = Some (QDecide rd vs v todo h refs a) -> P (s_log s) a) /\
  (forall i p, s_out s !! i = Some p -> P (s_log s) (p_agg p)) /\
  (forall i p, s_drop s !! i = Some p -> P (s_log s) (p_agg p)).

Context (P_mu : forall l, P l mu)
        (P_op : forall l a b, P l a -> P l b -> P l (mop a b))
        (P_mono : forall l u a, P l a -> P (l ++ [u]) a)
        (P_inj : forall l u, P (l ++ [u]) (c_inj c (length l) (u_num u))).

Lemma cells_step s s' t : stepR s t s' -> cells s -> cells s'.
Proof.
  intros H (C1 & C2 & C3 & C4 & C5 & C6).
  assert (QM : forall p q i m ph j a t', (forall q i m ph j a, p <> QMerge q i m ph j a) ->
    <[t:=p]> (s_thr s) !! t' = Some (QMerge q i m ph j a) -> P (s_log s) a).
  { intros p q i m ph j a t' Hp Hl. apply lookup_insert_inv in Hl as [(_ & E & _)|(_ & Hl)]; [|by eapply C3].
    by destruct (Hp _ _ _ _ _ _ E). }
  assert (QD : forall p rd vs v todo h refs a t', (forall rd vs v todo h refs a, p <> QDecide rd vs v todo h refs a) ->
    <[t:=p]> (s_thr s) !! t' = Some (QDecide rd vs v todo h refs a) -> P (s_log s) a).
  { intros p q i m ph j a h t' Hp Hl. apply lookup_insert_inv in Hl as [(_ & E & _)|(_ & Hl)]; [|by eapply C4].
    by destruct (Hp _ _ _ _ _ _ _ E). }
  assert (RU : forall i r r', s_recs s !! i = Some r -> r_accs r' = r_accs r ->
    forall i0 r0 j a, <[i:=r']> (s_recs s) !! i0 = Some r0 -> r_accs r0 !! j = Some a -> P (s_log s) (a_cur a)).
  { intros i r r' Hr E i0 r0 j a H0 Ha. apply lookup_insert_inv in H0 as [(_ & <- & _)|(_ & H0)]; [|by eapply C1].
    rewrite E in Ha. by eapply C1. }
  stepR_cases H; unfold cells; snorm.
  all: split_and!; try done;
    try (intros; eapply QM; [|done]; intros; congruence);
    try (intros; eapply QD; [|done]; intros; congruence);
    try (intros i0 r0 j0 a0 H0 Ha0; by eapply (RU i r); [..|exact H0|exact Ha0]).
  - intros i0 r0 j0 a0 H0 Ha0. apply lookup_snoc in H0 as [H0|[-> ->]]; [by eapply C1|done].
  - intros i0 r0 j0 a0 H0 Ha0.
    assert (s_log s1 = s_log s /\ s_recs s1 = s_recs s) as [E1 E2] by (by destruct S1 as [->|(? & -> & _)]).
    rewrite E1. rewrite E2 in H0. apply lookup_insert_inv in H0 as [(_ & <- & _)|(_ & H0)]; [|by eapply C1].
    cbn in Ha0. apply lookup_snoc in Ha0 as [Ha0|[_ ->]]; [by eapply C1|apply P_mu].
  - intros h0 hd0 H0. assert (s_log s1 = s_log s) as E1 by (by destruct S1 as [->|(? & -> & _)]). rewrite E1.
    assert (forall h hd, s_holds s1 !! h = Some hd -> P (s_log s) (h_sto hd)) as C2'.
    { intros h1 hd1 H1. destruct S1 as [->|(? & -> & _)]; [by eapply C2|].
      cbn in H1. apply lookup_snoc in H1 as [H1|[_ ->]]; [by eapply C2|apply P_mu]. }
    apply lookup_insert_inv in H0 as [(_ & <- & _)|(_ & H0)]; [|by eapply C2']. cbn. by eapply C2'.
  - intros t0 q0 i0 m0 ph0 j0 a0 H0. assert (s_log s1 = s_log s /\ s_thr s1 = s_thr s) as [E1 E2] by (by destruct S1 as [->|(? & -> & _)]).
    rewrite E1. rewrite E2 in H0. by eapply QM; [|done].
  - intros t0 q0 i0 m0 ph0 j0 a0 a1 H0. assert (s_log s1 = s_log s /\ s_thr s1 = s_thr s) as [E1 E2] by (by destruct S1 as [->|(? & -> & _)]).
    rewrite E1. rewrite E2 in H0. by eapply QD; [|done].
  - intros i0 p0 H0. assert (s_log s1 = s_log s /\ s_out s1 = s_out s) as [E1 E2] by (by destruct S1 as [->|(? & -> & _)]).
    rewrite E1. rewrite E2 in H0. by eapply C5.
  - intros i0 p0 H0. assert (s_log s1 = s_log s /\ s_drop s1 = s_drop s) as [E1 E2] by (by destruct S1 as [->|(? & -> & _)]).
    rewrite E1. rewrite E2 in H0. by eapply C6.
  - intros i0 r0 j0 a0 H0 Ha0. apply lookup_insert_inv in H0 as [(_ & <- & _)|(_ & H0)]; [|apply P_mono; by eapply C1].
    cbn in Ha0. apply lookup_insert_inv in Ha0 as [(_ & <- & _)|(_ & Ha0)]; [|apply P_mono; by eapply C1].
    cbn. apply P_op; [apply P_mono; by eapply C1|].
    apply (P_inj (s_log s) (Upd (c:=c) t (h_view hd) (h_key hd) n)).
  - intros; apply P_mono; by eapply C2.
  - intros; apply P_mono; eapply QM; [|done]; intros; congruence.
  - intros; apply P_mono; eapply QD; [|done]; intros; congruence.
  - intros; apply P_mono; by eapply C5.
  - intros; apply P_mono; by eapply C6.
  - intros i0 r0 j0 a0 H0 Ha0. apply lookup_insert_inv in H0 as [(_ & <- & _)|(_ & H0)]; [|by eapply C1].
    cbn in Ha0. apply lookup_insert_inv in Ha0 as [(_ & <- & _)|(_ & Ha0)]; [|by eapply C1].
    cbn. apply P_mu.
  - intros t0 q0 i0 m0 ph0 j0 a0 H0. apply lookup_insert_inv in H0 as [(_ & E & _)|(_ & H0)]; [|by eapply C3].
    inversion E; subst. by eapply C1.
  - intros h0 hd0 H0. apply lookup_insert_inv in H0 as [(_ & <- & _)|(_ & H0)]; [|by eapply C2].
    cbn. apply P_op; [by eapply C2|by eapply C3].
  - intros; eapply QM; [|done]. intros. by destruct ph as [[]|].
  - intros; eapply QD; [|done]. intros. by destruct ph as [[]|].
  - intros h0 hd0 H0. apply lookup_insert_inv in H0 as [(_ & <- & _)|(_ & H0)]; [|by eapply C2].
    cbn. by eapply C2.
  - intros i0 p0 H0. apply lookup_snoc in H0 as [H0|[_ ->]]; [by eapply C5|]. cbn. by eapply C2.
  - intros h0 hd0 H0. apply lookup_insert_inv in H0 as [(_ & <- & _)|(_ & H0)]; [|by eapply C2].
    cbn. apply P_mu.
  - intros t0 q0 i0 m0 ph0 j0 a0 a1 H0. apply lookup_insert_inv in H0 as [(_ & E & _)|(_ & H0)]; [|by eapply C4].
    inversion E; subst. by eapply C2.
  - intros i0 p0 H0. apply lookup_snoc in H0 as [H0|[_ ->]]; [by eapply C5|]. cbn. by eapply C4.
  - intros h0 hd0 H0. apply lookup_insert_inv in H0 as [(_ & <- & _)|(_ & H0)]; [|by eapply C2].
    cbn. by eapply C2.
  - intros i0 p0 H0. apply lookup_snoc in H0 as [H0|[_ ->]]; [by eapply C6|]. cbn. by eapply C4.
  - intros i0 p0 H0. apply lookup_snoc in H0 as [H0|[_ ->]]; [by eapply C6|]. cbn. by eapply C4.
Qed.
Lemma cells_reachable s : reachable s -> cells s.
Proof.
  apply (reachable_ind cells).
  - split_and!; by intros.
  - intros s0 o k n _ (C1 & C2 & C3 & C4 & C5 & C6) _. split_and!; try done.
    + intros t q i m ph j a H. cbn in H. apply lookup_snoc in H as [H|[_ ?]]; [by eapply C3|done].
    + intros t q i m ph j a a0 H. cbn in H. apply lookup_snoc in H as [H|[_ ?]]; [by eapply C4|done].
  - intros s0 rd _ (C1 & C2 & C3 & C4 & C5 & C6). split_and!; try done.
    + intros t q i m ph j a H. cbn in H. apply lookup_snoc in H as [H|[_ ?]]; [by eapply C3|done].
    + intros t q i m ph j a a0 H. cbn in H. apply lookup_snoc in H as [H|[_ ?]]; [by eapply C4|done].
  - intros s0 t s1 _ _ C H. by apply (cells_step s0 s1 t).
Qed.
End cells.
End run.
