(** Properties of the rate limiter: C47. *)
From Coq Require Import ZArith Bool Lia.
From stdpp Require Import base list option.
From Verif Require Import Every EverySpec EveryProofs.
Local Open Scope Z_scope.

(** Two calls of one call site are never admitted within a period of each other. *)
Theorem C47_apart t0 l s l1 th k d t l2 th' d' t' l3 : runs (initial t0) l s -> l = l1 ++ EAdmit th k d t :: l2 ++ EAdmit th' k d' t' :: l3 -> d' < t' - t.
Proof.
  intros R%inv_runs E. rewrite app_comm_cons, app_assoc in E. destruct (i_gap _ _ _ R _ _ _ _ _ _ E) as (_ & _ & G). apply G. rewrite admitted_app. apply elem_of_app. right. cbn. destruct (decide (k = k)); [by left|done].
Qed.
(** A call is refused only when its call site was admitted no more than a period ago; so the first is admitted, and so is one a full
    period after the last. *)
Theorem C47_refused t0 l s l1 th k d t l2 : runs (initial t0) l s -> l = l1 ++ ERefuse th k d t :: l2 -> exists t', list.last (admitted k l1) = Some t' /\ t - t' <= d.
Proof. intros R%inv_runs E. by destruct (i_refuse _ _ _ R _ _ _ _ _ _ E) as (_ & G). Qed.
(** Every diagnostic comes from its own admission, not before it; with no call under way none is missing. *)
Theorem C47_emits_once t0 l s k : runs (initial t0) l s -> emitted_for k l ⊆+ admitted k l.
Proof. intros R%inv_runs. destruct (i_pend _ _ _ R) as (pend & _ & _ & P). rewrite (P k). apply submseteq_inserts_r. done. Qed.
Theorem C47_after t0 l s th k m t : runs (initial t0) l s -> EInvoke th (Some (k, m)) t ∈ l -> m <= t <= st_now s.
Proof. intros R%inv_runs. apply (i_after _ _ _ R). Qed.
Theorem C47_emits_all t0 l s k : runs (initial t0) l s -> (forall th, st_pc s th = Idle) -> admitted k l ≡ₚ emitted_for k l.
Proof.
  intros R%inv_runs Id. destruct (i_pend _ _ _ R) as (pend & _ & Pp & P). destruct pend as [|[th r] pend]; [rewrite (P k); cbn; by rewrite app_nil_r|].
  assert (X : (th, r) ∈ (th, r) :: pend) by left. apply Pp in X. by rewrite Id in X.
Qed.
Lemma admitted_elem k l t : t ∈ admitted k l -> exists th d, EAdmit th k d t ∈ l.
Proof.
  intros (e & He & E)%elem_of_list_omap. destruct e as [| |th k' d t'| |]; try done. destruct (decide (k' = k)) as [->|]; [|done]. injection E as ->. by exists th, d.
Qed.
Lemma admitted_spread t0 l s k d : Inv t0 l s -> period k d l -> admitted k l <> [] -> 0 <= d /\ spread d (admitted k l).
Proof.
  intros I Pe Ne. assert (G : forall l1 th d' t l2, l = l1 ++ EAdmit th k d' t :: l2 -> d' = d /\ 0 <= d /\ forall t', t' ∈ admitted k l1 -> d < t - t').
  { intros l1 th d' t l2 E. destruct (i_gap _ _ _ I _ _ _ _ _ _ E) as (A & B & C). assert (d' = d) as -> by (apply (Pe th); rewrite E; apply elem_of_app; by left). done. }
  assert (D : 0 <= d). { destruct (admitted k l) as [|t r] eqn:Ea; [done|]. assert (Ht : t ∈ admitted k l) by (rewrite Ea; left). apply admitted_elem in Ht as (th & d' & Ht). apply elem_of_list_split in Ht as (l1 & l2 & E). by apply G in E as (_ & ? & _). }
  split; [done|]. clear Ne. assert (Q : forall l1 l2, l = l1 ++ l2 -> spread d (admitted k l1)).
  { induction l1 as [|e l1 IH] using rev_ind; intros l2 E; [split; [constructor|intros x y Hx; by apply elem_of_nil in Hx]|]. rewrite <- app_assoc in E. destruct (IH _ E) as [N F]. rewrite admitted_app.
    assert (Z : forall x, admitted k [e] = [x] -> spread d (admitted k l1 ++ [x])).
    { intros x Ex. destruct e as [| |th k' d' t| |]; try done. cbn in Ex. destruct (decide (k' = k)) as [->|]; [|done]. injection Ex as ->. destruct (G l1 th d' x l2 E) as (_ & _ & Gx). split.
      - apply NoDup_app. split; [done|]. split; [|apply NoDup_singleton]. intros y Hy Hx. apply elem_of_list_singleton in Hx as ->. specialize (Gx x Hy). lia.
      - intros u v Hu Hv L. apply elem_of_app in Hu as [Hu|Hu]; apply elem_of_app in Hv as [Hv|Hv]; rewrite ?elem_of_list_singleton in Hu; rewrite ?elem_of_list_singleton in Hv; subst; auto; try lia. specialize (Gx v Hv). lia. }
    assert (Em : admitted k [e] = [] \/ exists x, admitted k [e] = [x]) by (destruct e; cbn; auto; case_decide; eauto). destruct Em as [-> | (x & Ex)]; [rewrite app_nil_r; by split|]. rewrite Ex. by apply Z. }
  apply (Q l []). by rewrite app_nil_r.
Qed.
(** The rate of the diagnostics of a call site: at most one for every period that has passed, and one more. *)
Theorem C47_total t0 l s k d : runs (initial t0) l s -> period k d l -> emitted k l = [] \/ (Z.of_nat (length (emitted k l)) - 1) * (d + 1) <= st_now s - t0.
Proof.
  intros R Pe. pose proof (C47_emits_once _ _ _ k R) as Sub. apply inv_runs in R. assert (L : length (emitted k l) = length (emitted_for k l)).
  { clear. unfold emitted, emitted_for. induction l as [|e l IH]; [done|]. cbn. destruct e as [| | | |th r t]; try done. destruct r as [[k' m]|]; [|done]. destruct (decide (k' = k)); cbn; congruence. }
  destruct (decide (admitted k l = [])) as [Ea|Ne].
  - left. rewrite Ea in Sub. apply submseteq_nil_r in Sub. rewrite Sub in L. by destruct (emitted k l).
  - destruct (admitted_spread _ _ _ _ _ R Pe Ne) as [D S]. right. rewrite L. apply (spread_sub _ _ _ Sub) in S.
    destruct (spread_count d t0 (st_now s) _ D S) as [E|Q]; [|rewrite E; pose proof (i_now _ _ _ R); cbn; lia|done].
    intros x Hx. apply (i_bound _ _ _ R k). by eapply elem_of_submseteq.
Qed.
(** The same for any window of time, when admitted calls emit within [D]: with no delay, diagnostics are more than a period apart. *)
Definition both (k : key) (l : list event) : list (Z * Z) := omap (fun e => match e with EInvoke _ (Some (k', m)) t => if decide (k' = k) then Some (m, t) else None | _ => None end) l.
Lemma both_spec k l : emitted k l = (both k l).*2 /\ emitted_for k l = (both k l).*1.
Proof.
  induction l as [|e l [IH1 IH2]]; [done|]. unfold emitted, emitted_for, both in *. cbn. destruct e as [| | | |th r t]; try done. destruct r as [[k' m]|]; [|done]. destruct (decide (k' = k)); cbn; [by rewrite IH1, IH2|done].
Qed.
Theorem C47_rate t0 l s k d D a b : runs (initial t0) l s -> period k d l -> prompt k D l -> 0 <= D ->
  within a b (emitted k l) = O \/ (Z.of_nat (within a b (emitted k l)) - 1) * (d + 1) <= b - a + D.
Proof.
  intros R Pe Pr HD. pose proof (C47_emits_once _ _ _ k R) as Sub. assert (Af : forall m t, (m, t) ∈ both k l -> m <= t <= m + D).
  { intros m t H. apply elem_of_list_omap in H as (e & He & E). destruct e as [| | | |th r t']; try done. destruct r as [[k' m']|]; [|done]. destruct (decide (k' = k)) as [->|]; [|done]. injection E as -> ->.
    pose proof (Pr _ _ _ He). pose proof (C47_after _ _ _ _ _ _ _ R He). lia. }
  apply inv_runs in R. unfold within. destruct (both_spec k l) as [-> B]. rewrite B in Sub.
  assert (L : length (filter (fun t => a <= t <= b) (both k l).*2) = length (filter (fun x : Z * Z => a <= x.2 <= b) (both k l))).
  { clear. induction (both k l) as [|[m t] r IH]; [done|]. cbn [fmap list_fmap snd]. rewrite !filter_cons. cbn. destruct (decide _); cbn; congruence. }
  rewrite L. set (F := filter _ (both k l)). assert (S1 : F.*1 ⊆+ admitted k l) by (etrans; [|exact Sub]; subst F; apply sublist_submseteq, fmap_sublist; clear; induction (both k l) as [|x r IH]; [constructor|]; rewrite filter_cons; case_decide; by constructor).
  destruct (decide (admitted k l = [])) as [Ea|Ne].
  - left. rewrite Ea in S1. apply submseteq_nil_r in S1. by destruct F.
  - destruct (admitted_spread _ _ _ _ _ R Pe Ne) as [Hd S]. apply (spread_sub _ _ _ S1) in S. destruct (spread_count d (a - D) b _ Hd S) as [E|Q].
    + intros x Hx. apply elem_of_list_fmap in Hx as ([m t] & -> & Hx). unfold F in Hx. apply elem_of_list_filter in Hx as [Hr Hx]. apply Af in Hx. cbn in *. lia.
    + left. by destruct F.
    + right. rewrite fmap_length in Q. lia.
Qed.
Theorem C47_no_delay t0 l s k d l1 th t l2 th' t' l3 m m' : runs (initial t0) l s -> period k d l -> prompt k 0 l ->
  l = l1 ++ EInvoke th (Some (k, m)) t :: l2 ++ EInvoke th' (Some (k, m')) t' :: l3 -> d < Z.abs (t' - t).
Proof.
  intros R Pe Pr E. pose proof (C47_emits_once _ _ _ k R) as Sub. assert (A1 : EInvoke th (Some (k, m)) t ∈ l) by (rewrite E; apply elem_of_app; right; left).
  assert (A2 : EInvoke th' (Some (k, m')) t' ∈ l) by (rewrite E; apply elem_of_app; right; right; apply elem_of_app; right; left).
  pose proof (Pr _ _ _ A1). pose proof (Pr _ _ _ A2). pose proof (C47_after _ _ _ _ _ _ _ R A1). pose proof (C47_after _ _ _ _ _ _ _ R A2). assert (m = t) as -> by lia. assert (m' = t') as -> by lia.
  apply inv_runs in R. assert (Ne : admitted k l <> []).
  { intros Ea. rewrite Ea in Sub. apply submseteq_nil_r in Sub. rewrite E in Sub. rewrite emitted_for_app in Sub. apply app_eq_nil in Sub as [_ Sub]. cbn in Sub. by destruct (decide (k = k)). }
  destruct (admitted_spread _ _ _ _ _ R Pe Ne) as [Hd S]. apply (spread_sub _ _ _ Sub) in S. rewrite E in S. rewrite emitted_for_app in S. cbn in S. destruct (decide (k = k)); [|done].
  assert (S' : spread d (t :: emitted_for k (l2 ++ EInvoke th' (Some (k, t')) t' :: l3))) by (eapply spread_sub; [|exact S]; apply submseteq_inserts_l; done).
  rewrite emitted_for_app in S'. cbn in S'. destruct (decide (k = k)); [|done]. destruct S' as [N F]. apply list.NoDup_cons in N as [N _]. assert (t <> t') by (intros ->; apply N, elem_of_app; right; left).
  assert (H5 : t < t' \/ t' < t) by lia. destruct H5 as [H5|H5].
  - assert (d < t' - t) by (apply F; [left|right; apply elem_of_app; right; left|done]). lia.
  - assert (d < t - t') by (apply F; [right; apply elem_of_app; right; left|left|done]). lia.
Qed.
(** f runs outside the lock: it may itself be limited. *)
Theorem C47_outside t0 l s th r s' : runs (initial t0) l s -> step s [EInvoke th r (st_now s)] s' -> st_lock s <> Some th.
Proof. intros R%inv_runs S. rewrite (i_lock _ _ _ R). inversion S; subst. match goal with H : st_pc s th = Run _ |- _ => by rewrite H end. Qed.
(** Every call can return, whatever the others do, and an admitted one emits. *)
Lemma runs_trans s l s' l' s'' : runs s l s' -> runs s' l' s'' -> runs s (l ++ l') s''.
Proof. intros R R'. induction R' as [s'|s' l' s1 l'' s2 R' IH S]; [by rewrite app_nil_r|]. rewrite app_assoc. econstructor; eauto. Qed.
Lemma runs_one s l s' : step s l s' -> runs s l s'.
Proof. intros S. apply (runs_step s [] s l s'); [constructor|done]. Qed.
(** The thread [th] is out of the critical section in [s'], and the others are where they were. *)
Definition leaves (th : nat) (s s' : state) : Prop :=
  st_lock s' = None /\ (st_pc s' th = Idle \/ exists r, st_pc s' th = Run (Some r)) /\ forall x, x <> th -> st_pc s' x = st_pc s x.
Lemma leave_unlock th s r : st_pc s th = Unlock r -> exists l s', runs s l s' /\ leaves th s s' /\ (forall r', r = Some r' -> st_pc s' th = Run (Some r')).
Proof.
  intros P. eexists _, _. split; [apply runs_one, (step_unlock s th r P)|]. unfold leaves. cbn. rewrite set_pc_same. split; [split; [done|]; split; [destruct r; eauto|intros x N; by rewrite set_pc_other]|]. by intros r' ->.
Qed.
Lemma leave_mark th s k d : st_pc s th = Mark k d -> exists l s', runs s l s' /\ leaves th s s'.
Proof.
  intros P. pose proof (step_mark s th k d P) as S. destruct (leave_unlock th (State (st_now s) (st_lock s) (set_last (st_last s) k (st_now s)) (set_pc (st_pc s) th (Unlock (Some (k, st_now s))))) (Some (k, st_now s))) as (l & s' & R & (L1 & L2 & L3) & _); [apply set_pc_same|].
  eexists _, s'. split; [eapply runs_trans; [apply runs_one, S|exact R]|]. split; [done|]. split; [done|]. intros x N. rewrite L3 by done. cbn. by rewrite set_pc_other.
Qed.
Lemma leave_look th s k d : st_pc s th = Look k d -> exists l s', runs s l s' /\ leaves th s s'.
Proof.
  intros P. destruct (invoking (st_last s k) (st_now s) d) eqn:V.
  - pose proof (step_look s th k d P V) as S. destruct (leave_mark th (State (st_now s) (st_lock s) (st_last s) (set_pc (st_pc s) th (Mark k d))) k d) as (l & s' & R & (L1 & L2 & L3)); [apply set_pc_same|].
    eexists _, s'. split; [eapply runs_trans; [apply runs_one, S|exact R]|]. split; [done|]. split; [done|]. intros x N. rewrite L3 by done. cbn. by rewrite set_pc_other.
  - pose proof (step_refuse s th k d P V) as S. destruct (leave_unlock th (State (st_now s) (st_lock s) (st_last s) (set_pc (st_pc s) th (Unlock None))) None) as (l & s' & R & (L1 & L2 & L3) & _); [apply set_pc_same|].
    eexists _, s'. split; [eapply runs_trans; [apply runs_one, S|exact R]|]. split; [done|]. split; [done|]. intros x N. rewrite L3 by done. cbn. by rewrite set_pc_other.
Qed.
Lemma leave th s : holding (st_pc s th) = true -> exists l s', runs s l s' /\ leaves th s s'.
Proof.
  destruct (st_pc s th) eqn:P; try done; intros _; [by eapply leave_look|by eapply leave_mark|]. destruct (leave_unlock th s r P) as (l & s' & R & L & _). by exists l, s'.
Qed.
Lemma finish th s : st_pc s th = Idle \/ (exists r, st_pc s th = Run r) -> exists l s', runs s l s' /\ st_pc s' th = Idle.
Proof.
  intros [P|(r & P)]; [exists [], s; split; [constructor|done]|]. eexists _, _. split; [apply runs_one, (step_run s th r P)|]. apply set_pc_same.
Qed.
Theorem C47_returns t0 l s th : runs (initial t0) l s -> exists l' s', runs s l' s' /\ st_pc s' th = Idle.
Proof.
  intros R%inv_runs. destruct (holding (st_pc s th)) eqn:H.
  - destruct (leave th s H) as (l1 & s1 & R1 & _ & L2 & _). destruct (finish th s1) as (l2 & s2 & R2 & P2); [destruct L2 as [?|(r & ?)]; eauto|]. exists (l1 ++ l2), s2. split; [by eapply runs_trans|done].
  - destruct (st_pc s th) as [|k d|k d|k d|r|r] eqn:P; try done; [exists [], s; split; [constructor|done]| |apply finish; eauto].
    assert (F : exists l1 s1, runs s l1 s1 /\ st_lock s1 = None /\ st_pc s1 th = Want k d).
    { destruct (st_lock s) as [h|] eqn:Lk; [|exists [], s; split; [constructor|done]]. apply (i_lock _ _ _ R) in Lk as Hh. destruct (leave h s Hh) as (l1 & s1 & R1 & L1 & _ & L3). exists l1, s1. split; [done|]. split; [done|].
      rewrite L3; [done|]. intros ->. by rewrite P in Hh. }
    destruct F as (l1 & s1 & R1 & L1 & P1). pose proof (step_lock s1 th k d P1 L1) as S.
    destruct (leave_look th (State (st_now s1) (Some th) (st_last s1) (set_pc (st_pc s1) th (Look k d))) k d) as (l2 & s2 & R2 & _ & L2 & _); [apply set_pc_same|].
    destruct (finish th s2) as (l3 & s3 & R3 & P3); [destruct L2 as [?|(r & ?)]; eauto|].
    exists (l1 ++ ([] ++ (l2 ++ l3))), s3. split; [|done]. eapply runs_trans; [exact R1|]. eapply runs_trans; [apply runs_one, S|]. by eapply runs_trans.
Qed.
Lemma emits_inv t0 l s th k d t : runs (initial t0) l s -> forall l1 l2, l = l1 ++ EAdmit th k d t :: l2 -> pending (st_pc s th) = Some (k, t) \/ exists t', EInvoke th (Some (k, t)) t' ∈ l2.
Proof.
  intros R. remember (initial t0) as s0 eqn:E0. induction R as [s|s l s' l' s'' R IH S]; intros l1 l2 E; [by destruct l1|]. specialize (IH E0).
  assert (K : forall l3, l = l1 ++ EAdmit th k d t :: l3 -> l2 = l3 ++ l' -> pending (st_pc s'' th) = Some (k, t) \/ exists t', EInvoke th (Some (k, t)) t' ∈ l2).
  { intros l3 El ->. destruct (IH _ _ El) as [P|(t' & Ht)]; [|right; exists t'; apply elem_of_app; by left].
    inversion S as [a dt D|a x k' d' Px D|a x d' Px D|a x k' d' Px D|a x k' d' Px Lk|a x k' d' Px V|a x k' d' Px V|a x k' d' Px|a x r Px|a x r Px]; subst; cbn [st_pc]; auto;
      (destruct (decide (th = x)) as [->|N]; [rewrite set_pc_same; rewrite Px in P|rewrite set_pc_other by done; auto]); cbn in P; try done.
    - subst r. cbn. auto.
    - subst r. right. exists (st_now s'). apply elem_of_app. right. left. }
  assert (Q : l' = [] \/ forallb quiet l' = true \/ exists e, l' = [e]) by (destruct S; cbn; eauto). destruct Q as [-> |[Q|(e & ->)]].
  - apply (K l2); [by rewrite app_nil_r in E|by rewrite app_nil_r].
  - apply (app_split quiet) in E as (l3 & E2 & E1); [|done|done]. by apply (K l3).
  - apply snoc_split in E as [(-> & -> & <-)|(l3 & -> & E)]; [|by apply (K l3)]. left. inversion S; subst. cbn. by rewrite set_pc_same.
Qed.
(** A call that was admitted and has returned has emitted its diagnostic. *)
Theorem C47_emits t0 l s th l1 k d t l2 : runs (initial t0) l s -> l = l1 ++ EAdmit th k d t :: l2 -> st_pc s th = Idle -> exists t', EInvoke th (Some (k, t)) t' ∈ l2.
Proof. intros R E P. destruct (emits_inv _ _ _ _ _ _ _ R _ _ E) as [Q|Q]; [by rewrite P in Q|done]. Qed.

(** Whatever the others do, a goroutine shows one whole call after another, and the beginning of one if it is in a call. *)
Definition begun (th : nat) (p : pc) (l : list event) : Prop :=
  match p with
  | Idle | Unlock None => l = []
  | Want k d | Look k d | Mark k d => 0 <= d /\ l = [ECall th (Some k) d]
  | Unlock (Some (k, m)) | Run (Some (k, m)) => exists d, 0 <= d /\ l = [ECall th (Some k) d; EAdmit th k d m]
  | Run None => exists d, 0 <= d /\ l = [ECall th None d]
  end.
Lemma own_app th l l' : own th (l ++ l') = own th l ++ own th l'.
Proof. apply list.filter_app. Qed.
Lemma turns_inv t0 l s : runs (initial t0) l s -> forall th, exists ts p, own th l = concat ts ++ p /\ Forall (turn th) ts /\ begun th (st_pc s th) p.
Proof.
  intros R. remember (initial t0) as s0 eqn:E0. induction R as [|s0 l s l' s'' R IH S]; intros x; [exists [], []; subst; by repeat constructor|]. specialize (IH E0 x). rewrite own_app.
  destruct IH as (ts & p & Eo & F & B). rewrite Eo.
  assert (Same : own x l' = [] -> st_pc s'' x = st_pc s x -> exists ts' p', (concat ts ++ p) ++ own x l' = concat ts' ++ p' /\ Forall (turn x) ts' /\ begun x (st_pc s'' x) p').
  { intros -> ->. exists ts, p. by rewrite app_nil_r. }
  assert (More : forall q, p ++ own x l' = q -> begun x (st_pc s'' x) q -> exists ts' p', (concat ts ++ p) ++ own x l' = concat ts' ++ p' /\ Forall (turn x) ts' /\ begun x (st_pc s'' x) p').
  { intros q Eq K. exists ts, q. rewrite <- app_assoc, Eq. done. }
  assert (Full : forall q, p ++ own x l' = q -> turn x q -> begun x (st_pc s'' x) [] -> exists ts' p', (concat ts ++ p) ++ own x l' = concat ts' ++ p' /\ Forall (turn x) ts' /\ begun x (st_pc s'' x) p').
  { intros q Eq T K. exists (ts ++ [q]), []. rewrite <- app_assoc, Eq, concat_app. cbn. rewrite !app_nil_r. split; [done|]. split; [apply Forall_app; split; [done|by repeat constructor]|done]. }
  destruct S as [s dt Hd|s th k d P Hd|s th d P Hd|s th k d P Hd|s th k d P L|s th k d P N|s th k d P N|s th k d P|s th r P|s th r P]; cbn [st_pc] in *; try (by apply Same);
    (destruct (decide (x = th)) as [->|Nx];
      [rewrite P in B; cbn [begun] in B|apply Same; [unfold own; repeat (rewrite filter_cons_False; [|cbn; congruence]); done|first [done|by rewrite set_pc_other]]]).
  - subst p. eapply Full; [unfold own; repeat (rewrite filter_cons_True; [|done]); reflexivity|by constructor|by rewrite P].
  - subst p. rewrite set_pc_same in *. eapply More; [unfold own; repeat (rewrite filter_cons_True; [|done]); reflexivity|]. cbn. by exists d.
  - subst p. rewrite set_pc_same in *. eapply More; [unfold own; repeat (rewrite filter_cons_True; [|done]); reflexivity|]. done.
  - destruct B as [Bd ->]. rewrite set_pc_same in *. by eapply More.
  - destruct B as [Bd ->]. rewrite set_pc_same in *. by eapply More.
  - destruct B as [Bd ->]. rewrite set_pc_same in *. eapply Full; [unfold own; repeat (rewrite filter_cons_True; [|done]); reflexivity|by constructor|done].
  - destruct B as [Bd ->]. rewrite set_pc_same in *. eapply More; [unfold own; repeat (rewrite filter_cons_True; [|done]); reflexivity|]. cbn. by exists d.
  - rewrite set_pc_same in *. destruct r as [[k m]|]; (eapply More; [apply app_nil_r|done]).
  - rewrite set_pc_same in *. destruct r as [[k m]|]; destruct B as (d & Bd & ->); (eapply Full; [unfold own; repeat (rewrite filter_cons_True; [|done]); reflexivity|by constructor|done]).
Qed.
Theorem C47_turns t0 l s th : runs (initial t0) l s -> exists ts p, own th l = concat ts ++ p /\ Forall (turn th) ts /\ (exists q, q <> [] /\ turn th (p ++ q)) /\ (st_pc s th = Idle -> p = []).
Proof.
  intros R. destruct (turns_inv t0 l s R th) as (ts & p & E & F & B). exists ts, p. split; [done|]. split; [done|]. split.
  - destruct (st_pc s th) as [|k d|k d|k d|[[k m]|]|[[k m]|]]; cbn in B.
    + subst. exists [ECall th None (-1); EPanic th]. split; [done|by constructor].
    + destruct B as [Bd ->]. exists [ERefuse th k d 0]. split; [done|by constructor].
    + destruct B as [Bd ->]. exists [ERefuse th k d 0]. split; [done|by constructor].
    + destruct B as [Bd ->]. exists [ERefuse th k d 0]. split; [done|by constructor].
    + destruct B as (d & Bd & ->). exists [EInvoke th (Some (k, m)) 0]. split; [done|by constructor].
    + subst. exists [ECall th None (-1); EPanic th]. split; [done|by constructor].
    + destruct B as (d & Bd & ->). exists [EInvoke th (Some (k, m)) 0]. split; [done|by constructor].
    + destruct B as (d & Bd & ->). exists [EInvoke th None 0]. split; [done|by constructor].
  - intros P. by rewrite P in B.
Qed.
(** What is not so: two diagnostics of one call site can be emitted at the same time, because f runs after the lock is released; and a
    call exactly one period after the last is refused. *)
Tactic Notation "go" hyp(R) uconstr(c) := eapply runs_step in R; [|eapply c; first [reflexivity|lia]]; cbn [st_now st_lock st_last st_pc app] in R.
Ltac first_call R := go R (step_call _ 0%nat 0%nat 10); go R (step_lock _ 0%nat 0%nat 10); go R (step_look _ 0%nat 0%nat 10); go R (step_mark _ 0%nat 0%nat 10); go R (step_unlock _ 0%nat).
Theorem C47_together_refuted : exists l s m m', runs (initial 0) l s /\ period 0%nat 10 l /\ EInvoke 0%nat (Some (0%nat, m)) 20 ∈ l /\ EInvoke 1%nat (Some (0%nat, m')) 20 ∈ l.
Proof.
  pose proof (runs_nil (initial 0)) as R. first_call R. go R (step_tick _ 20).
  go R (step_call _ 1%nat 0%nat 10). go R (step_lock _ 1%nat 0%nat 10). go R (step_look _ 1%nat 0%nat 10). go R (step_mark _ 1%nat 0%nat 10). go R (step_unlock _ 1%nat).
  go R (step_run _ 0%nat). go R (step_run _ 1%nat). eexists _, _, 0, 20. split; [exact R|]. split; [|split; vm_compute; repeat (first [by left|right])].
  intros th d' H. cbn in H. repeat (apply elem_of_cons in H as [H|H]; [try discriminate H; try (by inversion H)|]). by apply elem_of_nil in H.
Qed.
Theorem C47_boundary_refuted : exists l s, runs (initial 0) l s /\ EAdmit 0%nat 0%nat 10 0 ∈ l /\ ERefuse 0%nat 0%nat 10 10 ∈ l.
Proof.
  pose proof (runs_nil (initial 0)) as R. first_call R. go R (step_run _ 0%nat). go R (step_tick _ 10). go R (step_call _ 0%nat 0%nat 10). go R (step_lock _ 0%nat 0%nat 10).
  go R (step_refuse _ 0%nat 0%nat 10). eexists _, _. split; [exact R|]. split; vm_compute; repeat (first [by left|right]).
Qed.

Module Ex47.
  (** Two calls more than a period apart, both emitted at once, and one in between that is refused. *)
  Example history : exists l s, runs (initial 0) l s /\ period 0%nat 10 l /\ prompt 0%nat 0 l /\ admitted 0%nat l = [0; 20] /\ emitted 0%nat l = [0; 20] /\ ERefuse 2%nat 0%nat 10 20 ∈ l /\ (forall th, st_pc s th = Idle).
  Proof.
    pose proof (runs_nil (initial 0)) as R. first_call R. go R (step_run _ 0%nat). go R (step_tick _ 20).
    go R (step_call _ 1%nat 0%nat 10). go R (step_lock _ 1%nat 0%nat 10). go R (step_look _ 1%nat 0%nat 10). go R (step_mark _ 1%nat 0%nat 10). go R (step_unlock _ 1%nat). go R (step_run _ 1%nat).
    go R (step_call _ 2%nat 0%nat 10). go R (step_lock _ 2%nat 0%nat 10). go R (step_refuse _ 2%nat 0%nat 10). go R (step_unlock _ 2%nat).
    eexists _, _. split; [exact R|]. split; [|split; [|split; [reflexivity|split; [reflexivity|split; [vm_compute; repeat (first [by left|right])|]]]]].
    - intros th d' H. cbn in H. repeat (apply elem_of_cons in H as [H|H]; [try discriminate H; try (by inversion H)|]). by apply elem_of_nil in H.
    - intros th m t H. cbn in H. repeat (apply elem_of_cons in H as [H|H]; [try discriminate H; try (by inversion H)|]). by apply elem_of_nil in H.
    - intros th. cbn. unfold set_pc. repeat case_decide; done.
  Qed.
  Example turns : turn 2 [ECall 2 (Some 0%nat) 10; ERefuse 2 0%nat 10 20] /\ own 2 [ECall 1 (Some 0%nat) 10; ECall 2 (Some 0%nat) 10; EAdmit 1 0%nat 10 20; ERefuse 2 0%nat 10 20] = [ECall 2 (Some 0%nat) 10; ERefuse 2 0%nat 10 20].
  Proof. split; [by constructor|reflexivity]. Qed.
End Ex47.

Print Assumptions C47_apart.
Print Assumptions C47_refused.
Print Assumptions C47_emits_once.
Print Assumptions C47_after.
Print Assumptions C47_emits_all.
Print Assumptions C47_total.
Print Assumptions C47_rate.
Print Assumptions C47_no_delay.
Print Assumptions C47_outside.
Print Assumptions C47_returns.
Print Assumptions C47_emits.
Print Assumptions C47_turns.
Print Assumptions C47_together_refuted.
Print Assumptions C47_boundary_refuted.
