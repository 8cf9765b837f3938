(** Invariants of the rate limiter. *)
From Coq Require Import ZArith Bool Lia Sorted.
From stdpp Require Import base list option sorting.
From Verif Require Import Every EverySpec.
Local Open Scope Z_scope.

Definition holding (p : pc) : bool := match p with Look _ _ | Mark _ _ | Unlock _ => true | _ => false end.
Definition pending (p : pc) : option (key * Z) := match p with Unlock r | Run r => r | _ => None end.
Definition asked (p : pc) : option (key * Z) := match p with Want k d | Look k d | Mark k d => Some (k, d) | _ => None end.
Definition waiting (k : key) (pend : list (nat * (key * Z))) : list Z := omap (fun x => if decide (x.2.1 = k) then Some (x.2.2) else None) pend.

Record Inv (t0 : Z) (l : list event) (s : state) : Prop := {
  i_now : t0 <= st_now s;
  i_lock : forall th, st_lock s = Some th <-> holding (st_pc s th) = true;
  i_call : forall th k d, asked (st_pc s th) = Some (k, d) -> 0 <= d /\ ECall th (Some k) d ∈ l;
  i_last : forall k, st_last s k = list.last (admitted k l);
  i_bound : forall k t, t ∈ admitted k l -> t0 <= t <= st_now s;
  i_max : forall k t, t ∈ admitted k l -> exists p, st_last s k = Some p /\ t <= p;
  i_mark : forall th k d, st_pc s th = Mark k d -> invoking (st_last s k) (st_now s) d = true;
  i_gap : forall l1 th k d t l2, l = l1 ++ EAdmit th k d t :: l2 -> 0 <= d /\ ECall th (Some k) d ∈ l1 /\ forall t', t' ∈ admitted k l1 -> d < t - t';
  i_refuse : forall l1 th k d t l2, l = l1 ++ ERefuse th k d t :: l2 -> 0 <= d /\ exists t', list.last (admitted k l1) = Some t' /\ t - t' <= d;
  i_pend : exists pend, NoDup pend.*1 /\ (forall th r, (th, r) ∈ pend <-> pending (st_pc s th) = Some r) /\ forall k, admitted k l ≡ₚ emitted_for k l ++ waiting k pend;
  i_after : forall th k m t, EInvoke th (Some (k, m)) t ∈ l -> m <= t <= st_now s
}.
Lemma admitted_app k l l' : admitted k (l ++ l') = admitted k l ++ admitted k l'.
Proof. apply omap_app. Qed.
Lemma emitted_for_app k l l' : emitted_for k (l ++ l') = emitted_for k l ++ emitted_for k l'.
Proof. apply omap_app. Qed.
Lemma waiting_app k l l' : waiting k (l ++ l') = waiting k l ++ waiting k l'.
Proof. apply omap_app. Qed.
Lemma set_pc_same f th p : set_pc f th p th = p.
Proof. unfold set_pc. by destruct (decide (th = th)). Qed.
Lemma set_pc_other f th p x : x <> th -> set_pc f th p x = f x.
Proof. unfold set_pc. by destruct (decide (x = th)). Qed.
Lemma snoc_split {A} (l l1 l2 : list A) x y : l ++ [x] = l1 ++ y :: l2 -> (l2 = [] /\ l1 = l /\ y = x) \/ exists l2', l2 = l2' ++ [x] /\ l = l1 ++ y :: l2'.
Proof.
  intros E. destruct l2 as [|z l2' _] using rev_ind.
  - left. apply app_inj_tail in E as [-> ->]. done.
  - right. exists l2'. rewrite app_comm_cons, app_assoc in E. apply app_inj_tail in E as [-> ->]. done.
Qed.
Definition quiet (e : event) : bool := match e with ECall _ _ _ | EPanic _ => true | _ => false end.
Lemma quiet_lists l : forallb quiet l = true -> forall k, admitted k l = [] /\ emitted_for k l = [].
Proof. intros Q k. induction l as [|e l IH]; [done|]. cbn in Q. apply andb_true_iff in Q as [Q1 Q2]. destruct (IH Q2) as [A B]. destruct e; try done. Qed.
Lemma app_split {A} (P : A -> bool) (l l' l1 l2 : list A) y : forallb P l' = true -> P y = false -> l ++ l' = l1 ++ y :: l2 -> exists l2', l2 = l2' ++ l' /\ l = l1 ++ y :: l2'.
Proof.
  revert l2. induction l' as [|x l' IH] using rev_ind; intros l2 F N E; [exists l2; by rewrite !app_nil_r in *|]. rewrite forallb_app in F. apply andb_true_iff in F as [F1 F2]. cbn in F2. rewrite andb_true_r in F2.
  rewrite app_assoc in E. apply snoc_split in E as [(-> & _ & ->)|(l3 & -> & E)]; [congruence|]. destruct (IH l3 F1 N E) as (l4 & -> & ->). exists l4. by rewrite app_assoc.
Qed.
Lemma inv_quiet t0 l s l' s' : Inv t0 l s -> forallb quiet l' = true -> st_now s <= st_now s' -> st_last s' = st_last s ->
  (forall th, st_lock s' = Some th <-> holding (st_pc s' th) = true) ->
  (forall th k d, asked (st_pc s' th) = Some (k, d) -> asked (st_pc s th) = Some (k, d) \/ (0 <= d /\ ECall th (Some k) d ∈ l')) ->
  (forall th k d, st_pc s' th = Mark k d -> invoking (st_last s' k) (st_now s') d = true) ->
  (forall th, pending (st_pc s' th) = pending (st_pc s th)) -> Inv t0 (l ++ l') s'.
Proof.
  intros I Q N L Lk C M P. destruct I as [In Il Ic Ila Ib Im Ima Ig Ir Ip Ia]. pose proof (quiet_lists l' Q) as QL. split.
  - lia.
  - done.
  - intros th k d E. rewrite elem_of_app. destruct (C th k d E) as [E'|[A B]]; [|auto]. destruct (Ic th k d E'). auto.
  - intros k. rewrite L, admitted_app. destruct (QL k) as [-> _]. by rewrite app_nil_r.
  - intros k t. rewrite admitted_app. destruct (QL k) as [-> _]. rewrite app_nil_r. intros Ht. specialize (Ib k t Ht). lia.
  - intros k t. rewrite L, admitted_app. destruct (QL k) as [-> _]. rewrite app_nil_r. apply Im.
  - done.
  - intros l1 th k d t l2 E. apply (app_split quiet) in E as (l3 & -> & ->); [|done|done]. by apply (Ig l1 th k d t l3).
  - intros l1 th k d t l2 E. apply (app_split quiet) in E as (l3 & -> & ->); [|done|done]. by apply (Ir l1 th k d t l3).
  - destruct Ip as (pend & Np & Pp & Pk). exists pend. split; [done|]. split; [intros th r; by rewrite P|]. intros k. rewrite admitted_app, emitted_for_app. destruct (QL k) as [-> ->]. by rewrite !app_nil_r.
  - intros th k m t. rewrite elem_of_app. intros [E|E]; [specialize (Ia th k m t E); lia|]. rewrite forallb_forall in Q. apply elem_of_list_In in E. by specialize (Q _ E).
Qed.
Ltac at_thread x th := destruct (decide (x = th)) as [->|?]; [rewrite ?set_pc_same in *|rewrite ?set_pc_other in * by done].
Lemma invoking_later prev now now' d : now <= now' -> invoking prev now d = true -> invoking prev now' d = true.
Proof. intros L. destruct prev; [|done]. cbn. rewrite !Z.ltb_lt. lia. Qed.
Lemma inv_step t0 l s l' s' : Inv t0 l s -> step s l' s' -> Inv t0 (l ++ l') s'.
Proof.
  intros I S. destruct S as [s dt D|s th k d P D|s th d P D|s th k d P D|s th k d P Lk|s th k d P V|s th k d P V|s th k d P|s th r P|s th r P].
  - apply (inv_quiet _ _ s); try done; cbn; [lia|apply I|auto|]. intros x k d E. apply (invoking_later _ (st_now s)); [lia|]. by apply (i_mark _ _ _ I x).
  - apply (inv_quiet _ _ s); try done; [apply I|auto|apply I].
  - apply (inv_quiet _ _ s); try done; cbn.
    + intros x. rewrite (i_lock _ _ _ I). at_thread x th; [by rewrite P|done].
    + intros x k e. at_thread x th; [done|auto].
    + intros x k e. at_thread x th; [done|]. apply I.
    + intros x. at_thread x th; [by rewrite P|done].
  - apply (inv_quiet _ _ s); try done; cbn.
    + intros x. rewrite (i_lock _ _ _ I). at_thread x th; [by rewrite P|done].
    + intros x k' e. at_thread x th; [|auto]. cbn. intros [= <- <-]. right. split; [done|]. by left.
    + intros x k' e. at_thread x th; [done|]. apply I.
    + intros x. at_thread x th; [by rewrite P|done].
  - apply (inv_quiet _ _ s); try done; cbn.
    + intros x. at_thread x th; [done|]. split; [intros [= ->]; done|]. intros H. apply (i_lock _ _ _ I) in H. congruence.
    + intros x k' e. at_thread x th; [|auto]. rewrite P. auto.
    + intros x k' e. at_thread x th; [done|]. apply I.
    + intros x. at_thread x th; [by rewrite P|done].
  - apply (inv_quiet _ _ s); try done; cbn.
    + intros x. rewrite (i_lock _ _ _ I). at_thread x th; [by rewrite P|done].
    + intros x k' e. at_thread x th; [|auto]. rewrite P. auto.
    + intros x k' e. at_thread x th; [by intros [= <- <-]|]. apply I.
    + intros x. at_thread x th; [by rewrite P|done].
  - (* refused *)
    assert (C : 0 <= d) by (apply (i_call _ _ _ I th k d); by rewrite P). assert (Q : forall k', admitted k' [ERefuse th k d (st_now s)] = [] /\ emitted_for k' [ERefuse th k d (st_now s)] = []) by done.
    destruct I as [In Il Ic Ila Ib Im Ima Ig Ir Ip Ia]. split; cbn.
    + done.
    + intros x. rewrite Il. at_thread x th; [by rewrite P|done].
    + intros x k' d'. at_thread x th; [done|]. rewrite elem_of_app. intros E. destruct (Ic _ _ _ E). auto.
    + intros k'. by rewrite admitted_app, app_nil_r.
    + intros k' t. rewrite admitted_app, app_nil_r. apply Ib.
    + intros k' t. rewrite admitted_app, app_nil_r. apply Im.
    + intros x k' d'. at_thread x th; [done|]. apply Ima.
    + intros l1 th' k' d' t l2 E. apply snoc_split in E as [(_ & _ & [=])|(l3 & -> & ->)]. by apply (Ig l1 th' k' d' t l3).
    + intros l1 th' k' d' t l2 E. apply snoc_split in E as [(-> & -> & [= -> -> -> ->])|(l3 & -> & ->)]; [|by apply (Ir l1 th' k' d' t l3)].
      split; [done|]. rewrite <- Ila. unfold invoking in V. destruct (st_last s k) as [p|]; [|done]. exists p. split; [done|]. apply Z.ltb_ge in V. lia.
    + destruct Ip as (pend & Np & Pp & Pk). exists pend. split; [done|]. split.
      * intros x r. at_thread x th; [rewrite Pp, P; done|]. apply Pp.
      * intros k'. rewrite admitted_app, emitted_for_app, !app_nil_r. apply Pk.
    + intros x k' m t. rewrite elem_of_app, elem_of_list_singleton. intros [E|[=]]. by apply (Ia x k').
  - (* admitted *)
    destruct (i_call _ _ _ I th k d) as [C1 C2]; [by rewrite P|]. pose proof (i_mark _ _ _ I th k d P) as V.
    assert (Q : forall k', admitted k' [EAdmit th k d (st_now s)] = if decide (k = k') then [st_now s] else []) by (intros k'; cbn; by destruct (decide (k = k'))).
    assert (Nh : forall x, holding (st_pc s x) = true -> x = th). { intros x Hx. apply (i_lock _ _ _ I) in Hx. assert (Ht : st_lock s = Some th) by (apply (i_lock _ _ _ I); by rewrite P). congruence. }
    destruct I as [In Il Ic Ila Ib Im Ima Ig Ir Ip Ia]. split; cbn [st_now st_lock st_last st_pc].
    + done.
    + intros x. rewrite Il. at_thread x th; [by rewrite P|done].
    + intros x k' d'. at_thread x th; [done|]. rewrite elem_of_app. intros E. destruct (Ic _ _ _ E). auto.
    + intros k'. rewrite admitted_app, Q. unfold set_last. destruct (decide (k' = k)) as [->|N]; destruct (decide (k = _)); try congruence; [by rewrite last_snoc|by rewrite app_nil_r].
    + intros k' t. rewrite admitted_app, Q, elem_of_app. intros [E|E]; [by apply (Ib k')|]. destruct (decide (k = k')); [apply elem_of_list_singleton in E as ->; lia|by apply elem_of_nil in E].
    + intros k' t. rewrite admitted_app, Q, elem_of_app. unfold set_last. intros E. destruct (decide (k' = k)) as [->|N].
      * exists (st_now s). split; [done|]. destruct E as [E|E]; [apply (Ib k) in E; lia|]. destruct (decide (k = k)); [apply elem_of_list_singleton in E as ->; lia|by apply elem_of_nil in E].
      * destruct E as [E|E]; [by apply Im|]. destruct (decide (k = k')); [congruence|by apply elem_of_nil in E].
    + intros x k' d'. at_thread x th; [done|]. intros E. assert (x = th) by (apply Nh; by rewrite E). done.
    + intros l1 th' k' d' t l2 E. apply snoc_split in E as [(-> & -> & [= -> -> -> ->])|(l3 & -> & ->)]; [|by apply (Ig l1 th' k' d' t l3)].
      split; [done|]. split; [done|]. intros t' Ht. destruct (Im k t' Ht) as (p & Ep & Le). unfold invoking in V. rewrite Ep in V. apply Z.ltb_lt in V. lia.
    + intros l1 th' k' d' t l2 E. apply snoc_split in E as [(_ & _ & [=])|(l3 & -> & ->)]. by apply (Ir l1 th' k' d' t l3).
    + destruct Ip as (pend & Np & Pp & Pk). exists ((th, (k, st_now s)) :: pend). split; [|split].
      * cbn. apply list.NoDup_cons. split; [|done]. intros (y & Ey & Hy)%elem_of_list_fmap. destruct y as [y r]. cbn in Ey. subst y. apply Pp in Hy. by rewrite P in Hy.
      * intros x r. rewrite elem_of_cons, Pp. at_thread x th; [rewrite P; cbn; split; [by intros [[= ->]|]|intros [= ->]; auto]|]. split; [intros [[= -> ->]|E]; done|auto].
      * intros k'. rewrite admitted_app, emitted_for_app, Q. cbn. rewrite app_nil_r. destruct (decide (k = k')) as [->|N]; [|rewrite app_nil_r; apply Pk].
        rewrite (Pk k'). rewrite <- app_assoc. f_equiv. change (waiting k' pend ++ [st_now s] ≡ₚ st_now s :: waiting k' pend). symmetry. apply Permutation_cons_append.
    + intros x k' m t. rewrite elem_of_app, elem_of_list_singleton. intros [E|[=]]. by apply (Ia x k').
  - (* unlocked *)
    apply (inv_quiet _ _ s); try done; cbn.
    + intros x. split; [done|]. at_thread x th; [by destruct r|]. intros Hx. apply (i_lock _ _ _ I) in Hx. assert (Ht : st_lock s = Some th) by (apply (i_lock _ _ _ I); by rewrite P). congruence.
    + intros x k' e. at_thread x th; [by destruct r|auto].
    + intros x k' e. at_thread x th; [by destruct r|]. apply I.
    + intros x. at_thread x th; [rewrite P; by destruct r|done].
  - (* emitted *)
    assert (Q : forall k', admitted k' [EInvoke th r (st_now s)] = []) by done.
    destruct I as [In Il Ic Ila Ib Im Ima Ig Ir Ip Ia]. split; cbn [st_now st_lock st_last st_pc].
    + done.
    + intros x. rewrite Il. at_thread x th; [by rewrite P|done].
    + intros x k' d'. at_thread x th; [done|]. rewrite elem_of_app. intros E. destruct (Ic _ _ _ E). auto.
    + intros k'. by rewrite admitted_app, app_nil_r.
    + intros k' t. rewrite admitted_app, app_nil_r. apply Ib.
    + intros k' t. rewrite admitted_app, app_nil_r. apply Im.
    + intros x k' d'. at_thread x th; [done|]. apply Ima.
    + intros l1 th' k' d' t l2 E. apply snoc_split in E as [(_ & _ & [=])|(l3 & -> & ->)]. by apply (Ig l1 th' k' d' t l3).
    + intros l1 th' k' d' t l2 E. apply snoc_split in E as [(_ & _ & [=])|(l3 & -> & ->)]. by apply (Ir l1 th' k' d' t l3).
    + destruct Ip as (pend & Np & Pp & Pk). destruct r as [[k m]|].
      * assert (Hp : (th, (k, m)) ∈ pend) by (apply Pp; by rewrite P). apply elem_of_list_split in Hp as (p1 & p2 & ->). exists (p1 ++ p2). rewrite fmap_app in Np. cbn in Np.
        assert (Np' : NoDup ((th, (k, m)) :: p1 ++ p2).*1) by (cbn; rewrite fmap_app; by rewrite <- Permutation_middle in Np). cbn in Np'. apply list.NoDup_cons in Np' as [Nt Nd].
        split; [done|]. split.
        -- intros x r. at_thread x th.
           ++ split; [|done]. intros Hx. exfalso. apply Nt. apply elem_of_list_fmap. by exists (th, r).
           ++ rewrite <- Pp, !elem_of_app, elem_of_cons. split; [intros [|]; auto|]. intros [|[[= -> _]|]]; auto. done.
        -- intros k'. rewrite admitted_app, emitted_for_app, app_nil_r, Pk, !waiting_app. cbn. destruct (decide (k = k')) as [->|N]; cbn; [|by rewrite app_nil_r].
           rewrite <- app_assoc. f_equiv. cbn. symmetry. apply (Permutation_middle (waiting k' p1) (waiting k' p2) m).
      * exists pend. split; [done|]. split.
        -- intros x r. at_thread x th; [rewrite Pp, P; done|]. apply Pp.
        -- intros k'. rewrite admitted_app, emitted_for_app, !app_nil_r. apply Pk.
    + intros x k' m t. rewrite elem_of_app, elem_of_list_singleton. intros [E|[= -> <- ->]]; [by apply (Ia x k')|].
      destruct Ip as (pend & Np & Pp & Pk). assert (Hp : (th, (k', m)) ∈ pend) by (apply Pp; by rewrite P). assert (Hm : m ∈ admitted k' l).
      { rewrite Pk. apply elem_of_app. right. apply elem_of_list_omap. exists (th, (k', m)). split; [done|]. cbn. by destruct (decide (k' = k')). }
      apply Ib in Hm. lia.
Qed.
Lemma inv_initial t0 : Inv t0 [] (initial t0).
Proof.
  split; cbn; try done; try lia.
  - intros k t Ht. by apply elem_of_nil in Ht.
  - intros k t Ht. by apply elem_of_nil in Ht.
  - intros l1 th k d t l2 E. by destruct l1.
  - intros l1 th k d t l2 E. by destruct l1.
  - exists []. split; [constructor|]. split; [|done]. intros th r. by rewrite elem_of_nil.
  - intros th k m t E. by apply elem_of_nil in E.
Qed.
Lemma inv_runs t0 l s : runs (initial t0) l s -> Inv t0 l s.
Proof. intros R. remember (initial t0) as s0 eqn:E. induction R as [s|s l s' l' s'' R IH S]; subst; [apply inv_initial|]. apply (inv_step _ _ s'); auto. Qed.

(** Numbers that are far apart are few. *)
(** Far apart, as a property of the elements. *)
Definition spread (d : Z) (l : list Z) : Prop := NoDup l /\ forall x y, x ∈ l -> y ∈ l -> x < y -> d < y - x.
Lemma spread_sub d l l' : l' ⊆+ l -> spread d l -> spread d l'.
Proof.
  intros S [N F]. assert (E : forall x, x ∈ l' -> x ∈ l) by (intros x Hx; by eapply elem_of_submseteq). split; [|intros x y Hx Hy; apply F; auto].
  apply submseteq_Permutation in S as (k & P). rewrite P in N. by apply NoDup_app in N as [? _].
Qed.
Lemma take_max (l : list Z) : l <> [] -> exists m l', l ≡ₚ m :: l' /\ forall x, x ∈ l' -> x <= m.
Proof.
  induction l as [|y l IH]; [done|]. intros _. destruct (decide (l = [])) as [->|N].
  - exists y, []. split; [done|]. intros x Hx. by apply elem_of_nil in Hx.
  - destruct (IH N) as (m & l' & P & F). destruct (decide (m <= y)) as [L|L].
    + exists y, (m :: l'). split; [by rewrite P|]. intros x [->|Hx]%elem_of_cons; [done|]. specialize (F x Hx). lia.
    + exists m, (y :: l'). split; [rewrite P; apply Permutation_swap|]. intros x [->|Hx]%elem_of_cons; [lia|]. by apply F.
Qed.
Lemma spread_count d a b l : 0 <= d -> spread d l -> (forall x, x ∈ l -> a <= x <= b) -> l = [] \/ (Z.of_nat (length l) - 1) * (d + 1) <= b - a.
Proof.
  intros D. revert b. remember (length l) as n eqn:En. revert l En. induction n as [|n IH]; intros l En b S R; [left; by destruct l|]. right.
  assert (Ne : l <> []) by (by intros ->). destruct (take_max l Ne) as (m & l' & P & F). assert (Hm : a <= m <= b) by (apply R; rewrite P; by left).
  assert (Ln : n = length l') by (apply Permutation_length in P; cbn in P; lia). destruct S as [N G]. rewrite P in N. apply list.NoDup_cons in N as [N1 N2].
  destruct (IH l' Ln (m - (d + 1))) as [->|Q].
  - split; [done|]. intros x y Hx Hy. apply G; rewrite P; by right.
  - intros x Hx. assert (x <> m) by (by intros ->). specialize (F x Hx). assert (d < m - x) by (apply G; [rewrite P; by right|rewrite P; by left|lia]). split; [|lia]. apply R. rewrite P. by right.
  - cbn in Ln. subst n. cbn. lia.
  - nia.
Qed.
