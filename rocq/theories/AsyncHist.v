(** What collections report over a history. *)
From Coq Require Import ZArith Bool String Lia.
From stdpp Require Import base list option strings.
From Verif Require Import Num Agg AggSpec AggProofs Attr Async AsyncSpec AsyncProofs AsyncRun.
Local Open Scope Z_scope.

Section hist.
Context {N : arith} (c : acfg).
Implicit Types (m : mst (N:=N)) (os : list (mop (N:=N))) (rs : list (mres (N:=N))).

Lemma collect_res m order script m' r : mexec c m (OCollect order script) = (m', r) -> exists o, r = RCollect o.
Proof. cbn. destruct (collect_for c order script m). intros [= <- <-]. eauto. Qed.
Lemma collect_ran m order script m' o : mexec c m (OCollect order script) = (m', RCollect o) ->
  co_ran o = answers c (m_cbs m) script (m_runs m) (m_decl m).
Proof.
  cbn [mexec]. rewrite collect_for_eq. cbv zeta. destruct (observe_all _ _ _). destruct (collect_views _ _). by intros [= <- <-].
Qed.
Lemma collection_step m order script m' o v w x0 :
  mexec c m (OCollect order script) = (m', RCollect o) -> (forall es, order es ≡ₚ es) ->
  a_views c !! v = Some w -> m_views m !! v = Some x0 -> d_data x0 = [] -> (1 <= av_limit w)%nat ->
  exists d, totals_of w d (inputs c v w (recorded c script (co_ran o))) /\
    points v o = (collect_view w (VSt d (d_prior x0))).1 /\ m_views m' !! v = Some (collect_view w (VSt d (d_prior x0))).2.
Proof.
  intros E Hord Hw Hx0 Hd Hlim. pose proof (collect_ran _ _ _ _ _ E) as Hran.
  cbn [mexec] in E. rewrite collect_for_eq in E. cbv zeta in E. rewrite <- Hran in E.
  pose proof (gathered c (m_views m) (recorded c script (co_ran o)) order v w x0 Hx0 Hw Hd Hlim Hord) as G.
  destruct (observe_all c (recorded c script (co_ran o)) (m_views m)) as [es st]. destruct G as (d & Hs & Ht).
  destruct (collect_views (a_views c) (snapshot c (order es) st)) as [pts st'] eqn:Hc.
  injection E as <- Ho. apply (f_equal co_points) in Ho. cbn in Ho.
  exists d. split; [done|]. destruct (collect_views_at _ _ _ _ _ _ _ Hc Hw Hs) as [H1 H2].
  split; [|done]. unfold points. by rewrite <- Ho, H1.
Qed.
Lemma collect_same m order s s' m1 o1 m2 o2 :
  mexec c m (OCollect order s) = (m1, RCollect o1) -> mexec c m (OCollect order s') = (m2, RCollect o2) ->
  recorded c s (co_ran o1) = recorded c s' (co_ran o2) -> m1 = m2 /\ co_points o1 = co_points o2.
Proof.
  intros E1 E2 Hr. pose proof (collect_ran _ _ _ _ _ E1) as R1. pose proof (collect_ran _ _ _ _ _ E2) as R2.
  cbn [mexec] in E1, E2. rewrite collect_for_eq in E1, E2. cbv zeta in E1, E2. rewrite <- R1 in E1. rewrite <- R2 in E2. rewrite <- Hr in E2.
  destruct (observe_all _ _ _) as [es st]. destruct (collect_views _ _) as [pts st'].
  injection E1 as Hm1 Ho1. injection E2 as Hm2 Ho2. apply (f_equal co_points) in Ho1, Ho2. cbn in Ho1, Ho2. split; congruence.
Qed.

Lemma collect_allowed os m rs order script m' o t r res : mrun c (m_init c) os = (m, rs) ->
  mexec c m (OCollect order script) = (m', RCollect o) -> co_ran o !! t = Some (r, res) ->
  length res = length (script r) /\
  forall n a x, script r !! n = Some a -> res !! n = Some x -> (x = Recorded <-> allowed c os r (runs_before rs + t) a).
Proof.
  intros Hrun E Ht. rewrite (collect_ran _ _ _ _ _ E) in Ht. destruct (reached_run _ _ _ _ Hrun) as [(R1 & R2 & R3 & R4 & R5) Rr _ _].
  destruct (m_cbs m !! t) as [cb|] eqn:Hcb.
  2: { assert (Hf : map fst (answers c (m_cbs m) script (m_runs m) (m_decl m)) !! t = Some r). { rewrite list_lookup_fmap, Ht. done. }
       rewrite answers_fst in Hf. congruence. }
  rewrite (answers_lookup c _ _ _ _ _ _ Hcb) in Ht. injection Ht as -> <-. split; [by rewrite map_length|].
  intros n a x Ha Hx. rewrite list_lookup_fmap, Ha in Hx. cbn in Hx. injection Hx as <-.
  rewrite Rr, replicate_length. set (j := (runs_before rs + t)%nat).
  assert (Hruns : replicate (runs_before rs) None ++ replicate t None ++ [Some r] = replicate j None ++ [Some r]). { rewrite app_assoc. by rewrite <- replicate_add. }
  rewrite Hruns. unfold verdict, allowed. rewrite R1.
  assert (Hj : (replicate j None ++ [Some r]) !! default j (at_cs a) =
    if decide (default j (at_cs a) = j) then Some (Some r) else if decide (default j (at_cs a) < j)%nat then Some None else None).
  { destruct (decide (default j (at_cs a) = j)) as [->|Hne].
    - rewrite lookup_app_r by (rewrite replicate_length; lia). rewrite replicate_length, Nat.sub_diag. done.
    - destruct (decide _).
      + rewrite lookup_app_l by (rewrite replicate_length; lia). by apply lookup_replicate_2.
      + apply lookup_ge_None_2. rewrite app_length, replicate_length. cbn. lia. }
  rewrite Hj. destruct (decide (default j (at_cs a) = j)) as [Hcur|Hne].
  2: { split; [destruct (decide _); done|]. by intros [? _]. }
  assert (Hin : forall i ds, existsb (Nat.eqb i) ds = true <-> i ∈ ds).
  { intros i ds. rewrite existsb_exists. setoid_rewrite <- elem_of_list_In. split; [|intros; exists i; by rewrite Nat.eqb_refl]. by intros (k & ? & ->%Nat.eqb_eq). }
  split.
  - destruct (at_obj a) as [|i] eqn:Ho; [done|]. destruct (declared c os !! r) as [ds|] eqn:Hd; [|done]. cbn.
    destruct (existsb (Nat.eqb i) ds) eqn:He; [|done]. destruct (a_insts c !! i) as [inst|] eqn:Hi; [|done].
    destruct (range_test (at_val a) (ai_kind inst)) eqn:Hrt; [|done]. destruct (ai_views inst) eqn:Hv; [done|].
    intros _. split; [done|]. exists i, inst, ds. rewrite Hv. repeat split; auto. by apply Hin.
  - intros (_ & i & inst & ds & -> & -> & Hds & Hi & Hrt & Hv). cbn. rewrite (proj2 (Hin i ds) Hds), Hi, Hrt. by destruct (ai_views inst).
Qed.

Lemma collect_once os m rs order script m' o : mrun c (m_init c) os = (m, rs) ->
  mexec c m (OCollect order script) = (m', RCollect o) ->
  NoDup (map fst (co_ran o)) /\ forall r, r ∈ map fst (co_ran o) <-> r ∈ registered_ids c os /\ ~ unregistered c os r.
Proof.
  intros Hrun E. rewrite (collect_ran _ _ _ _ _ E), answers_fst. destruct (reached_run _ _ _ _ Hrun) as [(R1 & R2 & R3 & R4 & R5) _ _ _].
  split; [done|]. intros r. rewrite R5, registered_elem, <- R2. split.
  - intros Hr. split; [by eapply lookup_lt_Some|]. by destruct (R3 _ _ Hr) as [[_ ?]|[? _]].
  - intros [Hl Hu]. apply lookup_lt_is_Some in Hl as [x Hx]. destruct (R3 _ _ Hx) as [[-> _]|[_ ?]]; done.
Qed.
Lemma register_spec os m rs objs f m' x : mrun c (m_init c) os = (m, rs) ->
  mexec c m (ORegister objs f) = (m', RRegister x) ->
  (x = Some (length (registered_ids c os)) /\ is_Some (new_callback c objs f)) \/ (x = None /\ m' = m /\ ~ is_Some (new_callback c objs f)).
Proof.
  intros Hrun E. destruct (reached_run _ _ _ _ Hrun) as [(R1 & R2 & R3 & R4 & R5) _ _ _]. cbn in E. unfold register in E.
  destruct (new_callback c objs f) as [ds|]; simplify_eq.
  - left. rewrite R1, declared_length. eauto.
  - right. split_and!; [done|done|by intros [? ?]].
Qed.
Lemma unregister_spec os m rs r m' ok : mrun c (m_init c) os = (m, rs) ->
  mexec c m (OUnregister r) = (m', RUnregister ok) ->
  (ok = true <-> r ∈ registered_ids c os /\ ~ unregistered c os r) /\ (ok = false -> m' = m).
Proof.
  intros Hrun E. destruct (reached_run _ _ _ _ Hrun) as [(R1 & R2 & R3 & R4 & R5) _ _ _]. cbn in E. unfold unregister in E.
  rewrite registered_elem, <- R2. destruct (m_regs m !! r) as [x|] eqn:Hr.
  - pose proof (lookup_lt_Some _ _ _ Hr). destruct (R3 _ _ Hr) as [[-> ?]|[-> ?]]; simplify_eq; naive_solver.
  - simplify_eq. apply lookup_ge_None in Hr. split; [|done]. split; [done|]. lia.
Qed.

(** ** Delta views *)
Lemma get_cons k k' x (d : list (list kv * N)) : get k ((k', x) :: d) = if bool_decide (k' = k) then Some x else get k d.
Proof. unfold get. cbn. by case_bool_decide. Qed.
Lemma collect_stateful (w : aview) (d d0 : list (list kv * N)) k : stateful w = true -> NoDup (map fst d) ->
  at_key k (collect_view w (VSt d d0)).1 =
  match get k d with
  | None => []
  | Some x => match get k d0 with
              | Some y => if eqb (sub x y) zero then [] else [sub x y]
              | None => [x]
              end
  end.
Proof.
  intros Hs Hd. unfold collect_view, sum_subtract. rewrite Hs. cbn [fst d_data d_prior m_change sum_methods].
  induction d as [|[k' x] d IH]; [done|]. cbn in Hd. apply list.NoDup_cons in Hd as [Hn Hd]. specialize (IH Hd).
  cbn [omap list_omap fst snd]. rewrite get_cons. case_bool_decide as Hk.
  - subst k'.
    assert (Hno : get k d = None) by by apply get_None. rewrite Hno in IH.
    destruct (get k d0) as [y|]; cbn [negb]; [destruct (eqb (sub x y) zero); cbn [negb]|];
      unfold at_key in *; cbn [List.filter fst map snd]; rewrite ?bool_decide_eq_true_2 by done; cbn [map snd]; rewrite ?IH; done.
  - rewrite <- IH.
    destruct (get k' d0) as [y|]; [destruct (eqb (sub x y) zero)|]; cbn [negb]; unfold at_key; cbn [List.filter fst];
      rewrite ?bool_decide_eq_false_2 by done; done.
Qed.
Lemma totals_roomy w d (p : list (list kv * N)) : totals_of w d p -> roomy w p -> get overflow_set d = None.
Proof. intros T [Ho Hd]. destruct (totals_fit _ _ _ T Hd) as (_ & Hk & _). apply get_None. by rewrite Hk. Qed.

(** The state of a delta view after collections that all had room. *)
Lemma stateful_state os m rs v w : mrun c (m_init c) os = (m, rs) -> fair os -> a_views c !! v = Some w -> stateful w = true ->
  Forall (fun p => roomy w (inputs c v w p.1)) (collections c os rs) ->
  exists d, m_views m !! v = Some (VSt [] d) /\
    match list.last (collections c os rs) with None => d = [] | Some p => totals_of w d (inputs c v w p.1) end.
Proof.
  revert m rs. induction os as [|o os IH] using rev_ind; intros m rs Hrun Hf Hw Hs Hroom.
  { cbn in Hrun. simplify_eq. exists []. split; [|done]. cbn. rewrite list_lookup_fmap, Hw. done. }
  destruct (mrun c (m_init c) os) as [m1 rs1] eqn:R. rewrite (mrun_snoc _ _ _ _ _ _ R) in Hrun.
  destruct (mexec c m1 o) as [m2 r] eqn:X. simplify_eq. rewrite (collections_snoc _ _ _ _ _ (mrun_length _ _ _ _ _ R)) in *.
  apply Forall_app in Hroom as [Hroom1 Hroom2].
  assert (Hf1 : fair os). { intros order script es Hin. apply (Hf order script es). apply elem_of_app. by left. }
  destruct (IH _ _ eq_refl Hf1 Hw Hs Hroom1) as (d & Hd & Hl).
  assert (Hsame : collections c [o] [r] = [] -> m_views m = m_views m1 ->
    exists d0, m_views m !! v = Some (VSt [] d0) /\ match list.last (collections c os rs1 ++ collections c [o] [r]) with None => d0 = [] | Some p => totals_of w d0 (inputs c v w p.1) end).
  { intros Hc Hm. rewrite Hc, app_nil_r, Hm. eauto. }
  destruct o as [objs f|q|order script|a].
  - apply Hsame. { cbn in X. destruct (register c objs f m1). by simplify_eq. }
    cbn in X. unfold register in X. destruct (new_callback c objs f); by simplify_eq.
  - apply Hsame. { cbn in X. destruct (unregister q m1). by simplify_eq. }
    cbn in X. unfold unregister in X. destruct (m_regs m1 !! q) as [[cb|]|]; by simplify_eq.
  - destruct (collect_res _ _ _ _ _ X) as [out ->]. cbn [collections] in *.
    assert (Hroom3 : roomy w (inputs c v w (recorded c script (co_ran out)))). { by apply list.Forall_cons in Hroom2 as [? _]. }
    assert (Hlim : (1 <= av_limit w)%nat). { destruct Hroom3. lia. }
    assert (Hord : forall es, order es ≡ₚ es). { intros es. apply (Hf order script es). apply elem_of_app. right. left. }
    destruct (collection_step _ _ _ _ _ _ _ _ X Hord Hw Hd eq_refl Hlim) as (d' & Ht & _ & Hv).
    rewrite Hv. unfold collect_view. rewrite Hs. cbn [snd d_data d_prior]. rewrite (totals_roomy _ _ _ Ht Hroom3).
    exists d'. split; [done|]. rewrite last_snoc. done.
  - apply Hsame.
    + cbn in X. destruct (try_observe _ _ _ _ _ _) as [[??]?]. by simplify_eq.
    + rewrite (late_eq _ _ _ _ (re_runs _ _ _ _ (reached_run _ _ _ _ R))) in X. by simplify_eq.
Qed.
End hist.

(** ** Sums of int64 *)
Lemma adds_cong (l : list Int64) (x : Int64) : adds l x -> wrap x = wrap (zsum l).
Proof.
  induction 1 as [|x|l l' x y _ IH1 _ IH2|l l' x Hp _ IH].
  - done.
  - cbn. by rewrite Z.add_0_r.
  - rewrite zsum_app. change (wrap (wrap ((x : Z) + (y : Z))) = wrap (zsum l + zsum l')). rewrite wrap_wrap.
    rewrite <- wrap_add, IH1, IH2. by rewrite wrap_add.
  - rewrite IH. f_equal. by apply zsum_perm.
Qed.
Lemma wrap_sum_cong l l' : map wrap l = map wrap l' -> wrap (zsum l) = wrap (zsum l').
Proof.
  revert l'. induction l as [|x l IH]; intros [|y l'] H; cbn in H; try done. injection H as H1 H2. cbn.
  change (foldr Z.add 0 l) with (zsum l). change (foldr Z.add 0 l') with (zsum l').
  rewrite <- wrap_add, H1, (IH _ H2). by rewrite wrap_add.
Qed.

Fixpoint lastopt {A} (b : option A) (l : list (option A)) : option A := match l with [] => b | x :: l => lastopt x l end.
Lemma changes_snoc b ts t : changes b (ts ++ [t]) = changes b ts ++ match t with Some x => [x - default 0 (lastopt b ts)] | None => [] end.
Proof.
  revert b. induction ts as [|u ts IH]; intros b; cbn; [by destruct t|].
  destruct u as [x|]; rewrite IH; done.
Qed.
Lemma lastopt_snoc {A} (b : option A) l x : lastopt b (l ++ [x]) = x.
Proof. revert b. induction l as [|y l IH]; intros b; cbn; auto. Qed.

Lemma delta_sum c os m rs v w k : mrun (N:=Int64) c (m_init c) os = (m, rs) -> fair os -> a_views c !! v = Some w -> stateful w = true ->
  Forall (fun p => roomy w (inputs c v w p.1)) (collections c os rs) ->
  wrap (zsum (p ← collections c os rs; at_key k (points v p.2))) =
  wrap (zsum (changes None (map (fun p => total_at k (inputs c v w p.1)) (collections c os rs)))).
Proof.
  revert m rs. induction os as [|o os IH] using rev_ind; intros m rs Hrun Hf Hw Hs Hroom.
  { cbn in Hrun. by simplify_eq. }
  destruct (mrun c (m_init c) os) as [m1 rs1] eqn:R. rewrite (mrun_snoc _ _ _ _ _ _ R) in Hrun.
  destruct (mexec c m1 o) as [m2 r] eqn:X. simplify_eq. rewrite (collections_snoc _ _ _ _ _ (mrun_length _ _ _ _ _ R)) in *.
  apply Forall_app in Hroom as [Hroom1 Hroom2].
  assert (Hf1 : fair os). { intros order script es Hin. apply (Hf order script es). apply elem_of_app. by left. }
  specialize (IH _ _ eq_refl Hf1 Hw Hs Hroom1).
  destruct (stateful_state c os m1 rs1 v w R Hf1 Hw Hs Hroom1) as (d & Hd & Hl).
  destruct o as [objs f|q|order script|a].
  - replace (collections c [ORegister objs f] [r]) with (@nil (list (obs (N:=Int64)) * collected (N:=Int64))); [by rewrite !app_nil_r|by destruct r].
  - replace (collections c [OUnregister q] [r]) with (@nil (list (obs (N:=Int64)) * collected (N:=Int64))); [by rewrite !app_nil_r|by destruct r].
  - destruct (collect_res _ _ _ _ _ _ X) as [out ->]. cbn [collections] in *. clear R.
    set (ins := inputs c v w (recorded c script (co_ran out))) in *.
    assert (Hroom3 : roomy w ins). { by apply list.Forall_cons in Hroom2 as [? _]. }
    assert (Hlim : (1 <= av_limit w)%nat). { destruct Hroom3. lia. }
    assert (Hord : forall es, order es ≡ₚ es). { intros es. apply (Hf order script es). apply elem_of_app. right. left. }
    destruct (collection_step _ _ _ _ _ _ _ _ _ X Hord Hw Hd eq_refl Hlim) as (d' & Ht & Hp & _).
    fold ins in Ht. cbn [d_prior] in Hp.
    destruct (totals_fit _ _ _ Ht (proj2 Hroom3)) as (Hnd & Hkeys & Hval).
    rewrite bind_app, zsum_app. rewrite bind_cons. cbn [snd]. rewrite Hp, (collect_stateful w d' d k Hs Hnd).
    change ([] ≫= (fun p : list (obs (N:=Int64)) * collected => at_key k (points v p.2))) with (@nil Int64). rewrite app_nil_r.
    rewrite map_app. cbn [fst map]. rewrite changes_snoc, zsum_app. fold ins.
    rewrite <- wrap_add. rewrite IH. rewrite <- (wrap_add (zsum (changes None _))). f_equal. f_equal.
    unfold total_at at 1.
    destruct (get k d') as [x|] eqn:Hx.
    + assert (Hkin : k ∈ map fst ins). { apply Hkeys. apply get_is_Some. eauto. }
      rewrite bool_decide_eq_true_2 by done.
      assert (Hxv : wrap x = wrap (zsum (at_key k ins))).
      { apply adds_cong. apply get_elem in Hx. pose proof (Hval _ _ Hx) as Ha. unfold agg in Ha.
        destruct (av_gauge w) eqn:Hg; [|done]. exfalso. unfold stateful in Hs. rewrite Hg in Hs. by destruct (av_delta w). }
      assert (Hy : forall y : option Z, y = lastopt None (map (fun p => total_at k (inputs c v w p.1)) (collections c os rs1)) ->
        match get k d with Some z => exists u, y = Some u /\ wrap z = wrap u | None => y = None end).
      { intros y ->. destruct (collections c os rs1) as [|p0 ps] eqn:Hcol using rev_ind; [cbn in Hl |- *; by subst d|]. clear IHps.
        rewrite last_snoc in Hl. rewrite map_app. cbn [map]. rewrite lastopt_snoc.
        apply Forall_app in Hroom1 as [_ Hr1]. apply list.Forall_cons in Hr1 as [Hr1 _].
        destruct (totals_fit _ _ _ Hl (proj2 Hr1)) as (Hnd0 & Hkeys0 & Hval0). unfold total_at.
        destruct (get k d) as [z|] eqn:Hz.
        - rewrite bool_decide_eq_true_2. 2: { apply Hkeys0. apply get_is_Some. eauto. }
          eexists. split; [done|]. apply adds_cong. apply get_elem in Hz. pose proof (Hval0 _ _ Hz) as Ha. unfold agg in Ha.
          destruct (av_gauge w) eqn:Hg; [|done]. exfalso. unfold stateful in Hs. rewrite Hg in Hs. by destruct (av_delta w).
        - apply get_None in Hz. rewrite bool_decide_eq_false_2; [done|]. by rewrite <- Hkeys0. }
      specialize (Hy _ eq_refl). destruct (get k d) as [z|].
      * destruct Hy as (u & -> & Hu). cbn [default]. change (sub (a:=Int64) x z) with (wrap ((x : Z) - (z : Z))).
        assert (Hsub : wrap ((x : Z) - (z : Z)) = wrap (zsum (at_key k ins) - u)). { rewrite <- wrap_sub, Hxv, Hu. by rewrite wrap_sub. }
        rewrite Hsub. change (zero (a:=Int64)) with 0. change (eqb (a:=Int64)) with Z.eqb.
        destruct (Z.eqb_spec (wrap (zsum (at_key k ins) - u)) 0) as [E0|_].
        -- cbn. rewrite Z.add_0_r. by rewrite E0.
        -- cbn. rewrite !Z.add_0_r. by rewrite wrap_wrap.
      * rewrite Hy. cbn. rewrite !Z.add_0_r, Z.sub_0_r. exact Hxv.
    + apply get_None in Hx. rewrite bool_decide_eq_false_2; [done|]. by rewrite <- Hkeys.
  - replace (collections c [OLate a] [r]) with (@nil (list (obs (N:=Int64)) * collected (N:=Int64))); [by rewrite !app_nil_r|by destruct r].
Qed.
Lemma changes_steady (b : option Z) ts xs : ts = map Some xs -> zsum (changes b ts) = match list.last xs with Some x => x - default 0 b | None => 0 end.
Proof.
  intros ->. revert b. induction xs as [|x xs IH]; intros b; [done|]. cbn [map changes].
  change (zsum (x - default 0 b :: changes (Some x) (map Some xs))) with (x - default 0 b + zsum (changes (Some x) (map Some xs))). rewrite IH.
  destruct xs as [|y xs]; [cbn; lia|]. rewrite (last_cons x (y :: xs)).
  destruct (list.last (y :: xs)) as [z|] eqn:E; [cbn; lia|]. by apply last_None in E.
Qed.
Lemma changes_absent ts us : Forall (fun t => t = None) ts -> changes None (ts ++ us) = changes None us.
Proof. induction 1 as [|t ts -> _ IH]; [done|]. exact IH. Qed.
