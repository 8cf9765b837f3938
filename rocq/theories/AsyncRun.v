(** Histories of asynchronous instruments. *)
From Coq Require Import ZArith Bool String Lia.
From stdpp Require Import base list option strings.
From Verif Require Import Num Agg AggSpec AggProofs Attr Async AsyncSpec AsyncProofs.

Section run.
Context {N : arith} (c : acfg).
Notation mop := (mop (N:=N)).
Notation mres := (mres (N:=N)).
Notation mst := (mst (N:=N)).
Implicit Types (m : mst) (os : list mop) (rs : list mres).

(** ** The answer to an observation *)
Definition verdict (cur : nat) (runs : list (option nat)) (decl : list (list nat)) (a : attempt (N:=N)) : result :=
  match runs !! default cur (at_cs a) with
  | Some (Some cb) =>
      match at_obj a with
      | Foreign => NotSDK
      | Inst i =>
          if existsb (Nat.eqb i) (default [] (decl !! cb)) then
            match a_insts c !! i with
            | Some inst => if range_test (at_val a) (ai_kind inst) then match ai_views inst with [] => Disabled | _ => Recorded end else OutOfRange
            | None => NotSDK
            end
          else NotDeclared
      end
  | _ => AfterReturn
  end.
Definition fold_obs (l : list (obs (N:=N))) (x : list (entry (N:=N)) * list (vst (N:=N))) := fold_left (fun x o => observe c o.1.1 o.1.2 o.2 x) l x.
Lemma try_observe_eq cur runs decl a x :
  try_observe c cur runs decl a x =
  (fold_obs (option_list (recorded_one c (a, verdict cur runs decl a))) x, verdict cur runs decl a).
Proof.
  unfold try_observe, verdict, recorded_one. destruct a as [cs ob n l]. cbn.
  destruct (runs !! default cur cs) as [[cb|]|]; [|by destruct ob..].
  destruct ob as [|i]; [done|]. destruct (existsb (Nat.eqb i) (default [] (decl !! cb))); [|done].
  destruct (a_insts c !! i) as [inst|]; [|done]. destruct (range_test n (ai_kind inst)); [|done].
  by destruct (ai_views inst).
Qed.
Lemma fold_try cur runs decl ats x (rs0 : list result) :
  fold_left (fun y a => let '(x', r) := try_observe c cur runs decl a y.1 in (x', y.2 ++ [r])) ats (x, rs0) =
  (fold_obs (omap (recorded_one c) (zip ats (map (verdict cur runs decl) ats))) x, rs0 ++ map (verdict cur runs decl) ats).
Proof.
  revert x rs0. induction ats as [|a ats IH]; intros x rs0; cbn [fold_left map zip omap]; [by rewrite app_nil_r|].
  rewrite try_observe_eq. cbn [fst snd]. rewrite IH. rewrite <- app_assoc. f_equal.
  cbn [zip zip_with omap list_omap]. destruct (recorded_one c (a, verdict cur runs decl a)); done.
Qed.
Lemma run_callback_eq cb ats x runs decl :
  run_callback c cb ats x runs decl =
  (fold_obs (omap (recorded_one c) (zip ats (map (verdict (length runs) (runs ++ [Some cb]) decl) ats))) x,
   map (verdict (length runs) (runs ++ [Some cb]) decl) ats, runs ++ [None]).
Proof.
  unfold run_callback. rewrite fold_try. cbn [app]. f_equal. rewrite insert_app_r_alt by done. by rewrite Nat.sub_diag.
Qed.
Fixpoint answers (cbs : list nat) (script : nat -> list (attempt (N:=N))) (runs : list (option nat)) decl : list (nat * list result) :=
  match cbs with
  | [] => []
  | cb :: cbs => (cb, map (verdict (length runs) (runs ++ [Some cb]) decl) (script cb)) :: answers cbs script (runs ++ [None]) decl
  end.
Lemma run_callbacks_eq cbs script x runs decl :
  run_callbacks c cbs script x runs decl =
  (fold_obs (recorded c script (answers cbs script runs decl)) x, answers cbs script runs decl, runs ++ replicate (length cbs) None).
Proof.
  revert x runs. induction cbs as [|cb cbs IH]; intros x runs; cbn [run_callbacks answers length replicate].
  { by rewrite app_nil_r. }
  rewrite run_callback_eq. rewrite IH. rewrite <- app_assoc. cbn [app]. f_equal. f_equal.
  unfold recorded. rewrite bind_cons. unfold fold_obs. by rewrite fold_left_app.
Qed.
Lemma answers_fst cbs script runs decl : map fst (answers cbs script runs decl) = cbs.
Proof. revert runs. induction cbs as [|cb cbs IH]; intros runs; cbn; [done|]. by rewrite IH. Qed.
Lemma answers_lookup cbs script runs decl t cb : cbs !! t = Some cb ->
  answers cbs script runs decl !! t =
  Some (cb, map (verdict (length runs + t) (runs ++ replicate t None ++ [Some cb]) decl) (script cb)).
Proof.
  revert runs t. induction cbs as [|d cbs IH]; intros runs [|t] H; cbn in H |- *; try done; simplify_eq.
  - by rewrite Nat.add_0_r.
  - rewrite (IH _ _ H). rewrite app_length. cbn [length]. rewrite <- app_assoc. cbn [app replicate].
    replace (length runs + 1 + t)%nat with (length runs + S t)%nat by lia. done.
Qed.

Lemma collect_for_eq order script m :
  collect_for c order script m =
  let out := answers (m_cbs m) script (m_runs m) (m_decl m) in
  let '(es, st) := observe_all c (recorded c script out) (m_views m) in
  let '(pts, st') := collect_views (a_views c) (snapshot c (order es) st) in
  (MSt st' (m_cbs m) (m_decl m) (m_regs m) (m_runs m ++ replicate (length (m_cbs m)) None), Collected pts out).
Proof.
  unfold collect_for. rewrite run_callbacks_eq. unfold fold_obs, observe_all.
  destruct (fold_left _ _ _) as [es st]. done.
Qed.

(** ** Histories *)
Lemma mrun_app m os (os' : list mop) : mrun c m (os ++ os') =
  let '(m1, rs) := mrun c m os in let '(m2, rs') := mrun c m1 os' in (m2, rs ++ rs').
Proof.
  revert m. induction os as [|o os IH]; intros m; cbn; [by destruct (mrun c m os')|].
  destruct (mexec c m o) as [m1 r]. rewrite IH. destruct (mrun c m1 os) as [m2 rs]. by destruct (mrun c m2 os').
Qed.
Lemma mrun_snoc m os o m1 rs : mrun c m os = (m1, rs) -> mrun c m (os ++ [o]) = let '(m2, r) := mexec c m1 o in (m2, rs ++ [r]).
Proof. intros E. rewrite mrun_app, E. cbn. by destruct (mexec c m1 o). Qed.
Lemma mrun_length m os m1 rs : mrun c m os = (m1, rs) -> length rs = length os.
Proof.
  revert m rs. induction os as [|o os IH]; intros m rs E; cbn in E; [by simplify_eq|].
  destruct (mexec c m o) as [m2 r]. destruct (mrun c m2 os) as [m3 rs'] eqn:R. simplify_eq. cbn. f_equal. by eapply IH.
Qed.
Lemma collections_snoc os rs o r : length rs = length os ->
  collections c (os ++ [o]) (rs ++ [r]) = collections c os rs ++ collections c [o] [r].
Proof.
  revert rs. induction os as [|a os IH]; intros [|b rs] Hl; cbn in Hl; try lia; [done|].
  injection Hl as Hl. destruct a, b; cbn [app collections]; rewrite (IH _ Hl); done.
Qed.
Lemma registered_snoc os (o : mop) : registered_ids c (os ++ [o]) =
  match o with
  | ORegister objs f => if bool_decide (is_Some (new_callback c objs f)) then registered_ids c os ++ [length (registered_ids c os)] else registered_ids c os
  | _ => registered_ids c os
  end.
Proof.
  unfold registered_ids. rewrite List.filter_app, app_length. cbn. destruct o; cbn; rewrite ?Nat.add_0_r; try done.
  case_bool_decide; cbn; rewrite ?Nat.add_0_r; try done. rewrite seq_length. by rewrite seq_app.
Qed.
Lemma declared_snoc os (o : mop) : declared c (os ++ [o]) =
  declared c os ++ option_list (match o with ORegister objs f => if bool_decide (is_Some (new_callback c objs f)) then Some (insts_of objs) else None | _ => None end).
Proof. unfold declared. rewrite omap_app. by f_equal. Qed.
Lemma declared_length (os : list mop) : length (declared c os) = length (registered_ids c os).
Proof.
  induction os as [|o os IH] using rev_ind; [done|]. rewrite declared_snoc, registered_snoc, app_length, IH.
  destruct o; cbn; rewrite ?Nat.add_0_r; try done. case_bool_decide; cbn; rewrite ?app_length; cbn; lia.
Qed.
Lemma registered_elem (os : list mop) r : r ∈ registered_ids c os <-> (r < length (registered_ids c os))%nat.
Proof. unfold registered_ids. rewrite seq_length. rewrite elem_of_list_In, in_seq. lia. Qed.

Lemma check_objs_insts objs ds : check_objs c objs = Some ds -> ds = insts_of objs.
Proof.
  revert ds. induction objs as [|[|i] objs IH]; intros ds E; cbn in E; [by simplify_eq|done|].
  destruct (a_insts c !! i) as [inst|]; [|done]. destruct (Nat.eqb (ai_meter inst) (a_meter c)); [|done].
  destruct (check_objs c objs) as [ds'|]; [|done]. cbn in E. simplify_eq. cbn. f_equal. by apply IH.
Qed.
Lemma new_callback_insts objs f ds : new_callback c objs f = Some ds -> ds = insts_of objs.
Proof. unfold new_callback. destruct objs; [done|]. destruct f; [|done]. apply check_objs_insts. Qed.
Lemma new_callback_ok objs f : is_Some (new_callback c objs f) <->
  objs <> [] /\ f = true /\ forall o, o ∈ objs -> exists i inst, o = Inst i /\ a_insts c !! i = Some inst /\ ai_meter inst = a_meter c.
Proof.
  assert (Hc : is_Some (check_objs c objs) <-> forall o, o ∈ objs -> exists i inst, o = Inst i /\ a_insts c !! i = Some inst /\ ai_meter inst = a_meter c).
  { induction objs as [|[|i] objs IH]; cbn.
    - split; [by intros _ o ?%elem_of_nil|eauto].
    - split; [by intros [? ?]|]. intros H. destruct (H Foreign) as (i & inst & ? & _); [left|done].
    - destruct (a_insts c !! i) as [inst|] eqn:Hi.
      + destruct (Nat.eqb_spec (ai_meter inst) (a_meter c)) as [Hm|Hm].
        * destruct (check_objs c objs) as [ds|]; cbn.
          -- split; [|eauto]. intros _ o [->|Ho]%elem_of_cons; [by eauto|]. apply IH; eauto.
          -- split; [by intros [? ?]|]. intros H. exfalso. destruct (proj2 IH) as [? ?]; [|done]. intros o Ho. apply H. by right.
        * split; [by intros [? ?]|]. intros H. destruct (H (Inst i)) as (j & inst' & [= <-] & ? & ?); [left|]. congruence.
      + split; [by intros [? ?]|]. intros H. destruct (H (Inst i)) as (j & inst' & [= <-] & ? & ?); [left|]. congruence. }
  unfold new_callback. destruct objs as [|o objs]; [split; [by intros [? ?]|by intros [? _]]|]. destruct f.
  - rewrite Hc. split; [done|]. by intros (_ & _ & ?).
  - split; [by intros [? ?]|by intros (_ & ? & _)].
Qed.

(** ** Unregister *)
Lemma swap_remove_perm cb l : NoDup l -> cb ∈ l -> l ≡ₚ cb :: swap_remove cb l.
Proof.
  intros Hd Hin. unfold swap_remove. destruct (list_find (eq cb) l) as [[i y]|] eqn:E.
  - apply list_find_Some in E as (Hi & <- & _). destruct (list.last l) as [x|] eqn:Hx.
    + destruct (exists_last (l:=l)) as (ms & z & ->); [by intros ->|].
      rewrite last_snoc in Hx. injection Hx as ->. rewrite app_length. cbn [length]. replace (length ms + 1 - 1)%nat with (length ms) by lia.
      destruct (decide (i < length ms)%nat) as [Hlt|Hge].
      * rewrite insert_app_l by done. rewrite take_app_alt by by rewrite insert_length.
        rewrite lookup_app_l in Hi by done.
        rewrite <- (take_drop_middle ms i cb Hi) at 1. rewrite (insert_take_drop ms i x Hlt).
        rewrite <- app_assoc. cbn [app]. rewrite <- Permutation_middle. constructor. apply Permutation_app_head.
        rewrite <- Permutation_cons_append. done.
      * assert (i = length ms) as ->. { apply lookup_lt_Some in Hi. rewrite app_length in Hi. cbn in Hi. lia. }
        rewrite lookup_app_r in Hi by lia. rewrite Nat.sub_diag in Hi. cbn in Hi. simplify_eq.
        rewrite insert_app_r_alt by lia. rewrite take_app. rewrite <- Permutation_cons_append. done.
    + apply last_None in Hx. subst. done.
  - apply list_find_None in E. rewrite list.Forall_forall in E. by destruct (E cb Hin).
Qed.

Definition registration_state (os : list mop) (m : mst) : Prop :=
  m_decl m = declared c os /\
  length (m_regs m) = length (registered_ids c os) /\
  (forall r x, m_regs m !! r = Some x -> (x = Some r /\ ~ unregistered c os r) \/ (x = None /\ unregistered c os r)) /\
  NoDup (m_cbs m) /\
  (forall r, r ∈ m_cbs m <-> m_regs m !! r = Some (Some r)).
Lemma unregistered_snoc os (o : mop) r : unregistered c (os ++ [o]) r <-> unregistered c os r \/ o = OUnregister r /\ r ∈ registered_ids c os.
Proof.
  split.
  - intros (os1 & os2 & E & Hin). destruct (exists_last (l:=OUnregister r :: os2)) as (q & z & Hq); [done|].
    rewrite Hq, app_assoc in E. apply app_inj_tail in E as [E ->]. destruct q as [|y q].
    + cbn in Hq. simplify_eq. right. rewrite app_nil_r. done.
    + left. cbn in Hq. injection Hq as <- Hq. exists os1, q. done.
  - intros [(os1 & os2 & -> & Hin)|[-> Hin]].
    + exists os1, (os2 ++ [o]). rewrite <- app_assoc. done.
    + by exists os, [].
Qed.

Record reached (os : list mop) (m : mst) (rs : list mres) : Prop := {
  re_reg : registration_state os m;
  re_runs : m_runs m = replicate (runs_before rs) None;
  re_len : length (m_views m) = length (a_views c);
  re_low : forall v w x, a_views c !! v = Some w -> stateful w = false -> m_views m !! v = Some x -> d_data x = []
}.
Lemma verdict_stale cur n decl a : (n <= cur)%nat -> verdict cur (replicate n None) decl a = AfterReturn.
Proof.
  intros Hn. unfold verdict. destruct (replicate n None !! default cur (at_cs a)) as [[cb|]|] eqn:E; [|done|done].
  apply lookup_replicate in E as [? _]. done.
Qed.
Lemma late_eq m a n : m_runs m = replicate n None -> mexec c m (OLate a) = (m, RLate AfterReturn).
Proof.
  intros Hr. cbn. rewrite try_observe_eq. rewrite Hr, replicate_length. rewrite verdict_stale by done.
  replace (recorded_one c (a, AfterReturn)) with (@None (obs (N:=N))).
  - cbn. rewrite <- Hr. by destruct m.
  - destruct a as [? [|?] ? ?]; done.
Qed.
Lemma observe_all_length (l : list (obs (N:=N))) st0 : length (observe_all c l st0).2 = length st0.
Proof. pose proof (observe_all_inv c st0 l) as I. destruct (observe_all c l st0) as [es st]. apply I. Qed.
Lemma not_Some_None {A} (x : option A) : ~ is_Some x -> x = None.
Proof. destruct x; [|done]. intros H. exfalso. apply H. eauto. Qed.

Lemma reached_step os m rs o m' r : reached os m rs -> mexec c m o = (m', r) -> reached (os ++ [o]) m' (rs ++ [r]).
Proof.
  intros R E.
  destruct o as [objs f|q|order script|a].
  - cbn in E. unfold register in E. destruct R as [(R1 & R2 & R3 & R4 & R5) Rr Rl Rw].
    assert (Hreg : runs_before (rs ++ [r]) = runs_before rs). { unfold runs_before. rewrite map_app, list_sum_app. destruct (new_callback c objs f); simplify_eq; cbn; lia. }
    assert (Hun : forall q, unregistered c (os ++ [ORegister objs f]) q <-> unregistered c os q). { intros q. rewrite unregistered_snoc. split; [by intros [?|[? _]]|by left]. }
    destruct (new_callback c objs f) as [ds|] eqn:Hnc.
    + injection E as <- <-. split; [split_and!| | |]; cbn [m_decl m_regs m_cbs m_runs m_views].
      * rewrite declared_snoc, Hnc, R1. rewrite bool_decide_eq_true_2 by eauto. cbn. f_equal. f_equal. by eapply new_callback_insts.
      * rewrite registered_snoc, Hnc. rewrite bool_decide_eq_true_2 by eauto. rewrite !app_length, R2. done.
      * intros q x. rewrite Hun. rewrite lookup_app_Some. intros [?|[Hq Hx]]; [by apply R3|].
        rewrite list_lookup_singleton_Some in Hx. destruct Hx as [Hq0 <-]. left.
        assert (q = length (m_decl m)) as ->. { rewrite R1, declared_length, <- R2. lia. }
        split; [done|]. intros (os1 & os2 & Eo & Hin). apply registered_elem in Hin.
        assert (length (registered_ids c os1) <= length (registered_ids c os))%nat.
        { rewrite Eo. unfold registered_ids. rewrite !seq_length, List.filter_app, app_length. lia. }
        rewrite R1, declared_length in Hin. lia.
      * apply NoDup_app. split; [done|]. split; [|apply NoDup_singleton]. intros q Hq ->%elem_of_list_singleton.
        apply R5 in Hq. apply lookup_lt_Some in Hq. rewrite R1, declared_length, <- R2 in Hq. lia.
      * intros q. rewrite elem_of_app, elem_of_list_singleton, R5. rewrite lookup_app_Some, list_lookup_singleton_Some.
        rewrite R1, declared_length, <- R2. split; [intros [?| ->]|intros [?|(? & ? & ?)]].
        -- by left.
        -- right. split; [done|]. split; [lia|done].
        -- by left.
        -- right. congruence.
      * rewrite Hreg. done.
      * done.
      * done.
    + injection E as <- <-. split; [split_and!| | |].
      * rewrite declared_snoc, Hnc. rewrite bool_decide_eq_false_2 by (by intros [? ?]). cbn. by rewrite app_nil_r.
      * rewrite registered_snoc, Hnc. rewrite bool_decide_eq_false_2 by (by intros [? ?]). done.
      * intros q x. rewrite Hun. apply R3.
      * done.
      * done.
      * by rewrite Hreg.
      * done.
      * done.
  - cbn in E. unfold unregister in E. destruct R as [(R1 & R2 & R3 & R4 & R5) Rr Rl Rw].
    assert (Hreg : runs_before (rs ++ [r]) = runs_before rs). { unfold runs_before. rewrite map_app, list_sum_app. destruct (m_regs m !! q) as [[cb|]|]; simplify_eq; cbn; lia. }
    destruct (m_regs m !! q) as [[cb|]|] eqn:Hq.
    + destruct (R3 _ _ Hq) as [[[= ->] Hu]|[? _]]; [|done]. injection E as <- <-.
      assert (Hin : q ∈ m_cbs m) by by apply R5. assert (Hid : q ∈ registered_ids c os). { apply registered_elem. rewrite <- R2. by eapply lookup_lt_Some. }
      pose proof (swap_remove_perm q _ R4 Hin) as Hp. pose proof R4 as Hd. rewrite Hp in Hd. apply list.NoDup_cons in Hd as [Hn Hd].
      split; [split_and!| | |]; cbn [m_decl m_regs m_cbs m_runs m_views].
      * rewrite declared_snoc. cbn. by rewrite app_nil_r.
      * rewrite registered_snoc, insert_length. done.
      * intros p x. rewrite unregistered_snoc. destruct (decide (p = q)) as [->|Hne].
        -- rewrite list_lookup_insert by by eapply lookup_lt_Some. intros [= <-]. right. split; [done|]. by right.
        -- rewrite list_lookup_insert_ne by done. intros Hx. destruct (R3 _ _ Hx) as [[? Hnu]|[? ?]]; [left|right].
           ++ split; [done|]. intros [?|[[= ?] ?]]; congruence.
           ++ split; [done|]. by left.
      * done.
      * intros p. destruct (decide (p = q)) as [->|Hne].
        -- rewrite list_lookup_insert by by eapply lookup_lt_Some. split; [by intros ?|done].
        -- rewrite list_lookup_insert_ne by done. rewrite <- R5. rewrite Hp at 2. rewrite elem_of_cons. naive_solver.
      * by rewrite Hreg.
      * done.
      * done.
    + injection E as <- <-. split; [split_and!| | |]; auto.
      * rewrite declared_snoc. cbn. by rewrite app_nil_r.
      * rewrite registered_snoc. done.
      * intros p x Hx. rewrite unregistered_snoc. destruct (R3 _ _ Hx) as [[? Hnu]|[? ?]]; [left|right].
        -- split; [done|]. intros [?|[[= ->] ?]]; congruence.
        -- split; [done|]. by left.
      * by rewrite Hreg.
    + injection E as <- <-. split; [split_and!| | |]; auto.
      * rewrite declared_snoc. cbn. by rewrite app_nil_r.
      * rewrite registered_snoc. done.
      * intros p x Hx. rewrite unregistered_snoc. destruct (R3 _ _ Hx) as [[? Hnu]|[? ?]]; [left|right].
        -- split; [done|]. intros [?|[[= ->] ?]]; congruence.
        -- split; [done|]. by left.
      * by rewrite Hreg.
  - cbn [mexec] in E. rewrite collect_for_eq in E. cbv zeta in E.
    set (out := answers (m_cbs m) script (m_runs m) (m_decl m)) in *.
    pose proof (observe_all_length (recorded c script out) (m_views m)) as Hl.
    destruct (observe_all c (recorded c script out) (m_views m)) as [es st]. cbn in Hl.
    destruct (collect_views (a_views c) (snapshot c (order es) st)) as [pts st'] eqn:Hc. injection E as <- <-.
    destruct R as [(R1 & R2 & R3 & R4 & R5) Rr Rl Rw].
    assert (Hls : length (snapshot c (order es) st) = length (a_views c)). { rewrite snapshot_length. congruence. }
    destruct (collect_views_length _ _ _ _ Hls Hc) as [L1 L2].
    split; [split_and!| | |]; cbn [m_decl m_regs m_cbs m_runs m_views]; auto.
    + rewrite declared_snoc. cbn. by rewrite app_nil_r.
    + rewrite registered_snoc. done.
    + intros p x Hx. rewrite unregistered_snoc. destruct (R3 _ _ Hx) as [[? Hnu]|[? ?]]; [left|right].
      * split; [done|]. by intros [?|[? _]].
      * split; [done|]. by left.
    + rewrite Rr, <- replicate_add. f_equal. unfold runs_before. rewrite map_app, list_sum_app. cbn. f_equal. rewrite Nat.add_0_r.
      rewrite <- (answers_fst (m_cbs m) script (m_runs m) (m_decl m)) at 1. by rewrite map_length.
    + intros v w x Hw Hs Hx. assert (Hlt : (v < length (snapshot c (order es) st))%nat). { rewrite Hls. by eapply lookup_lt_Some. }
      apply lookup_lt_is_Some in Hlt as [y Hy]. destruct (collect_views_at _ _ _ _ _ _ _ Hc Hw Hy) as [_ Hx']. rewrite Hx in Hx'. injection Hx' as ->.
      unfold collect_view. by rewrite Hs.
  - rewrite (late_eq _ _ _ (re_runs _ _ _ R)) in E. injection E as <- <-. destruct R as [(R1 & R2 & R3 & R4 & R5) Rr Rl Rw].
    split; [split_and!| | |]; auto.
    + rewrite declared_snoc. cbn. by rewrite app_nil_r.
    + rewrite registered_snoc. done.
    + intros p x Hx. rewrite unregistered_snoc. destruct (R3 _ _ Hx) as [[? Hnu]|[? ?]]; [left|right].
      * split; [done|]. by intros [?|[? _]].
      * split; [done|]. by left.
    + rewrite Rr. f_equal. unfold runs_before. rewrite map_app, list_sum_app. cbn. lia.
Qed.
Lemma reached_run os m rs : mrun c (m_init c) os = (m, rs) -> reached os m rs.
Proof.
  revert m rs. induction os as [|o os IH] using rev_ind; intros m rs E.
  - cbn in E. simplify_eq. split; cbn; auto.
    + split_and!; auto; cbn; try done.
      * apply NoDup_nil_2.
      * intros r. split; [by intros ?%elem_of_nil|done].
    + by rewrite map_length.
    + intros v w x Hw _ Hx. rewrite list_lookup_fmap in Hx. apply fmap_Some in Hx as (? & _ & ->). done.
  - destruct (mrun c (m_init c) os) as [m1 rs1] eqn:R. rewrite (mrun_snoc _ _ _ _ _ R) in E.
    destruct (mexec c m1 o) as [m2 r] eqn:X. simplify_eq. eapply reached_step; eauto.
Qed.
End run.
