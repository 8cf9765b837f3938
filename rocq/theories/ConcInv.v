(** Conc: invariants of runs; the order in which a view is told of observations. *)
From Coq Require Import ZArith Bool String Lia.
From stdpp Require Import base list option strings.
From Verif Require Import Num Agg Attr Async AsyncSpec AsyncProofs Conc ConcSpec ConcProofs ConcStep.

Section conc.
Context {N : arith} (c : acfg) (vr : nat -> nat) (decl : list (list nat)).
Implicit Types (s : cst N) (k : coll N) (x : thr N) (tr : list (label (N:=N))).
Notation threads := (nat -> option (thr N)).
Notation runs := (nat -> option bool).

Lemma lstep_reader v w k th ru y k' th' ru' y' : lstep c vr decl v w k th ru y k' th' ru' y' -> k_reader k' = k_reader k.
Proof. by destruct 1. Qed.

Lemma ginv_step v w s a s' : ginv c vr s -> colls_ok vr s -> a_views c !! v = Some w -> exec c vr decl s a = Some s' -> ginv c vr s' /\ colls_ok vr s'.
Proof.
  intros G CO Hw E. destruct (exec_moved c vr decl v w s a s' G CO Hw E) as [(p & cbs & ->)|(q & k & k' & y & y' & M)].
  - split.
    + split; cbn.
      * apply G.
      * intros j r Hr. destruct (g_run _ _ _ G _ _ Hr) as [k Hk]. exists k. by apply lookup_app_l_Some.
      * apply G.
      * intros q k Hk. destruct (decide (q < length (s_colls s))%nat) as [Hq|Hq].
        -- rewrite lookup_app_l in Hk by done. apply (g_coll _ _ _ G _ _ Hk).
        -- rewrite lookup_app_r in Hk by lia. destruct (q - length (s_colls s)) as [|m] eqn:Hm; cbn in Hk; [|done]. injection Hk as <-.
           assert (Hno : forall j r, s_runs s !! j = Some r -> r_coll r <> q).
           { intros j r Hr Hrq. destruct (g_run _ _ _ G _ _ Hr) as [k Hk]. apply lookup_lt_Some in Hk. lia. }
           eapply cinv_ext; [apply cinv_init| |].
           ++ intros t. unfold thr_of. cbn. destruct (s_thr s !! t) as [x|]; cbn; [|done]. destruct (s_runs s !! t_run x) as [r|] eqn:Hr; cbn; [|done].
              by rewrite (proj2 (Nat.eqb_neq _ _) (Hno _ _ Hr)).
           ++ intros j. unfold run_of. cbn. destruct (s_runs s !! j) as [r|] eqn:Hr; cbn; [|done]. by rewrite (proj2 (Nat.eqb_neq _ _) (Hno _ _ Hr)).
    + intros q k todo Hk Hp. cbn in Hk. destruct (decide (q < length (s_colls s))%nat) as [Hq|Hq].
      * rewrite lookup_app_l in Hk by done. by apply (CO q k todo).
      * rewrite lookup_app_r in Hk by lia. destruct (q - length (s_colls s)) as [|m]; cbn in Hk; [|done]. injection Hk as <-. done.
  - destruct M as [M1 M2 M3 M4 M5 M6 (th & ru & L & Mt & Mr) M8 (M9 & M10 & M11) M12].
    assert (Hsome : forall q', is_Some (s_colls s !! q') -> is_Some (s_colls s' !! q')).
    { intros q' H. rewrite M2. by rewrite lookup_lt_is_Some, insert_length, <- lookup_lt_is_Some. }
    assert (CI : cinv c vr k' (thr_of s' q) (run_of s' q)).
    { eapply cinv_ext; [|exact Mt|exact Mr]. eapply cinv_step; [|exact L]. by apply G. }
    split.
    + split.
      * rewrite M5. apply G.
      * intros j r Hr. apply Hsome. destruct (Nat.eq_dec (r_coll r) q) as [->|Hne]; [eauto|]. exact (g_run _ _ _ G _ _ (M12 _ _ Hr Hne)).
      * intros t x Hx. destruct (decide (t < length (s_thr s))%nat) as [Ht|Ht].
        -- apply lookup_lt_is_Some in Ht as [x0 Hx0]. destruct (M10 _ _ Hx0) as (x' & Hx' & Hrun & _). assert (x' = x) as -> by congruence.
           destruct (g_thr _ _ _ G _ _ Hx0) as [r Hr]. rewrite Hrun. destruct (M11 _ _ Hr) as (r' & ? & _). eauto.
        -- destruct (s_runs s' !! t_run x) as [r|] eqn:Hr; [eauto|]. exfalso.
           (* a new call belongs to an existing run *)
           destruct a as [p cbs|j x0 n l|q0 n|t0]; cbn in E.
           ++ injection E as <-. cbn in *. apply Ht. by eapply lookup_lt_Some.
           ++ destruct (s_runs s !! j) as [r|] eqn:Hj; [|done]. injection E as <-. cbn in *.
              rewrite lookup_app_r in Hx by lia. destruct (t - length (s_thr s)) as [|m]; cbn in Hx; [|done]. injection Hx as <-. cbn in Hr. congruence.
           ++ apply Ht. apply lookup_lt_Some in Hx. enough (s_thr s' = s_thr s) by congruence. clear -E. unfold go in E.
              destruct (s_colls s !! q0) as [k|]; cbn in E; [|done].
              assert (Hp : forall a, s_thr (process c a s) = s_thr s).
              { intros a. unfold process. destruct (s_views s !! ac_view a); [|done]. by destruct (a_views c !! ac_view a). }
              repeat (first [discriminate E | progress (injection E as <-; cbn; rewrite ?Hp; try reflexivity) | case_match | progress (cbn in E) |
                match type of E with context [option_bind _ ?o] => destruct o eqn:? | context [mbind _ ?o] => destruct o eqn:? end ]).
           ++ apply Ht. apply lookup_lt_Some in Hx. enough (length (s_thr s') = length (s_thr s)) by congruence. clear -E. unfold step in E.
              destruct (s_thr s !! t0) as [x|] eqn:Hx; cbn in E; [|done]. destruct (s_runs s !! t_run x) as [r|]; cbn in E; [|done].
              destruct (s_colls s !! r_coll r) as [k|]; cbn in E; [|done].
              repeat (first [discriminate E | progress (injection E as <-; rewrite ?length_pc; try reflexivity) | case_match | progress (cbn in E) |
                match type of E with context [mbind _ ?o] => destruct o eqn:? end ]).
      * intros q' k0 Hk0. rewrite M2 in Hk0. apply list_lookup_insert_Some in Hk0 as [(-> & <- & _)|[Hne Hk0]]; [done|].
        destruct (M8 q') as [H1 H2]; [done|]. eapply cinv_ext; [|exact H1|exact H2]. by apply G.
    + intros q' k0 todo Hk0 Hp u Hu. rewrite M2 in Hk0. apply list_lookup_insert_Some in Hk0 as [(-> & <- & _)|[Hne Hk0]].
      * rewrite (lstep_reader _ _ _ _ _ _ _ _ _ _ L). clear -L Hp CO M1 Hu. revert Hp.
        destruct L as [cb td j Hph Hru Hno|td j Hph Hru|Hph|i td Hph Hlk|td pend n z a Hph Hz Ha|td Hph|Hph|u0 td pts Hph Hpts|Hph
          |t x b Hth Hru Hpc|t x cb b Hth Hpc Hru|t x e Hth Hpc Hlk Hfe|t x Hth Hpc Hlk Hfe|t x u0 td accs h y1 Hth Hpc Hfs|t x accs Hth Hpc
          |t x e pos a Hth Hpc Ha|t x e pos Hth Hpc Ha]; cbn; intros Hp; try discriminate Hp.
        -- injection Hp as <-. by apply (collectors_reader c).
        -- injection Hp as ->. apply (CO q' k (u0 :: todo) M1 Hph). by right.
        -- by apply (CO q' k todo M1 Hp).
        -- by apply (CO q' k todo M1 Hp).
        -- by apply (CO q' k todo M1 Hp).
        -- by apply (CO q' k todo M1 Hp).
        -- by apply (CO q' k todo M1 Hp).
        -- by apply (CO q' k todo M1 Hp).
        -- by apply (CO q' k todo M1 Hp).
        -- by apply (CO q' k todo M1 Hp).
      * by apply (CO q' k0 todo).
Qed.
Lemma ginv_init : ginv c vr (c_init (N:=N) c) /\ colls_ok vr (c_init (N:=N) c).
Proof.
  split; [|intros q k todo H; done]. split; cbn; [|done..]. by rewrite map_length.
Qed.

(** ** Runs *)
Lemma execs_app s tr tr' : execs c vr decl s (tr ++ tr') = s1 ← execs c vr decl s tr; execs c vr decl s1 tr'.
Proof. revert s. induction tr as [|a tr IH]; intros s; cbn; [done|]. destruct (exec c vr decl s a); cbn; [apply IH|done]. Qed.
Lemma reached_snoc tr a s' : reached c vr decl (tr ++ [a]) s' <-> exists s, reached c vr decl tr s /\ exec c vr decl s a = Some s'.
Proof.
  unfold reached. rewrite execs_app. destruct (execs c vr decl (c_init c) tr) as [s|]; cbn; [|naive_solver].
  destruct (exec c vr decl s a) eqn:E; cbn; naive_solver.
Qed.
Lemma ginv_run v w tr s : a_views c !! v = Some w -> reached c vr decl tr s -> ginv c vr s /\ colls_ok vr s.
Proof.
  intros Hw. revert s. induction tr as [|a tr IH] using rev_ind; intros s.
  - intros [= <-]. apply ginv_init.
  - intros (s0 & H0 & E)%reached_snoc. destruct (IH _ H0). by eapply ginv_step.
Qed.
Lemma kept_trans s1 s2 s3 : kept s1 s2 -> kept s2 s3 -> kept s1 s3.
Proof.
  intros (A & B & C) (A' & B' & C'). split; [lia|]. split.
  - intros t x Hx. destruct (B _ _ Hx) as (x' & Hx' & H1 & H2 & H3). destruct (B' _ _ Hx') as (x2 & Hx2 & H1' & H2' & H3').
    exists x2. split_and!; [done|congruence|congruence|auto].
  - intros j r Hr. destruct (C _ _ Hr) as (r' & Hr' & H1). destruct (C' _ _ Hr') as (r2 & Hr2 & H2). exists r2. split; [done|congruence].
Qed.
Lemma kept_exec v w s a s' : ginv c vr s -> colls_ok vr s -> a_views c !! v = Some w -> exec c vr decl s a = Some s' -> kept s s'.
Proof.
  intros G CO Hw E. destruct (exec_moved c vr decl v w s a s' G CO Hw E) as [(p & cbs & ->)|(q & k & k' & y & y' & M)].
  - by apply kept_same.
  - apply M.
Qed.
Lemma kept_run v w tr1 tr2 s1 s2 : a_views c !! v = Some w -> reached c vr decl tr1 s1 -> execs c vr decl s1 tr2 = Some s2 -> kept s1 s2.
Proof.
  intros Hw. revert tr1 s1. induction tr2 as [|a tr2 IH]; intros tr1 s1 H1 H2.
  - injection H2 as <-. apply kept_refl.
  - cbn in H2. destruct (exec c vr decl s1 a) as [s|] eqn:E; cbn in H2; [|done]. destruct (ginv_run v w _ _ Hw H1).
    eapply kept_trans; [by eapply kept_exec|]. apply (IH (tr1 ++ [a])); [|done]. apply reached_snoc. eauto.
Qed.

(** ** Orders *)
Definition ord tr (L : list nat) : Prop := forall i j a b, (i < j)%nat -> L !! i = Some a -> L !! j = Some b -> ~ before c vr decl tr b a.
Lemma before_snoc tr l s' a b : before c vr decl (tr ++ [l]) a b -> reached c vr decl (tr ++ [l]) s' -> (b < length (s_thr s'))%nat -> before c vr decl tr a b.
Proof.
  intros (tr1 & tr2 & s & E & H1 & H2 & H3) Hr Hb. destruct tr2 as [|l' tr2 _] using rev_ind.
  - rewrite app_nil_r in E. subst tr1. assert (s' = s) as -> by (unfold reached in *; congruence). lia.
  - rewrite app_assoc in E. apply app_inj_tail in E as [-> ->]. by exists tr1, tr2, s.
Qed.
Lemma ord_longer tr l s' L : ord tr L -> reached c vr decl (tr ++ [l]) s' -> (forall t, t ∈ L -> (t < length (s_thr s'))%nat) -> ord (tr ++ [l]) L.
Proof.
  intros H Hr Hl i j a b Hij Ha Hb Hbf. apply (H i j a b Hij Ha Hb). eapply before_snoc; [done..|]. apply Hl. by eapply elem_of_list_lookup_2.
Qed.
Lemma not_ended v w tr s t x a : a_views c !! v = Some w -> reached c vr decl tr s -> s_thr s !! t = Some x -> (forall r, t_pc x <> TEnd r) -> ~ before c vr decl tr t a.
Proof.
  intros Hw Hr Hx Hne (tr1 & tr2 & s1 & -> & H1 & (x1 & r & Hx1 & Hp) & _). unfold reached in Hr. rewrite execs_app in Hr. unfold reached in H1. rewrite H1 in Hr. cbn in Hr.
  destruct (kept_run v w tr1 tr2 s1 s Hw H1 Hr) as (_ & B & _). destruct (B _ _ Hx1) as (x' & Hx' & _ & _ & Hk). apply (Hne r). rewrite Hx in Hx'. injection Hx' as ->. by apply Hk.
Qed.
Lemma ord_snoc tr L t : ord tr L -> (forall a, a ∈ L -> ~ before c vr decl tr t a) -> ord tr (L ++ [t]).
Proof.
  intros H Ht i j a b Hij Ha Hb. assert (Hj := lookup_lt_Some _ _ _ Hb). rewrite app_length in Hj. cbn in Hj.
  rewrite lookup_app_l in Ha by lia. destruct (decide (j < length L)%nat).
  - rewrite lookup_app_l in Hb by done. exact (H i j a b Hij Ha Hb).
  - rewrite lookup_app_r in Hb by lia. replace (j - length L) with 0%nat in Hb by lia. injection Hb as <-. apply Ht. by eapply elem_of_list_lookup_2.
Qed.

(** ** What view [v] was told so far in a collection *)
Section view.
Context (v : nat).
Context (sd : sound c).
Definition done_v k x : Prop :=
  match t_pc x with TUpd e pos => v ∈ take pos (compiled c vr (k_reader k) (inst_of x)) | TEnd Recorded => True | _ => False end.
Definition obsl (th : threads) (L : list nat) : list (obs (N:=N)) := omap (fun t => obs_of <$> th t) L.
Record lin k (th : threads) (L : list nat) : Prop := {
  l_dup : NoDup L;
  l_in : forall t, t ∈ L <-> exists x, th t = Some x /\ v ∈ compiled c vr (k_reader k) (inst_of x) /\ done_v k x;
  l_cur : forall en a n, en ∈ k_store k -> a ∈ en_accs en -> ac_view a = v -> last_seen (obsl th L) (ename en) = Some n -> ac_cur a = n
}.
Lemma compiled_NoDup p i : NoDup (compiled c vr p i).
Proof.
  unfold compiled. destruct (a_insts c !! i) as [inst|] eqn:E; [|apply NoDup_nil_2]. destruct (sd i inst E) as [H _].
  apply NoDup_ListNoDup. apply List.NoDup_filter. by apply NoDup_ListNoDup.
Qed.
Lemma obsl_ext th th' L : (forall t, t ∈ L -> exists x x', th t = Some x /\ th' t = Some x' /\ obs_of x' = obs_of x) -> obsl th' L = obsl th L.
Proof.
  unfold obsl. induction L as [|t L IH]; intros H; cbn; [done|]. destruct (H t) as (x & x' & -> & -> & E); [left|]. cbn. rewrite E. f_equal.
  apply IH. intros t' Ht'. apply H. by right.
Qed.
Lemma lin_th k k' th L t x f : lin k th L -> th t = Some x -> k_reader k' = k_reader k -> k_store k' = k_store k ->
  (v ∈ compiled c vr (k_reader k) (inst_of x) -> done_v k x <-> done_v k (with_pc x f)) -> lin k' (fup th t (with_pc x f)) L.
Proof.
  intros [A B C] Hx Hr Hs Hd. split; [done| |].
  - intros t'. rewrite B. unfold done_v in *. rewrite Hr. split.
    + intros (x' & Hx' & Hv & Hdn). destruct (Nat.eq_dec t' t) as [->|Hne].
      * rewrite fup_same. exists (with_pc x f). assert (x' = x) as -> by congruence. split; [done|]. split; [done|]. by apply Hd.
      * rewrite fup_other by done. eauto.
    + intros (x' & Hx' & Hv & Hdn). apply fup_Some in Hx' as [[-> ->]|[Hne Hx']]; [|eauto]. exists x. split; [done|]. split; [done|]. by apply Hd.
  - intros en a n. rewrite Hs. rewrite (obsl_ext th); [apply C|]. intros t' Ht'. apply B in Ht' as (x' & Hx' & _).
    destruct (Nat.eq_dec t' t) as [->|Hne].
    + exists x, (with_pc x f). rewrite fup_same. done.
    + exists x', x'. by rewrite fup_other.
Qed.
Lemma lin_same k k' th L : lin k th L -> k_reader k' = k_reader k -> k_store k' = k_store k -> lin k' th L.
Proof. intros [A B C] Hr Hs. split; [done| |by rewrite Hs]. unfold done_v. rewrite Hr. exact B. Qed.
Lemma obsl_name th L t x : t ∈ L -> th t = Some x -> tname x ∈ map fst (obsl th L).
Proof.
  intros Ht Hx. apply elem_of_list_fmap. exists (obs_of x). split; [done|]. unfold obsl. apply elem_of_list_omap. exists t. by rewrite Hx.
Qed.
Lemma obsl_in th L p : p ∈ map fst (obsl th L) -> exists t x, t ∈ L /\ th t = Some x /\ tname x = p.
Proof.
  intros (o & -> & Ho)%elem_of_list_fmap. unfold obsl in Ho. apply elem_of_list_omap in Ho as (t & Ht & E). destruct (th t) as [x|] eqn:Hx; cbn in E; [|done].
  injection E as <-. eauto.
Qed.
Lemma lin_names k th ru L p : cinv c vr k th ru -> lin k th L -> p ∈ map fst (obsl th L) -> p ∈ map ename (k_store k).
Proof.
  intros CI [A B C] (t & x & Ht & Hx & <-)%obsl_in. apply B in Ht as (x' & Hx' & _ & Hd). assert (x' = x) as -> by congruence. unfold done_v in Hd.
  destruct (t_pc x) as [| |td ac|e pos|[]] eqn:Hp; try done.
  - destruct (i_upd _ _ _ _ _ CI _ _ _ _ Hx Hp) as (en & He & <-). apply elem_of_list_fmap. exists en. split; [done|]. by eapply elem_of_list_lookup_2.
  - by eapply i_rec.
Qed.
Lemma obsl_snoc th L t x : th t = Some x -> obsl th (L ++ [t]) = obsl th L ++ [obs_of x].
Proof. intros H. unfold obsl. rewrite omap_app. cbn. by rewrite H. Qed.

Lemma take_S_in (l : list nat) pos u : l !! pos = Some u -> u <> v -> v ∈ take (S pos) l <-> v ∈ take pos l.
Proof. intros H Hne. rewrite (take_S_r _ _ _ H), elem_of_app, elem_of_list_singleton. naive_solver. Qed.
Lemma take_not_in (l : list nat) pos : NoDup l -> l !! pos = Some v -> v ∉ take pos l.
Proof.
  intros Hd H (i & Hi)%elem_of_list_lookup. assert (i < pos)%nat. { apply lookup_lt_Some in Hi. rewrite take_length in Hi. lia. }
  rewrite lookup_take in Hi by done. pose proof (NoDup_lookup _ _ _ _ Hd H Hi). lia.
Qed.

Lemma lin_step w k th ru y k' th' ru' y' L : cinv c vr k th ru -> lin k th L -> lstep c vr decl v w k th ru y k' th' ru' y' ->
  exists L', lin k' th' L' /\ (L' = L \/ exists t x, L' = L ++ [t] /\ th t = Some x /\ forall r, t_pc x <> TEnd r).
Proof.
  intros CI LI L0. pose proof (cinv_step _ _ _ _ _ _ _ _ _ _ _ _ _ CI L0) as CI'.
  destruct L0 as [cb todo j Hph Hru Hno|todo j Hph Hru|Hph|i todo Hph Hlk|todo pend n z a Hph Hz Ha|todo Hph|Hph|u todo pts Hph Hpts|Hph
    |t x b Hth Hru Hpc|t x cb b Hth Hpc Hru|t x e Hth Hpc Hlk Hfe|t x Hth Hpc Hlk Hfe|t x u todo accs h y1 Hth Hpc Hfs|t x accs Hth Hpc
    |t x e pos a Hth Hpc Ha|t x e pos Hth Hpc Ha]; try (exists L; split; [by apply (lin_same k)|by left]).
  - (* new *) exists L. split; [|by left]. destruct LI as [A B C]. split; [done| |].
    + intros t'. rewrite B. split; intros (x' & Hx' & Hv & Hd).
      * exists x'. rewrite fup_other; [done|]. congruence.
      * apply fup_Some in Hx' as [[-> ->]|[Hne Hx']]; [|eauto]. unfold done_v in Hd. by rewrite Hpc in Hd.
    + intros en a n. rewrite (obsl_ext th); [apply C|]. intros t' Ht'. apply B in Ht' as (x' & Hx' & _). exists x', x'. rewrite fup_other; [done|]. congruence.
  - (* check *) exists L. split; [|by left]. apply (lin_th k); auto. intros _. unfold done_v. rewrite Hpc. cbn.
    destruct (check_pc c vr decl (k_reader k) cb b x) as [[-> _]|(r & -> & Hr)]; [done|]. by destruct r.
  - (* find *) exists L. split; [|by left]. apply (lin_th k); auto. intros _. unfold done_v. rewrite Hpc. cbn. by rewrite elem_of_nil.
  - (* make *) exists L. split; [|by left]. apply (lin_th k); auto. intros _. unfold done_v. rewrite Hpc. done.
  - (* acc *) exists L. split; [|by left]. apply (lin_th k); auto. intros _. unfold done_v. rewrite Hpc. done.
  - (* add *) exists L. split; [|by left].
    assert (lin k (fup th t (with_pc x (TUpd (length (k_store k)) 0))) L) as LI'.
    { apply (lin_th k); auto. intros _. unfold done_v. rewrite Hpc. cbn. by rewrite elem_of_nil. }
    destruct LI' as [A B C]. split; [done|exact B|]. cbn [k_store set_lock set_store]. intros en a n [He| ->%elem_of_list_singleton]%elem_of_app; [by eapply C|].
    intros Ha Hav Hl. exfalso. destruct (i_make _ _ _ _ _ CI _ _ _ _ Hth Hpc) as [_ Hn]. apply Hn.
    apply (lin_names k th ru L); auto. apply last_seen_in. exists n. change (ename _) with (tname x) in Hl. rewrite <- Hl. f_equal. symmetry. apply obsl_ext.
    intros t' Ht'. apply LI in Ht' as (x' & Hx' & _). destruct (Nat.eq_dec t' t) as [->|Hne].
    + rewrite fup_same. eauto.
    + rewrite fup_other by done. eauto.
  - (* cur *) destruct (i_upd _ _ _ _ _ CI _ _ _ _ Hth Hpc) as (en0 & He0 & Hn0).
    assert (He0' : en0 ∈ k_store k) by (by eapply elem_of_list_lookup_2).
    unfold the_acc in Ha. cbn in Ha. rewrite He0 in Ha. cbn in Ha.
    destruct (i_ent _ _ _ _ _ CI en0 He0') as [Hviews _].
    assert (Hinst : en_inst en0 = inst_of x) by (unfold ename, tname in Hn0; congruence). rewrite Hinst in Hviews.
    assert (Hpos : compiled c vr (k_reader k) (inst_of x) !! pos = Some (ac_view a)).
    { rewrite <- Hviews. change (map ac_view) with (fmap (M:=list) (ac_view (N:=N))). by rewrite list_lookup_fmap, Ha. }
    set (th1 := fup th t (with_pc x (TUpd e (S pos)))) in *.
    assert (Hob : forall M, (forall t', t' ∈ M -> is_Some (th t')) -> obsl th1 M = obsl th M).
    { intros M HM. apply obsl_ext. intros t' Ht'. destruct (HM t' Ht') as [x' Hx']. unfold th1. destruct (Nat.eq_dec t' t) as [->|Hne].
      - rewrite fup_same. assert (x' = x) as -> by congruence. eauto.
      - rewrite fup_other by done. eauto. }
    assert (HL : forall t', t' ∈ L -> is_Some (th t')). { intros t' Ht'. apply LI in Ht' as (x' & ? & _). eauto. }
    (* accumulators after the update *)
    assert (Hacc : forall en1 a1, en1 ∈ put_cur (k_store k) e pos (t_val x) -> a1 ∈ en_accs en1 -> ac_view a1 = v ->
      (ename en1 = tname x /\ ac_view a = v /\ ac_cur a1 = t_val x) \/
      ((ename en1 <> tname x \/ ac_view a <> v) /\ exists en2, en2 ∈ k_store k /\ ename en2 = ename en1 /\ a1 ∈ en_accs en2)).
    { intros en1 a1 Hin Ha1 Hv1. apply elem_of_list_lookup in Hin as (m & Hm). unfold put_cur in Hm.
      destruct (Nat.eq_dec m e) as [->|Hme].
      - rewrite list_lookup_alter, He0 in Hm. cbn in Hm. injection Hm as <-. cbn [en_accs] in Ha1. unfold ename; cbn [en_inst en_set]. fold (ename en0). rewrite Hn0.
        destruct (Nat.eq_dec (ac_view a) v) as [Hav|Hav].
        + left. split; [done|]. split; [done|]. apply elem_of_list_lookup in Ha1 as (i & Hi). destruct (Nat.eq_dec i pos) as [->|Hip].
          * rewrite list_lookup_alter, Ha in Hi. cbn in Hi. injection Hi as <-. done.
          * rewrite list_lookup_alter_ne in Hi by done. exfalso. apply Hip. apply (NoDup_lookup _ _ _ v (compiled_NoDup (k_reader k) (inst_of x))).
            -- rewrite <- Hviews. change (map ac_view) with (fmap (M:=list) (ac_view (N:=N))). rewrite list_lookup_fmap, Hi. cbn. by rewrite Hv1.
            -- by rewrite Hpos, Hav.
        + right. split; [by right|]. exists en0. split_and!; [done|done|]. apply elem_of_list_lookup in Ha1 as (i & Hi). destruct (Nat.eq_dec i pos) as [->|Hip].
          * rewrite list_lookup_alter, Ha in Hi. cbn in Hi. injection Hi as <-. cbn in Hv1. done.
          * rewrite list_lookup_alter_ne in Hi by done. by eapply elem_of_list_lookup_2.
      - rewrite list_lookup_alter_ne in Hm by done. right. split.
        + left. intros Hen. apply Hme. apply (NoDup_lookup _ _ _ (tname x) (i_dup _ _ _ _ _ CI)); change (map ename) with (fmap (M:=list) (ename (N:=N))).
          * rewrite list_lookup_fmap, Hm. cbn. by rewrite Hen.
          * rewrite list_lookup_fmap, He0. cbn. by rewrite Hn0.
        + exists en1. split_and!; [by eapply elem_of_list_lookup_2|done|done]. }
    destruct (Nat.eq_dec (ac_view a) v) as [Hav|Hav].
    + exists (L ++ [t]). split; [|right; exists t, x; split_and!; [done|done|by rewrite Hpc]].
      assert (Hnt : t ∉ L). { intros Ht. apply LI in Ht as (x' & Hx' & _ & Hd). assert (x' = x) as -> by congruence. unfold done_v in Hd. rewrite Hpc in Hd.
        revert Hd. apply take_not_in; [apply compiled_NoDup|congruence]. }
      split.
      * apply NoDup_app. split; [apply LI|]. split; [|apply NoDup_singleton]. intros t' Ht' ->%elem_of_list_singleton. done.
      * intros t'. rewrite elem_of_app, elem_of_list_singleton. rewrite (l_in _ _ _ LI). split.
        -- intros [(x' & Hx' & Hv & Hd)| ->].
           ++ destruct (Nat.eq_dec t' t) as [->|Hne]; [|unfold th1; rewrite fup_other by done; eauto].
              exfalso. apply Hnt. apply LI. eauto.
           ++ exists (with_pc x (TUpd e (S pos))). unfold th1. rewrite fup_same. split; [done|]. cbn. split.
              ** rewrite <- Hav. by eapply elem_of_list_lookup_2.
              ** unfold done_v. cbn [t_pc with_pc]. change (inst_of (with_pc x (TUpd e (S pos)))) with (inst_of x). rewrite (take_S_r _ _ _ Hpos). apply elem_of_app. right. rewrite Hav. left.
        -- intros (x' & Hx' & Hv & Hd). apply fup_Some in Hx' as [[-> ->]|[Hne Hx']]; [by right|]. left. eauto.
      * intros en1 a1 n Hin Ha1 Hv1. rewrite Hob. 2: { intros t' [?| ->%elem_of_list_singleton]%elem_of_app; eauto. }
        rewrite (obsl_snoc _ _ _ _ Hth). change [obs_of x] with [(tname x, t_val x)]. rewrite (last_seen_snoc (obsl th L) (tname x) (ename en1) (t_val x)).
        destruct (Hacc en1 a1 Hin Ha1 Hv1) as [(H1 & _ & H2)|([H1|H1] & en2 & H2 & H3 & H4)].
        -- rewrite bool_decide_eq_true_2 by done. intros [= <-]. done.
        -- rewrite bool_decide_eq_false_2 by congruence. rewrite <- H3. by eapply LI.
        -- done.
    + exists L. split; [|by left]. split; [apply LI| |].
      * intros t'. rewrite (l_in _ _ _ LI). split.
        -- intros (x' & Hx' & Hv & Hd). destruct (Nat.eq_dec t' t) as [->|Hne]; [|unfold th1; rewrite fup_other by done; eauto].
           unfold th1. rewrite fup_same. eexists. split; [done|]. assert (x' = x) as -> by congruence. split; [done|].
           unfold done_v in *. rewrite Hpc in Hd. cbn [t_pc with_pc]. by eapply take_S_in.
        -- intros (x' & Hx' & Hv & Hd). apply fup_Some in Hx' as [[-> ->]|[Hne Hx']]; [|eauto]. exists x. split_and!; [done|done|].
           unfold done_v in *. rewrite Hpc. cbn [t_pc with_pc] in Hd. exact (proj1 (take_S_in _ _ _ Hpos Hav) Hd).
      * intros en1 a1 n Hin Ha1 Hv1. rewrite Hob by done. destruct (Hacc en1 a1 Hin Ha1 Hv1) as [(H1 & H1' & H2)|(_ & en2 & H2 & H3 & H4)]; [done|].
        rewrite <- H3. by eapply LI.
  - (* done *) exists L. split; [|by left]. apply (lin_th k); auto. intros Hv. unfold done_v. rewrite Hpc. cbn. split; [done|]. intros _.
    destruct (i_upd _ _ _ _ _ CI _ _ _ _ Hth Hpc) as (en0 & He0 & Hn0). unfold the_acc in Ha. cbn in Ha. rewrite He0 in Ha. cbn in Ha.
    destruct (i_ent _ _ _ _ _ CI en0) as [Hviews _]; [by eapply elem_of_list_lookup_2|].
    assert (Hinst : en_inst en0 = inst_of x) by (unfold ename, tname in Hn0; congruence). rewrite Hinst in Hviews.
    rewrite take_ge; [done|]. rewrite <- Hviews, map_length. by apply lookup_ge_None_1.
Qed.
End view.
End conc.
