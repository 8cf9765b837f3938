(** From an observation to the exporter: invariants of Deliv. *)
From Coq Require Import ZArith Bool String Lia.
From stdpp Require Import base list list_numbers option strings.
From Verif Require Import Per PerSpec PerProofs Base Lib FlowProofs Flow Num Agg Attr Async AsyncSpec Conc ConcSpec ConcInv Deliv DelivSpec.

Section conc.
Context {N : arith} (c : acfg) (vr : nat -> nat) (decl : list (list nat)).
Implicit Types (s : cst N) (k : coll N).

(** What one step does to the collections. *)
Definition later k k' : Prop := k_reader k' = k_reader k /\ (k_phase k = KDone -> k_phase k' = KDone /\ k_out k' = k_out k).
Lemma later_refl k : later k k.
Proof. done. Qed.
Lemma put_pc_parts s t f : s_colls (put_pc t f s) = s_colls s /\ s_runs (put_pc t f s) = s_runs s /\ length (s_thr (put_pc t f s)) = length (s_thr s) /\
  map t_run (s_thr (put_pc t f s)) = map t_run (s_thr s).
Proof.
  unfold put_pc. destruct (s_thr s !! t) as [x|] eqn:E; [|done]. cbn. rewrite insert_length. repeat split.
  change (map t_run) with (fmap (M:=list) (t_run (N:=N))). rewrite list_fmap_insert. cbn. rewrite list_insert_id; [done|]. by rewrite list_lookup_fmap, E.
Qed.
Lemma process_parts a s : s_colls (process c a s) = s_colls s /\ s_runs (process c a s) = s_runs s /\ s_thr (process c a s) = s_thr s.
Proof. unfold process. destruct (s_views s !! _); [|done]. by destruct (a_views c !! _). Qed.

Definition todo_of k : list nat := match k_phase k with KRun todo _ => todo | _ => [] end.
Inductive moves s : label (N:=N) -> cst N -> Prop :=
  | M_begin p cbs s' : s_colls s' = s_colls s ++ [Coll p (KRun cbs None) Free [] []] -> s_runs s' = s_runs s -> s_thr s' = s_thr s -> moves s (LBegin p cbs) s'
  | M_observe j x n l s' r y : s_colls s' = s_colls s -> s_runs s' = s_runs s -> s_runs s !! j = Some r -> t_run y = j -> s_thr s' = s_thr s ++ [y] -> moves s (LObserve j x n l) s'
  | M_run q n s' k k' cb : s_colls s !! q = Some k -> s_colls s' = <[q := k']> (s_colls s) -> later k k' -> todo_of k = cb :: todo_of k' ->
      s_runs s' = s_runs s ++ [Run q cb true] -> s_thr s' = s_thr s -> moves s (LGo q n) s'
  | M_go q n s' k k' : s_colls s !! q = Some k -> s_colls s' = <[q := k']> (s_colls s) -> later k k' -> todo_of k = todo_of k' ->
      map r_coll (s_runs s') = map r_coll (s_runs s) -> map r_cb (s_runs s') = map r_cb (s_runs s) -> s_thr s' = s_thr s -> moves s (LGo q n) s'
  | M_step t s' q k k' : s_colls s !! q = Some k -> s_colls s' = <[q := k']> (s_colls s) -> later k k' -> todo_of k = todo_of k' ->
      s_runs s' = s_runs s -> map t_run (s_thr s') = map t_run (s_thr s) -> moves s (LStep t) s'.
Lemma exec_moves s a s' : exec c vr decl s a = Some s' -> moves s a s'.
Proof.
  destruct a as [p cbs|j x n l|q n|t]; cbn [exec].
  - intros [= <-]. by apply M_begin.
  - destruct (s_runs s !! j) as [r|] eqn:E; [|done]. intros [= <-]. by apply (M_observe s j x n l _ r (Thr j x (obs_set c l) n TCheck)).
  - unfold go. destruct (s_colls s !! q) as [k|] eqn:K; [|done]. cbn [mbind option_bind].
    destruct (k_phase k) as [todo cur|todo pend|todo|] eqn:P.
    + destruct cur as [j|].
      * destruct (s_runs s !! j) as [r|] eqn:R; [|by destruct todo]. intros H.
        assert (E : Some (put_coll q (set_phase k (KRun todo None)) (put_run j (Run (r_coll r) (r_cb r) false) s)) = Some s') by (by destruct todo). clear H. injection E as <-.
        eapply (M_go s q n _ k (set_phase k (KRun todo None))); try done.
        -- split; [done|]. by rewrite P.
        -- unfold todo_of. by rewrite P.
        -- cbn. change (map r_coll) with (fmap (M:=list) r_coll). rewrite list_fmap_insert. cbn. rewrite list_insert_id; [done|]. by rewrite list_lookup_fmap, R.
        -- cbn. change (map r_cb) with (fmap (M:=list) r_cb). rewrite list_fmap_insert. cbn. rewrite list_insert_id; [done|]. by rewrite list_lookup_fmap, R.
      * destruct todo as [|cb todo].
        -- intros [= <-]. eapply (M_go s q n _ k (set_phase k (KSnap (seq 0 (length (a_insts c))) None))); try done; [split; [done|]; by rewrite P|]. unfold todo_of. by rewrite P.
        -- intros [= <-]. eapply (M_run s q n _ k (set_phase k (KRun todo (Some (length (s_runs s))))) cb); try done; [split; [done|]; by rewrite P|]. unfold todo_of. by rewrite P.
    + destruct pend as [pend|].
      * intros H. assert (E : match pend with [] => Some (put_coll q (set_lock (set_phase k (KSnap todo None)) Free) s)
          | _ => x ← pend !! n; a ← the_acc (k_store k) x; Some (put_coll q (set_phase k (KSnap todo (Some (delete n pend)))) (process c a s)) end = Some s')
          by (by destruct todo). clear H. revert E. destruct pend as [|z pend].
        -- intros [= <-]. eapply (M_go s q n _ k); [exact K|reflexivity| | |done..]; [split; [done|]; by rewrite P|]. unfold todo_of. by rewrite P.
        -- destruct ((z :: pend) !! n) as [y|]; [|done]. cbn [mbind option_bind]. destruct (the_acc _ y) as [a|]; [|done]. cbn [mbind option_bind]. intros [= <-].
           destruct (process_parts a s) as (E1 & E2 & E3). unfold put_coll. rewrite E1, E2, E3.
           eapply (M_go s q n _ k); [exact K|reflexivity| | |done..]; [split; [done|]; by rewrite P|]. unfold todo_of. by rewrite P.
      * destruct todo as [|i todo].
        -- intros [= <-]. eapply (M_go s q n _ k); [exact K|reflexivity| | |done..]; [split; [done|]; by rewrite P|]. unfold todo_of. by rewrite P.
        -- destruct (k_lock k); try done. intros [= <-]. eapply (M_go s q n _ k); [exact K|reflexivity| | |done..]; [split; [done|]; by rewrite P|]. unfold todo_of. by rewrite P.
    + destruct todo as [|v todo].
      * intros [= <-]. eapply (M_go s q n _ k); [exact K|reflexivity| | |done..]; [split; [done|]; by rewrite P|]. unfold todo_of. by rewrite P.
      * destruct (s_views s !! v) as [x|]; [|done]. cbn [mbind option_bind]. destruct (a_views c !! v) as [w|]; [|done]. cbn [mbind option_bind].
        destruct (collect_cells w x) as [pts x']. intros [= <-].
        eapply (M_go s q n _ k); [exact K|reflexivity| | |done..]; [split; [done|]; by rewrite P|]. unfold todo_of. by rewrite P.
    + done.
  - unfold step. destruct (s_thr s !! t) as [x|]; [|done]. cbn [mbind option_bind]. destruct (s_runs s !! t_run x) as [r|]; [|done]. cbn [mbind option_bind].
    destruct (s_colls s !! r_coll r) as [k|] eqn:K; [|done]. cbn [mbind option_bind].
    assert (PC : forall s1 f k', s_colls s1 = <[r_coll r := k']> (s_colls s) -> later k k' -> todo_of k = todo_of k' -> s_runs s1 = s_runs s -> s_thr s1 = s_thr s ->
              moves s (LStep t) (put_pc t f s1)).
    { intros s1 f k' E1 L T E2 E3. destruct (put_pc_parts s1 t f) as (F1 & F2 & _ & F4). eapply (M_step s t _ (r_coll r) k k'); try done; congruence. }
    assert (SAME : s_colls s = <[r_coll r := k]> (s_colls s)) by (by rewrite list_insert_id).
    destruct (t_pc x) as [| |todo accs|e pos|a].
    + intros [= <-]. by apply (PC s _ k).
    + destruct (k_lock k); try done. destruct (find_entry _ _ _) as [e|]; intros [= <-]; [by apply (PC s _ k)|]. by eapply PC.
    + destruct todo as [|v todo].
      * intros [= <-]. by eapply PC.
      * destruct (s_views s !! v) as [y|]; [|done]. cbn [mbind option_bind]. destruct (a_views c !! v) as [w|]; [|done]. cbn [mbind option_bind].
        destruct (find_storage _ _ _) as [y' h]. intros [= <-]. by apply (PC _ _ k).
    + destruct (the_acc _ _); intros [= <-]; [by eapply PC|by apply (PC s _ k)].
    + done.
Qed.

Lemma moves_keep s a s' : moves s a s' -> forall q k, s_colls s !! q = Some k -> exists k', s_colls s' !! q = Some k' /\ later k k'.
Proof.
  intros M q k K.
  assert (INS : forall q0 k0 k', s_colls s !! q0 = Some k0 -> s_colls s' = <[q0 := k']> (s_colls s) -> later k0 k' -> exists k', s_colls s' !! q = Some k' /\ later k k').
  { intros q0 k0 k' K0 E L. rewrite E. destruct (decide (q = q0)) as [E0|Ne].
    - subst q0. exists k'. rewrite list_lookup_insert by (by eapply lookup_lt_Some). split; [done|]. congruence.
    - exists k. rewrite list_lookup_insert_ne by congruence. by split. }
  destruct M as [p cbs s' E _ _|j x n l s' r y E|q0 n s' k0 k' cb K0 E L|q0 n s' k0 k' K0 E L|t s' q0 k0 k' K0 E L]; try (by apply (INS q0 k0 k' K0 E L)).
  - exists k. rewrite E. split; [by apply lookup_app_l_Some|done].
  - exists k. by rewrite E.
Qed.
Lemma moves_grow s a s' : moves s a s' ->
  length (s_colls s') = length (s_colls s) + match a with LBegin _ _ => 1 | _ => 0 end /\
  length (s_runs s) <= length (s_runs s') /\ length (s_thr s) <= length (s_thr s').
Proof.
  assert (MAP : forall A B (g : A -> B) (l l' : list A), map g l' = map g l -> length l <= length l').
  { intros A B g l l' E. apply (f_equal length) in E. rewrite !map_length in E. lia. }
  destruct 1 as [p cbs s' E E2 E3|j x n l s' r y E E2 _ _ E3|q0 n s' k0 k' cb K0 E L _ E2 E3|q0 n s' k0 k' K0 E L _ E2 _ E3|t s' q0 k0 k' K0 E L _ E2 E3];
    rewrite E; try apply MAP in E2; try apply MAP in E3; rewrite ?E2, ?E3, ?app_length, ?insert_length; cbn; rewrite ?app_length; cbn; lia.
Qed.
Lemma execs_keep tr : forall s s', execs c vr decl s tr = Some s' ->
  (forall q k, s_colls s !! q = Some k -> exists k', s_colls s' !! q = Some k' /\ later k k') /\
  length (s_colls s) <= length (s_colls s') /\ length (s_runs s) <= length (s_runs s') /\ length (s_thr s) <= length (s_thr s').
Proof.
  induction tr as [|a tr IH]; intros s s' H; cbn in H.
  - injection H as <-. split; [|lia]. intros q k K. by exists k.
  - destruct (exec c vr decl s a) as [s1|] eqn:E; [|done]. cbn in H. apply exec_moves in E. destruct (IH _ _ H) as (H1 & H2).
    pose proof (moves_grow _ _ _ E) as G. split; [|lia]. intros q k K. destruct (moves_keep _ _ _ E _ _ K) as (k1 & K1 & L1). destruct (H1 _ _ K1) as (k2 & K2 & L2).
    exists k2. split; [done|]. destruct L1 as [L1 D1], L2 as [L2 D2]. split; [congruence|]. intros D. destruct (D1 D) as [D3 D4]. destruct (D2 D3). split; congruence.
Qed.

(** The runs: each belongs to a collection, each call to a run; the callbacks run and to be run in a collection are those it began with. *)
Record binv (tr : list (label (N:=N))) s : Prop := {
  b_begun : map fst (begun tr) = map k_reader (s_colls s);
  b_run : forall j r, s_runs s !! j = Some r -> r_coll r < length (s_colls s);
  b_thr : forall t x, s_thr s !! t = Some x -> t_run x < length (s_runs s);
  b_ran : forall q k p cbs, s_colls s !! q = Some k -> begun tr !! q = Some (p, cbs) -> ran s q ++ todo_of k = cbs
}.
Lemma begun_app (tr tr' : list (label (N:=N))) : begun (tr ++ tr') = begun tr ++ begun tr'.
Proof. apply omap_app. Qed.
Lemma filter_runs (l l' : list run) q : map r_coll l' = map r_coll l -> map r_cb l' = map r_cb l ->
  map r_cb (List.filter (fun r => Nat.eqb (r_coll r) q) l') = map r_cb (List.filter (fun r => Nat.eqb (r_coll r) q) l).
Proof.
  revert l'. induction l as [|r l IH]; intros [|r' l'] E1 E2; try done. cbn in *. injection E1 as E1 E1'. injection E2 as E2 E2'.
  rewrite E1. destruct (Nat.eqb (r_coll r) q); cbn; [rewrite E2; f_equal|]; auto.
Qed.
Lemma binv_run tr : forall s, reached c vr decl tr s -> binv tr s.
Proof.
  induction tr as [|a tr IH] using rev_ind; intros s H.
  - injection H as <-. by constructor.
  - apply reached_snoc in H as (s0 & R & E). specialize (IH _ R). apply exec_moves in E. destruct IH as [I1 I2 I3 I4].
    assert (LB : length (begun tr) = length (s_colls s0)) by (apply (f_equal length) in I1; by rewrite !map_length in I1).
    assert (RDR : forall q0 (k0 k' : coll N), s_colls s0 !! q0 = Some k0 -> later k0 k' -> map k_reader (<[q0 := k']> (s_colls s0)) = map k_reader (s_colls s0)).
    { intros q0 k0 k' K0 [L _]. change (map (k_reader (N:=N))) with (fmap (M:=list) (k_reader (N:=N))). rewrite list_fmap_insert, list_insert_id; [done|]. by rewrite list_lookup_fmap, K0, L. }
    destruct E as [p cbs s E E2 E3|j x n l s r y E E2 Hj Hy E3|q0 n s k0 k' cb K0 E L T E2 E3|q0 n s k0 k' K0 E L T E2 E2' E3|t s q0 k0 k' K0 E L T E2 E3];
      constructor; rewrite ?begun_app; cbn [begun omap list_omap]; rewrite ?app_nil_r.
    + rewrite E. by rewrite !map_app, I1.
    + rewrite E, E2, app_length. cbn. intros j r Hj. specialize (I2 _ _ Hj). lia.
    + by rewrite E2, E3.
    + intros q k p' cbs'. rewrite E. unfold ran. rewrite E2. intros K B. apply lookup_snoc in K as [K|[-> ->]].
      * apply (I4 q k p' cbs' K). apply lookup_snoc in B as [B|[-> _]]; [done|]. apply lookup_lt_Some in K. lia.
      * rewrite <- LB in B. rewrite list_lookup_middle in B by done. injection B as <- <-. cbn [todo_of k_phase].
        assert (forall r, In r (s_runs s0) -> Nat.eqb (r_coll r) (length (s_colls s0)) = false).
        { intros r Hr. apply elem_of_list_In, elem_of_list_lookup in Hr as [j Hj]. specialize (I2 _ _ Hj). apply Nat.eqb_neq. lia. }
        clear -H. revert H. generalize (length (s_colls s0)) as L. intros L H. revert H. generalize (s_runs s0) as l. induction l as [|r l IHl]; [done|]. cbn. intros H. rewrite (H r) by (by left). apply IHl. intros r' Hr'. apply H. by right.
    + by rewrite E.
    + rewrite E, E2. done.
    + rewrite E2, E3. intros t x' Hx. apply lookup_snoc in Hx as [Hx|[_ ->]]; [by eapply I3|]. apply lookup_lt_Some in Hj. by rewrite Hy.
    + rewrite E. unfold ran. by rewrite E2.
    + rewrite E. rewrite I1. by erewrite RDR.
    + rewrite E, insert_length, E2. intros j r Hj. apply lookup_snoc in Hj as [Hj|[_ ->]]; [by eapply I2|]. by apply lookup_lt_Some in K0.
    + rewrite E2, E3, app_length. cbn. intros t x Hx. specialize (I3 _ _ Hx). lia.
    + intros q k p cbs. rewrite E. unfold ran. rewrite E2, List.filter_app, map_app. cbn [List.filter r_coll]. intros K B.
      destruct (decide (q = q0)) as [E0|Ne].
      * subst q0. rewrite list_lookup_insert in K by (by eapply lookup_lt_Some). injection K as <-. rewrite Nat.eqb_refl. cbn.
        rewrite <- (I4 _ _ _ _ K0 B). unfold ran. rewrite T. by rewrite <- app_assoc.
      * rewrite list_lookup_insert_ne in K by congruence. destruct (Nat.eqb_spec q0 q); [congruence|]. cbn. rewrite app_nil_r. by eapply I4.
    + rewrite E. rewrite I1. by erewrite RDR.
    + rewrite E, insert_length. intros j r Hj. assert (Hm : map r_coll (s_runs s) !! j = Some (r_coll r)) by (change (map r_coll) with (fmap (M:=list) r_coll); by rewrite list_lookup_fmap, Hj).
      rewrite E2 in Hm. change (map r_coll) with (fmap (M:=list) r_coll) in Hm. rewrite list_lookup_fmap in Hm. destruct (s_runs s0 !! j) as [r0|] eqn:Hj0; [|done].
      injection Hm as <-. by eapply I2.
    + rewrite E3. apply (f_equal length) in E2. rewrite !map_length in E2. by rewrite E2.
    + intros q k p cbs. rewrite E. unfold ran. rewrite (filter_runs _ _ q E2 E2'). intros K B.
      destruct (decide (q = q0)) as [E0|Ne].
      * subst q0. rewrite list_lookup_insert in K by (by eapply lookup_lt_Some). injection K as <-. rewrite <- T. by eapply I4.
      * rewrite list_lookup_insert_ne in K by congruence. by eapply I4.
    + rewrite E. rewrite I1. by erewrite RDR.
    + rewrite E, insert_length, E2. done.
    + rewrite E2. intros t' x Hx. assert (Hm : map t_run (s_thr s) !! t' = Some (t_run x)) by (change (map (t_run (N:=N))) with (fmap (M:=list) (t_run (N:=N))); by rewrite list_lookup_fmap, Hx).
      rewrite E3 in Hm. change (map (t_run (N:=N))) with (fmap (M:=list) (t_run (N:=N))) in Hm. rewrite list_lookup_fmap in Hm. destruct (s_thr s0 !! t') as [x0|] eqn:Hx0; [|done].
      injection Hm as <-. by eapply I3.
    + intros q k p cbs. rewrite E. unfold ran. rewrite E2. intros K B.
      destruct (decide (q = q0)) as [E0|Ne].
      * subst q0. rewrite list_lookup_insert in K by (by eapply lookup_lt_Some). injection K as <-. rewrite <- T. by eapply I4.
      * rewrite list_lookup_insert_ne in K by congruence. by eapply I4.
Qed.
Lemma execs_runs tr : forall s s', execs c vr decl s tr = Some s' -> forall j r, s_runs s !! j = Some r -> exists r', s_runs s' !! j = Some r' /\ r_coll r' = r_coll r.
Proof.
  induction tr as [|a tr IH]; intros s s' H j r Hj; cbn in H.
  - injection H as <-. by exists r.
  - destruct (exec c vr decl s a) as [s1|] eqn:E; [|done]. cbn in H. apply exec_moves in E.
    assert (exists r1, s_runs s1 !! j = Some r1 /\ r_coll r1 = r_coll r) as (r1 & H1 & H2).
    { destruct E as [p cbs s1 E E2 E3|j0 x n l s1 r0 y E E2 Hj0 Hy E3|q0 n s1 k0 k' cb K0 E L T E2 E3|q0 n s1 k0 k' K0 E L T E2 E2' E3|t s1 q0 k0 k' K0 E L T E2 E3];
        try (rewrite E2; by exists r).
      - rewrite E2. exists r. split; [by apply lookup_app_l_Some|done].
      - assert (Hm : map r_coll (s_runs s) !! j = Some (r_coll r)) by (change (map r_coll) with (fmap (M:=list) r_coll); by rewrite list_lookup_fmap, Hj).
        rewrite <- E2 in Hm. change (map r_coll) with (fmap (M:=list) r_coll) in Hm. rewrite list_lookup_fmap in Hm. destruct (s_runs s1 !! j) as [r1|]; [|done].
        exists r1. split; [done|]. by injection Hm. }
    destruct (IH _ _ H _ _ H1) as (r2 & H3 & H4). exists r2. split; [done|congruence].
Qed.
Lemma execs_thr tr : forall s s', execs c vr decl s tr = Some s' -> forall t x, s_thr s !! t = Some x -> exists x', s_thr s' !! t = Some x' /\ t_run x' = t_run x.
Proof.
  induction tr as [|a tr IH]; intros s s' H j r Hj; cbn in H.
  - injection H as <-. by exists r.
  - destruct (exec c vr decl s a) as [s1|] eqn:E; [|done]. cbn in H. apply exec_moves in E.
    assert (exists r1, s_thr s1 !! j = Some r1 /\ t_run r1 = t_run r) as (r1 & H1 & H2).
    { destruct E as [p cbs s1 E E2 E3|j0 x n l s1 r0 y E E2 Hj0 Hy E3|q0 n s1 k0 k' cb K0 E L T E2 E3|q0 n s1 k0 k' K0 E L T E2 E2' E3|t s1 q0 k0 k' K0 E L T E2 E3];
        try (rewrite E3; by exists r).
      - rewrite E3. exists r. split; [by apply lookup_app_l_Some|done].
      - assert (Hm : map t_run (s_thr s) !! j = Some (t_run r)) by (change (map (t_run (N:=N))) with (fmap (M:=list) (t_run (N:=N))); by rewrite list_lookup_fmap, Hj).
        rewrite <- E3 in Hm. change (map (t_run (N:=N))) with (fmap (M:=list) (t_run (N:=N))) in Hm. rewrite list_lookup_fmap in Hm. destruct (s_thr s1 !! j) as [r1|]; [|done].
        exists r1. split; [done|]. by injection Hm. }
    destruct (IH _ _ H _ _ H1) as (r2 & H3 & H4). exists r2. split; [done|congruence].
Qed.

(** What is recorded in a collection that began later was observed later. *)
Lemma recorded_later tr1 tr2 s1 s2 q v t : reached c vr decl tr1 s1 -> execs c vr decl s1 tr2 = Some s2 -> length (s_colls s1) <= q ->
  recorded_in c s2 q v t -> length (s_thr s1) <= t.
Proof.
  intros R E L (x & r & Hx & _ & Hr & Hq & _). destruct (decide (length (s_thr s1) <= t)) as [|H]; [done|]. exfalso.
  destruct (lookup_lt_is_Some_2 (s_thr s1) t) as [x1 H1]; [lia|]. destruct (execs_thr _ _ _ E _ _ H1) as (x2 & H2 & H3). rewrite Hx in H2. injection H2 as <-.
  pose proof (binv_run _ _ R) as B. pose proof (b_thr _ _ B _ _ H1) as Hj. destruct (lookup_lt_is_Some_2 (s_runs s1) (t_run x1)) as [r1 Hr1]; [done|].
  destruct (execs_runs _ _ _ E _ _ Hr1) as (r2 & H4 & H5). rewrite <- H3, Hr in H4. injection H4 as <-. pose proof (b_run _ _ B _ _ Hr1). lia.
Qed.
End conc.

Section deliv.
Context {N : arith} (c : acfg) (vr : nat -> nat) (decl : list (list nat)) (rd : nat).
Implicit Types (f : sys N) (l : list (dact N)).
Notation run := (drun c vr decl rd).
Notation stp := (dstep c vr decl rd).
Notation ini := (sys_init (N:=N) c).

Lemma drun_app l1 : forall f l2, run f (l1 ++ l2) = f' ← run f l1; run f' l2.
Proof. induction l1 as [|a l1 IH]; intros f l2; cbn; [done|]. destruct (stp f a); cbn; [apply IH|done]. Qed.
Lemma conc_steps_app l1 l2 : conc_steps rd (l1 ++ l2) = conc_steps rd l1 ++ conc_steps rd l2.
Proof. apply flat_map_app. Qed.
Lemma read_steps_app l1 l2 : read_steps (l1 ++ l2) = read_steps l1 ++ read_steps l2.
Proof. apply flat_map_app. Qed.

(** One step of the whole is one step of a part, or none. *)
Inductive dstepR f : dact N -> sys N -> Prop :=
  | D_conc a s' : exec c vr decl (d_conc f) a = Some s' -> (forall cbs, a <> LBegin rd cbs) -> dstepR f (DConc a) (Sys s' (d_reader f) (d_busy f) (d_made f))
  | D_produce t cbs s' : returns_production (d_reader f) (Go t) = Some t -> d_busy f = None -> exec c vr decl (d_conc f) (LBegin rd cbs) = Some s' ->
      dstepR f (DProduce t cbs) (Sys s' (d_reader f) (Some (t, length (s_colls (d_conc f)))) (d_made f))
  | D_reader a r' : pstep (d_reader f) a = Some r' -> returns_production (d_reader f) a = None ->
      dstepR f (DReader a) (Sys (d_conc f) r' (d_busy f) (d_made f))
  | D_return t q k r' : pstep (d_reader f) (Go t) = Some r' -> returns_production (d_reader f) (Go t) = Some t -> d_busy f = Some (t, q) ->
      s_colls (d_conc f) !! q = Some k -> k_phase k = KDone -> dstepR f (DReader (Go t)) (Sys (d_conc f) r' None (d_made f ++ [q])).
Lemma dstep_cases f a f' : stp f a = Some f' -> dstepR f a f'.
Proof.
  destruct f as [s r b m]. destruct a as [a|t cbs|a]; cbn [dstep].
  - intros H. assert ((forall cbs, a <> LBegin rd cbs) /\ exists s', exec c vr decl s a = Some s' /\ f' = Sys s' r b m) as (NB & s' & S & ->).
    { destruct a as [p cbs|j x n o|q n|t].
      - destruct (Nat.eqb_spec p rd); [done|]. destruct (exec c vr decl s _) as [s'|]; [|done]. injection H as <-. split; [congruence|]. by exists s'.
      - destruct (exec c vr decl s _) as [s'|]; [|done]. injection H as <-. split; [done|]. by exists s'.
      - destruct (exec c vr decl s _) as [s'|]; [|done]. injection H as <-. split; [done|]. by exists s'.
      - destruct (exec c vr decl s _) as [s'|]; [|done]. injection H as <-. split; [done|]. by exists s'. }
    by apply (D_conc (Sys s r b m)).
  - destruct (returns_production r (Go t)) as [u|] eqn:P; [|done]. pose proof (returns_go _ _ _ P) as [= <-].
    destruct b; [done|]. destruct (exec c vr decl s (LBegin rd cbs)) as [s'|] eqn:S; [|done]. intros [= <-]. by apply (D_produce (Sys s r None m)).
  - destruct (pstep r a) as [r'|] eqn:S; [|done]. cbn. destruct (returns_production r a) as [u|] eqn:P.
    + pose proof (returns_go _ _ _ P) as ->. destruct b as [[t q]|]; [|done]. destruct (Nat.eqb_spec t u) as [->|]; [|done].
      destruct (s_colls s !! q) as [k|] eqn:K; [|done]. cbn. destruct (k_phase k) eqn:Ph; try done. intros [= <-]. by eapply (D_return (Sys s r (Some (u, q)) m)).
    + intros [= <-]. by apply (D_reader (Sys s r b m)).
Qed.
Lemma dstep_parts f a f' : stp f a = Some f' ->
  execs c vr decl (d_conc f) (conc_steps rd [a]) = Some (d_conc f') /\ prun (d_reader f) (read_steps [a]) = Some (d_reader f').
Proof.
  intros H. apply dstep_cases in H. destruct H; cbn [conc_steps read_steps flat_map app execs prun d_conc d_reader mbind option_bind].
  - by rewrite H.
  - by rewrite H1.
  - by rewrite H.
  - by rewrite H.
Qed.
Lemma drun_parts l : forall f f', run f l = Some f' ->
  execs c vr decl (d_conc f) (conc_steps rd l) = Some (d_conc f') /\ prun (d_reader f) (read_steps l) = Some (d_reader f').
Proof.
  induction l as [|a l IH]; intros f f' H; [by injection H as <-|]. cbn [drun] in H.
  destruct (stp f a) as [f1|] eqn:S; [|done]. cbn in H. apply dstep_parts in S as [S1 S2]. apply IH in H as [H1 H2].
  change (a :: l) with ([a] ++ l). rewrite conc_steps_app, read_steps_app, execs_app, prun_app, S1, S2. done.
Qed.
Lemma drun_snoc (P : list (dact N) -> sys N -> Prop) f0 :
  P [] f0 -> (forall l f a f', run f0 l = Some f -> P l f -> stp f a = Some f' -> P (l ++ [a]) f') ->
  forall l f, run f0 l = Some f -> P l f.
Proof.
  intros H0 HS l. induction l as [|a l IH] using rev_ind; intros f H; [by injection H as <-|].
  rewrite drun_app in H. destruct (run f0 l) as [f1|] eqn:E; [|done]. cbn in H. destruct (stp f1 a) as [f2|] eqn:S; [|done].
  injection H as <-. eapply HS; eauto.
Qed.

Record dinv f : Prop := {
  d_coll : forall q k, s_colls (d_conc f) !! q = Some k -> k_reader k = rd -> q ∈ d_made f \/ exists t, d_busy f = Some (t, q);
  d_done : forall q, q ∈ d_made f -> exists k, s_colls (d_conc f) !! q = Some k /\ k_reader k = rd /\ k_phase k = KDone;
  d_count : length (d_made f) = rd_count (d_reader f);
  d_work : forall t q, d_busy f = Some (t, q) -> q ∉ d_made f /\ (exists k, s_colls (d_conc f) !! q = Some k /\ k_reader k = rd) /\
    exists x, rd_threads (d_reader f) !! t = Some x /\ at_produce x = true /\ rd_producer (d_reader f) <> None;
  d_once : NoDup (d_made f)
}.
Lemma exec_colls s a s' : exec c vr decl s a = Some s' -> (forall cbs, a <> LBegin rd cbs) -> forall q (k' : coll N), s_colls s' !! q = Some k' -> k_reader k' = rd ->
  exists k, s_colls s !! q = Some k /\ k_reader k = rd.
Proof.
  intros E NB q k' K' R. apply exec_moves in E.
  assert (INS : forall q0 k0 k1, s_colls s !! q0 = Some k0 -> s_colls s' = <[q0 := k1]> (s_colls s) -> later k0 k1 -> exists k, s_colls s !! q = Some k /\ k_reader k = rd).
  { intros q0 k0 k1 K0 E1 [L _]. rewrite E1 in K'. destruct (decide (q = q0)) as [E0|Ne].
    - subst q0. rewrite list_lookup_insert in K' by (by eapply lookup_lt_Some). injection K' as <-. exists k0. split; [done|congruence].
    - rewrite list_lookup_insert_ne in K' by congruence. by exists k'. }
  destruct E as [p cbs s' E E2 E3|j x n l s' r y E E2 Hj Hy E3|q0 n s' k0 k1 cb K0 E L T E2 E3|q0 n s' k0 k1 K0 E L T E2 E2' E3|t s' q0 k0 k1 K0 E L T E2 E3];
    try (by apply (INS q0 k0 k1)).
  - rewrite E in K'. apply lookup_snoc in K' as [K'|[_ ->]]; [by exists k'|]. cbn in R. subst p. by destruct (NB cbs).
  - rewrite E in K'. by exists k'.
Qed.
Lemma dinv_run l f : run ini l = Some f -> dinv f.
Proof.
  revert l f. apply (drun_snoc (fun _ f => dinv f) ini).
  - constructor; cbn; try done.
    + intros q H. by apply elem_of_nil in H.
    + constructor.
  - intros l f a f' R I S.
    apply dstep_cases in S. destruct I as [I1 I2 I3 I4 I5]. destruct S as [a s' S NB|t cbs s' P B S|a r' S P|t q k r' S P B K D]; constructor; cbn [d_made d_busy d_conc d_reader].
    + intros q k' K' R'. destruct (exec_colls _ _ _ S NB _ _ K' R') as (k & K & Rk). by eapply I1.
    + intros q Hq. destruct (I2 _ Hq) as (k & K & Rk & D). destruct (moves_keep _ _ _ (exec_moves _ _ _ _ _ _ S) _ _ K) as (k' & K' & L & LD).
      exists k'. split; [done|]. split; [congruence|]. by apply LD.
    + done.
    + intros t q H. destruct (I4 _ _ H) as (H1 & (k & K & Rk) & H3). split; [done|]. split; [|done]. destruct (moves_keep _ _ _ (exec_moves _ _ _ _ _ _ S) _ _ K) as (k' & K' & L & LD).
      exists k'. split; [done|congruence].
    + done.
    + intros q k' K' R'. cbn in S. injection S as <-. cbn in K'. apply lookup_snoc in K' as [K'|[-> ->]]; [|right; by exists t].
      destruct (I1 _ _ K' R') as [H|[t' H]]; [by left|congruence].
    + intros q Hq. destruct (I2 _ Hq) as (k & K & Rk & D). destruct (moves_keep _ _ _ (exec_moves _ _ _ _ _ _ S) _ _ K) as (k' & K' & L & LD).
      exists k'. split; [done|]. split; [congruence|]. by apply LD.
    + done.
    + intros t' q [= <- <-]. split; [|split].
      * intros H. destruct (I2 _ H) as (k & K & _). apply lookup_lt_Some in K. lia.
      * cbn in S. injection S as <-. cbn. rewrite list_lookup_middle by done. by eexists.
      * destruct (returns_at _ _ P) as [P1 (x & P2 & P3)]. by exists x.
    + done.
    + done.
    + done.
    + destruct (reader_step _ _ _ S) as (_ & _ & C & _). by rewrite C.
    + intros t q H. destruct (I4 _ _ H) as (H1 & H2 & x & X1 & X2 & X3). split; [done|]. split; [done|].
      destruct (reader_step _ _ _ S) as (_ & Q & _ & K & _). exists x. split; [by apply K|]. split; [done|]. by rewrite Q.
    + done.
    + intros q' k' K' R'. rewrite elem_of_app, elem_of_list_singleton. destruct (I1 _ _ K' R') as [H|[t' H]]; [by left; left|]. rewrite B in H. injection H as _ <-. left. by right.
    + intros q' H. apply elem_of_app in H as [H|H]; [by apply I2|]. apply elem_of_list_singleton in H as ->. destruct (I4 _ _ B) as (_ & (k0 & K0 & R0) & _). exists k. split; [done|]. split; [congruence|done].
    + rewrite app_length. cbn. destruct (production_step _ _ _ _ P S) as (_ & x & m & y & _ & _ & _ & -> & _). lia.
    + done.
    + apply NoDup_app. split; [done|]. split; [|apply NoDup_singleton]. intros q' H1 H2. apply elem_of_list_singleton in H2 as ->.
      by destruct (I4 _ _ B).
Qed.
Lemma reached_conc l f : run ini l = Some f -> reached c vr decl (conc_steps rd l) (d_conc f).
Proof. intros R. by destruct (drun_parts _ _ _ R) as [P _]. Qed.

(** The reader's collections do not overlap. *)
Lemma single l f : run ini l = Some f -> ConcSpec.one_at_a_time rd (d_conc f).
Proof.
  intros R q q' k k' K K' Rk Rk' D D'. pose proof (dinv_run _ _ R) as I.
  assert (B : forall q (k : coll N), s_colls (d_conc f) !! q = Some k -> k_reader k = rd -> k_phase k <> KDone -> exists t, d_busy f = Some (t, q)).
  { intros q0 k0 K0 R0 D0. destruct (d_coll _ I _ _ K0 R0) as [H|H]; [|done]. destruct (d_done _ I _ H) as (k1 & K1 & _ & D1). congruence. }
  destruct (B _ _ K Rk D) as [t B1]. destruct (B _ _ K' Rk' D') as [t' B2]. congruence.
Qed.
(** Every state of the instruments on the way is one of a history of the whole. *)
Lemma prefix_run l : forall f f' tr1 tr2, run f l = Some f' -> conc_steps rd l = tr1 ++ tr2 ->
  exists l1 l2 f1, l = l1 ++ l2 /\ conc_steps rd l1 = tr1 /\ run f l1 = Some f1.
Proof.
  induction l as [|a l IH]; intros f f' tr1 tr2 R E.
  - exists [], [], f. cbn in E. symmetry in E. apply app_nil in E as [-> ->]. done.
  - cbn [drun] in R. destruct (stp f a) as [f0|] eqn:S; [|done]. cbn in R.
    destruct tr1 as [|b tr1]; [by exists [], (a :: l), f|].
    change (a :: l) with ([a] ++ l) in E. rewrite conc_steps_app in E.
    assert (GO : forall tr, conc_steps rd l = tr ++ tr2 -> conc_steps rd [a] ++ tr = b :: tr1 -> exists l1 l2 f1, a :: l = l1 ++ l2 /\ conc_steps rd l1 = b :: tr1 /\ run f l1 = Some f1).
    { intros tr E1 E2. destruct (IH _ _ _ _ R E1) as (l1 & l2 & f1 & -> & E3 & R1). exists (a :: l1), l2, f1. split; [done|]. split.
      - change (a :: l1) with ([a] ++ l1). by rewrite conc_steps_app, E3.
      - cbn [drun]. by rewrite S. }
    destruct a as [a|t cbs|a]; cbn in E.
    + injection E as <- E. by apply (GO tr1).
    + injection E as <- E. by apply (GO tr1).
    + by apply (GO (b :: tr1)).
Qed.
Lemma orderly_run l f : run ini l = Some f -> (forall tr1 tr2 s, conc_steps rd l = tr1 ++ tr2 -> reached c vr decl tr1 s -> waited rd s) ->
  orderly c vr decl rd (conc_steps rd l).
Proof.
  intros R W tr1 tr2 s E Hs. split; [|by eapply W]. destruct (prefix_run _ _ _ _ _ R E) as (l1 & l2 & f1 & -> & E1 & R1).
  pose proof (reached_conc _ _ R1) as H. rewrite E1 in H. unfold reached in H, Hs. rewrite H in Hs. injection Hs as <-. by eapply single.
Qed.

Lemma drun_keeps f l f' : run f l = Some f' ->
  (forall n q, d_made f !! n = Some q -> d_made f' !! n = Some q) /\ (forall e, e ∈ rd_log (d_reader f) -> e ∈ rd_log (d_reader f')).
Proof.
  revert l f'. apply (drun_snoc (fun _ f' => (forall n q, d_made f !! n = Some q -> d_made f' !! n = Some q) /\ (forall e, e ∈ rd_log (d_reader f) -> e ∈ rd_log (d_reader f'))) f).
  - done.
  - intros l f1 a f2 _ [P1 P2] S. apply dstep_cases in S. destruct S as [a s' S NB|t cbs s' P B S|a r' S P|t q k r' S P B K D]; cbn [d_made d_reader]; auto.
    + split; [done|]. intros e He. eapply log_grows; eauto.
    + split; [intros n k' Hn; apply lookup_app_l_Some; auto|]. intros e He. eapply log_grows; eauto.
Qed.

Definition split_at f1 l f t : Prop :=
  exists la lb fa fb q k, l = la ++ DReader (Go t) :: lb /\ run f1 la = Some fa /\ stp fa (DReader (Go t)) = Some fb /\ run fb lb = Some f /\
    returns_production (d_reader fa) (Go t) = Some t /\ d_busy fa = Some (t, q) /\ s_colls (d_conc fa) !! q = Some k /\ k_phase k = KDone /\
    d_conc fb = d_conc fa /\ d_made fb = d_made fa ++ [q] /\ pstep (d_reader fa) (Go t) = Some (d_reader fb).
Lemma produced_split f1 l f : run f1 l = Some f -> forall t x, rd_threads (d_reader f) !! t = Some x -> produced x = true ->
  length (rd_threads (d_reader f1)) <= t -> split_at f1 l f t.
Proof.
  revert l f. apply (drun_snoc (fun l f => forall t x, rd_threads (d_reader f) !! t = Some x -> produced x = true ->
    length (rd_threads (d_reader f1)) <= t -> split_at f1 l f t) f1).
  - intros t x H _ L. apply lookup_lt_Some in H. lia.
  - intros l f a f' R IH S t x H P L.
    assert (EXT : (exists x, rd_threads (d_reader f) !! t = Some x /\ produced x = true) -> split_at f1 (l ++ [a]) f' t).
    { intros (x0 & H0 & P0). destruct (IH t x0 H0 P0 L) as (la & lb & fa & fb & q & k & -> & E1 & E2 & E3 & E4).
      exists la, (lb ++ [a]), fa, fb, q, k. split; [by rewrite <- app_assoc|]. split; [done|]. split; [done|]. split; [|done].
      rewrite drun_app, E3. cbn. by rewrite S. }
    pose proof S as S0. apply dstep_cases in S. destruct S as [a s' S NB|u cbs s' Q B S|a r' S Q|u q k r' S Q B K D]; cbn [d_reader] in H.
    + apply EXT. eauto.
    + apply EXT. eauto.
    + destruct (reader_step _ _ _ S) as (_ & _ & _ & _ & M). destruct (M t x H P) as [E|E]; [by apply EXT|congruence].
    + destruct (reader_step _ _ _ S) as (_ & _ & _ & _ & M). destruct (M t x H P) as [E|E]; [by apply EXT|].
      rewrite Q in E. injection E as <-. exists l, [], f, (Sys (d_conc f) r' None (d_made f ++ [q])), q, k. by repeat split.
Qed.
Lemma busy_later l1 f1 l f : run ini l1 = Some f1 -> run f1 l = Some f -> forall t q, d_busy f = Some (t, q) ->
  length (rd_threads (d_reader f1)) <= t -> length (s_colls (d_conc f1)) <= q.
Proof.
  intros R1. revert l f. apply (drun_snoc (fun l f => forall t q, d_busy f = Some (t, q) ->
    length (rd_threads (d_reader f1)) <= t -> length (s_colls (d_conc f1)) <= q) f1).
  - intros t q B L. destruct (d_work _ (dinv_run _ _ R1) _ _ B) as (_ & _ & x & X & _). apply lookup_lt_Some in X. lia.
  - intros l f a f' R IH S t q B L. apply dstep_cases in S.
    destruct S as [a s' S NB|u cbs s' Q B' S|a r' S Q|u q' k' r' S Q B' K D]; cbn [d_busy] in B; [by eapply IH| |by eapply IH|done].
    injection B as <- <-. destruct (drun_parts _ _ _ R) as [P _]. by apply (execs_keep _ _ _ _ _ _ P).
Qed.

Lemma delivered l1 f1 l2 f2 t m e :
  run ini l1 = Some f1 -> run f1 l2 = Some f2 -> length (rd_threads (d_reader f1)) <= t ->
  rd_threads (d_reader f2) !! t = Some (CReturned m e) ->
  exists n sn q k, given f2 n sn /\ s_t sn = t /\ s_method sn = m /\ s_err sn = e /\
    data_of f2 n q k /\ k_reader k = rd /\ k_phase k = KDone /\ length (s_colls (d_conc f1)) <= q.
Proof.
  intros R1 R2 L T.
  destruct (produced_split _ _ _ R2 _ _ T eq_refl L) as (la & lb & fa & fb & q & k & -> & Ra & Sb & Rb & Q & B & K & D & SB & MB & PB).
  pose proof (busy_later _ _ _ _ R1 Ra _ _ B L) as LK.
  assert (RA : run ini (l1 ++ la) = Some fa) by (by rewrite drun_app, R1).
  assert (RF : run ini (l1 ++ la ++ DReader (Go t) :: lb) = Some f2) by (by rewrite drun_app, R1).
  pose proof (dinv_run _ _ RA) as GA. destruct (drun_parts _ _ _ RF) as [_ PF]. cbn in PF.
  destruct (drun_keeps _ _ _ Rb) as [KM KG].
  set (n := length (d_made fa)). assert (NM : d_made f2 !! n = Some q).
  { apply KM. rewrite MB. unfold n. rewrite lookup_app_r by done. by rewrite Nat.sub_diag. }
  destruct (prun_inv _ _ _ _ new_inv PF) as [ss J]. cbn in J.
  assert (EP : exists y, EProduce t y n ∈ rd_log (d_reader f2)).
  { destruct (production_step _ _ _ _ Q PB) as (_ & x & m0 & y & _ & _ & _ & _ & _ & x' & _ & _ & _ & LG). exists y. apply KG. rewrite LG, <- (d_count _ GA).
    apply elem_of_app. right. by apply elem_of_list_singleton. }
  destruct EP as [y EP]. destruct (session_of_return _ _ _ _ _ _ _ J T EP) as [OT (sn & S1 & S2 & S3 & S4 & S5)].
  destruct (d_done _ (dinv_run _ _ RF) q (elem_of_list_lookup_2 _ _ _ NM)) as (k2 & K2 & Rk2 & D2).
  exists n, sn, q, k2. split; [by exists ss, (drop (length (concat (map events ss))) (exports (rd_log (d_reader f2))))|]. by repeat split.
Qed.

(** The data of a production stay as they are. *)
Lemma made_kept l1 f1 l2 f2 n q k : run ini l1 = Some f1 -> run f1 l2 = Some f2 -> data_of f1 n q k ->
  exists k2, data_of f2 n q k2 /\ k_out k2 = k_out k /\ k_phase k = KDone /\ k_phase k2 = KDone.
Proof.
  intros R1 R2 [M K]. destruct (d_done _ (dinv_run _ _ R1) q (elem_of_list_lookup_2 _ _ _ M)) as (k1 & K1 & _ & D). rewrite K in K1. injection K1 as <-.
  destruct (drun_parts _ _ _ R2) as [P _]. destruct (proj1 (execs_keep _ _ _ _ _ _ P) _ _ K) as (k2 & K2 & _ & D2). destruct (D2 D) as [D3 D4].
  exists k2. split; [|done]. split; [by apply (drun_keeps _ _ _ R2)|done].
Qed.

(** Productions follow one another. *)
Lemma made_order l f : run ini l = Some f ->
  (forall n n' q q', d_made f !! n = Some q -> d_made f !! n' = Some q' -> n < n' -> q < q') /\
  (forall t q q', d_busy f = Some (t, q) -> q' ∈ d_made f -> q' < q).
Proof.
  revert l f. apply (drun_snoc (fun _ f => (forall n n' q q', d_made f !! n = Some q -> d_made f !! n' = Some q' -> n < n' -> q < q') /\
    (forall t q q', d_busy f = Some (t, q) -> q' ∈ d_made f -> q' < q)) ini).
  - done.
  - intros l f a f' R [I1 I2] S. pose proof (dinv_run _ _ R) as G. apply dstep_cases in S.
    destruct S as [a s' S NB|t cbs s' P B S|a r' S P|t q k r' S P B K D]; cbn [d_made d_busy]; try done.
    + split; [done|]. intros u q q' [= <- <-] Hq. destruct (d_done _ G _ Hq) as (k & K & _). by apply lookup_lt_Some in K.
    + split; [|done]. intros n n' q1 q2 H1 H2 L. apply lookup_snoc in H2 as [H2|[-> ->]].
      * assert (L2 := lookup_lt_Some _ _ _ H2). apply lookup_snoc in H1 as [H1|[-> ->]]; [by eapply I1|lia].
      * apply lookup_snoc in H1 as [H1|[-> ->]]; [|lia]. apply (I2 _ _ _ B). by eapply elem_of_list_lookup_2.
Qed.
Lemma first_made l f q : run ini l = Some f -> d_made f !! 0 = Some q -> first (d_conc f) q.
Proof.
  intros R M. pose proof (dinv_run _ _ R) as G. destruct (made_order _ _ R) as [O1 O2]. destruct (d_done _ G q (elem_of_list_lookup_2 _ _ _ M)) as (k & K & Rk & _).
  exists k. split; [done|]. intros q1 k1 K1 R1 L. destruct (d_coll _ G _ _ K1) as [H|[t H]]; [congruence| |].
  - apply elem_of_list_lookup in H as [n H]. destruct n as [|n]; [rewrite M in H; injection H as <-; lia|]. pose proof (O1 0 (S n) _ _ M H). lia.
  - pose proof (O2 _ _ _ H (elem_of_list_lookup_2 _ _ _ M)). lia.
Qed.
Lemma previous_made l f n q q0 : run ini l = Some f -> d_made f !! n = Some q0 -> d_made f !! S n = Some q -> previous (d_conc f) q0 q.
Proof.
  intros R M0 M. pose proof (dinv_run _ _ R) as G. destruct (made_order _ _ R) as [O1 O2]. destruct (d_done _ G q (elem_of_list_lookup_2 _ _ _ M)) as (k & K & Rk & _).
  destruct (d_done _ G q0 (elem_of_list_lookup_2 _ _ _ M0)) as (k0 & K0 & Rk0 & _). exists k0, k. split; [done|]. split; [done|]. split; [congruence|]. split; [eapply (O1 n (S n)); eauto|].
  intros q1 k1 K1 R1 L1 L2. destruct (d_coll _ G _ _ K1) as [H|[t H]]; [congruence| |].
  - apply elem_of_list_lookup in H as [n1 H]. destruct (decide (n1 < n)) as [C|C]; [pose proof (O1 _ _ _ _ H M0 C); lia|].
    destruct (decide (S n < n1)) as [C2|C2]; [pose proof (O1 _ _ _ _ M H C2); lia|]. assert (n1 = n \/ n1 = S n) as [-> | ->] by lia.
    + rewrite M0 in H. injection H as <-. lia.
    + rewrite M in H. injection H as <-. lia.
  - pose proof (O2 _ _ _ H (elem_of_list_lookup_2 _ _ _ M)). lia.
Qed.
End deliv.
