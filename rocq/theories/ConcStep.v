(** Every step of Conc is a step of one collection and leaves the others alone. *)
From Coq Require Import ZArith Bool String Lia.
From stdpp Require Import base list option strings.
From Verif Require Import Num Agg Attr Async AsyncSpec AsyncProofs Conc ConcSpec ConcProofs.

Section conc.
Context {N : arith} (c : acfg) (vr : nat -> nat) (decl : list (list nat)).
Implicit Types (s : cst N) (k : coll N) (x : thr N).

Lemma thr_of_Some s q t x : thr_of s q t = Some x <-> s_thr s !! t = Some x /\ exists r, s_runs s !! t_run x = Some r /\ r_coll r = q.
Proof.
  clear c vr decl. unfold thr_of. destruct (s_thr s !! t) as [y|]; cbn; [|naive_solver]. destruct (s_runs s !! t_run y) as [r|] eqn:E; cbn.
  - destruct (Nat.eqb_spec (r_coll r) q); naive_solver.
  - naive_solver.
Qed.
Lemma run_of_Some s q j b : run_of s q j = Some b <-> exists r, s_runs s !! j = Some r /\ r_coll r = q /\ r_live r = b.
Proof.
  clear c vr decl. unfold run_of. destruct (s_runs s !! j) as [r|]; cbn; [|naive_solver]. destruct (Nat.eqb_spec (r_coll r) q); naive_solver.
Qed.
Lemma put_pc_eq s t f x : s_thr s !! t = Some x -> put_pc t f s = CSt (s_views s) (s_colls s) (s_runs s) (<[t := with_pc x f]> (s_thr s)).
Proof. unfold put_pc. by intros ->. Qed.
Lemma thr_of_pc s q t f x : thr_of s q t = Some x -> forall t', thr_of (put_pc t f s) q t' = fup (thr_of s q) t (with_pc x f) t'.
Proof.
  intros (Hx & r & Hr & Hq)%thr_of_Some t'. rewrite (put_pc_eq _ _ _ _ Hx). unfold thr_of, fup. cbn.
  destruct (Nat.eqb_spec t' t) as [->|Hne].
  - rewrite list_lookup_insert by (by eapply lookup_lt_Some). cbn. rewrite Hr. cbn. by rewrite (proj2 (Nat.eqb_eq _ _) Hq).
  - by rewrite list_lookup_insert_ne.
Qed.
Lemma thr_of_pc_other s q t f x r : s_thr s !! t = Some x -> s_runs s !! t_run x = Some r -> r_coll r <> q ->
  forall t', thr_of (put_pc t f s) q t' = thr_of s q t'.
Proof.
  intros Hx Hr Hq t'. rewrite (put_pc_eq _ _ _ _ Hx). unfold thr_of. cbn.
  destruct (Nat.eq_dec t' t) as [->|Hne].
  - rewrite list_lookup_insert by (by eapply lookup_lt_Some). rewrite Hx. cbn. rewrite Hr. cbn. by rewrite (proj2 (Nat.eqb_neq _ _) Hq).
  - by rewrite list_lookup_insert_ne.
Qed.
Lemma run_of_pc s q t f j : run_of (put_pc t f s) q j = run_of s q j.
Proof. unfold put_pc. by destruct (s_thr s !! t). Qed.
Lemma colls_pc s t f : s_colls (put_pc t f s) = s_colls s.
Proof. unfold put_pc. by destruct (s_thr s !! t). Qed.
Lemma views_pc s t f : s_views (put_pc t f s) = s_views s.
Proof. unfold put_pc. by destruct (s_thr s !! t). Qed.
Lemma runs_pc s t f : s_runs (put_pc t f s) = s_runs s.
Proof. unfold put_pc. by destruct (s_thr s !! t). Qed.
Lemma length_pc s t f : length (s_thr (put_pc t f s)) = length (s_thr s).
Proof. unfold put_pc. destruct (s_thr s !! t); [|done]. cbn. apply insert_length. Qed.

(** ** What holds in every state *)
Record ginv s : Prop := {
  g_views : length (s_views s) = length (a_views c);
  g_run : forall j r, s_runs s !! j = Some r -> is_Some (s_colls s !! r_coll r);
  g_thr : forall t x, s_thr s !! t = Some x -> is_Some (s_runs s !! t_run x);
  g_coll : forall q k, s_colls s !! q = Some k -> cinv c vr k (thr_of s q) (run_of s q)
}.

(** The calls of [s] are still there, what they observe does not change, and those that returned stay so. *)
Definition kept s s' : Prop :=
  (length (s_thr s) <= length (s_thr s'))%nat /\
  (forall t x, s_thr s !! t = Some x -> exists x', s_thr s' !! t = Some x' /\ t_run x' = t_run x /\ obs_of x' = obs_of x /\
     (forall r, t_pc x = TEnd r -> t_pc x' = TEnd r)) /\
  (forall j r, s_runs s !! j = Some r -> exists r', s_runs s' !! j = Some r' /\ r_coll r' = r_coll r).
Lemma kept_refl s : kept s s.
Proof. split; [done|]. split; [intros t x Hx; by exists x|intros j r Hr; by exists r]. Qed.

(** One step, seen from view [v] and from the collection that makes it. *)
Record moved (v : nat) (w : aview) s s' (q : nat) k k' (y y' : vw N) : Prop := {
  mv_from : s_colls s !! q = Some k;
  mv_to : s_colls s' = <[q := k']> (s_colls s);
  mv_view : s_views s !! v = Some y;
  mv_view' : s_views s' !! v = Some y';
  mv_len : length (s_views s') = length (s_views s);
  mv_same : vr v <> k_reader k -> y' = y;
  mv_step : exists th ru, lstep c vr decl v w k (thr_of s q) (run_of s q) y k' th ru y' /\
    (forall t, thr_of s' q t = th t) /\ (forall j, run_of s' q j = ru j);
  mv_other : forall q', q' <> q -> (forall t, thr_of s' q' t = thr_of s q' t) /\ (forall j, run_of s' q' j = run_of s q' j);
  mv_kept : kept s s';
  mv_live : forall j r, s_runs s' !! j = Some r -> r_coll r <> q -> s_runs s !! j = Some r
}.

Lemma compiled_reader p i v : v ∈ compiled c vr p i -> vr v = p.
Proof.
  unfold compiled. destruct (a_insts c !! i); [|by intros ?%elem_of_nil]. rewrite elem_of_list_In, filter_In. intros [_ H]. by apply Nat.eqb_eq.
Qed.
Lemma collectors_reader p v : v ∈ collectors c vr p -> vr v = p.
Proof. unfold collectors. rewrite elem_of_list_In, filter_In. intros [_ H]. by apply Nat.eqb_eq. Qed.

(** The views a collection will still collect are those of its reader. *)
Definition colls_ok s : Prop := forall q k todo, s_colls s !! q = Some k -> k_phase k = KColl todo -> forall v, v ∈ todo -> vr v = k_reader k.

Lemma kept_pc s t x f : s_thr s !! t = Some x -> (forall r, t_pc x <> TEnd r) -> kept s (put_pc t f s).
Proof.
  intros Hx Hne. split; [by rewrite length_pc|]. split; [|rewrite runs_pc; eauto].
  intros t' x' Hx'. rewrite (put_pc_eq _ _ _ _ Hx). cbn. destruct (Nat.eq_dec t' t) as [->|Ht].
  - rewrite list_lookup_insert by (by eapply lookup_lt_Some). eexists. split; [done|]. assert (x' = x) as -> by congruence. split_and!; [done|done|].
    intros r Hr. by destruct (Hne r).
  - rewrite list_lookup_insert_ne by done. exists x'. done.
Qed.
Lemma kept_coll s q k f t x : s_thr s !! t = Some x -> (forall r, t_pc x <> TEnd r) -> kept s (put_pc t f (put_coll q k s)).
Proof.
  intros Hx Hne. pose proof (kept_pc (put_coll q k s) t x f Hx Hne) as (A & B & C). by split_and!.
Qed.
Lemma kept_view s v y f t x : s_thr s !! t = Some x -> (forall r, t_pc x <> TEnd r) -> kept s (put_pc t f (put_view v y s)).
Proof.
  intros Hx Hne. pose proof (kept_pc (put_view v y s) t x f Hx Hne) as (A & B & C). by split_and!.
Qed.
Lemma insert_self {A} (l : list A) n a : l !! n = Some a -> l = <[n := a]> l.
Proof. intros H. symmetry. by apply list_insert_id. Qed.

Lemma step_moved v w s t s' : ginv s -> a_views c !! v = Some w -> step c vr decl t s = Some s' ->
  exists q k k' y y', moved v w s s' q k k' y y'.
Proof.
  intros G Hw E. unfold step in E.
  destruct (s_thr s !! t) as [x|] eqn:Hx; cbn in E; [|done].
  destruct (s_runs s !! t_run x) as [r|] eqn:Hr; cbn in E; [|done].
  destruct (s_colls s !! r_coll r) as [k|] eqn:Hk; cbn in E; [|done].
  assert (Hy : is_Some (s_views s !! v)). { apply lookup_lt_is_Some. rewrite (g_views _ G). by eapply lookup_lt_Some. }
  destruct Hy as [y Hy]. pose proof (g_coll _ G _ _ Hk) as CI.
  assert (Ht : thr_of s (r_coll r) t = Some x). { apply thr_of_Some. eauto. }
  assert (Hru : run_of s (r_coll r) (t_run x) = Some (r_live r)). { apply run_of_Some. eauto. }
  set (q := r_coll r) in *. exists q, k.
  (* a step that changes neither views nor runs *)
  assert (Simple : forall k' f, (forall a, t_pc x <> TEnd a) ->
    lstep c vr decl v w k (thr_of s q) (run_of s q) y k' (fup (thr_of s q) t (with_pc x f)) (run_of s q) y ->
    moved v w s (put_pc t f (put_coll q k' s)) q k k' y y).
  { intros k' f Hne L. split; auto.
    - by rewrite colls_pc.
    - by rewrite views_pc.
    - by rewrite views_pc.
    - eexists _, _. split; [exact L|]. split.
      + intros t'. by apply (thr_of_pc (put_coll q k' s)).
      + intros j. by rewrite run_of_pc.
    - intros q' Hq'. split; [|intros j; by rewrite run_of_pc].
      intros t'. rewrite (thr_of_pc_other (put_coll q k' s) q' t f x r); done.
    - by eapply kept_coll.
    - intros j r'. rewrite runs_pc. done. }
  assert (Simple' : forall f, (forall a, t_pc x <> TEnd a) ->
    lstep c vr decl v w k (thr_of s q) (run_of s q) y k (fup (thr_of s q) t (with_pc x f)) (run_of s q) y ->
    moved v w s (put_pc t f s) q k k y y).
  { intros f Hne L. replace (put_pc t f s) with (put_pc t f (put_coll q k s)); [by apply Simple|].
    unfold put_coll. rewrite <- (insert_self _ _ _ Hk). by destruct s. }
  destruct (t_pc x) as [| |[|u todo] accs|e pos|a] eqn:Hpc; [| | | | |done].
  - injection E as <-. exists k, y, y. apply Simple'; [done|]. by apply S_check.
  - destruct (k_lock k) eqn:Hl; [|done|done]. destruct (find_entry _ _ _) as [e|] eqn:Hf; injection E as <-.
    + exists k, y, y. apply Simple'; [done|]. by apply S_find.
    + eexists _, y, y. apply Simple; [done|]. by apply S_make.
  - injection E as <-. eexists _, y, y. apply Simple; [done|]. by apply S_add.
  - destruct (s_views s !! u) as [z|] eqn:Hz; cbn in E; [|done]. destruct (a_views c !! u) as [wu|] eqn:Hwu; cbn in E; [|done].
    destruct (find_storage (av_limit wu) (view_key wu (t_set x)) z) as [z' h] eqn:Hfs. injection E as <-.
    exists k, y, (if Nat.eqb u v then z' else y).
    assert (Hul : (u < length (s_views s))%nat) by (by eapply lookup_lt_Some).
    split; auto.
    + rewrite colls_pc. cbn. by apply insert_self.
    + rewrite views_pc. cbn. destruct (Nat.eqb_spec u v) as [->|Hne]; [by rewrite list_lookup_insert|by rewrite list_lookup_insert_ne].
    + rewrite views_pc. cbn. apply insert_length.
    + intros Hv. destruct (Nat.eqb_spec u v) as [->|Hne]; [|done]. exfalso. apply Hv. apply (compiled_reader _ (inst_of x)).
      destruct (i_make _ _ _ _ _ CI t x _ _ Ht Hpc) as [<- _]. apply elem_of_app. right. left.
    + eexists _, _. split; [|split].
      * apply (S_acc _ _ _ _ _ _ _ _ _ t x u todo accs h); auto. destruct (Nat.eqb_spec u v) as [->|Hne]; [|done]. rewrite Hy in Hz. rewrite Hw in Hwu. congruence.
      * intros t'. by apply (thr_of_pc (put_view u z' s)).
      * intros j. by rewrite run_of_pc.
    + intros q' Hq'. split; [|intros j; by rewrite run_of_pc]. intros t'. rewrite (thr_of_pc_other (put_view u z' s) q' t _ x r); done.
    + eapply kept_view; [done|]. by rewrite Hpc.
    + intros j r'. rewrite runs_pc. done.
  - destruct (the_acc (k_store k) (e, pos)) as [a|] eqn:Ha; injection E as <-.
    + eexists _, y, y. apply Simple; [done|]. by eapply S_cur.
    + exists k, y, y. apply Simple'; [done|]. by eapply S_done.
Qed.

Lemma kept_same s s' : s_thr s' = s_thr s -> s_runs s' = s_runs s -> kept s s'.
Proof. intros H1 H2. unfold kept. rewrite H1, H2. apply kept_refl. Qed.
Lemma the_acc_view k th ru z a : cinv c vr k th ru -> the_acc (k_store k) z = Some a -> vr (ac_view a) = k_reader k.
Proof.
  intros CI Ha. unfold the_acc in Ha. destruct (k_store k !! z.1) as [e|] eqn:He; cbn in Ha; [|done].
  apply (compiled_reader _ (en_inst e)). destruct (i_ent _ _ _ _ _ CI e) as [<- _]; [by eapply elem_of_list_lookup_2|].
  apply elem_of_list_fmap. exists a. split; [done|]. by eapply elem_of_list_lookup_2.
Qed.
Lemma go_moved v w s q n s' : ginv s -> colls_ok s -> a_views c !! v = Some w -> go c vr q n s = Some s' ->
  exists k k' y y', moved v w s s' q k k' y y'.
Proof.
  intros G CO Hw E. unfold go in E.
  destruct (s_colls s !! q) as [k|] eqn:Hk; cbn in E; [|done].
  assert (Hy : is_Some (s_views s !! v)). { apply lookup_lt_is_Some. rewrite (g_views _ G). by eapply lookup_lt_Some. }
  destruct Hy as [y Hy]. pose proof (g_coll _ G _ _ Hk) as CI. exists k.
  assert (Simple : forall k', lstep c vr decl v w k (thr_of s q) (run_of s q) y k' (thr_of s q) (run_of s q) y -> moved v w s (put_coll q k' s) q k k' y y).
  { intros k' L. split; auto; [by eauto 10|]. by apply kept_same. }
  destruct (k_phase k) as [[|cb todo] [j|]|[|i todo] [[|z0 pend]|]|[|u todo]|] eqn:Hph; cbn in E; try done.
  - (* KRun [] (Some j) *)
    assert (Hj : run_of s q j = Some true). { apply (i_live _ _ _ _ _ CI). eauto. }
    pose proof Hj as (r & Hr & Hq & Hlv)%run_of_Some. rewrite Hr in E. cbn in E. injection E as <-. eexists _, y, y. split; auto.
    + eexists _, _. split; [by eapply S_ret|]. split.
      * intros t. unfold thr_of. cbn. destruct (s_thr s !! t) as [x|]; cbn; [|done]. destruct (Nat.eq_dec (t_run x) j) as [Hj'|Hj'].
        -- rewrite Hj', list_lookup_insert by (by eapply lookup_lt_Some). rewrite Hr. done.
        -- by rewrite list_lookup_insert_ne.
      * intros j'. unfold run_of, fup. cbn. destruct (Nat.eqb_spec j' j) as [->|Hne].
        -- rewrite list_lookup_insert by (by eapply lookup_lt_Some). cbn. by rewrite (proj2 (Nat.eqb_eq _ _) Hq).
        -- by rewrite list_lookup_insert_ne.
    + intros q' Hq'. split.
      * intros t. unfold thr_of. cbn. destruct (s_thr s !! t) as [x|]; cbn; [|done]. destruct (Nat.eq_dec (t_run x) j) as [Hj'|Hj'].
        -- rewrite Hj', list_lookup_insert by (by eapply lookup_lt_Some). rewrite Hr. done.
        -- by rewrite list_lookup_insert_ne.
      * intros j'. unfold run_of. cbn. destruct (Nat.eq_dec j' j) as [->|Hne].
        -- rewrite list_lookup_insert by (by eapply lookup_lt_Some). rewrite Hr. cbn. destruct (Nat.eqb_spec (r_coll r) q'); [congruence|done].
        -- by rewrite list_lookup_insert_ne.
    + split; [done|]. split; [cbn; naive_solver|]. intros j' r' Hr'. cbn. destruct (Nat.eq_dec j' j) as [->|Hne].
      * rewrite list_lookup_insert by (by eapply lookup_lt_Some). eexists. split; [done|]. cbn. congruence.
      * rewrite list_lookup_insert_ne by done. eauto.
    + intros j' r'. cbn. destruct (Nat.eq_dec j' j) as [->|Hne]; [|by rewrite list_lookup_insert_ne].
      rewrite list_lookup_insert by (by eapply lookup_lt_Some). intros [= <-]. cbn. done.
  - injection E as <-. eexists _, y, y. apply Simple. by apply S_snap0.
  - (* KRun (cb :: todo) (Some j): same *)
    assert (Hj : run_of s q j = Some true). { apply (i_live _ _ _ _ _ CI). eauto. }
    pose proof Hj as (r & Hr & Hq & Hlv)%run_of_Some. rewrite Hr in E. cbn in E. injection E as <-. eexists _, y, y. split; auto.
    + eexists _, _. split; [by eapply S_ret|]. split.
      * intros t. unfold thr_of. cbn. destruct (s_thr s !! t) as [x|]; cbn; [|done]. destruct (Nat.eq_dec (t_run x) j) as [Hj'|Hj'].
        -- rewrite Hj', list_lookup_insert by (by eapply lookup_lt_Some). rewrite Hr. done.
        -- by rewrite list_lookup_insert_ne.
      * intros j'. unfold run_of, fup. cbn. destruct (Nat.eqb_spec j' j) as [->|Hne].
        -- rewrite list_lookup_insert by (by eapply lookup_lt_Some). cbn. by rewrite (proj2 (Nat.eqb_eq _ _) Hq).
        -- by rewrite list_lookup_insert_ne.
    + intros q' Hq'. split.
      * intros t. unfold thr_of. cbn. destruct (s_thr s !! t) as [x|]; cbn; [|done]. destruct (Nat.eq_dec (t_run x) j) as [Hj'|Hj'].
        -- rewrite Hj', list_lookup_insert by (by eapply lookup_lt_Some). rewrite Hr. done.
        -- by rewrite list_lookup_insert_ne.
      * intros j'. unfold run_of. cbn. destruct (Nat.eq_dec j' j) as [->|Hne].
        -- rewrite list_lookup_insert by (by eapply lookup_lt_Some). rewrite Hr. cbn. destruct (Nat.eqb_spec (r_coll r) q'); [congruence|done].
        -- by rewrite list_lookup_insert_ne.
    + split; [done|]. split; [cbn; naive_solver|]. intros j' r' Hr'. cbn. destruct (Nat.eq_dec j' j) as [->|Hne].
      * rewrite list_lookup_insert by (by eapply lookup_lt_Some). eexists. split; [done|]. cbn. congruence.
      * rewrite list_lookup_insert_ne by done. eauto.
    + intros j' r'. cbn. destruct (Nat.eq_dec j' j) as [->|Hne]; [|by rewrite list_lookup_insert_ne].
      rewrite list_lookup_insert by (by eapply lookup_lt_Some). intros [= <-]. cbn. done.
  - (* call *) injection E as <-. eexists _, y, y.
    assert (Hold : forall t x r, s_thr s !! t = Some x -> (s_runs s ++ [Run q cb true]) !! t_run x = Some r -> s_runs s !! t_run x = Some r).
    { intros t x r Hx Hr. destruct (g_thr _ G _ _ Hx) as [r' Hr']. rewrite (lookup_app_l_Some _ _ _ _ Hr') in Hr. congruence. }
    assert (Hthr : forall q' t, thr_of (CSt (s_views s) (s_colls s) (s_runs s ++ [Run q cb true]) (s_thr s)) q' t = thr_of s q' t).
    { intros q' t. unfold thr_of. cbn. destruct (s_thr s !! t) as [x|] eqn:Hx; cbn; [|done]. destruct (g_thr _ G _ _ Hx) as [r' Hr'].
      by rewrite (lookup_app_l_Some _ _ _ _ Hr'), Hr'. }
    split; auto.
    + eexists _, _. split; [eapply (S_call _ _ _ _ _ _ _ _ _ cb todo (length (s_runs s))); auto|].
      * unfold run_of. by rewrite (lookup_ge_None_2 (s_runs s)).
      * intros t x Ht. apply thr_of_Some in Ht as (Hx & r & Hr & _). apply lookup_lt_Some in Hr. lia.
      * split; [apply Hthr|]. intros j. unfold run_of, fup. cbn. destruct (Nat.eqb_spec j (length (s_runs s))) as [->|Hne].
        -- rewrite list_lookup_middle by done. cbn. by rewrite Nat.eqb_refl.
        -- destruct (decide (j < length (s_runs s))%nat); [by rewrite lookup_app_l|]. rewrite !lookup_ge_None_2; [done|lia|rewrite app_length; cbn; lia].
    + intros q' Hq'. split; [apply Hthr|]. intros j. unfold run_of. cbn. destruct (decide (j < length (s_runs s))%nat); [by rewrite lookup_app_l|].
      destruct (Nat.eq_dec j (length (s_runs s))) as [->|Hne].
      * rewrite list_lookup_middle by done. cbn. rewrite (lookup_ge_None_2 (s_runs s)) by lia. by rewrite (proj2 (Nat.eqb_neq q q')).
      * rewrite !lookup_ge_None_2; [done|lia|rewrite app_length; cbn; lia].
    + split; [done|]. split; [cbn; naive_solver|]. intros j r Hr. cbn. exists r. split; [|done]. by apply lookup_app_l_Some.
    + intros j r. cbn. intros Hr Hq'. destruct (decide (j < length (s_runs s))%nat); [by rewrite lookup_app_l in Hr|].
      rewrite lookup_app_r in Hr by lia. destruct (j - length (s_runs s)) as [|m]; cbn in Hr; [|done]. injection Hr as <-. done.
  - injection E as <-. eexists _, y, y. apply Simple. by apply S_unlock.
  - (* one, todo = [] *) destruct ((z0 :: pend) !! n) as [z|] eqn:Hz; cbn in E; [|done]. destruct (the_acc (k_store k) z) as [a|] eqn:Ha; cbn in E; [|done].
    injection E as <-. eexists _, y, (proc v w a y). pose proof (the_acc_view _ _ _ _ _ CI Ha) as Hav.
    assert (Hp : s_thr (process c a s) = s_thr s /\ s_runs (process c a s) = s_runs s /\ s_colls (process c a s) = s_colls s /\
      length (s_views (process c a s)) = length (s_views s)).
    { unfold process. destruct (s_views s !! ac_view a); [|done]. destruct (a_views c !! ac_view a); [|done]. cbn. by rewrite insert_length. }
    destruct Hp as (P1 & P2 & P3 & P4). split; auto.
    + cbn. by rewrite P3.
    + cbn. unfold process, proc. destruct (Nat.eqb_spec (ac_view a) v) as [->|Hne].
      * rewrite Hy, Hw. cbn. rewrite list_lookup_insert; [done|]. by eapply lookup_lt_Some.
      * destruct (s_views s !! ac_view a); [|done]. destruct (a_views c !! ac_view a); [|done]. cbn. by rewrite list_lookup_insert_ne.
    + intros Hv. unfold proc. destruct (Nat.eqb_spec (ac_view a) v) as [<-|Hne]; [congruence|done].
    + eexists _, _. split; [by eapply S_one|]. split; intros; cbn; [unfold thr_of|unfold run_of]; cbn; by rewrite ?P1, ?P2.
    + intros q' Hq'. split; intros; [unfold thr_of|unfold run_of]; cbn; by rewrite ?P1, ?P2.
    + by apply kept_same.
    + intros j r. cbn. by rewrite P2.
  - injection E as <-. eexists _, y, y. apply Simple. by apply S_coll0.
  - injection E as <-. eexists _, y, y. apply Simple. by apply S_unlock.
  - (* one *) destruct ((z0 :: pend) !! n) as [z|] eqn:Hz; cbn in E; [|done]. destruct (the_acc (k_store k) z) as [a|] eqn:Ha; cbn in E; [|done].
    injection E as <-. eexists _, y, (proc v w a y). pose proof (the_acc_view _ _ _ _ _ CI Ha) as Hav.
    assert (Hp : s_thr (process c a s) = s_thr s /\ s_runs (process c a s) = s_runs s /\ s_colls (process c a s) = s_colls s /\
      length (s_views (process c a s)) = length (s_views s)).
    { unfold process. destruct (s_views s !! ac_view a); [|done]. destruct (a_views c !! ac_view a); [|done]. cbn. by rewrite insert_length. }
    destruct Hp as (P1 & P2 & P3 & P4). split; auto.
    + cbn. by rewrite P3.
    + cbn. unfold process, proc. destruct (Nat.eqb_spec (ac_view a) v) as [->|Hne].
      * rewrite Hy, Hw. cbn. rewrite list_lookup_insert; [done|]. by eapply lookup_lt_Some.
      * destruct (s_views s !! ac_view a); [|done]. destruct (a_views c !! ac_view a); [|done]. cbn. by rewrite list_lookup_insert_ne.
    + intros Hv. unfold proc. destruct (Nat.eqb_spec (ac_view a) v) as [<-|Hne]; [congruence|done].
    + eexists _, _. split; [by eapply S_one|]. split; intros; cbn; [unfold thr_of|unfold run_of]; cbn; by rewrite ?P1, ?P2.
    + intros q' Hq'. split; intros; [unfold thr_of|unfold run_of]; cbn; by rewrite ?P1, ?P2.
    + by apply kept_same.
    + intros j r. cbn. by rewrite P2.
  - destruct (k_lock k) eqn:Hl; [|done|done]. injection E as <-. eexists _, y, y. apply Simple. by apply S_lock.
  - injection E as <-. eexists _, y, y. apply Simple. by apply S_end.
  - (* collect *) destruct (s_views s !! u) as [z|] eqn:Hz; cbn in E; [|done]. destruct (a_views c !! u) as [wu|] eqn:Hwu; cbn in E; [|done].
    destruct (collect_cells wu z) as [pts z'] eqn:Hc. injection E as <-. eexists _, y, (if Nat.eqb u v then (collect_cells w y).2 else y).
    assert (Huv : u = v -> z = y /\ wu = w). { intros ->. split; congruence. }
    split; auto.
    + cbn. destruct (Nat.eqb_spec u v) as [->|Hne]; [|by rewrite list_lookup_insert_ne]. destruct (Huv eq_refl) as [-> ->].
      rewrite list_lookup_insert by (by eapply lookup_lt_Some). by rewrite Hc.
    + cbn. apply insert_length.
    + intros Hv. destruct (Nat.eqb_spec u v) as [->|Hne]; [|done]. exfalso. apply Hv. eapply CO; [done..|]. left.
    + eexists _, _. split; [eapply (S_coll _ _ _ _ _ _ _ _ _ u todo pts); [done|]|done].
      intros Hu. destruct (Huv Hu) as [-> ->]. by rewrite Hc.
    + by apply kept_same.
Qed.

(** ** Every step *)
Definition begun s s' : Prop := exists p cbs, s' = CSt (s_views s) (s_colls s ++ [Coll p (KRun cbs None) Free [] []]) (s_runs s) (s_thr s).
Lemma exec_moved v w s a s' : ginv s -> colls_ok s -> a_views c !! v = Some w -> exec c vr decl s a = Some s' ->
  begun s s' \/ exists q k k' y y', moved v w s s' q k k' y y'.
Proof.
  intros G CO Hw E. destruct a as [p cbs|j x n l|q n|t]; cbn in E.
  - left. injection E as <-. by exists p, cbs.
  - right. destruct (s_runs s !! j) as [r|] eqn:Hr; [|done]. injection E as <-.
    destruct (g_run _ G _ _ Hr) as [k Hk].
    assert (Hy : is_Some (s_views s !! v)). { apply lookup_lt_is_Some. rewrite (g_views _ G). by eapply lookup_lt_Some. }
    destruct Hy as [y Hy]. exists (r_coll r), k, k, y, y. split; auto; cbn.
    + by apply insert_self.
    + eexists _, _. split; [eapply (S_new _ _ _ _ _ _ _ _ _ (length (s_thr s)) (Thr j x (obs_set c l) n TCheck) (r_live r)); cbn; [| |done]|split; [|done]].
      * unfold thr_of. by rewrite (lookup_ge_None_2 (s_thr s)).
      * apply run_of_Some. eauto.
      * intros t. unfold thr_of, fup. cbn. destruct (Nat.eqb_spec t (length (s_thr s))) as [->|Hne].
        -- rewrite list_lookup_middle by done. cbn. rewrite Hr. cbn. by rewrite Nat.eqb_refl.
        -- destruct (decide (t < length (s_thr s))%nat); [by rewrite lookup_app_l|]. rewrite !lookup_ge_None_2; [done|lia|rewrite app_length; cbn; lia].
    + intros q' Hq'. split; [|done]. intros t. unfold thr_of. cbn. destruct (decide (t < length (s_thr s))%nat); [by rewrite lookup_app_l|].
      destruct (Nat.eq_dec t (length (s_thr s))) as [->|Hne].
      * rewrite list_lookup_middle by done. cbn. rewrite (lookup_ge_None_2 (s_thr s)) by lia. rewrite Hr. cbn. by rewrite (proj2 (Nat.eqb_neq _ q')).
      * rewrite !lookup_ge_None_2; [done|lia|rewrite app_length; cbn; lia].
    + split; [cbn; rewrite app_length; lia|]. split; [|cbn; eauto]. intros t x' Hx'. exists x'. split; [|done]. cbn. by apply lookup_app_l_Some.
  - right. destruct (go_moved v w s q n s' G CO Hw E) as (k & k' & y & y' & M). by exists q, k, k', y, y'.
  - right. exact (step_moved v w s t s' G Hw E).
Qed.
End conc.
