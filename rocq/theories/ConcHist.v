(** Conc: all collections of the reader of a view. *)
From Coq Require Import ZArith Bool String Lia.
From stdpp Require Import base list option strings.
From Verif Require Import Lib Num Agg AggSpec Attr Async AsyncSpec AsyncProofs Conc ConcSpec ConcProofs ConcStep ConcInv ConcCells ConcSnap ConcIn ConcLoc.

Section conc.
Context {N : arith} (c : acfg) (vr : nat -> nat) (decl : list (list nat)).
Implicit Types (s : cst N) (k : coll N) (x : thr N) (y : vw N) (tr : list (label (N:=N))).
Context (v : nat) (w : aview) (sd : sound c) (Hw : a_views c !! v = Some w) (Hlim : (1 <= av_limit w)%nat).
Notation datas := (nat -> list (list kv * N)).

Definition rd s : list nat := map k_reader (s_colls s).
Definition prevq (R : list nat) (q : nat) : option nat := list.last (List.filter (fun q' => bool_decide (R !! q' = Some (vr v))) (seq 0 q)).
Definition prior_of (fd : datas) R q : list (list kv * N) := match prevq R q with Some q0 => fd q0 | None => [] end.
Definition clean (fd : datas) (R : list nat) q : Prop :=
  stateful w = true -> forall q0, (q0 < q)%nat -> R !! q0 = Some (vr v) -> overflow_set ∉ map fst (fd q0).
Definition upd {A} (f : nat -> A) n a : nat -> A := fun m => if Nat.eqb m n then a else f m.

Lemma upd_same {A} (f : nat -> A) n a : upd f n a n = a.
Proof. unfold upd. by rewrite Nat.eqb_refl. Qed.
Lemma upd_other {A} (f : nat -> A) n a m : m <> n -> upd f n a m = f m.
Proof. unfold upd. intros H. by rewrite (proj2 (Nat.eqb_neq _ _) H). Qed.

Lemma filter_none {A} (f : A -> bool) l : (forall z, z ∈ l -> f z = false) -> List.filter f l = [].
Proof. induction l as [|z l IH]; intros H; [done|]. cbn. rewrite (H z) by left. apply IH. intros z' Hz'. apply H. by right. Qed.
Lemma prevq_Some R q0 q : R !! q0 = Some (vr v) -> (q0 < q)%nat -> (forall q1, R !! q1 = Some (vr v) -> (q0 < q1)%nat -> (q1 < q)%nat -> False) ->
  prevq R q = Some q0.
Proof.
  clear c decl w sd Hw Hlim.
  intros H1 H2 H3. unfold prevq. replace q with (q0 + S (q - S q0))%nat by lia. rewrite seq_app, List.filter_app. cbn.
  rewrite bool_decide_eq_true_2 by done. rewrite (filter_none _ (seq (S q0) _)); [by rewrite last_snoc|].
  intros z Hz%elem_of_list_In%in_seq. apply bool_decide_eq_false_2. intros E. apply (H3 z E); lia.
Qed.
Lemma prevq_None R q : (forall q1, R !! q1 = Some (vr v) -> (q1 < q)%nat -> False) -> prevq R q = None.
Proof.
  clear c decl w sd Hw Hlim.
  intros H. unfold prevq. rewrite filter_none; [done|]. intros z Hz%elem_of_list_In%in_seq. apply bool_decide_eq_false_2. intros E. apply (H z E); lia.
Qed.
Lemma prevq_lt R q q0 : prevq R q = Some q0 -> (q0 < q)%nat /\ R !! q0 = Some (vr v).
Proof.
  clear c decl w sd Hw Hlim.
  unfold prevq. intros H. apply last_Some in H as [l' H]. assert (Hin : List.In q0 (List.filter (fun q' => bool_decide (R !! q' = Some (vr v))) (seq 0 q))).
  { rewrite H. apply in_app_iff. right. by left. }
  apply filter_In in Hin as [Hin%in_seq Hb%bool_decide_eq_true]. split; [lia|done].
Qed.
Lemma prevq_app R p' q : (q <= length R)%nat -> prevq (R ++ [p']) q = prevq R q.
Proof.
  clear c decl w sd Hw Hlim.
  intros H. unfold prevq. f_equal. apply filter_map_perm. intros z Hz%elem_of_list_In%in_seq. by rewrite lookup_app_l by lia.
Qed.
Lemma prior_ext fd fd' R R' q : prevq R' q = prevq R q -> (forall n, (n < q)%nat -> fd' n = fd n) -> prior_of fd' R' q = prior_of fd R q.
Proof. intros H1 H2. unfold prior_of. rewrite H1. destruct (prevq R q) as [q0|] eqn:E; [|done]. apply H2. by apply prevq_lt in E as [? _]. Qed.
Lemma clean_ext fd fd' R R' q : (forall n, (n < q)%nat -> R' !! n = Some (vr v) -> R !! n = Some (vr v)) -> (forall n, (n < q)%nat -> fd' n = fd n) -> clean fd R q -> clean fd' R' q.
Proof. intros H1 H2 H Hs q0 Hq0 HR. rewrite (H2 _ Hq0). apply H; auto. Qed.

Record hist tr s (fl : nat -> list nat) (fd : datas) y : Prop := {
  h_view : s_views s !! v = Some y;
  h_loc : forall q k, s_colls s !! q = Some k -> k_reader k = vr v -> loc c vr v w (clean fd (rd s) q) (prior_of fd (rd s) q) k (thr_of s q) y (fl q) (fd q);
  h_ord : forall q k, s_colls s !! q = Some k -> k_reader k = vr v -> ord c vr decl tr (fl q);
  h_last : forall q k, s_colls s !! q = Some k -> k_reader k = vr v -> k_phase k <> KDone ->
    forall q' k', s_colls s !! q' = Some k' -> k_reader k' = vr v -> (q' <= q)%nat;
  h_free : (forall q k, s_colls s !! q = Some k -> k_reader k = vr v -> finished v k) -> clean fd (rd s) (length (s_colls s)) ->
    cok y /\ (stateful w = true -> values y (w_prior y) = prior_of fd (rd s) (length (s_colls s))) /\ w_data y = []
}.

Lemma rd_lookup s q p : rd s !! q = Some p <-> exists k, s_colls s !! q = Some k /\ k_reader k = p.
Proof. clear. unfold rd. change (map k_reader) with (fmap (M:=list) (k_reader (N:=N))). rewrite list_lookup_fmap, fmap_Some. naive_solver. Qed.
Lemma rd_length s : length (rd s) = length (s_colls s).
Proof. apply map_length. Qed.
Lemma done_finished k : k_phase k = KDone -> finished v k.
Proof. unfold finished. by intros ->. Qed.
Lemma lin_lt s q k L t : lin c vr v k (thr_of s q) L -> t ∈ L -> (t < length (s_thr s))%nat.
Proof. intros H Ht. apply (l_in _ _ _ _ _ _ H) in Ht as (x & (Hx & _)%thr_of_Some & _). by eapply lookup_lt_Some. Qed.

Lemma hist_step tr a s s' fl fd y : ginv c vr s -> colls_ok vr s -> reached c vr decl tr s -> reached c vr decl (tr ++ [a]) s' -> exec c vr decl s a = Some s' ->
  one_at_a_time (vr v) s -> one_at_a_time (vr v) s' -> waited (vr v) s -> hist tr s fl fd y -> exists fl' fd' y', hist (tr ++ [a]) s' fl' fd' y'.
Proof.
  intros G CO Hrs Hrs' E O1 O1' W [H1 H2 H3 H4 H5].
  destruct (exec_moved c vr decl v w s a s' G CO Hw E) as [(p & cbs & Es')|(q & k & k' & y0 & y' & M)].
  - (* a collection begins *)
    set (n := length (s_colls s)).
    assert (Hold : forall q k, s_colls s' !! q = Some k -> q = n /\ k = Coll p (KRun cbs None) Free [] [] \/ s_colls s !! q = Some k).
    { intros q k. subst s'. cbn. intros [Hk|[Hlen Hk]]%lookup_app_Some; [by right|]. destruct (q - length (s_colls s)) as [|m] eqn:Em; cbn in Hk; [|done]. injection Hk as <-. left. split; [unfold n; lia|done]. }
    assert (HR : rd s' = rd s ++ [p]). { subst s'. unfold rd. cbn. by rewrite map_app. }
    assert (Hcl : forall q, (q <= n)%nat -> clean fd (rd s') q -> clean fd (rd s) q).
    { intros q Hq. apply clean_ext; [|done]. intros m Hm Hl. rewrite HR. rewrite lookup_app_l; [done|]. rewrite rd_length. unfold n in Hq. lia. }
    assert (Hpr : forall q, (q <= n)%nat -> prior_of fd (rd s') q = prior_of fd (rd s) q).
    { intros q Hq. apply prior_ext; [|done]. rewrite HR. apply prevq_app. by rewrite rd_length. }
    assert (Hlen : length (s_colls s') = S n). { subst s'. cbn. rewrite app_length. cbn. unfold n. lia. }
    assert (Hthr : s_thr s' = s_thr s) by (by subst s').
    assert (Hth : forall q t, thr_of s' q t = thr_of s q t) by (by subst s').
    assert (Hlt : forall q k, s_colls s !! q = Some k -> (q < n)%nat). { intros q k Hk. by apply lookup_lt_Some in Hk. }
    assert (Hlow : forall q k, s_colls s !! q = Some k -> s_colls s' !! q = Some k). { intros q k Hk. subst s'. cbn. by apply lookup_app_l_Some. }
    assert (Hord : forall q k, s_colls s !! q = Some k -> k_reader k = vr v -> ord c vr decl (tr ++ [a]) (fl q)).
    { intros q k Hk Hr. eapply ord_longer; [by eapply H3|exact Hrs'|]. rewrite Hthr. intros t. eapply lin_lt. by eapply o_lin, H2. }
    assert (Hloc : forall q k, s_colls s !! q = Some k -> k_reader k = vr v -> loc c vr v w (clean fd (rd s') q) (prior_of fd (rd s') q) k (thr_of s' q) y (fl q) (fd q)).
    { intros q k Hk Hr. pose proof (Hlt _ _ Hk). rewrite Hpr by lia. eapply loc_ext; [by apply Hth|]. eapply loc_cl; [apply Hcl; lia|]. by apply H2. }
    destruct (Nat.eq_dec p (vr v)) as [->|Hp].
    + (* of this reader *)
      assert (Hnew : s_colls s' !! n = Some (Coll (vr v) (KRun cbs None) Free [] [])).
      { subst s'. cbn. unfold n. rewrite lookup_app_r by lia. by rewrite Nat.sub_diag. }
      assert (Hdone : forall q k, s_colls s !! q = Some k -> k_reader k = vr v -> k_phase k = KDone).
      { intros q k Hk Hr. destruct (k_phase k) eqn:Ep; [exfalso..|done].
        all: assert (q = n) by (apply (O1' q n k _ (Hlow _ _ Hk) Hnew Hr eq_refl); [by rewrite Ep|done]); pose proof (Hlt _ _ Hk); lia. }
      assert (Hno : forall t, thr_of s' n t = None).
      { intros t. destruct (thr_of s' n t) as [x|] eqn:Ex; [|done]. exfalso. rewrite Hth in Ex. apply thr_of_Some in Ex as (Hx & r & Hr & Hq).
        destruct (g_run _ _ _ G _ _ Hr) as [k Hk]. apply Hlt in Hk. lia. }
      exists (upd fl n []), fd, y. split.
      * by subst s'.
      * intros q k Hk Hr. destruct (Hold _ _ Hk) as [[-> ->]|Hk']; [|rewrite upd_other; [by apply Hloc|pose proof (Hlt _ _ Hk'); lia]].
        rewrite upd_same. split.
        -- split; [apply NoDup_nil_2| |by intros en ? ? ?%elem_of_nil]. intros t. rewrite elem_of_nil. split; [done|]. intros (x & Hx & _). rewrite Hno in Hx. done.
        -- intros [].
        -- intros _ Hc. apply Hcl in Hc; [|lia]. rewrite Hpr by lia.
           destruct H5 as (K1 & K2 & K3); [intros q0 k0 Hk0 Hr0; apply done_finished; by eapply Hdone|done|]. split; [done|]. split; [done|]. split; [done|].
           unfold busy. cbn [k_phase]. split; [|intros h; rewrite K3; by intros ?%elem_of_nil]. unfold trip, part. cbn [k_lock k_store stri map concat app].
           exists []. rewrite K3. split; [done|]. by apply Forall2_nil.
        -- done.
      * intros q k Hk Hr. destruct (Hold _ _ Hk) as [[-> ->]|Hk']; [rewrite upd_same; intros i j b d _ Hi; by rewrite lookup_nil in Hi|].
        rewrite upd_other; [by eapply Hord|pose proof (Hlt _ _ Hk'); lia].
      * intros q k Hk Hr Hnd q' k' Hk' Hr'. destruct (Hold _ _ Hk) as [[-> ->]|Hk0].
        -- destruct (Hold _ _ Hk') as [[-> ->]|Hk0']; [done|]. pose proof (Hlt _ _ Hk0'). lia.
        -- by rewrite (Hdone _ _ Hk0 Hr) in Hnd.
      * intros Hall. exfalso. exact (Hall n _ Hnew eq_refl).
    + (* of another one *)
      exists fl, fd, y. split.
      * by subst s'.
      * intros q k Hk Hr. destruct (Hold _ _ Hk) as [[-> ->]|Hk']; [done|]. by apply Hloc.
      * intros q k Hk Hr. destruct (Hold _ _ Hk) as [[-> ->]|Hk']; [done|]. by eapply Hord.
      * intros q k Hk Hr Hnd q' k' Hk' Hr'. destruct (Hold _ _ Hk) as [[-> ->]|Hk0]; [done|]. destruct (Hold _ _ Hk') as [[-> ->]|Hk0']; [done|]. by eapply (H4 q k).
      * intros Hall Hc. rewrite Hlen in *. assert (Hpn : prior_of fd (rd s') (S n) = prior_of fd (rd s) n).
        { unfold prior_of. enough (prevq (rd s') (S n) = prevq (rd s) n) as -> by done. rewrite <- (prevq_app (rd s) p n) by (by rewrite rd_length). rewrite HR. unfold prevq. f_equal.
          rewrite seq_S, List.filter_app. cbn. rewrite bool_decide_eq_false_2; [by rewrite app_nil_r|]. unfold n. rewrite <- (rd_length s), lookup_app_r, Nat.sub_diag by lia. cbn. congruence. }
        rewrite Hpn. apply H5.
        -- intros q k Hk. apply (Hall q k). by apply Hlow.
        -- intros Hs q0 Hq0 Hl. apply Hc; [done|lia|]. rewrite HR. by apply lookup_app_l_Some.
  - (* a step *)
    pose proof M as [M1 M2 M3 M4 M5 M6 (th & ru & L & Mt & Mr) M8 M9 M10].
    assert (y0 = y) as -> by congruence.
    pose proof (lstep_reader _ _ _ _ _ _ _ _ _ _ _ _ _ L) as Hrk.
    assert (HR : rd s' = rd s).
    { unfold rd. rewrite M2. change (map k_reader) with (fmap (M:=list) (k_reader (N:=N))). rewrite list_fmap_insert, Hrk. apply list_insert_id. rewrite list_lookup_fmap, M1. done. }
    assert (Hlen : length (s_colls s') = length (s_colls s)). { rewrite M2. apply insert_length. }
    assert (Hq : s_colls s' !! q = Some k'). { rewrite M2. apply list_lookup_insert. by eapply lookup_lt_Some. }
    assert (Hoth : forall q0 k0, q0 <> q -> s_colls s' !! q0 = Some k0 <-> s_colls s !! q0 = Some k0). { intros q0 k0 Hne. rewrite M2, list_lookup_insert_ne; done. }
    assert (Hlong : forall L0, ord c vr decl tr L0 -> (forall t, t ∈ L0 -> (t < length (s_thr s))%nat) -> ord c vr decl (tr ++ [a]) L0).
    { intros L0 HL0 Hin. eapply ord_longer; [done|exact Hrs'|]. intros t Ht. specialize (Hin t Ht). destruct M9 as [Hl _]. lia. }
    destruct (Nat.eq_dec (k_reader k) (vr v)) as [Hr|Hr].
    + pose proof (g_coll _ _ _ G _ _ M1) as CI.
      destruct (loc_step c vr decl v w sd Hw Hlim (clean fd (rd s) q) (prior_of fd (rd s) q) k (thr_of s q) (run_of s q) y k' th ru y' (fl q) (fd q) CI L Hr) as (L' & d' & Lo & HL' & Hfin & Hun).
      { intros Hph. by apply (idle_of c vr v s q k G W M1 Hr). }
      { by apply H2. }
      set (fd' := upd fd q d'). set (fl' := upd fl q L').
      (* the others *)
      assert (Hfd : forall q0 k0, s_colls s !! q0 = Some k0 -> k_reader k0 = vr v -> forall m, (m < q0)%nat -> fd' m = fd m).
      { intros q0 k0 Hk0 Hr0 m Hm. unfold fd'. destruct (Nat.eq_dec m q) as [->|Hne]; [|by rewrite upd_other]. rewrite upd_same.
        destruct (decide (finished v k)) as [Hf|Hf]; [by apply Hfin|]. exfalso.
        assert (k_phase k <> KDone) as Hnd. { intros Ed. apply Hf. by apply done_finished. }
        pose proof (H4 q k M1 Hr Hnd q0 k0 Hk0 Hr0). lia. }
      assert (Hcl : forall q0 k0, s_colls s !! q0 = Some k0 -> k_reader k0 = vr v -> clean fd' (rd s') q0 -> clean fd (rd s) q0).
      { intros q0 k0 Hk0 Hr0. apply clean_ext; [by rewrite HR|]. intros m Hm. symmetry. by eapply Hfd. }
      assert (Hpr : forall q0 k0, s_colls s !! q0 = Some k0 -> k_reader k0 = vr v -> prior_of fd' (rd s') q0 = prior_of fd (rd s) q0).
      { intros q0 k0 Hk0 Hr0. apply prior_ext; [by rewrite HR|]. intros m Hm. by eapply Hfd. }
      exists fl', fd', y'. split.
      * done.
      * intros q0 k0 Hk0 Hr0. destruct (Nat.eq_dec q0 q) as [->|Hne].
        -- assert (k0 = k') as -> by congruence. unfold fl', fd' at 3. rewrite !upd_same. rewrite (Hpr q k M1 Hr). eapply loc_ext; [exact Mt|]. eapply loc_cl; [by eapply Hcl|]. done.
        -- apply Hoth in Hk0; [|done]. unfold fl', fd' at 3. rewrite !upd_other by done. rewrite (Hpr q0 k0 Hk0 Hr0). destruct (M8 q0 Hne) as [Ht0 _].
           eapply loc_ext; [exact Ht0|]. eapply loc_cl; [by eapply Hcl|]. specialize (H2 q0 k0 Hk0 Hr0).
           destruct (decide (finished v k0)) as [Hf0|Hf0]; [by eapply loc_fin|].
           destruct (decide (finished v k)) as [Hf|Hf]; [by destruct (Hfin Hf) as (-> & _)|]. exfalso. apply Hne. apply (O1 q0 q k0 k); auto.
           ++ intros Ed. apply Hf0. by apply done_finished.
           ++ intros Ed. apply Hf. by apply done_finished.
      * intros q0 k0 Hk0 Hr0. unfold fl'. destruct (Nat.eq_dec q0 q) as [->|Hne].
        -- rewrite upd_same. assert (Ho : ord c vr decl (tr ++ [a]) (fl q)). { apply Hlong; [by eapply H3|]. intros t. eapply lin_lt. by eapply o_lin, H2. }
           destruct HL' as [->|(t & x & -> & Hx & Hpc)]; [done|]. apply thr_of_Some in Hx as [Hx _].
           assert (Ho' : ord c vr decl tr (fl q ++ [t])). { apply ord_snoc; [by eapply H3|]. intros b Hb. by eapply not_ended. }
           apply Hlong; [done|]. intros t' [Ht'| ->%elem_of_list_singleton]%elem_of_app; [|by eapply lookup_lt_Some]. eapply lin_lt; [|done]. by eapply o_lin, H2.
        -- rewrite upd_other by done. apply Hoth in Hk0; [|done]. apply Hlong; [by eapply H3|]. intros t. eapply lin_lt. by eapply o_lin, H2.
      * intros q0 k0 Hk0 Hr0 Hnd q1 k1 Hk1 Hr1.
        assert (Hback : forall q2 k2, s_colls s' !! q2 = Some k2 -> k_reader k2 = vr v -> exists k3, s_colls s !! q2 = Some k3 /\ k_reader k3 = vr v /\ (k_phase k2 <> KDone -> k_phase k3 <> KDone)).
        { intros q2 k2 Hk2 Hr2. destruct (Nat.eq_dec q2 q) as [->|Hne]; [|apply Hoth in Hk2; [by exists k2|done]].
          exists k. split; [done|]. split; [done|]. assert (k2 = k') as -> by congruence. intros Hn Ed. apply Hn. by eapply done_stays. }
        destruct (Hback _ _ Hk0 Hr0) as (k2 & Hk2 & Hr2 & Hn2). destruct (Hback _ _ Hk1 Hr1) as (k3 & Hk3 & Hr3 & _). eapply (H4 q0 k2); eauto.
      * intros Hall Hc. rewrite Hlen in *. rewrite HR in *.
        assert (Hfk' : finished v k') by (apply (Hall q k' Hq); by rewrite Hrk).
        destruct (decide (finished v k)) as [Hf|Hf].
        -- destruct (Hfin Hf) as (-> & -> & _).
           assert (Heq : forall m, fd' m = fd m). { intros m. unfold fd', upd. destruct (Nat.eqb_spec m q) as [->|]; done. }
           rewrite (prior_ext fd fd' (rd s) (rd s)) by auto. apply H5.
           ++ intros q0 k0 Hk0 Hr0. destruct (Nat.eq_dec q0 q) as [->|Hne]; [by assert (k0 = k) as -> by congruence|]. apply (Hall q0 k0); [by apply Hoth|done].
           ++ eapply clean_ext; [| |exact Hc]; auto.
        -- assert (Hnd : k_phase k <> KDone). { intros Ed. apply Hf. by apply done_finished. }
           assert (Hgr : forall q1, rd s !! q1 = Some (vr v) -> (q1 <= q)%nat). { intros q1 (k1 & Hk1 & Hr1)%rd_lookup. by eapply (H4 q k). }
           assert (Hql : (q < length (s_colls s))%nat) by (by eapply lookup_lt_Some).
           assert (HRq : rd s !! q = Some (vr v)). { apply rd_lookup. by exists k. }
           assert (Hcq : clean fd (rd s) q).
           { intros Hs q0 Hq0 Hl. pose proof (Hc Hs q0 ltac:(lia) Hl) as Hx. unfold fd' in Hx. by rewrite upd_other in Hx by lia. }
           destruct (Hun Hf Hfk' Hcq) as [U1 U2].
           assert (Hp : prior_of fd' (rd s) (length (s_colls s)) = d').
           { unfold prior_of. rewrite (prevq_Some (rd s) q); [unfold fd'; apply upd_same|done|done|]. intros q1 Hq1 ? ?. specialize (Hgr _ Hq1). lia. }
           destruct U2 as [U2 U3]. { intros Hs. pose proof (Hc Hs q Hql HRq) as Hx. unfold fd' in Hx. by rewrite upd_same in Hx. }
           split; [done|]. split; [|done]. intros Hs. rewrite Hp. by apply U1.
    + (* another reader *)
      assert (y' = y) as -> by (apply M6; congruence).
      assert (Hback : forall q0 k0, s_colls s' !! q0 = Some k0 -> k_reader k0 = vr v -> q0 <> q /\ s_colls s !! q0 = Some k0).
      { intros q0 k0 Hk0 Hr0. destruct (Nat.eq_dec q0 q) as [->|Hne]; [|split; [done|by apply Hoth]]. exfalso. assert (k0 = k') as -> by congruence. congruence. }
      exists fl, fd, y. split.
      * done.
      * intros q0 k0 Hk0 Hr0. destruct (Hback _ _ Hk0 Hr0) as [Hne Hk]. rewrite HR. eapply loc_ext; [apply (M8 q0 Hne)|]. by apply H2.
      * intros q0 k0 Hk0 Hr0. destruct (Hback _ _ Hk0 Hr0) as [Hne Hk]. apply Hlong; [by eapply H3|]. intros t. eapply lin_lt. by eapply o_lin, H2.
      * intros q0 k0 Hk0 Hr0 Hnd q1 k1 Hk1 Hr1. destruct (Hback _ _ Hk0 Hr0) as [Hne Hk]. destruct (Hback _ _ Hk1 Hr1) as [Hne' Hk']. by eapply (H4 q0 k0).
      * intros Hall Hc. rewrite Hlen in *. rewrite HR in *. apply H5; [|done]. intros q0 k0 Hk0 Hr0. apply (Hall q0 k0); [|done]. apply Hoth; [|done]. intros ->. congruence.
Qed.

Lemma hist_run tr s : orderly c vr decl (vr v) tr -> reached c vr decl tr s -> exists fl fd y, hist tr s fl fd y.
Proof.
  revert s. induction tr as [|a tr IH] using rev_ind; intros s Ho Hs.
  - unfold reached in Hs. cbn in Hs. injection Hs as <-. exists (fun _ => []), (fun _ => []), (Vw [] [] []). split; cbn; [|done..|].
    + change (map ?f ?l) with (fmap (M:=list) f l). by rewrite list_lookup_fmap, Hw.
    + intros _ _. split; [|done]. split; [apply NoDup_nil_2|by intros ? ?%elem_of_nil].
  - pose proof Hs as (s0 & Hs0 & E)%reached_snoc.
    assert (Ho0 : orderly c vr decl (vr v) tr). { intros tr1 tr2 s1 -> H1. apply (Ho tr1 (tr2 ++ [a]) s1); [by rewrite app_assoc|done]. }
    destruct (IH s0 Ho0 Hs0) as (fl & fd & y & H). destruct (ginv_run c vr decl v w tr s0 Hw Hs0) as [G CO].
    destruct (Ho0 tr [] s0) as [O1 W]; [by rewrite app_nil_r|done|]. destruct (Ho (tr ++ [a]) [] s) as [O1' _]; [by rewrite app_nil_r|done|].
    by eapply hist_step.
Qed.
End conc.
