(** The bodies of the aggregators take effect at one point; sequence numbers; balances; bounds on steps. *)
From Coq Require Import ZArith Bool Lia.
From stdpp Require Import base list option sets.
From Verif Require Import Num Agg Atom AtomSpec AtomProofs.
Local Open Scope Z_scope.

(** ** Bodies *)
Lemma sum_int_ok (N : arith) c q : pend (sum_methods N) false c q (sum_body N (add_int N) c).
Proof. destruct c; cbn; (split; [done|]); intros s; left; eauto. Qed.
Lemma sum_float_ok (N : arith) `{EqDecision N} c q : pend (sum_methods N) false c q (sum_body N (add_float N) c).
Proof.
  destruct c; cbn; (split; [done|]); intros s; try (left; by eauto); right; (split; [done|]); (split; [done|]); intros s';
  destruct (bool_decide_reflect (s' = s)) as [->|]; cbn; eauto.
Qed.
Lemma gauge_ok (N : arith) c q : pend (gauge_methods N) true c q (gauge_body N c).
Proof.
  destruct c as [n| | |[v p]]; cbn.
  - intros z. split; [done|]. by intros [].
  - split; [done|]. by intros [].
  - split; [done|]. by intros [].
  - split; [done|]. intros [w r]. cbn. destruct (p =? 0); cbn; [done|]. by destruct (r <? p).
Qed.
Lemma mmsc_ok (N : arith) c q : pend (mmsc_methods N) true c q (mmsc_body N c).
Proof.
  destruct c as [n| | |[a' b' s' n']]; (split; [done|]); intros [a b s k]; cbn; unfold mmsc_update, mmsc_merge; cbn; try done.
  - destruct (k =? 0); cbn; [done|]. destruct (ltb n a); cbn; destruct (ltb b n); done.
  - destruct (n' =? 0); cbn; [done|]. destruct (k =? 0); cbn; [done|]. destruct (ltb a' a); cbn; destruct (ltb b b'); done.
Qed.
Lemma lib_ok {N} (m : methods N) c q : (forall q q' n s, m_update m q n s = m_update m q' n s) -> pend m true c q (lib_body m c).
Proof. intros U. destruct c; (split; [done|]); intros s; cbn; try done. by rewrite (U q 0). Qed.

(** ** Sequence numbers of gauges *)
Section ticket.
Context (N : arith).
Notation m := (gauge_methods N).
Notation st := (astate (N:=N) (S:=gauge N)).
Fixpoint noticket (p : prog (gauge N) (result (gauge N))) : Prop :=
  match p with
  | Lock k | Unlock k | Write _ k => noticket k
  | Read get k => forall v, noticket (k v)
  | Ret _ => True
  | _ => False
  end.
Lemma gauge_noticket c : (exists n, c = CUpdate n /\ exists k, gauge_body N c = Ticket k /\ forall z, noticket (k z)) \/ ((forall n, c <> CUpdate n) /\ noticket (gauge_body N c)).
Proof.
  destruct c as [n| | |[v p]]; [left; exists n; split; [done|]; eexists; split; [reflexivity|done]|right; by cbn..|right].
  split; [done|]. cbn. destruct (p =? 0); cbn; [done|]. intros r. by destruct (r <? p).
Qed.
Record tinv (k : nat) (s : st) : Prop := {
  tv_seq : 1 <= as_seq s <= 1 + Z.of_nat k;
  tv_range : forall t x, as_thr s !! t = Some x -> at_seq x = 0 \/ 2 <= at_seq x <= as_seq s;
  tv_once : forall t u x y, as_thr s !! t = Some x -> as_thr s !! u = Some y -> at_seq x = at_seq y -> at_seq x <> 0 -> t = u;
  tv_cur : forall t x, as_thr s !! t = Some x -> (at_cur x = gauge_body N (at_call x) /\ at_seq x = 0) \/ (noticket (at_cur x) /\ forall n, at_call x = CUpdate n -> at_seq x <> 0);
  tv_end : forall t r, AEnd t r ∈ as_log s -> exists x, as_thr s !! t = Some x /\ at_cur x = Ret r;
  tv_begin : forall t, ABegin t ∈ as_log s -> (t < length (as_thr s))%nat;
  tv_order : forall t u x y, as_thr s !! t = Some x -> as_thr s !! u = Some y -> ended_before (as_log s) t u -> at_seq x <> 0 -> at_seq y <> 0 -> at_seq x < at_seq y
}.
Lemma tinv_init : tinv 0 (a_init (m_new (m:=m))).
Proof. constructor; cbn; try done; intros; set_solver. Qed.
Lemma tinv_go k (s s' : st) t x p :
  tinv k s -> as_thr s !! t = Some x -> as_seq s' = as_seq s -> as_log s' = as_log s -> as_thr s' = <[t := AThread (at_obj x) (at_call x) p (at_seq x)]> (as_thr s) ->
  (forall r, at_cur x <> Ret r) -> noticket p /\ (forall n, at_call x = CUpdate n -> at_seq x <> 0) -> tinv (Datatypes.S k) s'.
Proof.
  intros [A B C D E F G] Hx Es El Et NR Np. pose proof (lookup_lt_Some _ _ _ Hx) as Lt.
  assert (Lk : forall u y, as_thr s' !! u = Some y -> exists y0, as_thr s !! u = Some y0 /\ at_seq y = at_seq y0 /\ (u = t /\ y = AThread (at_obj x) (at_call x) p (at_seq x) \/ u <> t /\ y = y0)).
  { intros u y Hy. rewrite Et in Hy. destruct (decide (u = t)) as [->|Ne].
    - rewrite list_lookup_insert in Hy by done. injection Hy as <-. eauto 8.
    - rewrite list_lookup_insert_ne in Hy by done. eauto 8. }
  constructor; rewrite ?Es, ?El.
  - lia.
  - intros u y Hy. destruct (Lk u y Hy) as (y0 & H & -> & _). eauto.
  - intros u w y z Hy Hz. destruct (Lk u y Hy) as (y0 & H & -> & _). destruct (Lk w z Hz) as (z0 & H' & -> & _). eauto.
  - intros u y Hy. destruct (Lk u y Hy) as (y0 & H & _ & [[-> ->]|[_ ->]]); [by right|by eauto].
  - intros u r Hr. destruct (E u r Hr) as (y & Hy & Cy). exists y. split; [|done]. rewrite Et, list_lookup_insert_ne; [done|]. intros <-. rewrite Hx in Hy. injection Hy as <-. by apply (NR r).
  - intros u Hu. rewrite Et, insert_length. auto.
  - intros u w y z Hy Hz. destruct (Lk u y Hy) as (y0 & H & -> & _). destruct (Lk w z Hz) as (z0 & H' & -> & _). eauto.
Qed.
Lemma tinv_step k s l s' : Z.of_nat k < 2 ^ 64 - 2 -> tinv k s -> astep (gauge_body N) s l = Some s' -> tinv (Datatypes.S k) s'.
Proof.
  intros Small I St. destruct l as [o c|t]; cbn in St.
  { injection St as <-. pose proof I as I0. destruct I as [A B C D E F G].
    assert (Lk : forall u y, (as_thr s ++ [AThread o c (gauge_body N c) 0]) !! u = Some y -> as_thr s !! u = Some y \/ y = AThread o c (gauge_body N c) 0).
    { intros u y Hy. apply lookup_app_Some in Hy as [Hy|[_ Hy]]; [by left|right]. by apply list_lookup_singleton_Some in Hy as [_ <-]. }
    constructor; cbn.
    - lia.
    - intros u y Hy. destruct (Lk u y Hy) as [H| ->]; [eauto|by left].
    - intros u w y z Hy Hz. destruct (Lk u y Hy) as [H| ->]; destruct (Lk w z Hz) as [H'| ->]; cbn; eauto; congruence.
    - intros u y Hy. destruct (Lk u y Hy) as [H| ->]; [eauto|by left].
    - intros u r Hr. apply elem_of_app in Hr as [Hr|Hr]; [|by apply elem_of_list_singleton in Hr].
      destruct (E u r Hr) as (y & Hy & Cy). exists y. split; [by apply lookup_app_l_Some|done].
    - intros u Hu. rewrite app_length. cbn. apply elem_of_app in Hu as [Hu|Hu]; [apply F in Hu; lia|]. apply elem_of_list_singleton in Hu. injection Hu as ->. lia.
    - intros u w y z Hy Hz. destruct (Lk u y Hy) as [H| ->]; destruct (Lk w z Hz) as [H'| ->]; cbn; try done.
      intros Be. apply (ended_before_snoc_begin m) in Be; [by eauto|]. intros ->. apply lookup_lt_Some in H'. lia. }
  destruct (as_thr s !! t) as [x|] eqn:Hx; [cbn in St|done].
  pose proof (lookup_lt_Some _ _ _ Hx) as Lt.
  assert (Ns : forall r, at_cur x = Ret r -> tinv (Datatypes.S k) (AState (as_val s) (as_lock s) (as_seq s) (as_thr s) (as_log s ++ [AEnd t r]))).
  { intros r Cu. destruct I as [A B C D E F G]. constructor; cbn; auto.
    - lia.
    - intros u r' Hr. apply elem_of_app in Hr as [Hr|Hr]; [by apply E|]. apply elem_of_list_singleton in Hr. injection Hr as -> ->. eauto.
    - intros u Hu. apply elem_of_app in Hu as [Hu|Hu]; [by apply F|]. by apply elem_of_list_singleton in Hu.
    - intros u w y z Hy Hz Be. apply (ended_before_snoc_end m) in Be. by apply (G u w). }
  destruct (tv_cur _ _ I t x Hx) as [[Cu Se]|Nt].
  - (* at the start of the body *)
    destruct (gauge_noticket (at_call x)) as [(n & Ec & q & Eb & Nq)|[Nu Nb]].
    + (* the sequence number is given *)
      rewrite Cu, Eb in St. injection St as <-. destruct I as [A B C D E F G].
      assert (Z1 : uwrap (as_seq s + 1) = as_seq s + 1) by (unfold uwrap; apply Z.mod_small; lia). rewrite Z1.
      assert (Lk : forall u y, <[t := AThread (at_obj x) (at_call x) (q (as_seq s + 1)) (as_seq s + 1)]> (as_thr s) !! u = Some y ->
                   (u = t /\ y = AThread (at_obj x) (at_call x) (q (as_seq s + 1)) (as_seq s + 1)) \/ (u <> t /\ as_thr s !! u = Some y)).
      { intros u y Hy. destruct (decide (u = t)) as [->|Ne].
        - rewrite list_lookup_insert in Hy by done. injection Hy as <-. eauto.
        - rewrite list_lookup_insert_ne in Hy by done. eauto. }
      constructor; cbn.
      * lia.
      * intros u y Hy. destruct (Lk u y Hy) as [[-> ->]|[_ H]]; [right; cbn; lia|]. destruct (B u y H) as [|]; [by left|right; lia].
      * intros u w y z Hy Hz. destruct (Lk u y Hy) as [[-> ->]|[_ H]]; destruct (Lk w z Hz) as [[-> ->]|[_ H']]; cbn; eauto.
        -- destruct (B w z H'); lia.
        -- destruct (B u y H); lia.
      * intros u y Hy. destruct (Lk u y Hy) as [[-> ->]|[_ H]]; [right; cbn; split; [done|intros; lia]|eauto].
      * intros u r Hr. destruct (E u r Hr) as (y & Hy & Cy). exists y. split; [|done]. rewrite list_lookup_insert_ne; [done|]. intros <-.
        rewrite Hx in Hy. injection Hy as <-. rewrite Cu, Eb in Cy. done.
      * intros u Hu. rewrite insert_length. auto.
      * intros u w y z Hy Hz Be. destruct (Lk u y Hy) as [[-> ->]|[_ H]]; destruct (Lk w z Hz) as [[-> ->]|[_ H']]; cbn; eauto.
        -- intros _ _. exfalso. apply (ended_before_end m) in Be as [r Hr]. destruct (E t r Hr) as (y & Hy' & Cy). rewrite Hx in Hy'. injection Hy' as <-. rewrite Cu, Eb in Cy. done.
        -- intros _ _. exfalso. apply (ended_before_end m) in Be as [r Hr]. destruct (E t r Hr) as (y & Hy' & Cy). rewrite Hx in Hy'. injection Hy' as <-. rewrite Cu, Eb in Cy. done.
        -- intros H0 _. destruct (B u y H); lia.
    + rewrite <- Cu in Nb. assert (Nc : forall n, at_call x = CUpdate n -> at_seq x <> 0) by (intros n Ec; by apply Nu in Ec). clear Cu Se.
      destruct (at_cur x) as [q|q|X get q|set q|X g q|q| |r] eqn:Cur; cbn in Nb; try done.
      * destruct (as_lock s (at_obj x)); [done|]. injection St as <-. eapply tinv_go; eauto; by rewrite Cur.
      * injection St as <-. eapply tinv_go; eauto; by rewrite Cur.
      * injection St as <-. eapply tinv_go; eauto; by rewrite Cur.
      * injection St as <-. eapply tinv_go; eauto; by rewrite Cur.
      * destruct (existsb _ _); [done|]. injection St as <-. by apply Ns.
  - destruct Nt as [Nb Nc]. destruct (at_cur x) as [q|q|X get q|set q|X g q|q| |r] eqn:Cur; cbn in Nb; try done.
    * destruct (as_lock s (at_obj x)); [done|]. injection St as <-. eapply tinv_go; eauto; by rewrite Cur.
    * injection St as <-. eapply tinv_go; eauto; by rewrite Cur.
    * injection St as <-. eapply tinv_go; eauto; by rewrite Cur.
    * injection St as <-. eapply tinv_go; eauto; by rewrite Cur.
    * destruct (existsb _ _); [done|]. injection St as <-. by apply Ns.
Qed.
Lemma tinv_run ls k s s' : Z.of_nat (k + length ls) < 2 ^ 64 - 2 -> tinv k s -> arun (gauge_body N) s ls = Some s' -> tinv (k + length ls) s'.
Proof.
  revert k s. induction ls as [|l ls IH]; cbn -[Z.pow]; intros k s B I R; [injection R as <-; by rewrite Nat.add_0_r|].
  destruct (astep _ s l) as [s1|] eqn:E; [cbn in R|done]. rewrite <- Nat.add_succ_comm. apply (IH (Datatypes.S k) s1); [lia| |done].
  eapply tinv_step; eauto. lia.
Qed.
Lemma tinv_tickets k (s : st) (h : list (entry N (gauge N))) f : tinv k s -> inv m true s h f -> tickets (as_log s) h.
Proof.
  intros T I.
  assert (Sq : forall (e : entry N (gauge N)) n, e ∈ h -> e_call e = CUpdate n -> exists x : athread (N:=N) (S:=gauge N), as_thr s !! e_thread e = Some x /\ at_seq x = e_seq e /\ at_seq x <> 0).
  { intros e n He Ec. destruct (iv_made _ _ _ _ _ I e He) as (x & Hx & Eo & Ek & Es). exists x. split; [done|]. split; [done|].
    destruct (tv_cur _ _ T _ x Hx) as [[Cu _]|[_ Nc]]; [|exact (Nc n (eq_trans Ek Ec))].
    exfalso. destruct (iv_stage _ _ _ _ _ I _ x Hx) as [Np _ _ _|e' _ _ _ _ In _|e' _ _ _ Cu'].
    - by apply (Np e).
    - assert (Cu2 : @at_cur N (sto m) x = gauge_body N (CUpdate n)) by exact (eq_trans Cu (f_equal (gauge_body N) (eq_trans Ek Ec))).
      rewrite Cu2 in In. done.
    - pose proof (eq_trans (eq_sym Cu') (eq_trans Cu (f_equal (gauge_body N) (eq_trans Ek Ec)))) as Bad. done. }
  split; [|split].
  - intros e n He Ec. destruct (Sq e n He Ec) as (x & Hx & <- & Nz). destruct (tv_range _ _ T _ x Hx); lia.
  - intros e e' n n' He He' Ec Ec' Es. destruct (Sq e n He Ec) as (x & Hx & Ex & Nz). destruct (Sq e' n' He' Ec') as (x' & Hx' & Ex' & Nz').
    apply (entry_thread_inj m h); [apply I|done|done|]. eapply (tv_once _ _ T); eauto. congruence.
  - intros e e' n n' He He' Ec Ec' Be. destruct (Sq e n He Ec) as (x & Hx & <- & Nz). destruct (Sq e' n' He' Ec') as (x' & Hx' & <- & Nz').
    by eapply (tv_order _ _ T).
Qed.
End ticket.
