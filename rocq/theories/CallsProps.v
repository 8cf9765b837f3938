(** * C60.  ForceFlush and Shutdown of a provider reach every reader. *)
From Coq Require Import ZArith Bool String Lia.
From stdpp Require Import base list list_numbers option strings.
From Verif Require Import Lib Per PerSpec PerProofs PerMore PerProps Calls CallsSpec CallsProofs.
Local Open Scope nat_scope.

Lemma lived_inv ks l w : lived ks l w -> winv w.
Proof. intros E. destruct (xrun_inv _ _ _ (new_winv ks) E) as [W _]. done. Qed.

(** A call that has returned has called every reader of the provider, in the time since it began: each periodic reader made one collection for it, with
    the exporter method of that call, and the error is made of theirs, in the order of the readers. *)
Theorem C60_delivers kinds l1 w1 p f l2 w ts errs : lived kinds l1 w1 -> xrun w1 (ACall p f :: l2) = Some w ->
  w_calls w !! length (w_calls w1) = Some (Call p f (Back ts errs)) ->
  exists mp es, w_provs w1 !! p = Some mp /\ errs = some_errors es /\ length es = length (mp_readers mp) /\ length ts = length (mp_readers mp) /\
  forall k r y, mp_readers mp !! k = Some (r, y) -> exists t e, ts !! k = Some t /\ es !! k = Some e /\
  served (w_readers w1 !! r) (w_readers w !! r) f t e.
Proof.
  intros L E C. pose proof (lived_inv _ _ _ L) as W1. destruct (xrun_inv _ _ _ W1 E) as (W & [_ RK] & PK).
  assert (P1 : exists mp, w_provs w1 !! p = Some mp) by (cbn in E; destruct (w_provs w1 !! p) as [mp|]; [by exists mp|done]). destruct P1 as [mp P1].
  destruct (wi_calls _ W _ _ C) as (mp' & P & _ & (Lt & es & -> & Le & _ & A) & _). cbn in P. destruct (PK _ _ P1) as (mp2 & P2 & Er & _).
  assert (mp2 = mp') as -> by congruence. rewrite Er in *. exists mp, es. split; [done|]. split; [done|]. split; [congruence|]. split; [done|].
  intros k r y H. destruct (lookup_lt_is_Some_2 ts k) as [t T]; [rewrite Lt; by eapply lookup_lt_Some|]. destruct (lookup_lt_is_Some_2 es k) as [e He]; [rewrite Le, Lt; by eapply lookup_lt_Some|].
  exists t, e. split; [done|]. split; [done|]. specialize (A _ _ _ _ H T He). unfold answered in A. cbn in A.
  destruct (wi_provs _ W1 _ _ P1) as [_ Pr]. destruct (Pr _ _ _ H) as (x & X & _). destruct (RK _ _ X) as (x' & X' & K). rewrite X' in A. rewrite X, X'. unfold served.
  destruct x as [q n|rd], x' as [q' n'|rd']; try done. destruct A as (t' & -> & T'). exists t'. split; [done|].
  pose proof (wi_readers _ W _ _ X') as S'. pose proof (wi_readers _ W1 _ _ X) as S1. cbn in S', S1, T'.
  destruct (done_returned _ _ _ _ S' T') as (z & n & Z & D). destruct (kp_log _ _ K) as [s Ls]. exists s, z, n. split; [done|]. split; [done|].
  assert (D0 : done_by t' (rd_log rd) = []).
  { apply done_none; [done|]. eapply (xrun_fresh (ACall p f :: l2) w1 w (length (w_calls w1)) k r t' rd W1 E); [lia| |done]. exists (Call p f (Back ts (some_errors es))), mp', y. cbn. rewrite Er. done. }
  split; [done|]. rewrite Ls, done_app, D0 in D. exact D.
Qed.
(** No collection serves two calls, or one call twice. *)
Theorem C60_each_its_own kinds l w : lived kinds l w -> forall i j p q f g ts us errs errs' mp mq k k' r y y' t,
  w_calls w !! i = Some (Call p f (Back ts errs)) -> w_calls w !! j = Some (Call q g (Back us errs')) ->
  w_provs w !! p = Some mp -> w_provs w !! q = Some mq -> mp_readers mp !! k = Some (r, y) -> mp_readers mq !! k' = Some (r, y') ->
  ts !! k = Some (Some t) -> us !! k' = Some (Some t) -> i = j /\ k = k'.
Proof.
  intros L i j p q f g ts us errs errs' mp mq k k' r y y' t Ci Cj P Q R R' T U.
  assert (I : injective w). { eapply xrun_injective; [apply (new_winv kinds)|exact L|]. intros i0 k0 i1 k1 r0 t0 (c & ? & ? & H & _). done. }
  eapply (I i k j k' r t); [by exists (Call p f (Back ts errs)), mp, y|by exists (Call q g (Back us errs')), mq, y'].
Qed.

(** Shutdown. *)
Definition begun_call (x : position) : bool := match x with Next _ _ _ | Inside _ _ _ _ | Back _ _ => true | _ => false end.
Definition shut_ok (w : world) : Prop :=
  (forall i j p x y, w_calls w !! i = Some (Call p true x) -> w_calls w !! j = Some (Call p true y) -> begun_call x = true -> begun_call y = true -> i = j) /\
  (forall p mp, w_provs w !! p = Some mp -> mp_shut mp = true -> exists i x, w_calls w !! i = Some (Call p true x) /\ begun_call x = true).
Lemma set_at_shut w c p f x z : shut_ok w -> w_calls w !! c = Some (Call p f x) -> begun_call x = begun_call z -> shut_ok (set_at w c p f z).
Proof.
  intros [A B] C E.
  assert (Q : forall i q g y, w_calls (set_at w c p f z) !! i = Some (Call q g y) -> exists y', w_calls w !! i = Some (Call q g y') /\ begun_call y' = begun_call y).
  { intros i q g y Hy. cbn in Hy. apply list_lookup_insert_Some in Hy as [(-> & H & _)|[_ Hy]]; [|by exists y]. injection H as ? ? ?; subst. by exists x. }
  split.
  - intros i j q y y' Hi Hj Bi Bj. destruct (Q _ _ _ _ Hi) as (u & Hu & Eu), (Q _ _ _ _ Hj) as (v & Hv & Ev). eapply (A i j q u v); congruence.
  - intros q mq Hq Sq. destruct (B q mq Hq Sq) as (i & y & Hi & Bi). destruct (decide (i = c)) as [->|D].
    + rewrite C in Hi. injection Hi as ? ? ?; subst. exists c, z. cbn. rewrite list_lookup_insert by (by eapply lookup_lt_Some). split; [done|congruence].
    + exists i, y. cbn. rewrite list_lookup_insert_ne by done. done.
Qed.
Lemma xstep_shut w a w' : winv w -> shut_ok w -> xstep w a = Some w' -> shut_ok w'.
Proof.
  intros W S E. pose proof S as [A B]. destruct a as [l|p|p f|c|r a]; cbn in E.
  - destruct (forallb _ l); [|done]. injection E as <-. split; [exact A|]. intros q mq Hq Sq. cbn in Hq. apply lookup_snoc in Hq as [Hq|[_ ->]]; [by eapply B|done].
  - destruct (w_provs w !! p) as [mp|] eqn:P; [|done]. cbn in E. destruct (mp_readers mp !! mp_ready mp) as [[r y]|]; [|done]. cbn in E.
    destruct (w_readers w !! r) as [x|]; [|done]. cbn in E. destruct (register x y) as [x'|]; [|done]. injection E as <-. split; [exact A|]. intros q mq Hq Sq. cbn in Hq.
    apply list_lookup_insert_Some in Hq as [(-> & <- & _)|[_ Hq]]; [exact (B _ _ P Sq)|exact (B _ _ Hq Sq)].
  - destruct (w_provs w !! p) as [mp|] eqn:P; [|done]. cbn in E. destruct (Nat.eqb _ _); [|done]. injection E as <-. split.
    + intros i j q x y Hi Hj Bi Bj. cbn in Hi, Hj. apply lookup_snoc in Hi as [Hi|[_ Q]]; [|injection Q as ? ? ?; subst; done]. apply lookup_snoc in Hj as [Hj|[_ Q]]; [|injection Q as ? ? ?; subst; done]. by eapply A.
    + intros q mq Hq Sq. destruct (B q mq Hq Sq) as (i & x & Hi & Bi). exists i, x. split; [|done]. by apply lookup_app_l_Some.
  - unfold go in E. destruct (w_calls w !! c) as [[p f x]|] eqn:C; [|done]. cbn in E. destruct (w_provs w !! p) as [mp|] eqn:P; [|done]. cbn in E.
    destruct x as [|k ts errs|k t ts errs|ts errs|]; [| | |done|done].
    + destruct f.
      * destruct (mp_shut mp) eqn:Sm; injection E as <-; [by eapply set_at_shut|].
        assert (N : forall i x, w_calls w !! i = Some (Call p true x) -> begun_call x = false).
        { intros i x Hi. destruct (begun_call x) eqn:Bx; [|done]. destruct (wi_calls _ W _ _ Hi) as (m0 & P0 & _ & _ & Sh). cbn in P0, Sh. assert (m0 = mp) as -> by congruence. rewrite Sh in Sm; [done|done|by intros ->]. }
        split.
        -- intros i j q x y Hi Hj Bi Bj. cbn in Hi, Hj. apply list_lookup_insert_Some in Hi as [(-> & [= <- <-] & _)|[Di Hi]]; apply list_lookup_insert_Some in Hj as [(-> & Z & _)|[Dj Hj]]; try done.
           ++ by rewrite (N _ _ Hj) in Bj.
           ++ injection Z as <- <-. by rewrite (N _ _ Hi) in Bi.
           ++ by eapply A.
        -- intros q mq Hq Sq. cbn in Hq. apply list_lookup_insert_Some in Hq as [(-> & <- & _)|[Dq Hq]].
           ++ exists c, (Next 0 [] []). cbn. rewrite list_lookup_insert by (by eapply lookup_lt_Some). done.
           ++ destruct (B q mq Hq Sq) as (i & x & Hi & Bi). exists i, x. cbn. rewrite list_lookup_insert_ne by (intros ->; congruence). done.
      * injection E as <-.
        assert (Q : forall i q y, w_calls (set_at w c p false (Next 0 [] [])) !! i = Some (Call q true y) <-> w_calls w !! i = Some (Call q true y)).
        { intros i q y. cbn. destruct (decide (i = c)) as [->|D]; [|by rewrite list_lookup_insert_ne]. rewrite list_lookup_insert by (by eapply lookup_lt_Some). rewrite C. done. }
        split; [intros i j q x y Hi Hj; apply Q in Hi; apply Q in Hj; by eapply A|]. intros q mq Hq Sq. destruct (B q mq Hq Sq) as (i & x & Hi & Bi). exists i, x. by rewrite Q.
    + destruct (mp_readers mp !! k) as [[r y]|]; [|injection E as <-; by eapply set_at_shut].
      destruct (w_readers w !! r) as [[q n|rd]|]; [injection E as <-; by eapply set_at_shut| |done].
      destruct (pstep rd _) as [rd'|]; [|done]. injection E as <-. eapply (set_at_shut (set_reader w r (Periodic rd')) c p f); [exact S|exact C|done].
    + destruct (mp_readers mp !! k) as [[r y]|]; [|done]. cbn in E. destruct (w_readers w !! r) as [[q n|rd]|]; [done| |done]. destruct (rd_threads rd !! t) as [[]|]; try done. injection E as <-. by eapply set_at_shut.
  - destruct (w_readers w !! r) as [x|]; [|done]. cbn in E. destruct x as [q n|rd]; [by destruct a|]. destruct a; try done; try (destruct (rd_producer rd); [|done]);
      match type of E with context [pstep rd ?b] => destruct (pstep rd b); [|done] end; by injection E as <-.
Qed.
Lemma lived_shut ks l w : lived ks l w -> shut_ok w.
Proof.
  intros E. assert (G : forall l w0, winv w0 -> shut_ok w0 -> xrun w0 l = Some w -> shut_ok w).
  { clear. induction l as [|a l IH]; intros w0 W S E; cbn in E; [by injection E as <-|]. destruct (xstep w0 a) as [w1|] eqn:St; [|done]. cbn in E.
    apply (IH w1); [by destruct (xstep_inv _ _ _ W St)|by eapply xstep_shut|done]. }
  eapply G; [apply new_winv| |exact E]. split; [by intros i j p x y H|by intros p mp H].
Qed.
(** At most one call of Shutdown gets past the first test; the others return ErrAlreadyShutdown or have not come to it.  One is refused only when
    another one has passed, and then it does nothing. *)
Theorem C60_once kinds l w : lived kinds l w ->
  (forall i j p x y, w_calls w !! i = Some (Call p true x) -> w_calls w !! j = Some (Call p true y) -> i <> j -> (x = Start \/ x = Refused) \/ (y = Start \/ y = Refused)) /\
  (forall i p f, w_calls w !! i = Some (Call p f Refused) -> f = true /\ exists j x, w_calls w !! j = Some (Call p true x) /\ x <> Start /\ x <> Refused).
Proof.
  intros L. destruct (lived_shut _ _ _ L) as [A B]. split.
  - intros i j p x y Hi Hj D. destruct x; try (left; tauto); destruct y; try (right; tauto); exfalso; apply D; by eapply A.
  - intros i p f Hi. destruct (wi_calls _ (lived_inv _ _ _ L) _ _ Hi) as (mp & P & _ & F & Sh). cbn in *. split; [done|]. destruct (B p mp P) as (j & x & Hj & Bx); [by apply Sh|].
    exists j, x. split; [done|]. by destruct x.
Qed.
Theorem C60_refused w c w' p f : xstep w (AGo c) = Some w' -> w_calls w' !! c = Some (Call p f Refused) -> w_readers w' = w_readers w /\ w_provs w' = w_provs w.
Proof.
  cbn. intros E H. unfold go in E. destruct (w_calls w !! c) as [[p0 f0 x]|] eqn:C; [|done]. cbn in E. destruct (w_provs w !! p0) as [mp|]; [|done]. cbn in E.
  assert (Q : forall q z, w_calls q !! c = Some (Call p0 f0 x) -> w_calls (set_at q c p0 f0 z) !! c = Some (Call p f Refused) -> z = Refused).
  { intros q z Hq Hz. cbn in Hz. rewrite list_lookup_insert in Hz by (by eapply lookup_lt_Some). by injection Hz. }
  destruct x as [|k ts errs|k t ts errs|ts errs|]; [| | |done|done].
  - destruct f0; [destruct (mp_shut mp)|]; injection E as <-; [done| |]; apply Q in H; done.
  - destruct (mp_readers mp !! k) as [[r y]|]; [|injection E as <-; by apply Q in H]. destruct (w_readers w !! r) as [[q n|rd]|]; [injection E as <-; by apply Q in H| |done].
    destruct (pstep rd _) as [rd'|]; [|done]. injection E as <-. by apply Q in H.
  - destruct (mp_readers mp !! k) as [[r y]|]; [|done]. cbn in E. destruct (w_readers w !! r) as [[q n|rd]|]; [done| |done]. destruct (rd_threads rd !! t) as [[]|]; try done. injection E as <-. by apply Q in H.
Qed.
(** After Shutdown has returned, no periodic export begins or ends in any of the provider's readers. *)
Theorem C60_stops kinds l w i p ts errs mp l' w' : lived kinds l w -> w_calls w !! i = Some (Call p true (Back ts errs)) -> w_provs w !! p = Some mp -> xrun w l' = Some w' ->
  forall k r y rd, mp_readers mp !! k = Some (r, y) -> w_readers w !! r = Some (Periodic rd) ->
  exists rd' since, w_readers w' !! r = Some (Periodic rd') /\ rd_log rd' = rd_log rd ++ since /\ forall e, e ∈ since -> periodic e = false.
Proof.
  intros L C P E k r y rd H X. pose proof (lived_inv _ _ _ L) as W. destruct (xrun_inv _ _ _ W E) as (W' & [_ RK] & _).
  destruct (RK _ _ X) as (x' & X' & K). destruct x' as [|rd']; [done|]. destruct (kp_log _ _ K) as [s Ls]. exists rd', s. split; [done|]. split; [done|].
  destruct (wi_calls _ W _ _ C) as (mp' & P' & _ & (Lt & es & _ & Le & _ & A) & _). cbn in P'. assert (mp' = mp) as -> by congruence.
  destruct (lookup_lt_is_Some_2 ts k) as [t T]; [rewrite Lt; by eapply lookup_lt_Some|]. destruct (lookup_lt_is_Some_2 es k) as [e He]; [rewrite Le, Lt; by eapply lookup_lt_Some|].
  specialize (A _ _ _ _ H T He). unfold answered in A. cbn in A. rewrite X in A. destruct A as (t' & -> & T').
  destruct (done_returned _ _ _ _ (wi_readers _ W _ _ X) T') as (z & n & _ & D).
  assert (In (ECall t' Final n) (rd_log rd)) as I. { assert (In (ECall t' Final n) (done_by t' (rd_log rd))) as I by (rewrite D; right; left; done). unfold done_by in I. by apply filter_In in I as [I _]. }
  apply elem_of_list_In, elem_of_list_split in I as (l1 & l2 & I). destruct (wi_readers _ W' _ _ X') as (h & ss & Hh & _). intros ev Hev.
  eapply (C32_nothing_after h rd' l1 t' n (l2 ++ s)); [done|rewrite Ls, I, <- app_assoc; done|]. apply elem_of_app. by right.
Qed.

(** Calls return: while one has not, something inside can go on, and only so many such steps can follow one another. *)
Definition span (w : world) (p : nat) : nat := match w_provs w !! p with Some mp => length (mp_readers mp) | None => 0 end.
Definition left_call (w : world) (c : call) : nat :=
  match c_at c with
  | Start => 9 * span w (c_prov c) + 2
  | Next k _ _ => 9 * (span w (c_prov c) - k) + 1
  | Inside k _ _ _ => 9 * (span w (c_prov c) - S k) + 2
  | Back _ _ | Refused => 0
  end.
Definition left_reader (x : xreader) : nat := match x with Periodic rd => todo rd | Manual _ _ => 0 end.
Definition left_world (w : world) : nat := sum_list_with left_reader (w_readers w) + sum_list_with (left_call w) (w_calls w).
Lemma sum_insert_gen {X} (g : X -> nat) (l : list X) i x x' : l !! i = Some x -> sum_list_with g (<[i := x']> l) + g x = sum_list_with g l + g x'.
Proof.
  revert i. induction l as [|y l IH]; intros [|i] E; try done; [injection E as ->; cbn; lia|].
  specialize (IH i E). change (<[S i := x']> (y :: l)) with (y :: <[i := x']> l). cbn [sum_list_with]. lia.
Qed.
Lemma sum_ext {X} (g h : X -> nat) (l : list X) : (forall x, g x = h x) -> sum_list_with g l = sum_list_with h l.
Proof. intros E. induction l as [|x l IH]; cbn; [done|]. by rewrite E, IH. Qed.
Lemma left_at w c p f x z : w_calls w !! c = Some (Call p f x) -> left_world (set_at w c p f z) + left_call w (Call p f x) = left_world w + left_call w (Call p f z).
Proof.
  intros C. unfold left_world. cbn [set_at w_readers w_calls]. pose proof (sum_insert_gen (left_call w) (w_calls w) c (Call p f x) (Call p f z) C).
  change (left_call (set_at w c p f z)) with (left_call w). lia.
Qed.
Lemma xstep_left w a w' : winv w -> inside a = true -> xstep w a = Some w' -> left_world w' < left_world w.
Proof.
  intros W I E. destruct a as [l|p|p f|c|r a]; try done; cbn in E.
  - unfold go in E. destruct (w_calls w !! c) as [[p f x]|] eqn:C; [|done]. cbn in E. destruct (w_provs w !! p) as [mp|] eqn:P; [|done]. cbn in E.
    assert (Sp : span w p = length (mp_readers mp)) by (unfold span; by rewrite P).
    destruct x as [|k ts errs|k t ts errs|ts errs|]; [| | |done|done].
    + destruct f; [destruct (mp_shut mp)|]; injection E as <-.
      * pose proof (left_at w c p true Start Refused C) as X. unfold left_call in X. cbn [c_at c_prov] in X. lia.
      * set (w1 := set_prov w p _). pose proof (left_at w1 c p true Start (Next 0 [] []) C) as X.
        assert (Sp1 : forall q, span w1 q = span w q).
        { intros q. unfold span. cbn. destruct (decide (q = p)) as [->|D]; [by rewrite list_lookup_insert, P by (by eapply lookup_lt_Some)|by rewrite list_lookup_insert_ne]. }
        assert (L1 : left_world w1 = left_world w) by (unfold left_world; cbn [w1 set_prov w_readers w_calls]; f_equal; apply sum_ext; intros y; unfold left_call; rewrite !Sp1; done).
        unfold left_call in X. cbn [c_at c_prov] in X. rewrite Sp1 in X. lia.
      * pose proof (left_at w c p false Start (Next 0 [] []) C) as X. unfold left_call in X. cbn [c_at c_prov] in X. lia.
    + destruct (mp_readers mp !! k) as [[r y]|] eqn:R.
      * apply lookup_lt_Some in R. destruct (w_readers w !! r) as [[q n|rd]|] eqn:X; [| |done].
        -- injection E as <-. match goal with |- left_world (set_at _ _ _ _ ?z) < _ => pose proof (left_at w c p f (Next k ts errs) z C) as Y end. unfold left_call in Y. cbn [c_at c_prov] in Y. lia.
        -- destruct (pstep rd _) as [rd'|] eqn:St; [|done]. injection E as <-. set (w1 := set_reader w r (Periodic rd')).
           pose proof (left_at w1 c p f (Next k ts errs) (Inside k (length (rd_threads rd)) ts errs) C) as Y. unfold left_call in Y. cbn [c_at c_prov] in Y. change (span w1 p) with (span w p) in Y.
           pose proof (sum_insert_gen left_reader (w_readers w) r (Periodic rd) (Periodic rd') X) as Z. cbn [left_reader] in Z.
           assert (T : todo rd' <= todo rd + 7). { destruct rd as [pr ca wt lk ct th lg]. destruct f; injection St as <-; unfold todo; cbn; rewrite sum_list_with_app; cbn; lia. }
           assert (L1 : left_world w1 + todo rd = left_world w + todo rd'). { unfold left_world. cbn [w1 set_reader w_readers w_calls]. change (left_call w1) with (left_call w). lia. }
           lia.
      * injection E as <-. pose proof (left_at w c p f (Next k ts errs) (Back ts errs) C) as Y. unfold left_call in Y. cbn [c_at c_prov] in Y. lia.
    + destruct (mp_readers mp !! k) as [[r y]|] eqn:R; [|done]. cbn in E. destruct (w_readers w !! r) as [[q n|rd]|]; [done| |done]. destruct (rd_threads rd !! t) as [[]|]; try done. injection E as <-.
      match goal with |- left_world (set_at _ _ _ _ ?z) < _ => pose proof (left_at w c p f (Inside k t ts errs) z C) as Y end. unfold left_call in Y. cbn [c_at c_prov] in Y. lia.
  - cbn in I. destruct (w_readers w !! r) as [x|] eqn:X; [|done]. cbn in E.
    assert (Q : exists rd rd', x = Periodic rd /\ pstep rd a = Some rd' /\ w' = set_reader w r (Periodic rd')).
    { destruct x as [q n|rd]; [by destruct a|]. exists rd. destruct a; try done; match type of E with context [pstep rd ?b] => destruct (pstep rd b) as [rd'|]; [|done] end; injection E as <-; by exists rd'. }
    destruct Q as (rd & rd' & -> & St & ->). pose proof (pstep_todo _ _ _ I St). pose proof (sum_insert_gen left_reader (w_readers w) r (Periodic rd) (Periodic rd') X) as Z. cbn [left_reader] in Z.
    unfold left_world. cbn [set_reader w_readers w_calls]. change (left_call (set_reader w r (Periodic rd'))) with (left_call w). lia.
Qed.
Theorem C60_returns kinds l w : lived kinds l w ->
  (forall i p f x, w_calls w !! i = Some (Call p f x) -> over x = false -> exists a, inside a = true /\ is_Some (xstep w a)) /\
  exists n, forall l' w', forallb inside l' = true -> xrun w l' = Some w' -> length l' <= n.
Proof.
  intros L. pose proof (lived_inv _ _ _ L) as W. split.
  - intros i p f x C O. destruct (wi_calls _ W _ _ C) as (mp & P & Rd & A & _). cbn in P, A.
    assert (G : is_Some (go w i) -> exists a, inside a = true /\ is_Some (xstep w a)) by (intros G; by exists (AGo i)).
    destruct x as [|k ts errs|k t ts errs|ts errs|]; try done.
    + apply G. unfold go. rewrite C. cbn. rewrite P. cbn. destruct f; [destruct (mp_shut mp)|]; by eexists.
    + apply G. unfold go. rewrite C. cbn. rewrite P. cbn. destruct (mp_readers mp !! k) as [[r y]|] eqn:R; [|by eexists].
      destruct (wi_provs _ W _ _ P) as [_ Pr]. destruct (Pr _ _ _ R) as (x & X & _). rewrite X. destruct x as [q n|rd]; [by eexists|]. destruct rd. destruct f; by eexists.
    + destruct A as (-> & _ & r & y & rd & x & R & X & T & Ro). destruct (wi_readers _ W _ _ X) as (h & ss & _ & J & N & Em).
      destruct (decide (returned x = true)) as [Re|Re].
      * apply G. unfold go. rewrite C. cbn. rewrite P. cbn. rewrite R. cbn. rewrite X, T. by destruct x.
      * destruct (progress rd ss t x) as (a & Ia & Sa); try done.
        -- destruct (wi_provs _ W _ _ P) as [_ Pr]. destruct (Pr _ _ _ R) as (z & Z & Rg). rewrite X in Z. injection Z as <-. apply Rg. rewrite Rd. by eapply lookup_lt_Some.
        -- by destruct x.
        -- by apply not_true_is_false.
        -- intros ->. by apply (N t).
        -- exists (AReader r a). split; [done|]. cbn. rewrite X. cbn. destruct Sa as [rd' Sa]. destruct a; try done; rewrite Sa; by eexists.
  - exists (left_world w). intros l' w' I E. enough (length l' + left_world w' <= left_world w) by lia. clear L. revert w W I E. induction l' as [|a l' IH]; intros w W I E; cbn in E.
    + injection E as <-. cbn. lia.
    + cbn in I. apply andb_prop in I as [I1 I2]. destruct (xstep w a) as [w1|] eqn:S; [|done]. cbn in E. destruct (xstep_inv _ _ _ W S) as [W1 _]. specialize (IH w1 W1 I2 E). pose proof (xstep_left _ _ _ W I1 S). cbn. lia.
Qed.

(** No goroutine of a reader ever calls through a nil producer or a nil stop function. *)
Theorem C60_no_panic kinds l w r rd t : lived kinds l w -> w_readers w !! r = Some (Periodic rd) -> rd_threads rd !! t <> Some CPanic.
Proof. intros L X. destruct (wi_readers _ (lived_inv _ _ _ L) _ _ X) as (h & ss & _ & _ & N & _). apply N. Qed.

(** Whose data a reader exports. *)
Definition producer_of (x : xreader) : option string := match x with Periodic rd => rd_producer rd | Manual p _ => p end.
Definition named (w : world) : Prop := forall r x y, w_readers w !! r = Some x -> producer_of x = Some y ->
  exists p mp k, w_provs w !! p = Some mp /\ mp_readers mp !! k = Some (r, y) /\ k < mp_ready mp.
Lemma pstep_producer rd a rd' : pstep rd a = Some rd' -> (forall y, a <> ARegister y) -> rd_producer rd' = rd_producer rd.
Proof.
  destruct rd as [pr ca wt lk ct th lg]. intros S N. destruct a as [y| | |t|t|t e]; cbn in S; [by destruct (N y)|by injection S as <-|by injection S as <-| | |].
  - destruct (th !! t) as [[]|]; try done. by injection S as <-.
  - destruct (th !! t) as [[ |p| | | |m p| | ]|]; try done.
    + destruct ca; [|done]. by injection S as <-.
    + destruct p as [| |n|n|e]; cbn in S; try (destruct lk; [done|]); try done; try (destruct e); try (destruct pr); by injection S as <-.
    + destruct pr; by injection S as <-.
    + destruct wt; [|done]. by injection S as <-.
    + destruct p as [| |n|n|e]; cbn in S; try (destruct lk; [done|]); try done; try (destruct pr); by injection S as <-.
  - destruct (th !! t) as [[ |p| | | |m p| | ]|]; try done; destruct p; try done; by injection S as <-.
Qed.
Lemma named_step w a w' : winv w -> named w -> xstep w a = Some w' -> named w'.
Proof.
  intros W N E. destruct (xstep_inv _ _ _ W E) as (_ & _ & PK).
  assert (Q : (forall r x y, w_readers w' !! r = Some x -> producer_of x = Some y -> exists x0, w_readers w !! r = Some x0 /\ producer_of x0 = Some y) ->
              (forall p mp mp', w_provs w !! p = Some mp -> w_provs w' !! p = Some mp' -> mp_ready mp <= mp_ready mp') -> named w').
  { intros H M r x y X Y. destruct (H _ _ _ X Y) as (x0 & X0 & Y0). destruct (N _ _ _ X0 Y0) as (p & mp & k & P & R & L). destruct (PK _ _ P) as (mp' & P' & Er & _).
    exists p, mp', k. rewrite Er. split; [done|]. split; [done|]. specialize (M _ _ _ P P'). lia. }
  assert (Same : w_readers w' = w_readers w -> (forall p mp mp', w_provs w !! p = Some mp -> w_provs w' !! p = Some mp' -> mp_ready mp <= mp_ready mp') -> named w').
  { intros H. apply Q. intros r x y X Y. rewrite H in X. by exists x. }
  assert (Put : forall w1 r rd rd' a, w_readers w !! r = Some (Periodic rd) -> pstep rd a = Some rd' -> (forall y, a <> ARegister y) -> w_readers w1 = <[r := Periodic rd']> (w_readers w) ->
            forall u x y, w_readers w1 !! u = Some x -> producer_of x = Some y -> exists x0, w_readers w !! u = Some x0 /\ producer_of x0 = Some y).
  { intros w1 r rd rd' b X S Nb H u x y U Y. rewrite H in U. apply list_lookup_insert_Some in U as [(-> & <- & _)|[_ U]]; [|by exists x]. eexists. split; [exact X|]. cbn in *. by rewrite <- (pstep_producer _ _ _ S Nb). }
  destruct a as [l|p|p f|c|r a]; cbn in E.
  - destruct (forallb _ l); [|done]. injection E as <-. apply Same; [done|]. intros q m m' H H'. cbn in H'. rewrite lookup_app_l in H' by (by eapply lookup_lt_Some). assert (m = m') as -> by congruence. done.
  - destruct (w_provs w !! p) as [mp|] eqn:P; [|done]. cbn in E. destruct (mp_readers mp !! mp_ready mp) as [[r y]|] eqn:R; [|done]. cbn in E.
    destruct (w_readers w !! r) as [x|] eqn:X; [|done]. cbn in E. destruct (register x y) as [x'|] eqn:G; [|done]. injection E as <-.
    assert (Pl : p < length (w_provs w)) by (by eapply lookup_lt_Some).
    intros u z v U V. cbn in U. apply list_lookup_insert_Some in U as [(-> & <- & _)|[Du U]].
    + assert (H : producer_of x = Some v \/ v = y).
      { destruct x as [[q|] n|rd]; cbn in G; [injection G as <-; by left|injection G as <-; cbn in V; right; congruence|]. destruct (pstep rd (ARegister y)) as [rd'|] eqn:S; [|done]. injection G as <-. cbn in V |- *.
        destruct rd as [[q|] ca wt lk ct th lg]; cbn in S; injection S as <-; cbn in *; [by left|right; congruence]. }
      destruct H as [H| ->].
      * destruct (N _ _ _ X H) as (p0 & m0 & k & P0 & R0 & L0). destruct (decide (p0 = p)) as [->|D].
        -- exists p, (Provider (mp_readers mp) (S (mp_ready mp)) (mp_shut mp)), k. cbn. rewrite list_lookup_insert by done. assert (m0 = mp) as -> by congruence. split; [done|]. split; [done|lia].
        -- exists p0, m0, k. cbn. rewrite list_lookup_insert_ne by done. done.
      * exists p, (Provider (mp_readers mp) (S (mp_ready mp)) (mp_shut mp)), (mp_ready mp). cbn. rewrite list_lookup_insert by done. split; [done|]. split; [done|lia].
    + destruct (N _ _ _ U V) as (p0 & m0 & k & P0 & R0 & L0). destruct (decide (p0 = p)) as [->|D].
      * exists p, (Provider (mp_readers mp) (S (mp_ready mp)) (mp_shut mp)), k. cbn. rewrite list_lookup_insert by done. assert (m0 = mp) as -> by congruence. split; [done|]. split; [done|lia].
      * exists p0, m0, k. cbn. rewrite list_lookup_insert_ne by done. done.
  - destruct (w_provs w !! p) as [mp|] eqn:P; [|done]. cbn in E. destruct (Nat.eqb _ _); [|done]. injection E as <-. apply Same; [done|]. intros q m m' H H'. cbn in H'. assert (m = m') as -> by congruence. done.
  - unfold go in E. destruct (w_calls w !! c) as [[p f x]|] eqn:C; [|done]. cbn in E. destruct (w_provs w !! p) as [mp|] eqn:P; [|done]. cbn in E.
    assert (Sp : forall z q m m', w_provs w !! q = Some m -> w_provs (set_at w c p f z) !! q = Some m' -> mp_ready m <= mp_ready m') by (intros z q m m' H H'; cbn in H'; assert (m = m') as -> by congruence; done).
    destruct x as [|k ts errs|k t ts errs|ts errs|]; [| | |done|done].
    + destruct f; [destruct (mp_shut mp)|]; injection E as <-; (apply Same; [done|]); [by apply Sp| |by apply Sp].
      intros q m m' H H'. cbn in H'. apply list_lookup_insert_Some in H' as [(-> & <- & _)|[_ H']]; [|assert (m = m') as -> by congruence; done]. cbn. assert (m = mp) as -> by congruence. done.
    + destruct (mp_readers mp !! k) as [[r y]|]; [|injection E as <-; apply Same; [done|by apply Sp]].
      destruct (w_readers w !! r) as [[q n|rd]|] eqn:X; [injection E as <-; apply Same; [done|by apply Sp]| |done].
      destruct (pstep rd _) as [rd'|] eqn:S; [|done]. injection E as <-. apply Q; [|by apply (Sp (Inside k (length (rd_threads rd)) ts errs))].
      eapply (Put _ r rd rd'); [done|exact S|by destruct f|done].
    + destruct (mp_readers mp !! k) as [[r y]|]; [|done]. cbn in E. destruct (w_readers w !! r) as [[q n|rd]|]; [done| |done]. destruct (rd_threads rd !! t) as [[]|]; try done. injection E as <-. apply Same; [done|by apply Sp].
  - destruct (w_readers w !! r) as [x|] eqn:X; [|done]. cbn in E.
    assert (Z : exists rd rd', x = Periodic rd /\ pstep rd a = Some rd' /\ (forall y, a <> ARegister y) /\ w' = set_reader w r (Periodic rd')).
    { destruct x as [q n|rd]; [by destruct a|]. exists rd. destruct a; try done; try (destruct (rd_producer rd); [|done]);
        match type of E with context [pstep rd ?b] => destruct (pstep rd b) as [rd'|]; [|done] end; injection E as <-; by exists rd'. }
    destruct Z as (rd & rd' & -> & S & Nb & ->). apply Q; [by eapply (Put _ r rd rd')|]. intros q m m' H H'. cbn in H'. assert (m = m') as -> by congruence. done.
Qed.
(** A reader that is given once exports the data of the provider that it was given to. *)
Theorem C60_own kinds l w p mp k r y x : lived kinds l w -> w_provs w !! p = Some mp -> mp_readers mp !! k = Some (r, y) -> k < mp_ready mp ->
  (forall q mq j z, w_provs w !! q = Some mq -> mp_readers mq !! j = Some (r, z) -> q = p /\ j = k) -> w_readers w !! r = Some x -> producer_of x = Some y.
Proof.
  intros L P R K U X.
  assert (N : named w).
  { assert (G : forall l w0, winv w0 -> named w0 -> xrun w0 l = Some w -> named w).
    { clear. induction l as [|a l IH]; intros w0 W S E; cbn in E; [by injection E as <-|]. destruct (xstep w0 a) as [w1|] eqn:St; [|done]. cbn in E.
      apply (IH w1); [by destruct (xstep_inv _ _ _ W St)|by eapply named_step|done]. }
    eapply G; [apply (new_winv kinds)| |exact L]. intros r0 x0 y0 H Y. cbn in H. by apply list_lookup_fmap_Some in H as ([] & _ & ->). }
  destruct (wi_provs _ (lived_inv _ _ _ L) _ _ P) as [_ Pr]. destruct (Pr _ _ _ R) as (x' & X' & Rg). rewrite X in X'. injection X' as <-. specialize (Rg K).
  assert (Z : exists z, producer_of x = Some z). { destruct x as [q n|rd]; cbn in *; [by destruct q as [z|]; [exists z|]|by destruct (rd_producer rd) as [z|]; [exists z|]]. }
  destruct Z as [z Z]. destruct (N _ _ _ X Z) as (q & mq & j & Q & J & _). destruct (U _ _ _ _ Q J) as [-> ->]. assert (mq = mp) as -> by congruence. rewrite R in J. injection J as ->. done.
Qed.

(** Readers that are given twice do not keep this, and Shutdown does not end the exports of ForceFlush: histories.  What is looked at. *)
Definition logs (w : world) : list (list event) := map (fun x => match x with Periodic rd => rd_log rd | Manual _ _ => [] end) (w_readers w).
Definition seen (kinds : list bool) (l : list xact) : option (list (list event) * list position) := (fun w => (logs w, map c_at (w_calls w))) <$> xrun (new_world kinds) l.
Definition whole_flush (c t : nat) : list xact := [AGo c; AGo c; AReader 0 (Go t); AReader 0 (Go t); AReader 0 (Go t); AReader 0 (Exported t None); AReader 0 (Go t); AGo c; AGo c].

(** Two providers with one reader: ForceFlush of the second one exports the data of the first, and not its own. *)
Definition shared : list xact := [ANew [(0, "a"%string)]; AReg 0; ANew [(0, "b"%string)]; AReg 1; ACall 1 false] ++ whole_flush 0 1.
Theorem C60_own_shared_refuted : exists kinds l w, lived kinds l w /\
  (exists mp, w_provs w !! 1 = Some mp /\ mp_readers mp = [(0, "b"%string)] /\ mp_ready mp = 1) /\
  (exists ts, w_calls w !! 0 = Some (Call 1 false (Back ts []))) /\
  logs w = [[EHandle None; EProduce 1 "a" 0; ECall 1 Flush 0; EReturn 1 Flush None]].
Proof.
  destruct (xrun (new_world [true]) shared) as [w|] eqn:E; [|vm_compute in E; done]. exists [true], shared, w. vm_compute in E. injection E as <-.
  split; [vm_compute; reflexivity|]. split; [eexists; vm_compute; done|]. split; [eexists; vm_compute; done|]. vm_compute. reflexivity.
Qed.
(** Shutdown of the second one ends the periodic exports of the first one, which was not shut down. *)
Definition shared_stop : list xact := [ANew [(0, "a"%string)]; AReg 0; ANew [(0, "b"%string)]; AReg 1; ACall 1 true; AGo 0; AGo 0; AReader 0 (Go 1); AReader 0 (Go 0); AReader 0 (Go 1);
  AReader 0 (Go 1); AReader 0 (Go 1); AReader 0 (Go 1); AReader 0 (Exported 1 None); AReader 0 (Go 1); AGo 0; AGo 0].
Theorem C60_stops_only_its_own_refuted : exists kinds l w, lived kinds l w /\
  (exists mp, w_provs w !! 0 = Some mp /\ mp_shut mp = false /\ mp_readers mp = [(0, "a"%string)]) /\
  exists rd, w_readers w !! 0 = Some (Periodic rd) /\ rd_producer rd = Some "a"%string /\ rd_threads rd !! 0 = Some LDone.
Proof.
  destruct (xrun (new_world [true]) shared_stop) as [w|] eqn:E; [|vm_compute in E; done]. exists [true], shared_stop, w. vm_compute in E. injection E as <-.
  split; [vm_compute; reflexivity|]. split; eexists; vm_compute; done.
Qed.
(** ForceFlush called when Shutdown has returned calls the exporter again, with what was measured meanwhile. *)
Definition late : list xact := [ANew [(0, "a"%string)]; AReg 0; ACall 0 true; AGo 0; AGo 0; AReader 0 (Go 1); AReader 0 (Go 0); AReader 0 (Go 1);
  AReader 0 (Go 1); AReader 0 (Go 1); AReader 0 (Go 1); AReader 0 (Exported 1 None); AReader 0 (Go 1); AGo 0; AGo 0].
Theorem C60_silent_after_shutdown_refuted : exists kinds l w l' w', lived kinds l w /\ (exists ts, w_calls w !! 0 = Some (Call 0 true (Back ts []))) /\
  xrun w l' = Some w' /\ logs w' = zip_with (++) (logs w) [[EProduce 2 "a" 1; ECall 2 Flush 1; EReturn 2 Flush None]].
Proof.
  destruct (xrun (new_world [true]) late) as [w|] eqn:E; [|vm_compute in E; done]. exists [true], late, w. vm_compute in E. injection E as <-.
  eexists (ACall 0 false :: whole_flush 1 2), _. split; [vm_compute; reflexivity|]. split; [eexists; vm_compute; done|]. split; vm_compute; reflexivity.
Qed.

Module Ex60.
  Local Open Scope string_scope.
  (** A provider with a periodic reader, a manual one and another periodic one; two goroutines call ForceFlush and Shutdown, a third Shutdown again, while
      the timer of the last reader ticks. *)
  Definition l1 : list xact := [ANew [(0, "a"); (1, "b"); (2, "c")]; AReg 0; AReg 0; AReg 0; AReader 2 (Tick 0); AReader 2 (Go 0); AReader 2 (Go 0)].
  Definition l2 : list xact :=
    [ACall 0 false; ACall 0 true; AGo 1; AGo 0; AGo 1; AGo 0; AGo 2; AReader 0 (Go 1); AReader 0 (Go 2); AReader 0 (Go 0);
     AReader 0 (Go 1); AReader 0 (Go 1); AReader 0 (Exported 1 (Some "down")); AReader 0 (Go 1); AGo 1; AGo 1; AGo 1;
     AReader 0 (Go 2); AReader 0 (Go 2); AReader 0 (Go 2); AReader 0 (Go 2); AReader 0 (Exported 2 None); AReader 0 (Go 2); AGo 0; AGo 0; AGo 0;
     AReader 2 (Go 2); AReader 2 (Go 0); AReader 2 (Exported 0 None); AReader 2 (Go 0); AReader 2 (Go 0);
     AReader 2 (Go 1); AReader 2 (Go 1); AReader 2 (Go 1); AReader 2 (Exported 1 (Some "late")); AReader 2 (Go 1); AGo 1; AGo 1;
     AReader 2 (Go 2); AReader 2 (Go 2); AReader 2 (Go 2); AReader 2 (Go 2); AReader 2 (Exported 2 None); AReader 2 (Go 2); AGo 0; AGo 0].
  Definition l : list xact := (l1 ++ [ACall 0 true] ++ l2)%list.
  Example whole : seen [true; false; true] l = Some (
    [[EProduce 1 "a" 0; ECall 1 Flush 0; EReturn 1 Flush (Some "down"); EProduce 2 "a" 1; ECall 2 Final 1; EReturn 2 Final None]; [];
     [EProduce 0 "c" 0; ECall 0 Export 0; EReturn 0 Export None; EProduce 1 "c" 1; ECall 1 Flush 1; EReturn 1 Flush (Some "late");
      EProduce 2 "c" 2; ECall 2 Final 2; EReturn 2 Final None]],
    [Back [Some 2; None; Some 2] []; Back [Some 1; None; Some 1] ["down"; "late"]; Refused]).
  Proof. vm_compute. reflexivity. Qed.
  Example returned : exists w1 w, lived [true; false; true] l1 w1 /\ xrun w1 (ACall 0 true :: l2) = Some w /\ w_calls w !! length (w_calls w1) = Some (Call 0 true (Back [Some 2; None; Some 2] [])).
  Proof. eexists _, _. split; [vm_compute; reflexivity|]. split; vm_compute; reflexivity. Qed.
End Ex60.

Print Assumptions C60_delivers.
Print Assumptions C60_each_its_own.
Print Assumptions C60_once.
Print Assumptions C60_refused.
Print Assumptions C60_stops.
Print Assumptions C60_returns.
Print Assumptions C60_no_panic.
Print Assumptions C60_own.
Print Assumptions C60_own_shared_refuted.
Print Assumptions C60_stops_only_its_own_refuted.
Print Assumptions C60_silent_after_shutdown_refuted.
