(** C60: what becomes of a manual reader that is given more than once. *)
From Coq Require Import ZArith Bool String Lia.
From stdpp Require Import base list list_numbers option strings.
From Verif Require Import Lib Per PerSpec Calls CallsSpec CallsProofs CallsProps.
Local Open Scope nat_scope.

(** How often reader [r] has been registered so far, by all providers. *)
Definition given (w : world) (r : nat) : nat :=
  foldr Nat.add 0 (map (fun mp => length (List.filter (fun x => Nat.eqb x.1 r) (take (mp_ready mp) (mp_readers mp)))) (w_provs w)).

Lemma sum_insert_eq (l : list nat) i a b : l !! i = Some a -> foldr Nat.add 0 (<[i := b]> l) + a = foldr Nat.add 0 l + b.
Proof.
  revert i. induction l as [|x l IH]; intros [|i] H; try done.
  - injection H as ->. change (<[0 := b]> (a :: l)) with (b :: l). cbn. lia.
  - change (<[S i := b]> (x :: l)) with (x :: <[i := b]> l). specialize (IH i H). cbn. lia.
Qed.
Lemma given_same w w' r :
  (forall mp, (mp_readers mp, mp_ready mp) = (mp_readers mp, mp_ready mp)) ->
  map (fun mp => (mp_readers mp, mp_ready mp)) (w_provs w') = map (fun mp => (mp_readers mp, mp_ready mp)) (w_provs w) -> given w' r = given w r.
Proof.
  intros _ E. unfold given. f_equal. revert E. generalize (w_provs w). induction (w_provs w') as [|a l IH]; intros [|b l']; cbn; try done.
  intros [= E1 E2 E3]. rewrite E1, E2, (IH l' E3). done.
Qed.
Lemma map_insert_same {A B} (g : A -> B) (l : list A) i x y : l !! i = Some x -> g y = g x -> map g (<[i := y]> l) = map g l.
Proof.
  intros H E. change (map g) with (fmap (M:=list) g). rewrite list_fmap_insert, E. apply list_insert_id. rewrite list_lookup_fmap, H. done.
Qed.
Definition tally (w : world) : Prop :=
  forall r p n, w_readers w !! r = Some (Manual p n) -> n = given w r - 1 /\ (p = None <-> given w r = 0).
(** Steps that register nothing. *)
Lemma tally_other w w' :
  tally w -> (forall r p n, w_readers w' !! r = Some (Manual p n) -> w_readers w !! r = Some (Manual p n)) -> (forall r, given w' r = given w r) -> tally w'.
Proof. intros T R G r p n H. rewrite G. by apply T, R. Qed.
Lemma tally_step w a w' : tally w -> xstep w a = Some w' -> tally w'.
Proof.
  intros T E.
  assert (Put : forall w1 r rd rd', w_readers w !! r = Some (Periodic rd) -> w_readers w1 = <[r := Periodic rd']> (w_readers w) ->
            forall u p n, w_readers w1 !! u = Some (Manual p n) -> w_readers w !! u = Some (Manual p n)).
  { intros w1 r rd rd' X H u p n U. rewrite H in U. by apply list_lookup_insert_Some in U as [(_ & ? & _)|[_ U]]. }
  destruct a as [l|p|p f|c|r a]; cbn in E.
  - destruct (forallb _ l); [|done]. injection E as <-. apply (tally_other w); [done|done|]. intros r. unfold given. cbn. rewrite map_app. cbn.
    induction (map _ (w_provs w)) as [|x l' IH]; cbn; [done|]. lia.
  - destruct (w_provs w !! p) as [mp|] eqn:P; [|done]. cbn in E. destruct (mp_readers mp !! mp_ready mp) as [[r y]|] eqn:R; [|done]. cbn in E.
    destruct (w_readers w !! r) as [x|] eqn:X; [|done]. cbn in E. destruct (register x y) as [x'|] eqn:G; [|done]. injection E as <-.
    assert (Gi : forall u, given (set_prov (set_reader w r x') p (Provider (mp_readers mp) (S (mp_ready mp)) (mp_shut mp))) u = given w u + if decide (u = r) then 1 else 0).
    { intros u. unfold given. cbn. change (map ?g) with (fmap (M:=list) g). rewrite list_fmap_insert. cbn.
      set (g := fun mp0 : provider => length (List.filter (fun x0 : nat * string => x0.1 =? u) (take (mp_ready mp0) (mp_readers mp0)))).
      assert (H : (g <$> w_provs w) !! p = Some (g mp)) by (by rewrite list_lookup_fmap, P).
      pose proof (sum_insert_eq _ _ _ (length (List.filter (fun x0 : nat * string => x0.1 =? u) (take (S (mp_ready mp)) (mp_readers mp)))) H) as Q.
      assert (Q2 : length (List.filter (fun x0 : nat * string => x0.1 =? u) (take (S (mp_ready mp)) (mp_readers mp))) = g mp + if decide (u = r) then 1 else 0).
      { unfold g. rewrite (take_S_r _ _ _ R), List.filter_app, app_length. f_equal. cbn. destruct (decide (u = r)) as [E0|Ne]; [by rewrite (proj2 (Nat.eqb_eq r u))|].
        by rewrite (proj2 (Nat.eqb_neq r u)) by done. }
      lia. }
    intros u q n U. rewrite Gi. cbn in U. apply list_lookup_insert_Some in U as [(Eu & Ex & _)|[Ne U]].
    + subst u. rewrite decide_True by done. destruct x as [[z|] k|rd]; cbn in G.
      * injection G as <-. injection Ex as <- <-. destruct (T _ _ _ X) as [A B]. assert (given w r <> 0) by (intros Z; by apply B in Z). split; [lia|]. split; [done|lia].
      * injection G as <-. injection Ex as <- <-. destruct (T _ _ _ X) as [A B]. assert (given w r = 0) by (by apply B). split; [lia|]. split; [done|lia].
      * destruct (pstep rd (ARegister y)); [|done]. injection G as <-. done.
    + rewrite decide_False by done. rewrite Nat.add_0_r. by apply T.
  - destruct (w_provs w !! p) as [mp|] eqn:P; [|done]. cbn in E. destruct (Nat.eqb _ _); [|done]. injection E as <-. by apply (tally_other w).
  - unfold go in E. destruct (w_calls w !! c) as [[p f x]|] eqn:C; [|done]. cbn in E. destruct (w_provs w !! p) as [mp|] eqn:P; [|done]. cbn in E.
    destruct x as [|k ts errs|k t ts errs|ts errs|]; [| | |done|done].
    + destruct f; [destruct (mp_shut mp)|]; injection E as <-; (apply (tally_other w); [done|done|]); try done.
      intros r. apply given_same; [done|]. cbn. by eapply map_insert_same.
    + destruct (mp_readers mp !! k) as [[r y]|]; [|injection E as <-; by apply (tally_other w)].
      destruct (w_readers w !! r) as [[q n|rd]|] eqn:X; [injection E as <-; by apply (tally_other w)| |done].
      destruct (pstep rd _) as [rd'|] eqn:S; [|done]. injection E as <-. apply (tally_other w); [done| |done]. by eapply Put.
    + destruct (mp_readers mp !! k) as [[r y]|]; [|done]. cbn in E. destruct (w_readers w !! r) as [[q n|rd]|]; [done| |done]. destruct (rd_threads rd !! t) as [[]|]; try done. injection E as <-. by apply (tally_other w).
  - destruct (w_readers w !! r) as [x|] eqn:X; [|done]. cbn in E.
    assert (Z : exists rd rd', x = Periodic rd /\ w' = set_reader w r (Periodic rd')).
    { destruct x as [q n|rd]; [by destruct a|]. exists rd. destruct a; try done; try (destruct (rd_producer rd); [|done]);
        match type of E with context [pstep rd ?b] => destruct (pstep rd b) as [rd'|]; [|done] end; injection E as <-; by exists rd'. }
    destruct Z as (rd & rd' & -> & ->). apply (tally_other w); [done| |done]. by eapply Put.
Qed.
(** A manual reader that has been registered reports to otel.Handle every registration after the first, no other, and has a producer from the first on. *)
Theorem C60_manual kinds l w r p n : lived kinds l w -> w_readers w !! r = Some (Manual p n) -> n = given w r - 1 /\ (p = None <-> given w r = 0).
Proof.
  intros L. revert r p n. change (tally w).
  assert (G : forall l w0, tally w0 -> xrun w0 l = Some w -> tally w).
  { clear. induction l as [|a l IH]; intros w0 S E; cbn in E; [by injection E as <-|]. destruct (xstep w0 a) as [w1|] eqn:St; [|done]. cbn in E. eapply IH; [|done]. by eapply tally_step. }
  eapply G; [|exact L]. intros r p n H. cbn in H. apply list_lookup_fmap_Some in H as ([] & _ & E); [done|]. by injection E as -> ->.
Qed.
(** The first producer stays. *)
Theorem C60_manual_first w l w' r y n : w_readers w !! r = Some (Manual (Some y) n) -> xrun w l = Some w' -> exists n', w_readers w' !! r = Some (Manual (Some y) n') /\ n <= n'.
Proof.
  revert w n. induction l as [|a l IH]; intros w n H E; cbn in E; [injection E as <-; eauto|].
  destruct (xstep w a) as [w1|] eqn:St; [cbn in E|done].
  assert (Q : exists n1, w_readers w1 !! r = Some (Manual (Some y) n1) /\ n <= n1).
  { assert (Put : forall w1 u rd rd', w_readers w !! u = Some (Periodic rd) -> w_readers w1 = <[u := Periodic rd']> (w_readers w) -> w_readers w1 !! r = Some (Manual (Some y) n)).
    { intros w2 u rd rd' X ->. rewrite list_lookup_insert_ne; [done|]. intros ->. congruence. }
    clear IH E. destruct a as [k|p|p f|c|u a]; cbn in St.
    - destruct (forallb _ k); [|done]. injection St as <-. eauto.
    - destruct (w_provs w !! p) as [mp|] eqn:P; [|done]. cbn in St. destruct (mp_readers mp !! mp_ready mp) as [[u z]|] eqn:R; [|done]. cbn in St.
      destruct (w_readers w !! u) as [x|] eqn:X; [|done]. cbn in St. destruct (register x z) as [x'|] eqn:G; [|done]. injection St as <-. cbn.
      destruct (decide (u = r)) as [->|Ne]; [|rewrite list_lookup_insert_ne by done; eauto].
      rewrite list_lookup_insert by (by eapply lookup_lt_Some). rewrite H in X. injection X as <-. cbn in G. injection G as <-. exists (S n). split; [done|lia].
    - destruct (w_provs w !! p) as [mp|]; [|done]. cbn in St. destruct (Nat.eqb _ _); [|done]. injection St as <-. eauto.
    - unfold go in St. destruct (w_calls w !! c) as [[p f x]|]; [|done]. cbn in St. destruct (w_provs w !! p) as [mp|]; [|done]. cbn in St.
      destruct x as [|k ts errs|k t ts errs|ts errs|]; [| | |done|done].
      + destruct f; [destruct (mp_shut mp)|]; injection St as <-; eauto.
      + destruct (mp_readers mp !! k) as [[u z]|]; [|injection St as <-; eauto].
        destruct (w_readers w !! u) as [[q m|rd]|] eqn:X; [injection St as <-; eauto| |done].
        destruct (pstep rd _) as [rd'|]; [|done]. injection St as <-. exists n. split; [|done]. by eapply Put.
      + destruct (mp_readers mp !! k) as [[u z]|]; [|done]. cbn in St. destruct (w_readers w !! u) as [[q m|rd]|]; [done| |done]. destruct (rd_threads rd !! t) as [[]|]; try done. injection St as <-. eauto.
    - destruct (w_readers w !! u) as [x|] eqn:X; [|done]. cbn in St.
      assert (Z : exists rd rd', x = Periodic rd /\ w1 = set_reader w u (Periodic rd')).
      { destruct x as [q m|rd]; [by destruct a|]. exists rd. destruct a; try done; try (destruct (rd_producer rd); [|done]);
          match type of St with context [pstep rd ?b] => destruct (pstep rd b) as [rd'|]; [|done] end; injection St as <-; by exists rd'. }
      destruct Z as (rd & rd' & -> & ->). exists n. split; [|done]. by eapply Put. }
  destruct Q as (n1 & H1 & L1). destruct (IH w1 n1 H1 E) as (n2 & H2 & L2). exists n2. split; [done|lia].
Qed.

Module Ex60m.
(** One manual reader given to two providers. *)
Definition twice : list xact := [ANew [(0, "a"%string)]; ANew [(0, "b"%string)]; AReg 1; AReg 0].
Example twice_end : option_map (fun w => (w_readers w, given w 0)) (xrun (new_world [false]) twice) = Some ([Manual (Some "b"%string) 1], 2).
Proof. vm_compute. done. Qed.
End Ex60m.

Print Assumptions C60_manual.
Print Assumptions C60_manual_first.
