(** The compare-and-swap loop of AddAtomic ends: a bound on the steps of all goroutines together. *)
From Coq Require Import ZArith Bool Lia.
From stdpp Require Import base list option sets.
From Verif Require Import Num Agg Atom AtomSpec AtomProofs AtomMore AtomBound.
Local Open Scope nat_scope.

Lemma filter_insert {A} (f : A -> bool) (l : list A) t x y : l !! t = Some x ->
  length (List.filter f (<[t := y]> l)) + Nat.b2n (f x) = length (List.filter f l) + Nat.b2n (f y).
Proof.
  revert t. induction l as [|a l IH]; intros [|t] H; try done.
  - cbn in H. injection H as ->. change (<[0 := y]> (x :: l)) with (y :: l). cbn. destruct (f x), (f y); cbn; lia.
  - change (<[Datatypes.S t := y]> (a :: l)) with (a :: <[t := y]> l). specialize (IH t H). cbn. destruct (f a); cbn; lia.
Qed.

Section cas.
Context (N : arith) `{EqDecision N}.
Notation body := (sum_body N (add_float N)).
Notation st := (astate (N:=N) (S:=N)).
Definition active (x : athread (N:=N) (S:=N)) : bool := match at_cur x with Ret _ => false | _ => true end.
(** Calls that have not taken effect yet; [k] calls are still to begin. *)
Definition left (s : st) (k : nat) : nat := length (List.filter active (as_thr s)) + k.
(** [w] steps may be charged to goroutine [t]. *)
Inductive need (L : nat) (s : st) (t : nat) (x : athread (N:=N) (S:=N)) (w : nat) : Prop :=
  | n_ended r : (exists r', AEnd t r' ∈ as_log s) -> at_cur x = Ret r -> need L s t x w
  | n_ret r : at_cur x = Ret r -> 1 <= w -> need L s t x w
  | n_start : at_cur x = body (at_call x) -> 3 * L <= w -> need L s t x w
  | n_fresh a : at_call x = CUpdate a \/ at_call x = CMerge a -> at_cur x = cas_float N a (as_val s (at_obj x)) -> 3 * L <= w + 1 -> need L s t x w
  | n_stale a old : at_call x = CUpdate a \/ at_call x = CMerge a -> at_cur x = cas_float N a old -> 3 * L + 2 <= w -> need L s t x w
  | n_again a : at_call x = CUpdate a \/ at_call x = CMerge a -> at_cur x = Again -> 3 * L + 1 <= w -> need L s t x w.
Definition charged (k : nat) (s : st) (ws : list nat) : Prop :=
  length ws = length (as_thr s) /\ forall t x w, as_thr s !! t = Some x -> ws !! t = Some w -> need (left s k) s t x w.

Lemma active_start c o q : active (AThread o c (body c) q) = true.
Proof. by destruct c. Qed.
(** A step of [t] that does not take effect. *)
Lemma charge_quiet k (s s' : st) ws t x p w w' :
  charged k s ws -> as_thr s !! t = Some x -> ws !! t = Some w -> w' < w -> active x = true ->
  as_thr s' = <[t := AThread (at_obj x) (at_call x) p (at_seq x)]> (as_thr s) -> as_log s' = as_log s -> (forall o, as_val s' o = as_val s o) ->
  active (AThread (at_obj x) (at_call x) p (at_seq x)) = true ->
  need (left s k) s t (AThread (at_obj x) (at_call x) p (at_seq x)) w' ->
  exists ws', charged k s' ws' /\ Datatypes.S (tot ws') <= tot ws /\ left s' k = left s k.
Proof.
  intros [Le C] Hx Hw Lw Ax Et El Ev Ap Ne. pose proof (lookup_lt_Some _ _ _ Hx) as Lt.
  assert (EL : left s' k = left s k).
  { unfold left. rewrite Et. pose proof (filter_insert active _ _ _ (AThread (at_obj x) (at_call x) p (at_seq x)) Hx) as F. rewrite Ax, Ap in F. lia. }
  exists (<[t := w']> ws). split; [|split; [|done]].
  - split; [by rewrite Et, !insert_length|]. rewrite EL.
    assert (Tr : forall u y v, need (left s k) s u y v -> need (left s k) s' u y v).
    { intros u y v [r E1 E2|r E1 E2|E1 E2|a E1 E2 E3|a old E1 E2 E3|a E1 E2 E3].
      - apply (n_ended _ _ _ _ _ r); [by rewrite El|done].
      - by apply (n_ret _ _ _ _ _ r).
      - by apply n_start.
      - apply (n_fresh _ _ _ _ _ a); auto. by rewrite Ev.
      - by apply (n_stale _ _ _ _ _ a old).
      - by apply (n_again _ _ _ _ _ a). }
    intros u y v Hy Hv. apply Tr. rewrite Et in Hy. destruct (decide (u = t)) as [->|Nu].
    + rewrite list_lookup_insert in Hy by done. rewrite list_lookup_insert in Hv by lia. injection Hy as <-. by injection Hv as <-.
    + rewrite list_lookup_insert_ne in Hy by done. rewrite list_lookup_insert_ne in Hv by done. by apply C.
  - pose proof (sum_insert ws t w w' Hw Lw). lia.
Qed.
(** A step of [t] that takes effect. *)
Lemma charge_effect k (s s' : st) ws t x r v w :
  charged k s ws -> as_thr s !! t = Some x -> ws !! t = Some w -> 2 <= w -> active x = true ->
  s' = at_to t x (Ret r) (with_val (at_obj x) v s) ->
  exists ws', charged k s' ws' /\ Datatypes.S (tot ws') <= tot ws /\ Datatypes.S (left s' k) = left s k.
Proof.
  intros [Le C] Hx Hw Lw Ax ->. pose proof (lookup_lt_Some _ _ _ Hx) as Lt.
  assert (EL : Datatypes.S (left (at_to t x (Ret r) (with_val (at_obj x) v s)) k) = left s k).
  { unfold left. cbn [as_thr at_to with_val]. pose proof (filter_insert active _ _ _ (AThread (at_obj x) (at_call x) (Ret r) (at_seq x)) Hx) as F. rewrite Ax in F. cbn in F. lia. }
  exists (<[t := 1]> ws). split; [|split; [|done]].
  - split; [cbn; by rewrite !insert_length|].
    intros u y v' Hy Hv. cbn in Hy. destruct (decide (u = t)) as [->|Nu].
    + rewrite list_lookup_insert in Hy by done. rewrite list_lookup_insert in Hv by lia. injection Hy as <-. injection Hv as <-. by apply (n_ret _ _ _ _ _ r).
    + rewrite list_lookup_insert_ne in Hy by done. rewrite list_lookup_insert_ne in Hv by done.
      destruct (C u y v' Hy Hv) as [r' E1 E2|r' E1 E2|E1 E2|a E1 E2 E3|a old E1 E2 E3|a E1 E2 E3].
      * by apply (n_ended _ _ _ _ _ r').
      * by apply (n_ret _ _ _ _ _ r').
      * apply n_start; [done|lia].
      * apply (n_stale _ _ _ _ _ a (as_val s (at_obj y))); [done|done|lia].
      * apply (n_stale _ _ _ _ _ a old); [done|done|lia].
      * apply (n_again _ _ _ _ _ a); [done|done|lia].
  - pose proof (sum_insert ws t w 1 Hw). lia.
Qed.
Lemma left_pos (s : st) k t x : as_thr s !! t = Some x -> active x = true -> 1 <= left s k.
Proof.
  intros Hx Ax. unfold left. apply elem_of_list_lookup_2, elem_of_list_In in Hx. assert (F : In x (List.filter active (as_thr s))) by (apply filter_In; auto).
  destruct (List.filter active (as_thr s)); [done|]. cbn. lia.
Qed.
Lemma charge_step k (s s' : st) ws l :
  (forall t r, AEnd t r ∈ as_log s -> exists x r', as_thr s !! t = Some x /\ at_cur x = Ret r') ->
  charged (match l with LCall _ _ => Datatypes.S k | _ => k end) s ws -> astep body s l = Some s' ->
  exists ws', charged k s' ws' /\
    Datatypes.S (tot ws' + k * (3 * left s' k + 1)) <= tot ws + match l with LCall _ _ => Datatypes.S k * (3 * left s (Datatypes.S k) + 1) | _ => k * (3 * left s k + 1) end.
Proof.
  intros E C St. destruct l as [o c|t]; cbn in St.
  { injection St as <-. pose proof C as [Le C0].
    assert (EL : left (AState (as_val s) (as_lock s) (as_seq s) (as_thr s ++ [AThread o c (body c) 0%Z]) (as_log s ++ [ABegin (length (as_thr s))])) k = left s (Datatypes.S k)).
    { unfold left. cbn [as_thr]. rewrite List.filter_app. rewrite app_length. cbn [List.filter]. rewrite active_start. cbn. lia. }
    exists (ws ++ [3 * left s (Datatypes.S k)]). split.
    - split; [cbn [as_thr]; rewrite !app_length; cbn; lia|]. rewrite EL. cbn [as_thr]. intros u y v Hy Hv.
      apply lookup_app_Some in Hy as [Hy|[Hl Hy]].
      + rewrite lookup_app_l in Hv by (rewrite Le; by eapply lookup_lt_Some). destruct (C0 u y v Hy Hv) as [r' [r E1] E2|r' E1 E2|E1 E2|a E1 E2 E3|a old E1 E2 E3|a E1 E2 E3].
        * apply (n_ended _ _ _ _ _ r'); [|done]. exists r. cbn. apply elem_of_app. by left.
        * by apply (n_ret _ _ _ _ _ r').
        * by apply n_start.
        * by apply (n_fresh _ _ _ _ _ a).
        * by apply (n_stale _ _ _ _ _ a old).
        * by apply (n_again _ _ _ _ _ a).
      + apply list_lookup_singleton_Some in Hy as [Z <-]. rewrite lookup_app_r in Hv by lia. apply list_lookup_singleton_Some in Hv as [_ <-]. by apply n_start.
    - rewrite EL, tot_snoc. lia. }
  destruct (as_thr s !! t) as [x|] eqn:Hx; [cbn in St|done].
  pose proof C as [Le C0].
  destruct (lookup_lt_is_Some_2 ws t) as [w Hw]; [rewrite Le; by eapply lookup_lt_Some|].
  assert (Quiet : forall p w', w' < w -> active x = true -> as_thr s' = <[t := AThread (at_obj x) (at_call x) p (at_seq x)]> (as_thr s) -> as_log s' = as_log s ->
    (forall o, as_val s' o = as_val s o) -> active (AThread (at_obj x) (at_call x) p (at_seq x)) = true -> need (left s k) s t (AThread (at_obj x) (at_call x) p (at_seq x)) w' ->
    exists ws', charged k s' ws' /\ Datatypes.S (tot ws' + k * (3 * left s' k + 1)) <= tot ws + k * (3 * left s k + 1)).
  { intros p w' A1 A2 A3 A4 A5 A6 A7. destruct (charge_quiet k s s' ws t x p w w' C Hx Hw A1 A2 A3 A4 A5 A6 A7) as (ws' & B1 & B2 & B3). exists ws'. split; [done|]. rewrite B3. lia. }
  assert (Effect : forall r v, 2 <= w -> active x = true -> s' = at_to t x (Ret r) (with_val (at_obj x) v s) ->
    exists ws', charged k s' ws' /\ Datatypes.S (tot ws' + k * (3 * left s' k + 1)) <= tot ws + k * (3 * left s k + 1)).
  { intros r v A1 A2 A3. destruct (charge_effect k s s' ws t x r v w C Hx Hw A1 A2 A3) as (ws' & B1 & B2 & B3). exists ws'. split; [done|]. rewrite <- B3. nia. }
  assert (Same : forall v o, as_val s (at_obj x) = v -> putc (at_obj x) v (as_val s) o = as_val s o).
  { intros v o <-. destruct (decide (o = at_obj x)) as [->|Ne]; [by rewrite putc_eq|by rewrite putc_ne]. }
  assert (Add : forall a, at_call x = CUpdate a \/ at_call x = CMerge a -> body (at_call x) = add_float N a) by (by intros a [-> | ->]).
  destruct (C0 t x w Hx Hw) as [r [r' E1] E2|r E1 E2|E1 E2|a E1 E2 E3|a old E1 E2 E3|a E1 E2 E3].
  - rewrite E2 in St. destruct (existsb _ _) eqn:Ex; [done|]. exfalso. apply not_true_iff_false in Ex. apply Ex. apply existsb_exists.
    exists (AEnd t r'). split; [by apply elem_of_list_In|]. apply Nat.eqb_refl.
  - rewrite E1 in St. destruct (existsb _ _) eqn:Ex; [done|]. injection St as <-. exists (<[t := 0]> ws). split.
    + split; [by rewrite insert_length|]. intros u y v Hy Hv. cbn [as_thr] in Hy. change (left _ k) with (left s k). destruct (decide (u = t)) as [->|Nu].
      * rewrite Hx in Hy. injection Hy as <-. apply (n_ended _ _ _ _ _ r); [|done]. exists r. cbn. apply elem_of_app. right. by apply elem_of_list_singleton.
      * rewrite list_lookup_insert_ne in Hv by done. destruct (C0 u y v Hy Hv) as [r' [r'' F1] F2|r' F1 F2|F1 F2|a F1 F2 F3|a old F1 F2 F3|a F1 F2 F3].
        -- apply (n_ended _ _ _ _ _ r'); [|done]. exists r''. cbn. apply elem_of_app. by left.
        -- by apply (n_ret _ _ _ _ _ r').
        -- by apply n_start.
        -- by apply (n_fresh _ _ _ _ _ a).
        -- by apply (n_stale _ _ _ _ _ a old).
        -- by apply (n_again _ _ _ _ _ a).
    + change (left _ k) with (left s k). pose proof (sum_insert ws t w 0 Hw). lia.
  - assert (Ax : active x = true) by (unfold active; rewrite E1; by destruct (at_call x)).
    pose proof (left_pos s k t x Hx Ax) as LP.
    assert (Cs : (exists a, at_call x = CUpdate a \/ at_call x = CMerge a) \/ at_call x = CMove \/ at_call x = CCopy) by (destruct (at_call x); eauto 6).
    destruct Cs as [[a Ec]|[Ec|Ec]].
    + rewrite (Add a Ec) in E1. rewrite E1 in St. cbn in St. injection St as <-. eapply (Quiet _ (w - 1)); try reflexivity; auto; [lia| |].
      * intros o. cbn. by apply Same.
      * eapply (n_fresh _ _ _ _ _ a); [done|reflexivity|lia].
    + rewrite Ec in E1. rewrite E1 in St. cbn in St. injection St as <-. eapply Effect; try reflexivity; auto. lia.
    + rewrite Ec in E1. rewrite E1 in St. cbn in St. injection St as <-. eapply Effect; try reflexivity; auto. lia.
  - assert (Ax : active x = true) by (unfold active; by rewrite E2). pose proof (left_pos s k t x Hx Ax) as LP.
    rewrite E2 in St. cbn in St. rewrite bool_decide_true in St by done. cbn in St. injection St as <-. eapply Effect; try reflexivity; auto. lia.
  - assert (Ax : active x = true) by (unfold active; by rewrite E2). pose proof (left_pos s k t x Hx Ax) as LP.
    rewrite E2 in St. cbn in St. destruct (bool_decide_reflect (as_val s (at_obj x) = old)) as [Eq|Nq]; cbn in St; injection St as <-.
    + eapply Effect; try reflexivity; auto. lia.
    + eapply (Quiet _ (w - 1)); try reflexivity; auto; [lia| |].
      * intros o. cbn. by apply Same.
      * eapply (n_again _ _ _ _ _ a); [done|reflexivity|lia].
  - assert (Ax : active x = true) by (unfold active; by rewrite E2). pose proof (left_pos s k t x Hx Ax) as LP.
    rewrite E2 in St. injection St as <-. eapply (Quiet (body (at_call x)) (w - 1)); try reflexivity; auto; [lia| |].
    + apply active_start.
    + apply n_start; [done|cbn; lia].
Qed.
Lemma charge_run ls (s s' : st) ws :
  (forall t r, AEnd t r ∈ as_log s -> exists x r', as_thr s !! t = Some x /\ at_cur x = Ret r') ->
  charged (calls ls) s ws -> arun body s ls = Some s' -> length ls <= tot ws + calls ls * (3 * left s (calls ls) + 1).
Proof.
  revert s ws. induction ls as [|l ls IH]; intros s ws E C R; cbn [arun] in R; [cbn; lia|].
  destruct (astep body s l) as [s1|] eqn:St; [cbn in R|done]. rewrite calls_cons in C |- *.
  assert (C' : charged (match l with LCall _ _ => Datatypes.S (calls ls) | _ => calls ls end) s ws) by by destruct l.
  destruct (charge_step _ _ _ _ _ E C' St) as (ws' & C1 & Le). specialize (IH s1 ws' (ended_step _ _ _ _ E St) C1 R).
  cbn [length]. destruct l; cbn [Nat.add] in *; lia.
Qed.
Lemma cas_run ls s : arun body (a_init zero) ls = Some s -> length ls <= calls ls * (3 * calls ls + 1).
Proof.
  intros R. assert (C : charged (calls ls) (a_init zero : st) []) by done.
  apply (charge_run ls _ _ []) in R; [done| |done]. cbn. intros t r Hr. by apply elem_of_nil in Hr.
Qed.
End cas.
