(** More about the periodic reader: which exporter method each call uses, and that every tick exports. *)
From Coq Require Import ZArith Bool String Lia.
From stdpp Require Import base list option strings numbers list_numbers.
From Verif Require Import Per PerSpec PerProofs.

Definition for_method (m : method) (x : pthread) : Prop :=
  match x with
  | LSelect | LCollect _ | LDone => m = Export
  | CStop | CWait => m = Final
  | CCollect m' _ | CReturned m' _ => m' = m /\ m <> Export
  | CPanic => True
  end.
Definition calls_ok (cs : list method) (e : event) : Prop := match e with ECall t m _ | EReturn t m _ => cs !! t = Some m | _ => True end.
Definition is_registered (r : reader) : bool := match rd_producer r with Some _ => true | None => false end.
Definition methods_ok (cs : list method) (r : reader) : Prop := Forall2 for_method cs (rd_threads r) /\ Forall (calls_ok cs) (rd_log r).
Definition later (r : reader) (a : pact) : list method := callers (is_registered r) [a].

Lemma calls_app cs cs' l : Forall (calls_ok cs) l -> Forall (calls_ok (cs ++ cs')) l.
Proof. intros H. eapply Forall_impl; [exact H|]. intros [] X; cbn in *; try done; by apply lookup_app_l_Some. Qed.
Lemma ok_insert cs th t x x' m : Forall2 for_method cs th -> th !! t = Some x -> cs !! t = Some m -> for_method m x' -> Forall2 for_method cs (<[t := x']> th).
Proof. intros F T C X. rewrite <- (list_insert_id cs t m C). by apply Forall2_insert. Qed.
Lemma ok_at cs th t x : Forall2 for_method cs th -> th !! t = Some x -> exists m, cs !! t = Some m /\ for_method m x.
Proof. intros F T. destruct (Forall2_lookup_r _ _ _ _ _ F T) as (m & C & X). eauto. Qed.
Lemma pstep_methods cs r a r' : methods_ok cs r -> pstep r a = Some r' ->
  methods_ok (cs ++ later r a) r' /\ (is_registered r' = true <-> is_registered r = true \/ exists x, a = ARegister x).
Proof.
  intros [F G] E. destruct r as [pr ca wt lk ct th lg]. unfold later, is_registered. cbn [rd_producer rd_threads rd_log] in *.
  assert (K' : forall r', rd_producer r' = pr -> (forall x, a <> ARegister x) -> ((match rd_producer r' with Some _ => true | None => false end) = true <->
     (match pr with Some _ => true | None => false end) = true \/ exists x, a = ARegister x)).
  { intros q -> N. split; [by left|]. intros [?|[x ?]]; [done|by destruct (N x)]. }
  destruct a as [x| | |t|t|t e]; cbn [pstep callers] in E |- *.
  - destruct pr as [y|]; injection E as <-; cbn [rd_producer log_event]; rewrite ?app_nil_r.
    + split; [|split; [by left|done]]. split; [done|]. cbn. apply Forall_app. split; [done|]. by repeat constructor.
    + split; [|split; [by right; eauto|done]]. split; cbn; [apply Forall2_app; [done|by repeat constructor]|by apply calls_app].
  - injection E as <-. split; [|by apply K']. split; cbn; [apply Forall2_app; [done|by repeat constructor]|by apply calls_app].
  - injection E as <-. split; [|by apply K']. split; cbn; [apply Forall2_app; [done|by repeat constructor]|by apply calls_app].
  - rewrite app_nil_r. destruct (th !! t) as [x|] eqn:T; [|done]. destruct (ok_at _ _ _ _ F T) as (m & C & X). destruct x; try done. injection E as <-.
    split; [|by apply K']. split; [by eapply ok_insert|done].
  - rewrite app_nil_r. destruct (th !! t) as [x|] eqn:T; [|done]. destruct (ok_at _ _ _ _ F T) as (m & C & X).
    destruct x as [|p| | | |m' p|m' e|]; try done; cbn in X.
    + destruct ca; [|done]. injection E as <-. split; [|by apply K']. split; [by eapply ok_insert|done].
    + subst m. destruct p as [| |n|n|e]; cbn in E; try done.
      * destruct lk; [done|]. injection E as <-. split; [|by apply K']. split; [by eapply ok_insert|done].
      * destruct pr as [y|]; injection E as <-; (split; [|by apply K']); (split; [by eapply ok_insert|]); cbn; [|done]. apply Forall_app. split; [done|by repeat constructor].
      * injection E as <-. split; [|by apply K']. split; [by eapply ok_insert|]. cbn. apply Forall_app. split; [done|by repeat constructor].
      * destruct e as [e|]; injection E as <-; (split; [|by apply K']); (split; [by eapply ok_insert|]); cbn; [|done]. apply Forall_app. split; [done|by repeat constructor].
    + destruct pr as [y|]; injection E as <-; (split; [|by apply K']); (split; [by eapply ok_insert|done]).
    + subst m. destruct wt; [|done]. injection E as <-. split; [|by apply K']. split; [by eapply ok_insert|done].
    + destruct X as [-> X]. destruct p as [| |n|n|e]; cbn in E; try done.
      * destruct lk; [done|]. injection E as <-. split; [|by apply K']. split; [by eapply ok_insert|done].
      * destruct pr as [y|]; injection E as <-; (split; [|by apply K']); (split; [by eapply ok_insert|]); cbn; [|done]. apply Forall_app. split; [done|by repeat constructor].
      * injection E as <-. split; [|by apply K']. split; [by eapply ok_insert|]. cbn. apply Forall_app. split; [done|by repeat constructor].
      * injection E as <-. split; [|by apply K']. split; [by eapply ok_insert|]. done.
  - rewrite app_nil_r. destruct (th !! t) as [x|] eqn:T; [|done]. destruct (ok_at _ _ _ _ F T) as (m & C & X).
    destruct x as [|p| | | |m' p|m' e'|]; try done; destruct p as [| |n|n|e']; try done; injection E as <-; cbn in X; [|destruct X as [X X']]; subst; (split; [|by apply K']);
      (split; [by eapply ok_insert|]); cbn; apply Forall_app; (split; [done|by repeat constructor]).
Qed.
Lemma callers_cons b a l : callers b (a :: l) = callers b [a] ++ callers (b || match a with ARegister _ => true | _ => false end) l.
Proof. destruct a, b; done. Qed.
Lemma prun_methods l : forall cs r r', methods_ok cs r -> prun r l = Some r' -> methods_ok (cs ++ callers (is_registered r) l) r'.
Proof.
  induction l as [|a l IH]; intros cs r r' M E; cbn [prun] in E; [injection E as <-; cbn; by rewrite app_nil_r|].
  destruct (pstep r a) as [r1|] eqn:E1; [|done]. cbn in E. destruct (pstep_methods _ _ _ _ M E1) as [M1 R]. rewrite callers_cons, app_assoc.
  assert (is_registered r1 = is_registered r || match a with ARegister _ => true | _ => false end) as <-; [|by apply IH].
  destruct (is_registered r1).
  - symmetry. apply orb_true_iff. destruct (proj1 R eq_refl) as [->|[x ->]]; [by left|by right].
  - destruct (is_registered r); [by rewrite (proj2 R ltac:(by left))|]. destruct a; cbn; try done. assert (false = true) by (apply R; right; eauto). done.
Qed.

(** Ticks. *)
Definition on_way (th : list pthread) : nat := sum_list_with (fun x => if about_to_export x then 1 else 0) th.
Lemma on_way_insert th t x x' : th !! t = Some x ->
  on_way (<[t := x']> th) + (if about_to_export x then 1 else 0) = on_way th + (if about_to_export x' then 1 else 0).
Proof.
  intros T. unfold on_way. rewrite <- (take_drop_middle th t x T) at 2. rewrite (insert_take_drop _ _ _ (lookup_lt_Some _ _ _ T)), !sum_list_with_app. cbn. lia.
Qed.
Lemma begun_app l e : begun (l ++ [e]) = begun l + begun [e].
Proof. unfold begun. by rewrite List.filter_app, app_length. Qed.
Lemma on_way_new th x : about_to_export x = false -> on_way (th ++ [x]) = on_way th.
Proof. intros H. unfold on_way. rewrite sum_list_with_app. cbn. rewrite H. lia. Qed.
Lemma pstep_ticks cs r ss a r' : inv r ss -> methods_ok cs r -> pstep r a = Some r' -> begun (rd_log r') + on_way (rd_threads r') = begun (rd_log r) + on_way (rd_threads r) + ticks [a].
Proof.
  intros I [M _] E. destruct r as [pr ca wt lk ct th lg]. cbn [rd_log rd_threads] in *.
  assert (Z : forall t x x' l', th !! t = Some x -> about_to_export x = about_to_export x' -> begun l' = begun lg -> begun l' + on_way (<[t := x']> th) = begun lg + on_way th + 0).
  { intros t x x' l' T A B. pose proof (on_way_insert th t x x' T) as O. rewrite A in O. lia. }
  destruct a as [x| | |t|t|t e]; cbn [pstep] in E.
  - change (ticks [ARegister x]) with 0. destruct pr as [y|]; injection E as <-; cbn [rd_log rd_threads log_event].
    + rewrite begun_app. change (begun [EHandle None]) with 0. lia.
    + rewrite on_way_new by done. lia.
  - change (ticks [AFlush]) with 0. injection E as <-; cbn [rd_log rd_threads spawn]. rewrite on_way_new by done. lia.
  - change (ticks [AShut]) with 0. injection E as <-; cbn [rd_log rd_threads spawn]. rewrite on_way_new by done. lia.
  - destruct (th !! t) as [x|] eqn:T; [|done]. destruct x; try done. injection E as <-. cbn [rd_log rd_threads set_thread]. change (ticks [Tick t]) with 1. pose proof (on_way_insert th t _ (LCollect Locking) T) as O. cbn [about_to_export] in O. lia.
  - change (ticks [Go t]) with 0. destruct (th !! t) as [x|] eqn:T; [|done].
    destruct x as [|p| | | |m' p|m' e|]; try done.
    + destruct ca; [|done]. injection E as <-. by eapply Z.
    + destruct p as [| |n|n|e]; cbn in E; try done.
      * destruct lk; [done|]. injection E as <-. by eapply Z.
      * destruct pr as [y|]; injection E as <-; cbn; [eapply Z; [done|done|by rewrite begun_app, Nat.add_0_r]|].
        exfalso. destruct I as (_ & _ & _ & P & _). by destruct (loop_running _ _ _ _ _ _ P T eq_refl ltac:(done)).
      * injection E as <-. cbn [rd_log rd_threads set_thread]. rewrite begun_app. change (begun [ECall t Export n]) with 1. pose proof (on_way_insert th t _ (LCollect (Calling n)) T) as O. cbn [about_to_export] in O. lia.
      * destruct e as [e|]; injection E as <-; cbn; (eapply Z; [done|done|]); [by rewrite begun_app, Nat.add_0_r|done].
    + destruct pr as [y|]; injection E as <-; by eapply Z.
    + destruct wt; [|done]. injection E as <-. by eapply Z.
    + destruct p as [| |n|n|e]; cbn in E; try done.
      * destruct lk; [done|]. injection E as <-. by eapply Z.
      * destruct pr as [y|]; injection E as <-; cbn; (eapply Z; [done|done|]); [by rewrite begun_app, Nat.add_0_r|done].
      * injection E as <-. cbn. eapply Z; [done|done|]. destruct (ok_at _ _ _ _ M T) as (m & _ & -> & Ne). rewrite begun_app. by destruct m; rewrite ?Nat.add_0_r.
      * injection E as <-. by eapply Z.
  - change (ticks [Exported t e]) with 0. destruct (th !! t) as [x|] eqn:T; [|done].
    destruct x as [|p| | | |m' p|m' e'|]; try done; destruct p as [| |n|n|e']; try done; injection E as <-; cbn; (eapply Z; [done|done|]);
      rewrite begun_app; by rewrite Nat.add_0_r.
Qed.
Lemma prun_ticks l : forall cs r ss r', inv r ss -> methods_ok cs r -> prun r l = Some r' ->
  begun (rd_log r') + on_way (rd_threads r') = begun (rd_log r) + on_way (rd_threads r) + ticks l.
Proof.
  induction l as [|a l IH]; intros cs r ss r' I M E; cbn [prun] in E; [injection E as <-; cbn; lia|].
  destruct (pstep r a) as [r1|] eqn:E1; [|done]. cbn in E. destruct (pstep_methods _ _ _ _ M E1) as [M1 _]. destruct (pstep_inv _ _ _ _ I E1) as [s I1].
  pose proof (pstep_ticks _ _ _ _ _ I M E1). pose proof (IH _ _ _ _ I1 M1 E).
  assert (ticks (a :: l) = ticks [a] + ticks l) as -> by (unfold ticks; cbn; by destruct a). lia.
Qed.
Lemma new_methods : methods_ok [] new_reader.
Proof. split; constructor. Qed.
Lemma on_way_none th : (forall t x, th !! t = Some x -> about_to_export x = false) -> on_way th = 0.
Proof.
  induction th as [|x th IH]; intros H; [done|]. unfold on_way. cbn. rewrite (H 0 x eq_refl). apply IH. intros t y. exact (H (S t) y).
Qed.
Lemma on_way_one r ss : inv r ss -> (exists t x, rd_threads r !! t = Some x /\ about_to_export x = true /\ on_way (rd_threads r) = 1) \/
  ((forall t x, rd_threads r !! t = Some x -> about_to_export x = false) /\ on_way (rd_threads r) = 0).
Proof.
  destruct r as [pr ca wt lk ct th lg]. intros (_ & _ & _ & P & _). cbn [rd_threads]. unfold loop_ok in P.
  assert (A : forall x, about_to_export x = true -> is_loop x = true) by (intros []; done).
  destruct pr as [y|].
  - destruct P as (t0 & x0 & T0 & I0 & U & _).
    assert (N : forall t x, <[t0 := LSelect]> th !! t = Some x -> about_to_export x = false).
    { intros t x H. apply list_lookup_insert_Some in H as [(-> & <- & _)|[Ne H]]; [done|]. destruct (about_to_export x) eqn:B; [|done]. destruct Ne. symmetry. apply (U t x H), A, B. }
    pose proof (on_way_insert th t0 x0 LSelect T0) as O. rewrite (on_way_none _ N) in O. cbn in O. destruct (about_to_export x0) eqn:B.
    + left. exists t0, x0. split; [done|]. split; [done|lia].
    + right. split; [|lia]. intros t x H. destruct (about_to_export x) eqn:B'; [|done]. rewrite (U t x H (A x B')) in H. congruence.
  - right. destruct P as (_ & N & _). assert (N' : forall t x, th !! t = Some x -> about_to_export x = false).
    { intros t x H. destruct (about_to_export x) eqn:B; [|done]. destruct (N t x H) as [N1 _]. by rewrite (A x B) in N1. }
    split; [done|]. by apply on_way_none.
Qed.

(** Registrations. *)
Lemma refused_app l e : refused (l ++ [e]) = refused l + refused [e].
Proof. unfold refused. by rewrite List.filter_app, app_length. Qed.
Lemma pstep_refused r a r' : pstep r a = Some r' ->
  refused (rd_log r') + (if is_registered r' then 1 else 0) = refused (rd_log r) + (if is_registered r then 1 else 0) + registrations [a].
Proof.
  intros E. destruct r as [pr ca wt lk ct th lg]. unfold is_registered. cbn [rd_log rd_producer].
  assert (Z : forall l', refused l' = refused lg -> refused l' + (if match pr with Some _ => true | None => false end then 1 else 0) =
                         refused lg + (if match pr with Some _ => true | None => false end then 1 else 0) + 0) by (intros l' ->; lia).
  destruct a as [x| | |t|t|t e].
  - change (registrations [ARegister x]) with 1. cbn [pstep] in E. destruct pr as [y|]; injection E as <-; cbn [rd_log rd_producer log_event]; [|lia].
    rewrite refused_app. change (refused [EHandle None]) with 1. lia.
  - injection E as <-. by apply Z.
  - injection E as <-. by apply Z.
  - change (registrations [Tick t]) with 0. cbn [pstep] in E. destruct (th !! t) as [[]|]; try done. injection E as <-. by apply Z.
  - change (registrations [Go t]) with 0. cbn [pstep] in E. destruct (th !! t) as [x|]; [|done]. destruct x as [|p| | | |m' p|m' e|]; try done.
    + destruct ca; [|done]. injection E as <-. by apply Z.
    + destruct p as [| |n|n|e]; cbn in E; try done.
      * destruct lk; [done|]. injection E as <-. by apply Z.
      * destruct pr as [y|]; injection E as <-; apply Z; first [done|(cbn [rd_log set_thread log_event]; rewrite ?refused_app, ?Nat.add_0_r; done)].
      * injection E as <-. apply Z. (cbn [rd_log set_thread log_event]; rewrite ?refused_app, ?Nat.add_0_r; done).
      * destruct e as [e|]; injection E as <-; apply Z; first [done|(cbn [rd_log set_thread log_event]; rewrite ?refused_app, ?Nat.add_0_r; done)].
    + destruct pr as [y|]; injection E as <-; by apply Z.
    + destruct wt; [|done]. injection E as <-. by apply Z.
    + destruct p as [| |n|n|e]; cbn in E; try done.
      * destruct lk; [done|]. injection E as <-. by apply Z.
      * destruct pr as [y|]; injection E as <-; apply Z; first [done|(cbn [rd_log set_thread log_event]; rewrite ?refused_app, ?Nat.add_0_r; done)].
      * injection E as <-. apply Z. (cbn [rd_log set_thread log_event]; rewrite ?refused_app, ?Nat.add_0_r; done).
      * injection E as <-. by apply Z.
  - change (registrations [Exported t e]) with 0. cbn [pstep] in E. destruct (th !! t) as [x|]; [|done].
    destruct x as [|p| | | |m' p|m' e'|]; try done; destruct p as [| |n|n|e']; try done; injection E as <-; apply Z; (cbn [rd_log set_thread log_event]; rewrite ?refused_app, ?Nat.add_0_r; done).
Qed.
Lemma prun_refused l : forall r r', prun r l = Some r' ->
  refused (rd_log r') + (if is_registered r' then 1 else 0) = refused (rd_log r) + (if is_registered r then 1 else 0) + registrations l.
Proof.
  induction l as [|a l IH]; intros r r' E; cbn [prun] in E; [injection E as <-; cbn; lia|].
  destruct (pstep r a) as [r1|] eqn:E1; [|done]. cbn in E. pose proof (pstep_refused _ _ _ E1). pose proof (IH _ _ E).
  assert (registrations (a :: l) = registrations [a] + registrations l) as -> by (unfold registrations; cbn; by destruct a). lia.
Qed.
