(** C61: registering and unregistering callbacks while collections run. *)
From Coq Require Import Bool Lia.
From stdpp Require Import base list option sets.
From Verif Require Import Lib Reg RegSpec RegProofs RegMore.

(** In every schedule, a callback runs only after its registration, and no goroutine crashes. *)
Theorem C61_registered_first grow l s : rlived grow l s ->
  (forall l1 t r l2, s_log s = l1 ++ ERun t r :: l2 -> ERegister r ∈ l1) /\ (forall t, s_threads s !! t <> Some CCrash).
Proof. intros L. pose proof (rrun_inv _ _ _ _ rinit_inv L) as I. split; [exact (ri_runs _ I)|]. intros t T. exact (ri_thr _ I _ _ T). Qed.
(** Of all calls of Unregister of one registration at most one returns nil, and the others return ErrAlreadyUnregistered after that. *)
Theorem C61_once grow l s : rlived grow l s ->
  (forall l1 t r l2 t' l3, s_log s <> l1 ++ EUnregistered t r true :: l2 ++ EUnregistered t' r true :: l3) /\
  (forall l1 t r l2, s_log s = l1 ++ EUnregistered t r false :: l2 -> exists t', EUnregistered t' r true ∈ l1).
Proof.
  intros L. pose proof (rrun_inv _ _ _ _ rinit_inv L) as I. split; [|exact (ri_lost _ I)]. intros l1 t r l2 t' l3 E. pose proof (ri_wins _ I r) as W.
  rewrite E in W. rewrite app_comm_cons, app_assoc, wins_app in W. change (l1 ++ EUnregistered t r true :: l2) with (l1 ++ ([EUnregistered t r true] ++ l2)) in W. rewrite !wins_app in W.
  change (EUnregistered t' r true :: l3) with ([EUnregistered t' r true] ++ l3) in W. rewrite wins_app in W. unfold wins at 2 4 in W. cbn in W. rewrite !bool_decide_true in W by done. cbn in W.
  destruct (s_regs s !! r) as [[[] b]|]; lia.
Qed.
(** In every schedule, a collection runs at most as many callbacks as were registered when it began. *)
Theorem C61_bounded grow l1 s1 l2 s : rlived grow l1 s1 -> rrun grow s1 (ACollect :: l2) = Some s ->
  length (ran (length (s_threads s1)) (s_log s)) <= length (s_regs s1).
Proof.
  intros L E. pose proof (rrun_inv _ _ _ _ rinit_inv L) as I. cbn in E. pose proof (ri_hdr _ I) as (a & _ & _ & H & _).
  set (t := length (s_threads s1)) in *. set (s2 := say _ _) in E. assert (B : bounded s2 t (length (s_regs s1))).
  { unfold bounded. cbn [s2 s_threads s_log say spawn]. subst t. rewrite list_lookup_middle by done. rewrite ran_app, app_nil_r, (ri_fresh _ I) by done. cbn. lia. }
  assert (I2 : rinv s2) by (eapply (rstep_inv grow s1 ACollect); [exact I|done]).
  pose proof (rrun_bounded _ _ _ _ _ _ I2 B E) as B'. unfold bounded in B'. destruct (s_threads s !! t) as [[]|]; try done. lia.
Qed.
(** Every call of Unregister and every collection returns: without new calls there are boundedly many steps, and when no step is left all have returned. *)
Theorem C61_returns grow l s l' s' : rlived grow l s -> Forall (fun a => exists t, a = AGo t) l' -> rrun grow s l' = Some s' ->
  length l' <= (length (s_regs s) + 7) * length (s_threads s) /\ ((forall t, rstep grow s' (AGo t) = None) -> calm s').
Proof.
  intros L F E. pose proof (rrun_inv _ _ _ _ rinit_inv L) as I. split.
  - assert (M : length l' <= steps_left (length (s_regs s)) (s_threads s)).
    { clear L. revert s I E. induction F as [|a l' (t & ->) F IH]; intros s I E; cbn; [lia|]. cbn [rrun] in E. destruct (rstep grow s (AGo t)) as [s1|] eqn:S; [|done]. cbn in E.
      destruct (rgo_steps _ _ _ _ I S) as (E1 & _ & D). specialize (IH s1 (rstep_inv _ _ _ _ I S) E). rewrite E1 in IH. lia. }
    etransitivity; [exact M|]. unfold steps_left. pose proof (ri_thr _ I) as Ok. revert Ok. generalize (s_threads s). intros xs Ok. induction xs as [|x xs IH]; [cbn; lia|]. cbn [map list_sum foldr length].
    assert (steps_of (length (s_regs s)) x <= length (s_regs s) + 7).
    { specialize (Ok 0 x eq_refl). destruct x; cbn in *; try lia; destruct Ok as (H1 & H2); first [destruct H1 as (? & ? & ? & ? & ?)|destruct H2 as (? & ? & ? & ? & ?)]; lia. }
    specialize (IH (fun t y H => Ok (S t) y H)). unfold list_sum in IH. lia.
  - intros N. pose proof (rrun_inv _ _ _ _ I E) as I'. apply list.Forall_lookup. intros t x T. destruct (finished x) eqn:Fx; [done|]. destruct (rgo_unfinished grow _ _ _ I' T Fx) as (t' & s2 & S & _). by rewrite N in S.
Qed.
(** When no Unregister overlaps another one or a registration, a collection that no Unregister overlaps runs exactly the callbacks that were registered
    and not unregistered when it began, each once.  Registrations and other collections can overlap it. *)
Theorem C61_exact grow l1 s1 l2 s : rlived grow l1 s1 -> rrun grow s1 (ACollect :: l2) = Some s -> solo grow rinit l1 = true ->
  existsb removing (s_threads s1) = false -> spares grow (length (s_threads s1)) s1 (ACollect :: l2) = true ->
  ECollected (length (s_threads s1)) ∈ s_log s ->
  NoDup (ran (length (s_threads s1)) (s_log s)) /\
  forall r, r ∈ ran (length (s_threads s1)) (s_log s) <-> registered s1 r /\ ~ unregistered s1 r.
Proof.
  intros L E So N Sp D. pose proof (rrun_inv _ _ _ _ rinit_inv L) as I. pose proof (rrun_quiet _ _ _ _ rinit_inv rinit_quiet So L) as Q.
  destruct (rq_none _ Q N) as (C & HC & Nd & M). set (t := length (s_threads s1)) in *.
  assert (Z : forall q, there s1 q <-> registered s1 q /\ ~ unregistered s1 q).
  { intros q. unfold registered, unregistered. rewrite (ri_reg _ I). pose proof (ri_wins _ I q) as W. split.
    - intros [b H]. split; [by eapply lookup_lt_Some|]. intros [u Hu]. rewrite H in W. unfold wins in W. apply elem_of_list_In in Hu.
      assert (Hi : In (EUnregistered u q true) (List.filter (won q) (s_log s1))) by (apply List.filter_In; split; [done|cbn; by apply bool_decide_eq_true]).
      by destruct (List.filter (won q) (s_log s1)).
    - intros [H U]. destruct (lookup_lt_is_Some_2 _ _ H) as [[[] b] Hq]; [by exists b|]. rewrite Hq in W. unfold wins in W. destruct (List.filter (won q) (s_log s1)) as [|e f] eqn:F; [done|].
      assert (He : In e (List.filter (won q) (s_log s1))) by (rewrite F; by left). apply List.filter_In in He as [He1 He2]. destruct e as [|u q' [] | | |]; try done. apply bool_decide_eq_true in He2 as ->. destruct U. exists u. by apply elem_of_list_In. }
  cbn [rrun rstep] in E. cbn [spares rstep] in Sp. apply andb_prop in Sp as [_ Sp]. set (s2 := say _ _) in E, Sp. change (rrun grow s2 l2 = Some s) in E.
  assert (I2 : rinv s2) by (eapply (rstep_inv grow s1 ACollect); [exact I|done]).
  assert (T2 : s_threads s2 !! t = Some (CLoop (s_callbacks s1) 0)) by (cbn; by apply list_lookup_middle).
  assert (Ln : lone s2 t). { intros h i _ u y Hy. cbn in Hy. apply lookup_snoc in Hy as [Hy|[_ ->]]; [|done]. rewrite existsb_none in N. by eapply N. }
  assert (J : loop_ok s2 t C).
  { unfold loop_ok. rewrite T2. destruct (ri_hdr _ I) as (a & A & H1 & _). split; [exact HC|]. split; [|split; [|split; [|done]]].
    - apply (f_equal length) in HC. rewrite fmap_length in HC. rewrite <- HC. unfold contents. rewrite A. cbn. rewrite take_length. lia.
    - cbn [s2 s_log say spawn]. rewrite ran_app, app_nil_r. by rewrite (ri_fresh _ I).
    - by eapply lookup_lt_Some. }
  pose proof (rrun_loop _ _ _ _ _ _ I2 Ln Sp E J) as J'.
  assert (K : closed s). { eapply (rrun_closed grow rinit (l1 ++ ACollect :: l2)); [by intros u H%elem_of_nil|]. rewrite rrun_app. unfold rlived in L. rewrite L. cbn. exact E. }
  unfold loop_ok in J'. rewrite (K _ D) in J'. rewrite J'. split; [done|]. intros q. by rewrite M.
Qed.

(** ** What Unregister does not give *)
(** As Go grows slices of less than 256 elements. *)
Definition doubling (n : nat) : nat := n - 1.
Fixpoint times {X} (n : nat) (x : X) : list X := match n with O => [] | S n => x :: times n x end.

(** A registration during an Unregister of another callback can be lost: all calls have returned, the callback was never unregistered, and no collection runs it. *)
Definition lost1 : list ract := [ARegister; ARegister; AUnregister 0; AGo 0; AGo 0; ARegister; AGo 0; AGo 0; AGo 0; AGo 0; AGo 0].
Definition lost2 : list ract := [ACollect; AGo 1; AGo 1].
Theorem C61_lost_refuted : exists s1 s, rlived doubling lost1 s1 /\ calm s1 /\ registered s1 2 /\ ~ unregistered s1 2 /\
  rrun doubling s1 lost2 = Some s /\ ECollected 1 ∈ s_log s /\ ran 1 (s_log s) = [1].
Proof.
  eexists _, _. split; [vm_compute; reflexivity|]. split; [repeat constructor|]. split; [unfold registered; cbn; set_solver|]. split; [intros [t H]; cbn in H; set_solver|].
  split; [vm_compute; reflexivity|]. split; [cbn; set_solver|]. vm_compute. reflexivity.
Qed.
(** Two calls of Unregister at once: both return nil, and one of the callbacks still runs. *)
Definition alive1 : list ract := [ARegister; ARegister; AUnregister 0; AUnregister 1; AGo 1; AGo 1] ++ times 7 (AGo 0) ++ times 5 (AGo 1).
Definition alive2 : list ract := [ACollect; AGo 2; AGo 2].
Theorem C61_unregistered_runs_refuted : exists s1 s, rlived doubling alive1 s1 /\ calm s1 /\ unregistered s1 1 /\ s_threads s1 = [UDone 0 true; UDone 1 true] /\
  rrun doubling s1 alive2 = Some s /\ ECollected 2 ∈ s_log s /\ ran 2 (s_log s) = [1].
Proof.
  eexists _, _. split; [vm_compute; reflexivity|]. split; [repeat constructor|]. split; [exists 1; cbn; set_solver|]. split; [vm_compute; reflexivity|].
  split; [vm_compute; reflexivity|]. split; [cbn; set_solver|]. vm_compute. reflexivity.
Qed.
(** Two calls of Unregister at once: a third callback runs twice in every later collection. *)
Definition twice1 : list ract := [ARegister; ARegister; ARegister; AUnregister 0; AUnregister 1; AGo 0; AGo 0] ++ times 8 (AGo 1) ++ times 5 (AGo 0).
Definition twice2 : list ract := [ACollect; AGo 2; AGo 2; AGo 2].
Theorem C61_twice_refuted : exists s1 s, rlived doubling twice1 s1 /\ calm s1 /\ rrun doubling s1 twice2 = Some s /\ ECollected 2 ∈ s_log s /\ ran 2 (s_log s) = [2; 2].
Proof.
  eexists _, _. split; [vm_compute; reflexivity|]. split; [repeat constructor|]. split; [vm_compute; reflexivity|]. split; [cbn; set_solver|]. vm_compute. reflexivity.
Qed.
(** A single Unregister during a collection, then a registration: the collection does not run a callback that was registered all the time. *)
Definition skip1 : list ract := [ARegister; ARegister; ARegister].
Definition skip2 : list ract := [ACollect; AGo 0; AUnregister 0] ++ times 7 (AGo 1) ++ [ARegister; AGo 0; AGo 0; AGo 0].
Theorem C61_overlap_skips_refuted : exists s1 s, rlived doubling skip1 s1 /\ solo doubling rinit (skip1 ++ skip2) = true /\ registered s1 2 /\
  rrun doubling s1 skip2 = Some s /\ ~ unregistered s 2 /\ ECollected 0 ∈ s_log s /\ ran 0 (s_log s) = [0; 1; 3].
Proof.
  eexists _, _. split; [vm_compute; reflexivity|]. split; [vm_compute; reflexivity|]. split; [unfold registered; cbn; set_solver|].
  split; [vm_compute; reflexivity|]. split; [intros [t H]; cbn in H; set_solver|]. split; [cbn; set_solver|]. vm_compute. reflexivity.
Qed.
(** A single Unregister during a collection: the collection runs another callback twice. *)
Definition double2 : list ract := [ACollect; AUnregister 0] ++ times 7 (AGo 1) ++ times 4 (AGo 0).
Theorem C61_overlap_twice_refuted : exists s1 s, rlived doubling skip1 s1 /\ solo doubling rinit (skip1 ++ double2) = true /\
  rrun doubling s1 double2 = Some s /\ ECollected 0 ∈ s_log s /\ ran 0 (s_log s) = [2; 1; 2].
Proof. eexists _, _. split; [vm_compute; reflexivity|]. split; [vm_compute; reflexivity|]. split; [vm_compute; reflexivity|]. split; [cbn; set_solver|]. vm_compute. reflexivity. Qed.
(** A collection that began before Unregister can run the callback after Unregister has returned. *)
Definition after : list ract := skip1 ++ [ACollect; AUnregister 2] ++ times 9 (AGo 1) ++ times 4 (AGo 0).
Theorem C61_silent_after_refuted : exists s, rlived doubling after s /\ solo doubling rinit after = true /\
  s_log s = [ERegister 0; ERegister 1; ERegister 2; ECollect 0; EUnregistered 1 2 true; ERun 0 0; ERun 0 1; ERun 0 2; ECollected 0].
Proof. eexists _. split; [vm_compute; reflexivity|]. split; vm_compute; reflexivity. Qed.

Module Ex61.
  (** Four registrations, one while a collection runs; two calls of Unregister of one of them; then a collection, during which a callback is registered. *)
  Definition l1 : list ract := [ARegister; ARegister; ACollect; AGo 0; ARegister; ARegister; AGo 0; AGo 0; AUnregister 1; AUnregister 1; AGo 1; AGo 1; AGo 1; AGo 1] ++ times 4 (AGo 1) ++ [AGo 2].
  Definition l2 : list ract := [ACollect; AGo 3; ARegister; ARegister; AGo 3; AGo 3; AGo 3].
  Example met : exists s1 s, rlived doubling l1 s1 /\ rrun doubling s1 l2 = Some s /\ solo doubling rinit l1 = true /\ existsb removing (s_threads s1) = false /\
    length (s_threads s1) = 3 /\ spares doubling 3 s1 l2 = true /\
    s_log s = [ERegister 0; ERegister 1; ECollect 0; ERun 0 0; ERegister 2; ERegister 3; ERun 0 1; ECollected 0; EUnregistered 1 1 true; EUnregistered 2 1 false;
      ECollect 3; ERun 3 0; ERegister 4; ERegister 5; ERun 3 3; ERun 3 2; ECollected 3] /\ calm s.
  Proof. eexists _, _. split; [vm_compute; reflexivity|]. do 6 (split; [vm_compute; reflexivity|]). repeat constructor. Qed.
  (** Goroutines in the middle of what they do. *)
  Definition busy : list ract := [ARegister; ARegister; ACollect; AUnregister 1; AUnregister 1; AGo 1].
  Definition rest : list ract := times 3 (AGo 0) ++ times 7 (AGo 1) ++ [AGo 2].
  Example run_on : exists s s', rlived doubling busy s /\ rstep doubling s (AGo 2) = None /\ rrun doubling s rest = Some s' /\ calm s'.
  Proof. eexists _, _. split; [vm_compute; reflexivity|]. split; [vm_compute; reflexivity|]. split; [vm_compute; reflexivity|]. repeat constructor. Qed.
End Ex61.

Print Assumptions C61_registered_first.
Print Assumptions C61_once.
Print Assumptions C61_bounded.
Print Assumptions C61_returns.
Print Assumptions C61_exact.
Print Assumptions C61_lost_refuted.
Print Assumptions C61_unregistered_runs_refuted.
Print Assumptions C61_twice_refuted.
Print Assumptions C61_overlap_skips_refuted.
Print Assumptions C61_overlap_twice_refuted.
Print Assumptions C61_silent_after_refuted.
