(** Reclamation of output entries (C06), the reader's own views (C04), bounds on the steps of calls and collections (C07). *)
From Coq Require Import ZArith Lia Bool.
From stdpp Require Import base list option.
From Verif Require Import Base Lib SyncModel SyncInv SyncStep SyncStepB SyncCases SyncRun SyncSpec SyncCall SyncVis SyncIdle SyncEmit SyncQuiet.
Local Open Scope Z_scope.

Section more.
Context {c : config}.
Notation st := (state c).
Notation pcT := (pc c).
Notation recT := (rec c).
Implicit Types (ls : list (label c)) (s : st) (p : pcT) (r : recT) (i t : nat).

Ltac acc_split := try match goal with S1 : _ = _ \/ exists _, _ = set_holds _ _ /\ _ |- _ =>
  destruct S1 as [->|(?k0 & -> & -> & ?F)] end.

(** ** Views of a reader *)
Lemma views_of_iff rd v : v ∈ views_of c rd <-> read_by c rd v.
Proof.
  unfold views_of, read_by. rewrite elem_of_list_In, filter_In, in_seq. split.
  - intros [_ E]. destruct (c_views c !! v) as [w|]; [|done]. exists w. split; [done|]. by apply Nat.eqb_eq.
  - intros (w & E & <-). rewrite E, Nat.eqb_refl. split; [|done]. apply lookup_lt_Some in E. lia.
Qed.
Theorem point_reader ls s i (pt : point c) : run (init c) ls = Some s -> s_out s !! i = Some pt ->
  exists rd, calls ls !! p_tid pt = Some (LCollect rd) /\ read_by c rd (p_view pt).
Proof.
  intros R Hp. destruct (point_view ls s pt R) as (rd & H1 & H2).
  { unfold pts. apply elem_of_app. left. by eapply elem_of_list_lookup_2. }
  exists rd. split; [done|]. by apply views_of_iff.
Qed.

(** ** Points of delta streams *)
Theorem point_changed ls s : run (init c) ls = Some s -> forall i (pt : point c), s_out s !! i = Some pt ->
  vdelta c (p_view pt) = true -> c_change c (p_view pt) (p_agg pt) = true.
Proof.
  revert ls s. apply (run_ind (fun ls s => forall i (pt : point c), s_out s !! i = Some pt -> vdelta c (p_view pt) = true -> c_change c (p_view pt) (p_agg pt) = true)).
  - intros i pt H. done.
  - intros ls s o k n R I P Ho. exact P.
  - intros ls s rd0 R I P. exact P.
  - intros ls s t ch0 s' R I I' P H i1 pt Hq Dq.
    stepR_cases H; acc_split; try (by eapply P); snorm;
      match type of Hq with context [s_out ?z ++ [?q]] => apply lookup_snoc in Hq as [Hq|[_ ->]]; [by eapply P|] end; cbn in *; congruence.
Qed.

(** ** Output entries *)
Lemma dead_step s t s' h0 : stepR s t s' -> dead s h0 -> dead s' h0.
Proof.
  intros H (hd0 & Hd & El).
  assert (X : forall (h1 : nat) (hd1 hd1' : holder c) (l : list (holder c)), l !! h1 = Some hd1 -> h_live hd1' = h_live hd1 \/ h_live hd1' = false -> l !! h0 = Some hd0 ->
    exists hd, <[h1:=hd1']> l !! h0 = Some hd /\ h_live hd = false).
  { intros h1 hd1 hd1' l H1 E H2. destruct (decide (h1 = h0)) as [->|Hne].
    - exists hd1'. rewrite list_lookup_insert by (by eapply lookup_lt_Some). split; [done|].
      assert (hd1 = hd0) by congruence. subst. destruct E as [E|E]; congruence.
    - exists hd0. by rewrite list_lookup_insert_ne. }
  stepR_cases H; acc_split; unfold dead; snorm; try (exists hd0; done);
    try (eapply X; [exact Hh|by left|done]); try (eapply X; [exact Hh|by right|done]).
  eapply X; [exact Hh|by left|by apply lookup_app_l_Some].
Qed.

Definition ER t h a0 s : Prop :=
  dead s h \/
  (exists rd vs v todo, s_thr s !! t = Some (QPoint rd vs v todo h 0) /\ c_change c v a0 = false /\
     exists hd, s_holds s !! h = Some hd /\ h_sto hd = a0) \/
  (exists rd vs v todo, s_thr s !! t = Some (QDecide rd vs v todo h 0 a0) /\ c_change c v a0 = false).

Lemma ER_step s t s' t0 h0 a0 : Inv s -> stepR s t s' -> ER t0 h0 a0 s -> ER t0 h0 a0 s'.
Proof.
  intros I H [D|[(rd0 & vs0 & v0 & todo0 & Ht0 & Hc0 & hd0 & Hh0 & Es)|(rd0 & vs0 & v0 & todo0 & Ht0 & Hc0)]].
  { left. by eapply dead_step. }
  - assert (L0 : (t0 < length (s_thr s))%nat) by (by eapply lookup_lt_Some).
    pose proof (I_T _ _ _ _ _ I _ _ Ht0) as T. cbn in T. destruct T as ((V1 & V2 & V3 & V4) & D0 & T).
    destruct (T eq_refl) as (hd1 & Hh1 & A0). assert (hd1 = hd0) by congruence. subst hd1.
    destruct (V4 h0 ltac:(left)) as (hd1 & Hh1' & Hl0 & Hv0). assert (hd1 = hd0) by congruence. subst hd1.
    destruct (decide (t = t0)) as [->|Hne].
    + stepR_cases H; acc_split; rewrite Ht0 in Ht; inversion Ht; subst.
      assert (hd = hd0) by congruence. subst. right. right. eexists _, _, _, _. snorm.
      rewrite list_lookup_insert by done. done.
    + destruct (thr_step _ _ _ H) as (p1 & p1' & Ht1 & Et & _).
      assert (Hx : s_thr s' !! t0 = Some (QPoint rd0 vs0 v0 todo0 h0 0)) by (by rewrite Et, list_lookup_insert_ne).
      assert (KEEP : (exists hd, s_holds s' !! h0 = Some hd /\ h_sto hd = a0) -> ER t0 h0 a0 s').
      { intros K. right. left. eexists _, _, _, _. done. }
      apply KEEP. clear KEEP Et Hx.
      assert (X : forall (h1 : nat) (hd1 hd1' : holder c) (l : list (holder c)), l !! h1 = Some hd1 -> h_sto hd1' = h_sto hd1 -> l !! h0 = Some hd0 ->
        exists hd, <[h1:=hd1']> l !! h0 = Some hd /\ h_sto hd = a0).
      { intros h1 hd1 hd1' l H1 E H2. destruct (decide (h1 = h0)) as [->|Hne1].
        - exists hd1'. rewrite list_lookup_insert by (by eapply lookup_lt_Some). split; [done|]. congruence.
        - exists hd0. by rewrite list_lookup_insert_ne. }
      assert (U : forall p, s_thr s !! t = Some p -> in_il p = Some v0 -> False).
      { intros p Hp E. apply Hne. eapply LI_uniq; [exact (I_il _ _ _ _ _ I)|exact Hp|exact Ht0|exact E|done]. }
      stepR_cases H; acc_split; snorm; try (exists hd0; done); try (eapply X; [exact Hh|done|done]).
      * eapply X; [exact Hh|done|by apply lookup_app_l_Some].
      * (* a snapshot cannot be merged into an unreferenced entry *)
        destruct (decide (a_hold ac = h0)) as [E|Hne2]; [|exists hd0; by rewrite list_lookup_insert_ne]. exfalso.
        pose proof (I_T _ _ _ _ _ I _ _ Ht) as T2. cbn in T2. destruct T2 as ((_ & _ & _ & J4) & _).
        destruct (J4 i ltac:(left)) as (y & Hy & Hly & Hi). assert (y = r) by congruence. subst y.
        assert (hd = hd0) by congruence. subst hd.
        assert (1 <= h_aux hd0); [|lia].
        eapply acc_aux_pos; [exact I|exact Hr|done|exact Ha| |done].
        eapply nrel_le; [exact I|exact Ht|exact Hr|cbn; congruence|]. cbn.
        destruct ph as [[]|]; try lia. rewrite Nat.eqb_refl. lia.
      * destruct (decide (h = h0)) as [E|Hne2]; [|exists hd0; by rewrite list_lookup_insert_ne]. exfalso.
        subst h. assert (hd = hd0) by congruence. subst hd. apply (U _ Ht). cbn. congruence.
  - assert (L0 : (t0 < length (s_thr s))%nat) by (by eapply lookup_lt_Some).
    pose proof (I_T _ _ _ _ _ I _ _ Ht0) as T. cbn in T. destruct T as ((V1 & V2 & V3 & V4) & D0 & T).
    destruct (decide (t = t0)) as [->|Hne].
    + stepR_cases H; acc_split; rewrite Ht0 in Ht; inversion Ht; subst; try congruence.
      left. exists (h_setlive false hd). snorm. rewrite list_lookup_insert by (by eapply lookup_lt_Some). done.
    + destruct (thr_step _ _ _ H) as (p1 & p1' & Ht1 & Et & _).
      right. right. eexists _, _, _, _. by rewrite Et, list_lookup_insert_ne.
Qed.

Lemma unref_aux s h hd : Inv s -> s_holds s !! h = Some hd -> unreferenced s h -> h_aux hd = 0.
Proof.
  intros I Hh N. destruct (I_H _ _ _ _ _ I _ _ Hh) as (E & _). rewrite E.
  rewrite (isum_ext (fun _ _ => 0)).
  - clear. unfold isum. generalize 0%nat. induction (s_recs s) as [|x l IH]; intros n; cbn [isum_from]; [done|]. rewrite IH. done.
  - intros i r Hr. unfold unrel. destruct (r_live r) eqn:El; [|done].
    rewrite (zsum_ext _ (fun _ => 0)); [by induction (drop _ _) as [|x l IH]; cbn; [|rewrite IH]|].
    intros a Ha. unfold points_to.
    destruct (Nat.eqb_spec (a_hold a) h) as [Eq|]; [|done]. exfalso.
    apply elem_of_list_lookup in Ha as (j & Ha). rewrite lookup_drop in Ha. by eapply N.
Qed.

Theorem entry_removed ls s t ch rd vs v todo h hd s1 :
  run (init c) ls = Some s -> s_thr s !! t = Some (QColl rd vs v todo) -> todo !! ch = Some h ->
  s_holds s !! h = Some hd -> vdelta c v = true -> c_change c v (h_sto hd) = false ->
  unreferenced s h -> step s (LStep t ch) = Some s1 ->
  forall ls' s', run s1 ls' = Some s' ->
    dead s' h \/ exists p, s_thr s' !! t = Some p /\ deciding h p = true.
Proof.
  intros R Ht Hc Hh D C N S ls' s' R'. assert (I : Inv s) by (apply reachable_inv; by exists ls).
  pose proof (unref_aux _ _ _ I Hh N) as A0.
  assert (R1 : run (init c) (ls ++ [LStep t ch]) = Some s1) by (rewrite run_app, R; cbn [run]; by rewrite S).
  assert (J : ER t h (h_sto hd) s1).
  { cbn [step] in S. rewrite Ht in S. cbn [step_pc] in S.
    destruct todo as [|x todo]; [done|]. rewrite Hc, Hh, D in S. inversion S; subst s1.
    right. left. eexists _, _, _, _. snorm. rewrite list_lookup_insert by (by eapply lookup_lt_Some).
    rewrite A0. split; [done|]. split; [done|]. by exists hd. }
  assert (ER t h (h_sto hd) s') as [G|[G|G]].
  { refine (run_ind_from (fun _ s => ER t h (h_sto hd) s) _ _ R1 J _ _ _ ls' s' _).
    - intros l s0 o k n _ _ [G|[(a1 & a2 & a3 & a4 & G & G')|(a1 & a2 & a3 & a4 & G & G')]] _; [by left|right; left|right; right];
        exists a1, a2, a3, a4; snorm; (split; [by apply lookup_app_l_Some|done]).
    - intros l s0 o _ _ [G|[(a1 & a2 & a3 & a4 & G & G')|(a1 & a2 & a3 & a4 & G & G')]]; [by left|right; left|right; right];
        exists a1, a2, a3, a4; snorm; (split; [by apply lookup_app_l_Some|done]).
    - intros l s0 t1 ch1 s2 _ I0 _ P S0. exact (ER_step _ _ _ _ _ _ I0 S0 P).
    - done. }
  - by left.
  - right. destruct G as (? & ? & ? & ? & G & _). eexists. split; [exact G|cbn; apply Nat.eqb_refl].
  - right. destruct G as (? & ? & ? & ? & G & _). eexists. split; [exact G|cbn; apply Nat.eqb_refl].
Qed.

(** ** Steps *)
Lemma steps_snoc ls l t : steps_of (ls ++ [l]) t = (steps_of ls t + match l with LStep t' _ => if Nat.eqb t' t then 1 else 0 | _ => 0 end)%nat.
Proof.
  unfold steps_of. rewrite filter_app, app_length. f_equal. cbn. destruct l; try done. by destruct (Nat.eqb t0 t).
Qed.
Lemma steps_none ls s t : run (init c) ls = Some s -> (length (s_thr s) <= t)%nat -> steps_of ls t = 0%nat.
Proof.
  revert ls s. refine (run_ind (fun ls s => (length (s_thr s) <= t)%nat -> steps_of ls t = 0%nat) _ _ _ _).
  - done.
  - intros ls s o k n R I P Ho L. snorm. rewrite app_length in L. cbn in L. rewrite steps_snoc, P by lia. done.
  - intros ls s o R I P L. snorm. rewrite app_length in L. cbn in L. rewrite steps_snoc, P by lia. done.
  - intros ls s t1 ch s' R I I' P H L. destruct (thr_step _ _ _ H) as (p1 & p1' & Ht1 & Et & _).
    rewrite Et, insert_length in L. rewrite steps_snoc, P by lia.
    apply lookup_lt_Some in Ht1. destruct (Nat.eqb_spec t1 t); [lia|done].
Qed.

Definition cost (V : nat) p : nat :=
  match p with
  | PRead _ _ _ => 0
  | PWrite _ _ _ => 1
  | PInit _ _ => 2
  | PInitV _ _ j => 3 + j
  | PUpd _ _ j => 4 + V + j
  | PCount _ => 5 + 2 * V
  | PUnref _ => 6 + 2 * V
  | _ => 7 + 2 * V
  end.
Lemma accs_le s i r : Inv s -> s_recs s !! i = Some r -> (length (r_accs r) <= length (iviews c (r_inst r)))%nat.
Proof.
  intros I Hr. destruct (I_R _ _ _ _ _ I _ _ Hr) as (_ & _ & _ & _ & _ & R6 & _).
  destruct (r_accs r) as [|a0 l0] eqn:E; [cbn; lia|]. rewrite <- E in *.
  assert (length (r_accs r) - 1 < length (r_accs r))%nat as L by (rewrite E; cbn; lia).
  apply lookup_lt_is_Some in L as (a & Ha). destruct (R6 _ _ Ha) as (hd & _ & Hv). apply lookup_lt_Some in Hv.
  rewrite E in *. cbn in *. lia.
Qed.

Theorem call_steps ls s t o k n : run (init c) ls = Some s -> calls ls !! t = Some (LObserve o k n) ->
  (steps_of ls t <= 2 * length (iviews c o) + 7)%nat.
Proof.
  assert (G : forall ls s, run (init c) ls = Some s -> forall t o k n p, calls ls !! t = Some (LObserve o k n) -> s_thr s !! t = Some p ->
     (steps_of ls t <= cost (length (iviews c o)) p)%nat).
  { clear. refine (run_ind (fun ls s => forall t o k n p, calls ls !! t = Some (LObserve o k n) -> s_thr s !! t = Some p ->
     (steps_of ls t <= cost (length (iviews c o)) p)%nat) _ _ _ _).
    - intros t o k n p Hx. done.
    - intros ls s o k n R I P Ho t o' k' n' p Hc Hp. rewrite steps_snoc. snorm. rewrite calls_snoc in Hc.
      destruct (CI_run _ _ R) as ((C1 & _) & _).
      apply lookup_snoc in Hp as [Hp|[-> ->]].
      + pose proof (lookup_lt_Some _ _ _ Hp). rewrite lookup_app_l in Hc by lia. specialize (P _ _ _ _ _ Hc Hp). lia.
      + rewrite (steps_none _ _ _ R) by lia. lia.
    - intros ls s rd R I P t o' k' n' p Hc Hp. rewrite steps_snoc. snorm. rewrite calls_snoc in Hc.
      destruct (CI_run _ _ R) as ((C1 & _) & _).
      apply lookup_snoc in Hp as [Hp|[-> ->]].
      + pose proof (lookup_lt_Some _ _ _ Hp). rewrite lookup_app_l in Hc by lia. specialize (P _ _ _ _ _ Hc Hp). lia.
      + rewrite (steps_none _ _ _ R) by lia. lia.
    - intros ls s t1 ch9 s' R I I' P X t o9 k9 n9 p9 Hc9 Hp. rewrite calls_snoc, app_nil_r in Hc9. rewrite steps_snoc.
      destruct (thr_step _ _ _ X) as (p1 & p1' & Ht1 & Et & _).
      destruct (Nat.eqb_spec t1 t) as [->|Hne].
      2: { rewrite Et, list_lookup_insert_ne in Hp by done. specialize (P _ _ _ _ _ Hc9 Hp). lia. }
      specialize (P _ _ _ _ _ Hc9 Ht1).
      assert (L0 : (t < length (s_thr s))%nat) by (by eapply lookup_lt_Some).
      rewrite Et, list_lookup_insert in Hp by done. inversion Hp; subst p1'. clear Hp.
      destruct (CI_run _ _ R) as ((_ & C2) & _). pose proof (C2 _ _ Ht1) as CC. rewrite Hc9 in CC. destruct CC as [CC _].
      assert (Q : forall i r, rec_serves true (s_recs s) o9 k9 i -> s_recs s !! i = Some r -> r_inst r = o9 /\ (length (r_accs r) <= length (iviews c o9))%nat).
      { intros i r (r' & Hr' & E & _) Hr. assert (r' = r) by congruence. subst r' o9. split; [done|]. exact (accs_le s i r I Hr). }
      stepR_cases X; acc_split; snorm; rewrite Ht in Ht1; inversion Ht1; subst p1;
        apply (f_equal (fun l => l !! t)) in Et; rewrite !list_lookup_insert in Et by done; inversion Et; subst p9;
        cbn [call_pc] in CC; try (by destruct CC); cbn [cost] in *; try lia.
      + destruct CC as [CC _]. destruct (Q _ _ CC Hr). lia.
      + destruct CC as [CC _]. destruct (Q _ _ CC Hr) as [_ Q1].
        destruct (I_T _ _ _ _ _ I _ _ Ht) as (_ & r' & Hr' & Q2). assert (r' = r) by congruence. subst. lia. }
  intros R Hc. destruct (CI_run _ _ R) as ((C1 & _) & _).
  assert (t < length (s_thr s))%nat as L by (rewrite <- C1; by eapply lookup_lt_Some).
  apply lookup_lt_is_Some in L as (p & Hp). pose proof (G _ _ R _ _ _ _ _ Hc Hp).
  assert (cost (length (iviews c o)) p <= 2 * length (iviews c o) + 7)%nat; [|lia].
  destruct (CI_run _ _ R) as ((_ & C2) & _). pose proof (C2 _ _ Hp) as CC. rewrite Hc in CC. destruct CC as [CC _].
  assert (I : Inv s) by (apply reachable_inv; by exists ls).
  assert (Q : forall i r, rec_serves true (s_recs s) o k i -> s_recs s !! i = Some r -> (length (r_accs r) <= length (iviews c o))%nat).
  { intros i r (r' & Hr' & E & _) Hr. assert (r' = r) by congruence. subst. exact (accs_le s i r I Hr). }
  destruct p; cbn [cost]; try lia; cbn [call_pc] in CC; destruct CC as [CC _]; pose proof (I_T _ _ _ _ _ I _ _ Hp) as T; cbn in T.
  - destruct T as (r0 & Hr & _ & T). pose proof (Q _ _ CC Hr). lia.
  - destruct T as (_ & r0 & Hr & T). pose proof (Q _ _ CC Hr). lia.
Qed.

(** *** Collections *)
Context (bW bR bH : nat) (HW : forall o, (length (iviews c o) <= bW)%nat).
Definition rem_views (n : nat) : nat := 1 + n * (2 + 3 * bH).
Definition rem_insts (n : nat) : nat := 1 + n * (2 + bR * (6 + 3 * bW)) + rem_views (length (c_views c)).
Definition rem_recs (q : job) : nat := 1 + length (j_todo q) * (6 + 3 * bW) + rem_insts (length (j_rest q)).
Definition rem p : nat :=
  match p with
  | QLock _ os => rem_insts (length os)
  | QRecs q => rem_recs q
  | QLoad q _ => 5 + 3 * bW + rem_recs q
  | QTry q _ => 4 + 3 * bW + rem_recs q
  | QCas q _ => 3 + 3 * bW + rem_recs q
  | QScav q _ _ => 2 + 3 * bW + rem_recs q
  | QMove q _ _ _ j => 1 + 3 * (bW - j) + rem_recs q
  | QMerge q _ _ _ j _ => 3 * (bW - j) + rem_recs q
  | QRel q _ _ _ j => 3 * (bW - j) - 1 + rem_recs q
  | QViews _ vs => rem_views (length vs)
  | QColl _ vs _ todo => 1 + 3 * length todo + rem_views (length vs)
  | QPoint _ vs _ todo _ _ => 2 + (1 + 3 * length todo + rem_views (length vs))
  | QDecide _ vs _ todo _ _ _ => 1 + (1 + 3 * length todo + rem_views (length vs))
  | _ => 0
  end.
Lemma recs_mono s t s' : stepR s t s' -> (length (s_recs s) <= length (s_recs s'))%nat /\ (length (s_holds s) <= length (s_holds s'))%nat.
Proof.
  intros X. stepR_cases X; acc_split; snorm; rewrite ?insert_length, ?app_length; cbn; lia.
Qed.
Lemma filter_len {X} (f : X -> bool) (l : list X) : (length (List.filter f l) <= length l)%nat.
Proof. induction l as [|x l IH]; cbn; [lia|]. destruct (f x); cbn; lia. Qed.

Theorem collection_steps ls s t rd : run (init c) ls = Some s -> calls ls !! t = Some (LCollect rd) ->
  (length (s_recs s) <= bR)%nat -> (length (s_holds s) <= bH)%nat ->
  (steps_of ls t <= 2 + length (c_insts c) * (2 + bR * (6 + 3 * bW)) + length (c_views c) * (2 + 3 * bH))%nat.
Proof.
  assert (G : forall ls s, run (init c) ls = Some s -> (length (s_recs s) <= bR)%nat -> (length (s_holds s) <= bH)%nat ->
     forall t rd p, calls ls !! t = Some (LCollect rd) -> s_thr s !! t = Some p ->
     (steps_of ls t + rem p <= rem_insts (length (c_insts c)))%nat).
  { clear -HW. refine (run_ind (fun ls s => (length (s_recs s) <= bR)%nat -> (length (s_holds s) <= bH)%nat ->
     forall t rd p, calls ls !! t = Some (LCollect rd) -> s_thr s !! t = Some p ->
     (steps_of ls t + rem p <= rem_insts (length (c_insts c)))%nat) _ _ _ _).
    - intros _ _ t rd p Hc. done.
    - intros ls s o k n R0 I P Ho L1 L2 t rd p Hc Hp. rewrite steps_snoc. snorm. rewrite calls_snoc in Hc.
      destruct (CI_run _ _ R0) as ((C1 & _) & _).
      apply lookup_snoc in Hp as [Hp|[-> ->]].
      + pose proof (lookup_lt_Some _ _ _ Hp). rewrite lookup_app_l in Hc by lia. specialize (P L1 L2 _ _ _ Hc Hp). lia.
      + rewrite <- C1, list_lookup_app_last in Hc. done.
    - intros ls s rd0 R0 I P L1 L2 t rd p Hc Hp. rewrite steps_snoc. snorm. rewrite calls_snoc in Hc.
      destruct (CI_run _ _ R0) as ((C1 & _) & _).
      apply lookup_snoc in Hp as [Hp|[-> ->]].
      + pose proof (lookup_lt_Some _ _ _ Hp). rewrite lookup_app_l in Hc by lia. specialize (P L1 L2 _ _ _ Hc Hp). lia.
      + rewrite (steps_none _ _ _ R0) by lia. cbn [rem]. rewrite seq_length. lia.
    - intros ls s t1 ch9 s' R0 I I' P X L1 L2 t rd9 p9 Hc9 Hp. rewrite calls_snoc, app_nil_r in Hc9. rewrite steps_snoc.
      destruct (recs_mono _ _ _ X) as [M1 M2]. specialize (P ltac:(lia) ltac:(lia)).
      destruct (thr_step _ _ _ X) as (p1 & p1' & Ht1 & Et & _).
      destruct (Nat.eqb_spec t1 t) as [->|Hne].
      2: { rewrite Et, list_lookup_insert_ne in Hp by done. specialize (P _ _ _ Hc9 Hp). lia. }
      specialize (P _ _ _ Hc9 Ht1).
      assert (L0 : (t < length (s_thr s))%nat) by (by eapply lookup_lt_Some).
      rewrite Et, list_lookup_insert in Hp by done. inversion Hp; subst p1'. clear Hp.
      destruct (CI_run _ _ R0) as ((_ & C2) & _). pose proof (C2 _ _ Ht1) as CC. rewrite Hc9 in CC. destruct CC as [CC _].
      assert (Q : forall i r, s_recs s !! i = Some r -> (length (r_accs r) <= bW)%nat).
      { intros i r Hr. pose proof (accs_le _ _ _ I Hr). specialize (HW (r_inst r)). lia. }
      assert (N1 : (length (s_recs s) <= bR)%nat) by lia. assert (N2 : (length (s_holds s) <= bH)%nat) by lia.
      clear M1 M2 L1 L2 I'.
      stepR_cases X; acc_split; snorm; rewrite Ht in Ht1; inversion Ht1; subst p1;
        apply (f_equal (fun l => l !! t)) in Et; rewrite !list_lookup_insert in Et by done; inversion Et; subst p9;
        cbn [coll_pc] in CC; try done; cbn [rem] in *; try lia.
      + pose proof (filter_len (fun v => match c_views c !! v with Some w => Nat.eqb (v_reader w) rd | None => false end) (seq 0 (length (c_views c)))) as F.
        rewrite seq_length in F. fold (views_of c rd) in F. unfold rem_insts in *. cbn [length] in P.
        unfold rem_views in *. pose proof (Nat.mul_le_mono_r _ _ (2 + 3 * bH) F). lia.
      + unfold live_recs, rem_recs. cbn [j_todo j_rest].
        pose proof (filter_len (fun i => match s_recs s !! i with Some r => r_live r && Nat.eqb (r_inst r) o | None => false end) (seq 0 (length (s_recs s)))) as F.
        rewrite seq_length in F. cbn [length] in P. unfold rem_insts in *.
        pose proof (Nat.mul_le_mono_r _ bR (6 + 3 * bW) (Nat.le_trans _ _ _ F N1)). lia.
      + unfold rem_recs in *. lia.
      + unfold rem_recs in *. cbn [j_todo j_rest]. pose proof (lookup_lt_Some _ _ _ Hj). rewrite length_delete by (by eapply lookup_lt_is_Some).
        destruct (length (j_todo q)) as [|m]; [lia|]. replace (S m - 1)%nat with m by lia. lia.
      + pose proof (Q _ _ Hr). pose proof (lookup_lt_Some _ _ _ Ha). destruct ph as [[]|]; cbn [rem]; lia.
      + pose proof (Q _ _ Hr). pose proof (lookup_lt_Some _ _ _ Ha). lia.
      + cbn [length] in P. unfold rem_views in P. lia.
      + pose proof (filter_len (fun i => match s_holds s !! i with Some h => h_live h && Nat.eqb (h_view h) v | None => false end) (seq 0 (length (s_holds s)))) as F.
        rewrite seq_length in F. fold (live_holders v s) in F. cbn [length] in P. unfold rem_views in *. lia.
      + pose proof (lookup_lt_Some _ _ _ Hc). rewrite length_delete by (by eapply lookup_lt_is_Some). lia.
      + pose proof (lookup_lt_Some _ _ _ Hc). rewrite length_delete by (by eapply lookup_lt_is_Some). lia. }
  intros R0 Hc L1 L2. destruct (CI_run _ _ R0) as ((C1 & _) & _).
  assert (t < length (s_thr s))%nat as L by (rewrite <- C1; by eapply lookup_lt_Some).
  apply lookup_lt_is_Some in L as (p & Hp). pose proof (G _ _ R0 L1 L2 _ _ _ Hc Hp) as E.
  unfold rem_insts, rem_views in E. lia.
Qed.
End more.
