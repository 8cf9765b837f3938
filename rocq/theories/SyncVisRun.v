(** Visibility along a run (C03): the invariants of SyncVis hold of every state, and the tracking of
    one measurement starts when the collection does. *)
From Coq Require Import ZArith Lia Bool.
From stdpp Require Import base list option gmultiset.
From Verif Require Import Base Lib SyncModel SyncInv SyncStep SyncStepB SyncCases SyncCons SyncTag SyncRun SyncSpec SyncOnce SyncVis.
Local Open Scope Z_scope.

Section visrun.
Context {c : config}.
Notation A := (car (c_mon c)).
Notation st := (state c).
Implicit Types (ls : list (label c)) (s : st).
Context (has : A -> Prop) (x : nat).
Context (has_mu : ~ has mu) (has_op : forall a b, has (mop a b) <-> has a \/ has b)
        (has_inj : forall y n, has (c_inj c y n) <-> y = x).

Lemma VAB_spawn s p : Inv s -> (forall i, mods_on i p = None) ->
  VA s /\ VB has x s -> VA (set_thr (fun l => l ++ [p]) s) /\ VB has x (set_thr (fun l => l ++ [p]) s).
Proof.
  intros I M [HA HB]. split.
  - intros i r Hr. destruct (HA i r Hr) as [H1 H2]. split; [done|]. intros t p0 m Ht Hm. cbn in Ht.
    apply lookup_snoc in Ht as [Ht|[-> ->]]; [by eapply H2|]. by rewrite M in Hm.
  - intros i r j a Hr Ha Hh. destruct (HB _ _ _ _ Hr Ha Hh) as (u & q & Hx & Hq & S). exists u, q.
    split; [done|]. split; [by apply lookup_app_l_Some|]. destruct S as [S|(S1 & S2 & S3)]; [by left|right].
    split; [done|]. split; [done|]. intros t2 p2 m H2 P2 M2. cbn in H2.
    apply lookup_snoc in H2 as [H2|[-> ->]]; [by eapply S3|]. by rewrite M in M2.
Qed.

Lemma VAB_run ls s : run (init c) ls = Some s -> VA s /\ VB has x s.
Proof.
  revert ls s. apply (run_ind (fun _ s => VA s /\ VB has x s)).
  - split; intros i r; cbn; (try intros j a Hr); try intros Hr; by inversion Hr.
  - intros ls s o k n R I P _. by apply VAB_spawn.
  - intros ls s rd R I P. by apply VAB_spawn.
  - intros ls s t ch s' R I I' [HA HB] S. split; [exact (VA_step s t s' I S HA)|]. by eapply (VB_step has x has_mu has_op has_inj s t).
Qed.

Context (t1 rd0 V : nat) (HV : V ∈ views_of c rd0).

Lemma W_spawn s p : W has x t1 rd0 V s -> (t1 < length (s_thr s))%nat ->
  (forall q i m ph j a, p <> QMerge q i m ph j a) -> (forall rd vs v todo h refs a, p <> QDecide rd vs v todo h refs a) ->
  W has x t1 rd0 V (set_thr (fun l => l ++ [p]) s).
Proof.
  intros [(u & Hx & Hu & HT) W1 W2 W3 W4 (p1 & Hp1 & Wr)] L N1 N2.
  assert (K : forall q, (s_thr s ++ [p]) !! t1 = Some q -> s_thr s !! t1 = Some q).
  { intros q Hq. apply lookup_snoc in Hq as [Hq|[E _]]; [done|lia]. }
  constructor; cbn [set_thr s_thr s_log s_recs s_holds].
  - exists u. split; [done|]. split; [done|]. by apply lookup_app_l_Some.
  - intros q i r j a Hq. apply W1. by apply K.
  - intros q t2 q0 i m ph j a Hq Nt Ht2. apply lookup_snoc in Ht2 as [Ht2|[_ E]]; [|by destruct (N1 q0 i m ph j a)].
    by apply (W2 q t2 q0 i m ph j a (K _ Hq) Nt Ht2).
  - intros q h hd Hq. apply W3. by apply K.
  - intros q t2 rd vs v todo h refs a Hq Nt Ht2. apply lookup_snoc in Ht2 as [Ht2|[_ E]]; [|by destruct (N2 rd vs v todo h refs a)].
    by apply (W4 q t2 rd vs v todo h refs a (K _ Hq) Nt Ht2).
  - exists p1. split; [by apply lookup_app_l_Some|done].
Qed.

Lemma W_start s u : Inv s -> t1 = length (s_thr s) -> s_log s !! x = Some u -> u_view u = V ->
  s_thr s !! u_tid u = Some PDone ->
  W has x t1 rd0 V (set_thr (fun l => l ++ [QLock rd0 (seq 0 (length (c_insts c)))]) s).
Proof.
  intros I E Hx Hu HT.
  assert (K : forall q, (s_thr s ++ [QLock rd0 (seq 0 (length (c_insts c)))]) !! t1 = Some q ->
     q = QLock rd0 (seq 0 (length (c_insts c)))).
  { intros q Hq. rewrite E, list_lookup_app_last in Hq. by inversion Hq. }
  assert (L : forall o, (o < length (c_insts c))%nat -> o ∈ seq 0 (length (c_insts c))).
  { intros o Ho. apply elem_of_seq. lia. }
  constructor; cbn [set_thr s_thr s_log s_recs s_holds].
  - exists u. split; [done|]. split; [done|]. by apply lookup_app_l_Some.
  - intros q i r j a Hq Hr _ _. apply K in Hq as ->. apply L. by destruct (I_R _ _ _ _ _ I _ _ Hr) as (_ & _ & _ & R4 & _).
  - intros q t2 q0 i m ph j a Hq Nt Ht2 _. apply K in Hq as ->. apply L.
    apply lookup_snoc in Ht2 as [Ht2|[_ E2]]; [|done].
    by pose proof (I_T _ _ _ _ _ I _ _ Ht2) as ((? & _) & _).
  - intros q h hd Hq _ _. apply K in Hq as ->. left. by left.
  - intros q t2 rd vs v todo h refs a Hq _ _ _. apply K in Hq as ->. by left.
  - eexists. split; [rewrite E; apply list_lookup_app_last|done].
Qed.

Lemma W_run ls0 s0 u ls s :
  run (init c) ls0 = Some s0 -> t1 = length (s_thr s0) -> s_log s0 !! x = Some u -> u_view u = V ->
  s_thr s0 !! u_tid u = Some PDone ->
  run s0 (LCollect rd0 :: ls) = Some s ->
  (forall l s', l `prefix_of` ls -> run s0 (LCollect rd0 :: l) = Some s' -> W has x t1 rd0 V s' -> unhidden has t1 s') ->
  s_thr s !! t1 = Some QDone ->
  if vdelta c V then output has V s \/ suppressed has V s else reported has t1 V s.
Proof.
  intros R0 E Hx Hu HT R N HD. cbn [run step] in R.
  set (s1 := set_thr (fun l => l ++ [QLock rd0 (seq 0 (length (c_insts c)))]) s0) in *.
  assert (R1 : run (init c) (ls0 ++ [LCollect rd0]) = Some s1) by (rewrite run_app, R0; done).
  assert (R2 : run (init c) (ls0 ++ LCollect rd0 :: ls) = Some s) by (rewrite run_app, R0; done).
  assert (I0 : Inv s0) by (apply reachable_inv; by exists ls0).
  assert (G : (ls0 ++ [LCollect rd0]) ++ ls `prefix_of` ls0 ++ LCollect rd0 :: ls ->
     (t1 < length (s_thr s))%nat /\ W has x t1 rd0 V s /\ exists l, (ls0 ++ [LCollect rd0]) ++ ls = ls0 ++ LCollect rd0 :: l).
  { refine (run_ind_from (fun l s => l `prefix_of` ls0 ++ LCollect rd0 :: ls ->
      (t1 < length (s_thr s))%nat /\ W has x t1 rd0 V s /\ exists l', l = ls0 ++ LCollect rd0 :: l') (ls0 ++ [LCollect rd0]) s1 R1 _ _ _ _ ls s R).
    - intros _. split; [unfold s1; cbn; rewrite app_length; cbn; lia|]. split; [by eapply W_start|by exists []].
    - intros l s3 o k n Rl I P _ Hm. destruct P as (P1 & P2 & l' & ->); [by eapply prefix_app_l|].
      split; [cbn; rewrite app_length; cbn; lia|]. split; [by apply W_spawn|]. eexists. by rewrite <- app_assoc.
    - intros l s3 rd Rl I P Hm. destruct P as (P1 & P2 & l' & ->); [by eapply prefix_app_l|].
      split; [cbn; rewrite app_length; cbn; lia|]. split; [by apply W_spawn|]. eexists. by rewrite <- app_assoc.
    - intros l s3 t ch s' Rl I I' P S Hm. apply prefix_app_l in Hm.
      destruct P as (P1 & P2 & l' & ->); [done|].
      destruct (thr_step _ _ _ S) as (p & p' & _ & Et & _). split; [by rewrite Et, insert_length|].
      split; [|eexists; by rewrite <- app_assoc].
      assert (C : conserved s3) by (apply conserved_reachable; by eexists).
      destruct (decide (t = t1)) as [->|Nt]; [|by apply (W_other has x has_mu has_op has_inj t1 rd0 V HV s3 t s')].
      apply (W_self has x has_mu has_op has_inj t1 rd0 V HV s3 s'); try done. apply (N l'); [|by rewrite run_app, R0 in Rl|done].
      apply prefix_app_inv in Hm. by apply prefix_cons_inv_2 in Hm. }
  destruct G as (_ & G & _); [by rewrite <- app_assoc|].
  apply (W_end has x has_mu has_op has_inj t1 rd0 V s); try done; [apply reachable_inv|apply conserved_reachable]; by eexists.
Qed.
End visrun.

(** What a run keeps: the history, and the calls and collections that have ended. *)
Section keeps.
Context {c : config}.
Implicit Types (ls : list (label c)) (s : state c).
Lemma run_keeps ls0 ls s s' : run (init c) ls0 = Some s -> run s ls = Some s' ->
  (forall i p, s_out s !! i = Some p -> s_out s' !! i = Some p) /\ (forall i p, s_drop s !! i = Some p -> s_drop s' !! i = Some p) /\
  (forall i u, s_log s !! i = Some u -> s_log s' !! i = Some u) /\
  (forall t p, (p = PDone \/ p = QDone) -> s_thr s !! t = Some p -> s_thr s' !! t = Some p).
Proof.
  intros R0 R. refine (run_ind_from (fun _ s' =>
    (forall i p, s_out s !! i = Some p -> s_out s' !! i = Some p) /\ (forall i p, s_drop s !! i = Some p -> s_drop s' !! i = Some p) /\
    (forall i u, s_log s !! i = Some u -> s_log s' !! i = Some u) /\
    (forall t p, (p = PDone \/ p = QDone) -> s_thr s !! t = Some p -> s_thr s' !! t = Some p)) ls0 s R0 _ _ _ _ ls s' R).
  - done.
  - intros l s1 o k n _ _ (P1 & P2 & P3 & P4) _. do 3 (split; [done|]). intros t p Hp Ht. cbn. by apply lookup_app_l_Some, P4.
  - intros l s1 rd _ _ (P1 & P2 & P3 & P4). do 3 (split; [done|]). intros t p Hp Ht. cbn. by apply lookup_app_l_Some, P4.
  - intros l s1 t ch s2 _ _ _ (P1 & P2 & P3 & P4) S. split; [|split; [|split]].
    + intros i p Hp. eapply out_step; eauto.
    + intros i p Hp. eapply drop_step; eauto.
    + intros i p Hp. eapply log_step; eauto.
    + intros t' p Hp Ht. specialize (P4 t' p Hp Ht). destruct (thr_ended _ _ _ S) as (q & q' & Hq & E & N1 & N2). rewrite E.
      rewrite list_lookup_insert_ne; [done|]. intros ->. rewrite P4 in Hq. injection Hq as <-. by destruct Hp.
Qed.
End keeps.


(** ** The theorem, through tagging *)
Section visible.
Context {c : config}.
Notation st := (state c).
Notation tc := (tag c).
Implicit Types (ls : list (label c)) (s : st).

Lemma mlt_inj_tag x y n : (0 < mlt (c:=c) x (c_inj tc y n))%nat <-> y = x.
Proof. rewrite mlt_inj. case_decide; split; intros; try done; try lia; congruence. Qed.

Lemma prefix_fmap_inv {X Y} (f : X -> Y) (l : list X) k : k `prefix_of` f <$> l -> exists k', k = f <$> k' /\ k' `prefix_of` l.
Proof.
  intros (m & H). apply fmap_app_inv in H as (l1 & l2 & -> & -> & ->). exists l1. split; [done|]. by exists l2.
Qed.

(** The collection that follows [ls0] passes by no record that holds a finished measurement. *)
Definition open_to ls0 (rd : nat) ls : Prop :=
  forall x u (ts0 : state tc) l ts, run (init tc) (t_label c <$> ls0) = Some ts0 -> s_log ts0 !! x = Some u -> l `prefix_of` ls ->
    run ts0 (LCollect (c:=tc) rd :: (t_label c <$> l)) = Some ts ->
    W (c:=tc) (fun a => (0 < mlt (c:=c) x a)%nat) x (length (s_thr ts0)) rd (u_view u) ts ->
    unhidden (c:=tc) (fun a => (0 < mlt (c:=c) x a)%nat) (length (s_thr ts0)) ts.
Lemma calm_open ls0 rd ls : calm (ls0 ++ LCollect rd :: ls) -> open_to ls0 rd ls.
Proof.
  intros N x u ts0 l ts R0 Hx Hl R HW.
  assert (RR : run (init tc) (t_label c <$> ls0 ++ LCollect rd :: l) = Some ts) by (rewrite fmap_app, run_app, R0; exact R).
  destruct (VAB_run (c:=tc) (fun a => (0 < mlt (c:=c) x a)%nat) x ltac:(cbv beta; rewrite mlt_mu; lia) ltac:(intros a b; cbv beta; rewrite mlt_op; lia) (mlt_inj_tag x) _ _ RR) as [HA HB].
  eapply nowrap_unhidden; [done|done| |done].
  intros i r Hr. pose proof (erase_run c (init tc) (ls0 ++ LCollect rd :: l)) as ER. rewrite RR in ER. cbn [option_map] in ER.
  assert (erase c (init tc) = init c) as E0 by done. rewrite E0 in ER. symmetry in ER.
  refine (N _ _ i (e_rec c r) _ ER _); [by apply prefix_app, prefix_cons|]. cbn [erase s_recs]. by rewrite list_lookup_fmap, Hr.
Qed.

Lemma visible_tagged ls0 s0 rd ls s :
  run (init c) ls0 = Some s0 ->
  run s0 (LCollect rd :: ls) = Some s ->
  open_to ls0 rd ls ->
  s_thr s !! length (s_thr s0) = Some QDone ->
  exists ts, run (init tc) (t_label c <$> ls0 ++ LCollect rd :: ls) = Some ts /\ erase c ts = s /\
    forall x u, s_log s0 !! x = Some u -> s_thr s0 !! u_tid u = Some PDone -> u_view u ∈ views_of c rd ->
      if vdelta c (u_view u) then
        (exists i, (i < length (s_out s))%nat /\ x ∈ tags_of c (s_out ts) i) \/ (exists i, (i < length (s_drop s))%nat /\ x ∈ tags_of c (s_drop ts) i)
      else exists i p, s_out s !! i = Some p /\ p_tid p = length (s_thr s0) /\ x ∈ tags_of c (s_out ts) i.
Proof.
  intros R0 R N HD.
  assert (RR : run (init c) (ls0 ++ LCollect rd :: ls) = Some s) by (by rewrite run_app, R0).
  destruct (tagged_run c _ _ RR) as (ts & TR & TE). destruct (tagged_run c _ _ R0) as (ts0 & TR0 & TE0).
  exists ts. split; [done|]. split; [done|].
  assert (TR1 : run (c:=tc) ts0 (LCollect (c:=tc) rd :: (t_label c <$> ls)) = Some ts).
  { rewrite fmap_app, run_app, TR0 in TR. exact TR. }
  intros x u Hx HT HV.
  assert (exists u0, s_log ts0 !! x = Some u0 /\ u = e_upd c u0) as (u0 & Hx0 & ->).
  { rewrite <- TE0 in Hx. cbn [erase s_log] in Hx. rewrite list_lookup_fmap in Hx.
    destruct (s_log ts0 !! x) as [u0|]; [|done]. exists u0. by inversion Hx. }
  assert (LE : length (s_thr s0) = length (s_thr ts0)) by (rewrite <- TE0; cbn; by rewrite fmap_length).
  pose proof (W_run (c:=tc) (fun a => (0 < mlt (c:=c) x a)%nat) x) as WR.
  cbv beta in WR.
  specialize (WR ltac:(rewrite mlt_mu; lia) ltac:(intros a b; rewrite mlt_op; lia) (mlt_inj_tag x)).
  specialize (WR (length (s_thr ts0)) rd (u_view u0) HV (t_label c <$> ls0) ts0 u0 (t_label c <$> ls) ts TR0 eq_refl Hx0 eq_refl).
  assert (PC : forall t0 (tt : state tc) p, s_thr (erase c tt) !! t0 = Some p -> exists q, s_thr tt !! t0 = Some q /\ p = e_pc c q).
  { intros t0 tt p Hp. cbn [erase s_thr] in Hp. rewrite list_lookup_fmap in Hp.
    destruct (s_thr tt !! t0) as [q|]; [|done]. exists q. by inversion Hp. }
  rewrite <- TE0 in HT. apply PC in HT as (q & HT & Eq). destruct q; try done.
  rewrite LE, <- TE in HD. apply PC in HD as (q & HD & Eq2). destruct q; try done.
  specialize (WR HT TR1).
  assert (length (s_out s) = length (s_out ts)) as LO by (rewrite <- TE; cbn; by rewrite fmap_length).
  assert (length (s_drop s) = length (s_drop ts)) as LD by (rewrite <- TE; cbn; by rewrite fmap_length).
  lapply WR; clear WR; [intros WR; specialize (WR HD)|].
  2: { intros l s' Hl Hs Hw. apply prefix_fmap_inv in Hl as (l' & -> & Hl). by apply (N x u0 ts0 l' s'). }
  change (vdelta c (u_view (e_upd c u0))) with (vdelta tc (u_view u0)).
  destruct (vdelta tc (u_view u0)).
  - destruct WR as [(i & pt & Hi & _ & Hh)|(i & pt & Hi & _ & Hh)]; [left|right].
    + exists i. rewrite LO. split; [by eapply lookup_lt_Some|]. by eapply elem_of_tags.
    + exists i. rewrite LD. split; [by eapply lookup_lt_Some|]. by eapply elem_of_tags.
  - destruct WR as (i & pt & Hi & Et & _ & Hh). exists i, (e_point c pt). split.
    + rewrite <- TE. cbn [erase s_out]. by rewrite list_lookup_fmap, Hi.
    + split; [cbn; congruence|]. by eapply elem_of_tags.
Qed.

(** The same for a later state: the points are those there were when the collection ended. *)
Lemma visible_later ls0 s0 rd ls s ls' s' :
  run (init c) ls0 = Some s0 ->
  run s0 (LCollect rd :: ls) = Some s ->
  open_to ls0 rd ls ->
  s_thr s !! length (s_thr s0) = Some QDone ->
  run s ls' = Some s' ->
  exists out sup pend, account s' out sup pend /\
    forall x u, s_log s0 !! x = Some u -> s_thr s0 !! u_tid u = Some PDone -> u_view u ∈ views_of c rd ->
      if vdelta c (u_view u) then
        (exists i, (i < length (s_out s))%nat /\ x ∈ out i) \/ (exists i, (i < length (s_drop s))%nat /\ x ∈ sup i)
      else exists i p, s_out s !! i = Some p /\ p_tid p = length (s_thr s0) /\ x ∈ out i.
Proof.
  intros R0 R N HD R'. destruct (visible_tagged ls0 s0 rd ls s R0 R N HD) as (ts & TR & TE & V).
  assert (RR : run (init c) ((ls0 ++ LCollect rd :: ls) ++ ls') = Some s') by (rewrite run_app, run_app, R0, R; done).
  destruct (tagged_run c _ _ RR) as (ts' & TR' & TE').
  exists (tags_of c (s_out ts')), (tags_of c (s_drop ts')), (pending c ts'). split.
  { rewrite <- TE'. apply account_tagged. by eexists. }
  rewrite fmap_app, run_app, TR in TR'. destruct (run_keeps _ _ ts ts' TR TR') as (K1 & K2 & _).
  assert (LO : length (s_out s) = length (s_out ts)) by (rewrite <- TE; cbn; by rewrite fmap_length).
  assert (LD : length (s_drop s) = length (s_drop ts)) by (rewrite <- TE; cbn; by rewrite fmap_length).
  assert (T1 : forall i x, (i < length (s_out s))%nat -> x ∈ tags_of c (s_out ts) i -> x ∈ tags_of c (s_out ts') i).
  { intros i x L H. rewrite LO in L. apply lookup_lt_is_Some_2 in L as [p Hp]. unfold tags_of in *. rewrite Hp in H. by rewrite (K1 _ _ Hp). }
  assert (T2 : forall i x, (i < length (s_drop s))%nat -> x ∈ tags_of c (s_drop ts) i -> x ∈ tags_of c (s_drop ts') i).
  { intros i x L H. rewrite LD in L. apply lookup_lt_is_Some_2 in L as [p Hp]. unfold tags_of in *. rewrite Hp in H. by rewrite (K2 _ _ Hp). }
  intros x u Hx HT HV. specialize (V x u Hx HT HV). destruct (vdelta c (u_view u)).
  - destruct V as [(i & L & H)|(i & L & H)]; [left|right]; exists i; split; try done; [by apply T1|by apply T2].
  - destruct V as (i & p & Hi & Et & H). exists i, p. split; [done|]. split; [done|]. apply T1; [|done]. by eapply lookup_lt_Some.
Qed.

Lemma visible_run ls0 s0 rd ls s :
  run (init c) ls0 = Some s0 ->
  run s0 (LCollect rd :: ls) = Some s ->
  calm (ls0 ++ LCollect rd :: ls) ->
  s_thr s !! length (s_thr s0) = Some QDone ->
  exists out sup pend, account s out sup pend /\
    forall x u, s_log s0 !! x = Some u -> s_thr s0 !! u_tid u = Some PDone -> u_view u ∈ views_of c rd ->
      if vdelta c (u_view u) then
        (exists i, (i < length (s_out s))%nat /\ x ∈ out i) \/ (exists i, (i < length (s_drop s))%nat /\ x ∈ sup i)
      else exists i p, s_out s !! i = Some p /\ p_tid p = length (s_thr s0) /\ x ∈ out i.
Proof. intros R0 R N HD. apply (visible_later ls0 s0 rd ls s [] s); try done. by apply calm_open. Qed.
End visible.
