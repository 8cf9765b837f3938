(** Cardinality limits: of a view (C08) and of an instrument (C09). *)
From Coq Require Import ZArith Lia Bool.
From stdpp Require Import base list option.
From Verif Require Import Base Lib SyncModel SyncInv SyncStep SyncStepB SyncCases SyncRun SyncSpec SyncEmit.
Local Open Scope Z_scope.

Lemma length_filter_index {X} (P : X -> bool) (l : list X) :
  length (List.filter (fun i => match l !! i with Some x => P x | None => false end) (seq 0 (length l))) =
  length (List.filter P l).
Proof.
  induction l as [|x l IH] using rev_ind; [done|].
  rewrite app_length, seq_app, !filter_app, !app_length. cbn [length seq Nat.add]. f_equal.
  - rewrite <- IH. f_equal. apply filter_ext_in. intros i Hi. apply in_seq in Hi.
    by rewrite lookup_app_l by lia.
  - cbn [List.filter]. rewrite list_lookup_app_last. by destruct (P x).
Qed.
Lemma filter_length_insert {X} (P : X -> bool) l i x y : l !! i = Some x -> P x = P y ->
  length (List.filter P (<[i:=y]> l)) = length (List.filter P l).
Proof.
  revert i. induction l as [|z l IH]; intros [|i] H E; try done.
  - inversion H; subst. change (<[0%nat:=y]> (x :: l)) with (y :: l). cbn. rewrite E. by destruct (P y).
  - change (<[S i:=y]> (z :: l)) with (z :: <[i:=y]> l). cbn [List.filter]. destruct (P z); cbn [length]; by rewrite (IH i).
Qed.
Lemma filter_length_insert_le {X} (P : X -> bool) l i x y : l !! i = Some x -> (P y = true -> P x = true) ->
  (length (List.filter P (<[i:=y]> l)) <= length (List.filter P l))%nat.
Proof.
  revert i. induction l as [|z l IH]; intros [|i] H E; try done.
  - inversion H; subst. change (<[0%nat:=y]> (x :: l)) with (y :: l). cbn. destruct (P y); [rewrite E; cbn; lia|]. destruct (P x); cbn; lia.
  - change (<[S i:=y]> (z :: l)) with (z :: <[i:=y]> l). cbn [List.filter]. specialize (IH i H E). destruct (P z); cbn; lia.
Qed.

Section limit.
Context {c : config}.
Notation st := (state c).
Notation pcT := (pc c).
Notation holdT := (holder c).
Notation key := (c_key c).
Notation pointT := (point c).
Implicit Types (ls : list (label c)) (s : st) (p : pcT) (pt : pointT) (hs : list holdT).

Definition in_view (v : nat) (h : holdT) : bool := h_live h && Nat.eqb (h_view h) v.
Lemma vsize_filter v s : vsize v s = length (List.filter (in_view v) (s_holds s)).
Proof. unfold vsize, live_holders. apply (length_filter_index (in_view v)). Qed.

(** The size of view [v], and its overflow entry when it is full. *)
Definition VL s : Prop := forall v, (1 <= vlimit c v)%nat ->
  (vsize v s <= vlimit c v)%nat /\
  (vsize v s = vlimit c v -> exists h hd, s_holds s !! h = Some hd /\ h_live hd = true /\ h_view hd = v /\ h_key hd = c_ovkey c).

Lemma VL_holds s s' : s_holds s' = s_holds s -> VL s -> VL s'.
Proof. intros E H v. rewrite !vsize_filter, E. rewrite <- vsize_filter. apply H. Qed.
Lemma VL_ins s s' h hd hd' : s_holds s !! h = Some hd -> h_view hd' = h_view hd -> h_key hd' = h_key hd ->
  (h_live hd' = true -> h_live hd = true) -> s_holds s' = <[h:=hd']> (s_holds s) -> VL s -> VL s'.
Proof.
  intros Hh Ev Ek El E H v Hv. destruct (H v Hv) as [H1 H2]. rewrite vsize_filter in H1, H2. rewrite vsize_filter, E.
  assert (in_view v hd' = true -> in_view v hd = true) as EL.
  { unfold in_view. rewrite Ev. intros Q. apply andb_true_iff in Q as [Q1 Q2]. by rewrite Q2, El. }
  pose proof (filter_length_insert_le (in_view v) _ _ _ _ Hh EL) as L.
  split; [lia|]. intros Q. destruct H2 as (h0 & hd0 & Q0 & Q1 & Q2 & Q3); [lia|].
  destruct (decide (h = h0)) as [<-|Hne].
  - assert (hd0 = hd) by congruence. subst hd0. exists h, hd'. rewrite list_lookup_insert by (by eapply lookup_lt_Some).
    split; [done|]. split; [|by rewrite Ev, Ek].
    destruct (h_live hd') eqn:L'; [done|]. exfalso.
    assert (forall l i x y, l !! i = Some x -> in_view v x = true -> in_view v y = false ->
      (length (List.filter (in_view v) (<[i:=y]> l)) < length (List.filter (in_view v) l))%nat) as LT.
    { clear. induction l as [|z l IH]; intros [|i] x y Hx H1 H2; try done.
      - inversion Hx; subst. change (<[0%nat:=y]> (x :: l)) with (y :: l). cbn [List.filter]. rewrite H1, H2. cbn. lia.
      - change (<[S i:=y]> (z :: l)) with (z :: <[i:=y]> l). cbn [List.filter]. specialize (IH i x y Hx H1 H2). destruct (in_view v z); cbn; lia. }
    specialize (LT _ _ _ hd' Hh). unfold in_view at 1 in LT. rewrite Q1, Q2, Nat.eqb_refl in LT.
    specialize (LT eq_refl). unfold in_view at 1 in LT. rewrite L' in LT. specialize (LT eq_refl). lia.
  - exists h0, hd0. rewrite list_lookup_insert_ne by done. done.
Qed.

Lemma find_holder_Some v k s h : find_holder v k s = Some h ->
  exists hd, s_holds s !! h = Some hd /\ h_live hd = true /\ h_view hd = v /\ h_key hd = k.
Proof.
  intros H. apply find_first_Some in H as (hd & Hh & E). exists hd.
  rewrite !andb_true_iff in E. destruct E as ((E1 & E2) & E3). apply Nat.eqb_eq in E2.
  apply bool_decide_eq_true in E3. done.
Qed.
Lemma vsize_new v v' k s : vsize v (set_holds (fun l => l ++ [Holder v' k true 0 mu]) s) =
  (vsize v s + if Nat.eqb v' v then 1 else 0)%nat.
Proof.
  rewrite !vsize_filter. cbn [set_holds s_holds]. rewrite filter_app, app_length. f_equal. cbn. by destruct (Nat.eqb v' v).
Qed.
Lemma VL_new v k s s1 h : get_or_create v k s = (s1, h) -> VL s -> VL s1.
Proof.
  intros G H v' Hv'. destruct (H v' Hv') as [H1 H2].
  assert (NEW : forall k0, s1 = set_holds (fun l => l ++ [Holder v k0 true 0 mu]) s ->
     (v' = v -> (vsize v s < vlimit c v)%nat /\ (vsize v s + 1 = vlimit c v -> k0 = c_ovkey c \/ find_holder v (c_ovkey c) s <> None)%nat) ->
     (vsize v' s1 <= vlimit c v')%nat /\ (vsize v' s1 = vlimit c v' ->
       exists h hd, s_holds s1 !! h = Some hd /\ h_live hd = true /\ h_view hd = v' /\ h_key hd = c_ovkey c)).
  { intros k0 -> Hb. rewrite vsize_new. destruct (Nat.eqb_spec v v') as [->|Hne].
    - destruct (Hb eq_refl) as [B1 B2]. split; [lia|]. intros B3. destruct (B2 B3) as [->|B4].
      + eexists (length (s_holds s)), _. split; [apply list_lookup_app_last|]. done.
      + destruct (find_holder v' (c_ovkey c) s) as [h0|] eqn:F; [|done]. apply find_holder_Some in F as (hd & F & ?).
        exists h0, hd. split; [|done]. by apply lookup_app_l_Some.
    - rewrite Nat.add_0_r. split; [done|]. intros Q. destruct (H2 Q) as (h0 & hd0 & Q0 & ?). exists h0, hd0.
      split; [|done]. by apply lookup_app_l_Some. }
  unfold get_or_create in G. destruct (find_holder v k s) as [h0|] eqn:F1; [by inversion G; subst|].
  destruct (Nat.eqb_spec (vsize v s) (vlimit c v)) as [E1|E1].
  { destruct (find_holder v (c_ovkey c) s) as [h0|] eqn:F2; [by inversion G; subst|]. inversion G; subst s1.
    apply (NEW k eq_refl). intros ->. destruct (H2 E1) as (h0 & hd0 & Q0 & Q1 & Q2 & Q3).
    apply (find_first_None _ _ F2) in Q0. by rewrite Q1, Q2, Q3, Nat.eqb_refl, bool_decide_true in Q0. }
  destruct (Nat.eqb_spec (vsize v s + 1) (vlimit c v)) as [E2|E2].
  { case_bool_decide as B; [subst k; inversion G; subst s1; apply (NEW _ eq_refl); intros ->; split; [lia|by left]|].
    destruct (find_holder v (c_ovkey c) s) as [h0|] eqn:F2; inversion G; subst s1; apply (NEW _ eq_refl); intros ->.
    - split; [lia|]. by right.
    - split; [lia|]. by left. }
  inversion G; subst s1. apply (NEW _ eq_refl). intros ->. split; [lia|]. intros Q. lia.
Qed.
Lemma VL_step s t s' : stepR s t s' -> VL s -> VL s'.
Proof.
  intros H V. stepR_cases H.
  all: try (by eapply VL_holds).
  all: try (eapply (VL_ins s); [exact Hh|..]; cycle 3; [snorm; reflexivity|exact V|done..]; fail).
  eapply (VL_ins s1); [exact Hh|..]; cycle 3; [snorm; reflexivity|by eapply VL_new|done..].
Qed.
Lemma VL_run ls s : run (init c) ls = Some s -> VL s.
Proof.
  revert ls s. apply (run_ind (fun _ s => VL s)).
  - intros v Hv. cbn. split; [lia|]. unfold vsize, live_holders. cbn. lia.
  - intros ls s o k n R I P _. by eapply VL_holds.
  - intros ls s rd R I P. by eapply VL_holds.
  - intros ls s t ch s' R I I' P S. exact (VL_step s t s' S P).
Qed.

(** Points emitted by collection [t] for view [v], and those still to come. *)
Definition npts (t v : nat) s : nat :=
  length (List.filter (fun pt => Nat.eqb (p_tid pt) t && Nat.eqb (p_view pt) v) (pts s)).
Definition todo_of (v : nat) p : nat :=
  match p with
  | QColl _ _ v' l => if Nat.eqb v' v then length l else 0%nat
  | QPoint _ _ v' l _ _ | QDecide _ _ v' l _ _ _ => if Nat.eqb v' v then S (length l) else 0%nat
  | _ => 0%nat
  end.
Definition PL s : Prop := forall t p v, s_thr s !! t = Some p -> (1 <= vlimit c v)%nat ->
  (npts t v s + todo_of v p <= vlimit c v)%nat.

Lemma npts_perm t v s s' pt : pts s' ≡ₚ pt :: pts s ->
  npts t v s' = (npts t v s + if Nat.eqb (p_tid pt) t && Nat.eqb (p_view pt) v then 1 else 0)%nat.
Proof.
  intros P. unfold npts. 
  assert (forall (l l' : list pointT) f, l ≡ₚ l' -> length (List.filter f l) = length (List.filter f l')) as G.
  { clear. intros l l' f P. induction P; cbn; try done.
    - destruct (f x); cbn; by rewrite IHP.
    - by destruct (f x), (f y).
    - by rewrite IHP1. }
  rewrite (G _ _ _ P). cbn. destruct (_ && _); cbn; lia.
Qed.
Lemma PL_quiet s s' t p p' : s_thr s !! t = Some p -> s_thr s' = <[t:=p']> (s_thr s) ->
  s_out s' = s_out s -> s_drop s' = s_drop s -> (forall v, (todo_of v p' <= todo_of v p)%nat) -> PL s -> PL s'.
Proof.
  intros Ht Et Eo Ed El P t0 p0 v H0 Hv. unfold npts, pts. rewrite Eo, Ed. rewrite Et in H0.
  apply lookup_insert_inv in H0 as [(<- & <- & _)|(_ & H0)]; [|by apply P].
  specialize (P _ _ v Ht Hv). specialize (El v). unfold npts, pts in P. lia.
Qed.
Lemma PL_emit s s' t p p' pt : s_thr s !! t = Some p -> s_thr s' = <[t:=p']> (s_thr s) ->
  pts s' ≡ₚ pt :: pts s -> p_tid pt = t ->
  (forall v, (todo_of v p' + (if Nat.eqb (p_view pt) v then 1 else 0) <= todo_of v p)%nat) -> PL s -> PL s'.
Proof.
  intros Ht Et Ep E0 El P t0 p0 v H0 Hv. rewrite (npts_perm _ _ _ _ _ Ep), E0. rewrite Et in H0.
  apply lookup_insert_inv in H0 as [(<- & <- & _)|(Hne & H0)].
  - specialize (P _ _ v Ht Hv). specialize (El v). rewrite Nat.eqb_refl. cbn. lia.
  - specialize (P _ _ v H0 Hv). destruct (Nat.eqb_spec t t0); [done|]. cbn. lia.
Qed.
Lemma delete_length_S {X} (l : list X) i x : l !! i = Some x -> length l = S (length (delete i l)).
Proof. intros H. apply lookup_lt_Some in H as L. rewrite length_delete by done. lia. Qed.

Ltac acc_split := try match goal with S1 : _ = _ \/ exists _, _ = set_holds _ _ /\ _ |- _ =>
  destruct S1 as [->|(?k0 & -> & -> & ?F)] end.
Lemma PL_step s t s' : VL s -> EI s -> stepR s t s' -> PL s -> PL s'.
Proof.
  intros V E H P. stepR_cases H; acc_split.
  all: try (eapply (PL_quiet s _ t); [exact Ht|snorm; reflexivity|done|done|intros v0; cbn; lia|exact P]; fail).

  - eapply (PL_quiet s _ t); [exact Ht|snorm; reflexivity|done|done|intros v0|exact P]. by destruct ph as [[]|].
  - intros t0 p0 v0 H0 Hv0. snorm. apply lookup_insert_inv in H0 as [(<- & <- & _)|(Hne & H0)]; [|by apply P].
    change (npts t v0 (goto t (QColl rd vs v (live_holders v s)) (set_il v (Some t) s))) with (npts t v0 s).
    cbn [todo_of]. destruct (Nat.eqb_spec v v0) as [<-|Hne]; [|specialize (P _ _ v0 Ht Hv0); cbn in P; lia].
    assert (npts t v s = 0%nat) as ->.
    { unfold npts. destruct (List.filter _ (pts s)) as [|pt l] eqn:F; [done|exfalso].
      assert (In pt (List.filter (fun pt => Nat.eqb (p_tid pt) t && Nat.eqb (p_view pt) v) (pts s))) as Hin by (rewrite F; by left).
      apply filter_In in Hin as [Hin Hb]. apply andb_true_iff in Hb as [Hb1 Hb2]. apply Nat.eqb_eq in Hb1, Hb2.
      destruct E as (_ & M & _). apply elem_of_list_In in Hin. destruct (M _ Hin) as (q & Hq & Hm).
      rewrite Hb1, Ht in Hq. inversion Hq; subst q. destruct Hm as [_ Hm]. apply Hm. rewrite Hb2. left. }
    destruct (V v Hv0) as [V1 _]. unfold vsize in V1. lia.
  - eapply (PL_quiet s _ t); [exact Ht|snorm; reflexivity|done|done|intros v0|exact P]. cbn.
    rewrite (delete_length_S _ _ _ Hc). lia.
  - eapply (PL_emit s _ t _ _ (Point t v (h_key hd) (h_sto hd))); [exact Ht|snorm; reflexivity| |done|intros v0|exact P].
    + unfold pts. snorm. rewrite <- app_assoc. symmetry. apply Permutation_middle.
    + cbn. rewrite (delete_length_S _ _ _ Hc). destruct (Nat.eqb v v0); lia.
  - eapply (PL_emit s _ t _ _ (Point t v (h_key hd) a)); [exact Ht|snorm; reflexivity| |done|intros v0|exact P].
    + unfold pts. snorm. rewrite <- app_assoc. symmetry. apply Permutation_middle.
    + cbn. destruct (Nat.eqb v v0); lia.
  - eapply (PL_emit s _ t _ _ (Point t v (h_key hd) a)); [exact Ht|snorm; reflexivity| |done|intros v0|exact P].
    + unfold pts. snorm. rewrite app_assoc. symmetry. apply Permutation_cons_append.
    + cbn. destruct (Nat.eqb v v0); lia.
  - eapply (PL_emit s _ t _ _ (Point t v (h_key hd) a)); [exact Ht|snorm; reflexivity| |done|intros v0|exact P].
    + unfold pts. snorm. rewrite app_assoc. symmetry. apply Permutation_cons_append.
    + cbn. destruct (Nat.eqb v v0); lia.
Qed.
Lemma npts_none t v s : EI s -> s_thr s !! t = None -> npts t v s = 0%nat.
Proof.
  intros (_ & M & _) Ht. unfold npts. destruct (List.filter _ (pts s)) as [|pt l] eqn:F; [done|exfalso].
  assert (In pt (List.filter (fun pt => Nat.eqb (p_tid pt) t && Nat.eqb (p_view pt) v) (pts s))) as Hin by (rewrite F; by left).
  apply filter_In in Hin as [Hin Hb]. apply andb_true_iff in Hb as [Hb1 Hb2]. apply Nat.eqb_eq in Hb1.
  apply elem_of_list_In in Hin. destruct (M _ Hin) as (q & Hq & Hm). congruence.
Qed.
Lemma PL_run ls s : run (init c) ls = Some s -> PL s.
Proof.
  assert (SP : forall s p, EI s -> (forall v, todo_of v p = 0%nat) -> PL s -> PL (set_thr (fun l => l ++ [p]) s)).
  { intros s0 p E Z P t0 p0 v H0 Hv. change (npts t0 v (set_thr (fun l => l ++ [p]) s0)) with (npts t0 v s0). cbn in H0.
    apply lookup_snoc in H0 as [H0|[-> ->]]; [by apply P|]. rewrite Z, npts_none; [lia|done|]. by apply lookup_ge_None. }
  revert ls s. apply (run_ind (fun _ s => PL s)).
  - intros t p v H. by inversion H.
  - intros ls s o k n R I P _. apply SP; [by eapply EI_run|done|done].
  - intros ls s rd R I P. apply SP; [by eapply EI_run|done|done].
  - intros ls s t ch s' R I I' P S. refine (PL_step s t s' _ _ S P); [by eapply VL_run|by eapply EI_run].
Qed.

(** ** The instrument's limit *)
Notation ovfp := (c_fp c (c_ovk c)).
Definition nonov (o : nat) s : list Z := List.filter (fun f => negb (f =? ovfp)) (live_fps o s).
Definition to_write (o : nat) p : bool :=
  match p with PWrite o' k _ => Nat.eqb o' o && negb (c_fp c k =? ovfp) | _ => false end.
Definition nwrite (o : nat) s : nat := length (List.filter (to_write o) (s_thr s)).

Lemma elem_live_fps o s f : f ∈ live_fps o s <->
  exists i r, s_recs s !! i = Some r /\ r_live r = true /\ r_inst r = o /\ c_fp c (r_attrs r) = f.
Proof.
  unfold live_fps. rewrite elem_of_remove_dups, elem_of_list_In, in_map_iff. split.
  - intros (r & E & H). apply filter_In in H as [H1 H2]. apply andb_true_iff in H2 as [H2 H3]. apply Nat.eqb_eq in H3.
    apply elem_of_list_In, elem_of_list_lookup in H1 as (i & Hi). by exists i, r.
  - intros (i & r & Hi & H1 & H2 & E). exists r. split; [done|]. apply filter_In. split.
    + apply elem_of_list_In. by eapply elem_of_list_lookup_2.
    + by rewrite H1, H2, Nat.eqb_refl.
Qed.
Lemma elem_nonov o s f : f ∈ nonov o s <-> f <> ovfp /\
  exists i r, s_recs s !! i = Some r /\ r_live r = true /\ r_inst r = o /\ c_fp c (r_attrs r) = f.
Proof.
  unfold nonov. rewrite elem_of_list_In, filter_In, <- elem_of_list_In, elem_live_fps, negb_true_iff, Z.eqb_neq. tauto.
Qed.
Lemma nonov_NoDup o s : NoDup (nonov o s).
Proof. unfold nonov. rewrite NoDup_ListNoDup. apply List.NoDup_filter. rewrite <- NoDup_ListNoDup. apply NoDup_remove_dups. Qed.
Lemma NoDup_sub_length {X} (l k : list X) : NoDup l -> (forall x, x ∈ l -> x ∈ k) -> (length l <= length k)%nat.
Proof. intros N H. apply submseteq_length. by apply NoDup_submseteq. Qed.
Lemma nfp_nonov o s : (length (nonov o s) <= length (live_fps o s) <= S (length (nonov o s)))%nat.
Proof.
  split.
  - apply NoDup_sub_length; [apply nonov_NoDup|]. intros f Hf. apply elem_nonov in Hf as [_ Hf]. by apply elem_live_fps.
  - change (S (length (nonov o s))) with (length (ovfp :: nonov o s)). apply NoDup_sub_length; [apply NoDup_remove_dups|].
    intros f Hf. destruct (decide (f = ovfp)) as [->|Hne]; [left|right]. apply elem_nonov. split; [done|]. by apply elem_live_fps.
Qed.

Lemma filter_le {X} (P Q : X -> bool) l : (forall x, P x = true -> Q x = true) ->
  (length (List.filter P l) <= length (List.filter Q l))%nat.
Proof.
  intros H. induction l as [|x l IH]; cbn; [done|]. destruct (P x) eqn:E.
  - rewrite (H _ E). cbn. lia.
  - destruct (Q x); cbn; lia.
Qed.
Lemma nwrite_flight o s : (nwrite o s <= in_flight s)%nat.
Proof. apply filter_le. intros p. by destruct p. Qed.

Definition IL (C : nat) s : Prop := forall o,
  Z.of_nat (length (nonov o s)) + Z.of_nat (nwrite o s) <= Z.max 0 (c_ilimit c - 2 + Z.of_nat C).

(** The records that are live now were live before, with the same attributes. *)
Definition recs_le s s' : Prop := forall i r', s_recs s' !! i = Some r' -> r_live r' = true ->
  exists r, s_recs s !! i = Some r /\ r_live r = true /\ r_inst r = r_inst r' /\ r_attrs r = r_attrs r'.
Lemma recs_le_nonov o s s' : recs_le s s' -> (length (nonov o s') <= length (nonov o s))%nat.
Proof.
  intros L. apply NoDup_sub_length; [apply nonov_NoDup|]. intros f Hf. apply elem_nonov in Hf as [N (i & r' & Hr & Hl & Ho & Hf)].
  destruct (L _ _ Hr Hl) as (r & H1 & H2 & H3 & H4). apply elem_nonov. split; [done|]. exists i, r. rewrite H3, H4. done.
Qed.
Lemma IL_quiet C s s' t p p' : s_thr s !! t = Some p -> s_thr s' = <[t:=p']> (s_thr s) -> recs_le s s' ->
  (forall o, to_write o p' = true -> to_write o p = true) -> IL C s -> IL C s'.
Proof.
  intros Ht Et L Ew I o. specialize (I o). pose proof (recs_le_nonov o _ _ L).
  pose proof (filter_length_insert_le (to_write o) _ _ _ _ Ht (Ew o)) as W. unfold nwrite in *. rewrite Et. lia.
Qed.
Lemma recs_le_refl s s' : s_recs s' = s_recs s -> recs_le s s'.
Proof. intros E i r Hr Hl. exists r. by rewrite <- E. Qed.
Lemma recs_le_ins s s' i r r' : s_recs s !! i = Some r -> s_recs s' = <[i:=r']> (s_recs s) ->
  (r_live r' = true -> r_live r = true) -> r_inst r' = r_inst r -> r_attrs r' = r_attrs r -> recs_le s s'.
Proof.
  intros Hr E El Ei Ea i0 r0 H0 Hl. rewrite E in H0. apply lookup_insert_inv in H0 as [(<- & <- & _)|(_ & H0)].
  - exists r. rewrite Ei, Ea. auto.
  - by exists r0.
Qed.

Lemma IL_step C s t s' : (in_flight s' <= C)%nat -> stepR s t s' -> IL C s -> IL C s'.
Proof.
  intros HC H I. stepR_cases H; acc_split.
  all: try (eapply (IL_quiet C s _ t); [exact Ht|snorm; reflexivity|by apply recs_le_refl|done|exact I]; fail).
  all: try (eapply (IL_quiet C s _ t); [exact Ht|snorm; reflexivity|eapply (recs_le_ins s _ i r); [exact Hr|snorm; reflexivity|done..]|done|exact I]; fail).
  - intros o0. destruct (to_write o0 (PWrite o (miss_key o k s) n)) eqn:E.
    + cbn in E. apply andb_true_iff in E as [E1 E2]. apply Nat.eqb_eq in E1. subst o0. unfold miss_key in E2.
      destruct (Z.leb_spec (c_ilimit c - 1) (nfp o s)) as [L|L].
      { by rewrite Z.eqb_refl in E2. }
      pose proof (nwrite_flight o (goto t (PWrite o (miss_key o k s) n) s)) as L2.
      change (nonov o (goto t (PWrite o (miss_key o k s) n) s)) with (nonov o s).
      pose proof (nfp_nonov o s) as [L3 _]. unfold nfp in L. lia.
    + specialize (I o0). unfold nwrite in *. snorm.
      change (nonov o0 (goto t (PWrite o (miss_key o k s) n) s)) with (nonov o0 s).
      pose proof (filter_length_insert_le (to_write o0) _ _ _ (PWrite o (miss_key o k s) n) Ht) as L. rewrite E in L.
      specialize (L ltac:(done)). lia.
  - intros o0. specialize (I o0).
    assert (SUB : forall f, f ∈ nonov o0 (goto t (PInit (length (s_recs s)) n) (set_recs (fun l => l ++ [new_rec o k]) s)) ->
      f ∈ nonov o0 s \/ (o = o0 /\ f = c_fp c k /\ f <> ovfp)).
    { intros f Hf. apply elem_nonov in Hf as [N (i & r & Hr & Hl & Ho & Ef)]. cbn in Hr.
      apply lookup_snoc in Hr as [Hr|[-> ->]]; [|right; by cbn in *]. left. apply elem_nonov. split; [done|]. by exists i, r. }
    assert (NW : forall P : pcT -> bool, P (PWrite o k n) = true -> P (PInit (length (s_recs s)) n) = false ->
       (length (List.filter P (s_thr s)) = S (length (List.filter P (<[t:=PInit (length (s_recs s)) n]> (s_thr s)))))).
    { intros P P1 P2. generalize Ht. generalize (s_thr s) as l. generalize t as i. clear -P1 P2.
      intros i l. revert i. induction l as [|z l IH]; intros [|i] Hi; try done.
      - inversion Hi; subst. change (<[0%nat:=PInit (length (s_recs s)) n]> (PWrite o k n :: l)) with (PInit (length (s_recs s)) n :: l).
        cbn [List.filter]. by rewrite P1, P2.
      - change (<[S i:=PInit (length (s_recs s)) n]> (z :: l)) with (z :: <[i:=PInit (length (s_recs s)) n]> l).
        cbn [List.filter]. destruct (P z); cbn [length]; by rewrite (IH i). }
    unfold nwrite in *. snorm. destruct (to_write o0 (PWrite o k n)) eqn:E.
    + rewrite (NW _ E) in I by done.
      match goal with |- Z.of_nat (length ?x) + _ <= _ => assert (length x <= length (c_fp c k :: nonov o0 s))%nat as L end.
      { apply NoDup_sub_length; [apply nonov_NoDup|]. intros f Hf. destruct (SUB _ Hf) as [Q|(_ & -> & _)]; [by right|left]. }
      cbn [length] in L. lia.
    + match goal with |- Z.of_nat (length ?x) + _ <= _ => assert (length x <= length (nonov o0 s))%nat as L end.
      { apply NoDup_sub_length; [apply nonov_NoDup|]. intros f Hf. destruct (SUB _ Hf) as [Q|(-> & -> & Q)]; [done|].
        cbn in E. rewrite Nat.eqb_refl in E. cbn in E. apply negb_false_iff, Z.eqb_eq in E. done. }
      pose proof (filter_length_insert_le (to_write o0) _ _ _ (PInit (length (s_recs s)) n) Ht ltac:(done)). lia.
  - eapply (IL_quiet C s _ t); [exact Ht|snorm; reflexivity|by apply recs_le_refl|intros o0; by destruct ph as [[]|]|exact I].
Qed.
Lemma flight_step s t s' : stepR s t s' -> (in_flight s' <= in_flight s)%nat.
Proof.
  intros H. unfold in_flight. stepR_cases H; acc_split; snorm; eapply filter_length_insert_le; try exact Ht; try done.
  by destruct ph as [[]|].
Qed.
Lemma IL_run C ls s : run (init c) ls = Some s ->
  (forall l s', l `prefix_of` ls -> run (init c) l = Some s' -> (in_flight s' <= C)%nat) -> IL C s.
Proof.
  assert (SP : forall s p, (forall o, to_write o p = false) -> IL C s -> IL C (set_thr (fun l => l ++ [p]) s)).
  { intros s0 p Z I o. specialize (I o). unfold nwrite in *. cbn [set_thr s_thr]. rewrite filter_app, app_length.
    change (nonov o (set_thr (fun l => l ++ [p]) s0)) with (nonov o s0). cbn [List.filter]. rewrite Z. cbn [length]. lia. }
  revert ls s. apply (run_ind (fun ls s => (forall l s', l `prefix_of` ls -> run (init c) l = Some s' -> (in_flight s' <= C)%nat) -> IL C s)).
  - intros _ o. change (nonov o (init c)) with (@nil Z). change (nwrite o (init c)) with 0%nat. cbn [length]. lia.
  - intros ls s o k n R I P _ HC. apply SP; [done|]. apply P. intros l s' Hl. apply HC. by apply prefix_app_r.
  - intros ls s rd R I P HC. apply SP; [done|]. apply P. intros l s' Hl. apply HC. by apply prefix_app_r.
  - intros ls s t ch s' R I I' P S HC. refine (IL_step C s t s' _ S _).
    + etransitivity; [exact (flight_step s t s' S)|]. apply (HC ls s); [by apply prefix_app_r|done].
    + apply P. intros l s2 Hl. apply HC. by apply prefix_app_r.
Qed.
End limit.
