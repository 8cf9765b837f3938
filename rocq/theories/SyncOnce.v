(** Where every measurement is: consequences of conservation for tagged runs. *)
From Coq Require Import ZArith Lia Bool.
From stdpp Require Import base list option gmultiset.
From Verif Require Import Base Lib SyncModel SyncInv SyncStep SyncStepB SyncCases SyncCons SyncRun SyncTag SyncSpec.
Local Open Scope Z_scope.

(** ** Multiplicities of sums *)
Section mult.
Context {c : config}.
Notation PM := (c_mon (tag c)).
Definition mlt (x : nat) (a : PM) : nat := multiplicity x (snd a : gmultiset nat).
Lemma mlt_mu x : mlt x mu = 0%nat.
Proof. apply multiplicity_empty. Qed.
Lemma mlt_op x (a b : PM) : mlt x (mop a b) = (mlt x a + mlt x b)%nat.
Proof. apply multiplicity_disj_union. Qed.
Lemma mlt_inj x y n : mlt x (c_inj (tag c) y n) = if decide (x = y) then 1%nat else 0%nat.
Proof. apply multiplicity_singleton'. Qed.
Lemma mlt_only x b (a : PM) : mlt x (only b a) = if b then mlt x a else 0%nat.
Proof. destruct b; [done|apply mlt_mu]. Qed.
Fixpoint nsum {X} (f : X -> nat) (l : list X) : nat := match l with [] => 0%nat | y :: l => (f y + nsum f l)%nat end.
Lemma mlt_msum {X} x (f : X -> PM) l : mlt x (msum f l) = nsum (fun y => mlt x (f y)) l.
Proof. induction l as [|y l IH]; cbn [msum nsum]; [apply mlt_mu|]. by rewrite mlt_op, IH. Qed.
Lemma nsum_elem {X} (f : X -> nat) l i y : l !! i = Some y -> (f y <= nsum f l)%nat.
Proof.
  revert i. induction l as [|z l IH]; intros [|i] H; try done; cbn in *; [inversion H; lia|].
  specialize (IH _ H). lia.
Qed.
Lemma nsum_two {X} (f : X -> nat) l i j y z : i <> j -> l !! i = Some y -> l !! j = Some z -> (f y + f z <= nsum f l)%nat.
Proof.
  revert i j. induction l as [|w l IH]; intros [|i] [|j] N H1 H2; try done; cbn in *.
  - inversion H1; subst. pose proof (nsum_elem f _ _ _ H2). lia.
  - inversion H2; subst. pose proof (nsum_elem f _ _ _ H1). lia.
  - specialize (IH i j ltac:(lia) H1 H2). lia.
Qed.
Lemma nsum_pos {X} (f : X -> nat) l : (0 < nsum f l)%nat -> exists i y, l !! i = Some y /\ (0 < f y)%nat.
Proof.
  induction l as [|z l IH]; cbn; intros H; [lia|].
  destruct (decide (0 < f z)%nat); [by exists 0%nat, z|]. destruct IH as (i & y & ? & ?); [lia|]. by exists (S i), y.
Qed.
Lemma nsum_count {X} (f : X -> nat) l (Q : nat -> bool) :
  (forall i y, l !! i = Some y -> f y = if Q i then 1%nat else 0%nat) ->
  nsum f l = length (List.filter Q (seq 0 (length l))).
Proof.
  assert (forall n, (forall i y, l !! i = Some y -> f y = if Q (n + i)%nat then 1%nat else 0%nat) ->
    nsum f l = length (List.filter Q (seq n (length l)))) as G; [|by intros; apply G].
  induction l as [|y l IH]; intros n H; cbn; [done|].
  pose proof (H 0%nat y eq_refl) as H0. rewrite Nat.add_0_r in H0. rewrite H0.
  rewrite (IH (S n)).
  - by destruct (Q n).
  - intros i z Hz. specialize (H (S i) z Hz). by rewrite Nat.add_succ_r in H.
Qed.
Lemma fst_msum {X} (f : X -> PM) l : (msum f l).1 = msum (M:=c_mon c) (fun y => (f y).1) l.
Proof.
  induction l as [|y l IH]; cbn [msum]; [done|]. rewrite <- IH. done.
Qed.
Lemma fst_only b (a : PM) : (only b a).1 = only (M:=c_mon c) b a.1.
Proof. by destruct b. Qed.
End mult.

Section once.
Context (c : config).
Notation tc := (tag c).
Notation st := (state tc).
Notation PM := (c_mon tc).
Implicit Types (s : st) (log : list (upd tc)).

Definition tval log (x : nat) : car (c_mon c) := match log !! x with Some u => c_inj c x (u_num (c:=tc) u) | None => mu end.
(** A tagged aggregate is the aggregate of its tags. *)
Definition good log (a : PM) : Prop :=
  (forall x, (0 < mlt (c:=c) x a)%nat -> (x < length log)%nat) /\
  a.1 = msum (tval log) (elements (a.2 : gmultiset nat)).

Lemma tval_app log u x : (x < length log)%nat -> tval (log ++ [u]) x = tval log x.
Proof. intros H. unfold tval. by rewrite lookup_app_l. Qed.
Lemma mlt_elem (a : PM) x : x ∈ elements (a.2 : gmultiset nat) <-> (0 < mlt (c:=c) x a)%nat.
Proof. rewrite gmultiset_elem_of_elements. unfold mlt. rewrite elem_of_multiplicity. done. Qed.

Lemma good_cells s : reachable s -> cells good s.
Proof.
  apply cells_reachable.
  - intros l. split; [|done]. intros x. rewrite mlt_mu. lia.
  - intros l a b [A1 A2] [B1 B2]. split.
    + intros x. rewrite mlt_op. intros H. destruct (decide (0 < mlt (c:=c) x a)%nat); [by apply A1|apply B1; lia].
    + change ((mop a b).1) with (@mop (c_mon c) a.1 b.1). rewrite A2, B2, <- msum_app. apply msum_perm. symmetry. apply gmultiset_elements_disj_union.
  - intros l u a [A1 A2]. split.
    + intros x H. rewrite app_length. cbn. specialize (A1 x H). lia.
    + rewrite A2. apply msum_ext. intros x Hx. symmetry. apply tval_app, A1. by apply mlt_elem.
  - intros l u. split.
    + intros x. rewrite mlt_inj. destruct (decide (x = length l)) as [->|]; [|lia].
      intros _. rewrite app_length. cbn. lia.
    + change (c_inj c (length l) (u_num u) = msum (tval (l ++ [u])) (elements ({[+ length l +]} : gmultiset nat))).
      rewrite gmultiset_elements_singleton. cbn [msum]. rewrite mop_unit_r. unfold tval. by rewrite list_lookup_app_last.
Qed.

(** Each measurement is counted once in the log. *)
Lemma mlt_log_from (P : upd tc -> bool) n log x :
  mlt (c:=c) x (log_sum_from P n log) =
  if decide (n <= x)%nat then match log !! (x - n)%nat with Some u => if P u then 1%nat else 0%nat | None => 0%nat end else 0%nat.
Proof.
  revert n. induction log as [|u log IH]; intros n; cbn [log_sum_from].
  { rewrite mlt_mu. by destruct (decide _). }
  rewrite mlt_op, mlt_only, IH, mlt_inj.
  destruct (decide (x = n)) as [->|Hne].
  - rewrite decide_False by lia. rewrite decide_True by lia. rewrite Nat.sub_diag. cbn. by destruct (P u).
  - destruct (decide (n <= x)%nat) as [Hle|Hle].
    + rewrite decide_True by lia. destruct (x - n)%nat as [|m] eqn:E; [lia|].
      replace (x - S n)%nat with m by lia. change ((u :: log) !! S m) with (log !! m). by destruct (P u).
    + rewrite decide_False by lia. destruct (P u); lia.
Qed.
Lemma mlt_log v k log x :
  mlt (c:=c) x (log_sum v k log) =
  match log !! x with Some u => if of_series v k (u_view u) (u_key u) then 1%nat else 0%nat | None => 0%nat end.
Proof. unfold log_sum. rewrite mlt_log_from. rewrite decide_True by lia. by rewrite Nat.sub_0_r. Qed.

Lemma of_series_true v (k : c_key tc) v' k' : of_series (c:=tc) v k v' k' = true <-> v' = v /\ k' = k.
Proof.
  unfold of_series. rewrite andb_true_iff, Nat.eqb_eq, bool_decide_eq_true. done.
Qed.
Lemma of_series_refl v (k : c_key tc) : of_series (c:=tc) v k v k = true.
Proof. by apply of_series_true. Qed.

(** *** Points of cumulative series *)
Definition psub s (p : point tc) : Prop :=
  forall x, (mlt (c:=c) x (p_agg p) <= mlt (c:=c) x (log_sum (p_view p) (p_key p) (s_log s)))%nat.
Definition has_home s (p : point tc) : Prop :=
  vdelta c (p_view p) = false ->
  exists h hd, s_holds s !! h = Some hd /\ h_view hd = p_view p /\ h_key hd = p_key p /\
    forall x, (mlt (c:=c) x (p_agg p) <= mlt (c:=c) x (h_sto hd))%nat.
Definition grows s : Prop :=
  forall i j p p', (i < j)%nat -> s_out s !! i = Some p -> s_out s !! j = Some p' ->
    p_view p = p_view p' -> p_key p = p_key p' -> vdelta c (p_view p) = false ->
    forall x, (mlt (c:=c) x (p_agg p) <= mlt (c:=c) x (p_agg p'))%nat.
Definition PI s : Prop :=
  conserved s /\
  (forall i p, s_out s !! i = Some p -> psub s p /\ has_home s p) /\
  (forall i p, s_drop s !! i = Some p -> psub s p /\ c_change tc (p_view p) (p_agg p) = false /\ vdelta c (p_view p) = true) /\
  grows s.

Lemma psub_log s s' u p : s_log s' = s_log s ++ [u] -> psub s p -> psub s' p.
Proof.
  intros E H x. specialize (H x). rewrite mlt_log in *. rewrite E.
  destruct (s_log s !! x) as [u0|] eqn:L; [|lia]. by rewrite (lookup_app_l_Some _ _ _ _ L).
Qed.
Lemma has_home_holds s s' p :
  (forall h hd, s_holds s !! h = Some hd -> vdelta c (h_view hd) = false ->
     exists hd', s_holds s' !! h = Some hd' /\ h_view hd' = h_view hd /\ h_key hd' = h_key hd /\
     forall x, (mlt (c:=c) x (h_sto hd) <= mlt (c:=c) x (h_sto hd'))%nat) ->
  has_home s p -> has_home s' p.
Proof.
  intros E H D. destruct (H D) as (h & hd & Hh & Hv & Hk & Hx).
  destruct (E _ _ Hh) as (hd' & Hh' & Hv' & Hk' & Hx'); [by rewrite Hv|].
  exists h, hd'. split_and!; [done|congruence|congruence|]. intros x. specialize (Hx x). specialize (Hx' x). lia.
Qed.
Lemma holds_insert_grow (s : st) h hd hd' :
  s_holds s !! h = Some hd -> h_view hd' = h_view hd -> h_key hd' = h_key hd ->
  (vdelta c (h_view hd) = false -> forall x, (mlt (c:=c) x (h_sto hd) <= mlt (c:=c) x (h_sto hd'))%nat) ->
  forall h0 hd0, s_holds s !! h0 = Some hd0 -> vdelta c (h_view hd0) = false ->
     exists hd1, <[h:=hd']> (s_holds s) !! h0 = Some hd1 /\ h_view hd1 = h_view hd0 /\ h_key hd1 = h_key hd0 /\
     forall x, (mlt (c:=c) x (h_sto hd0) <= mlt (c:=c) x (h_sto hd1))%nat.
Proof.
  intros Hh E1 E2 E3 h0 hd0 H0 D0. destruct (decide (h = h0)) as [<-|Hne].
  - exists hd'. rewrite list_lookup_insert by (by eapply lookup_lt_Some). assert (hd0 = hd) by congruence. subst.
    split_and!; try done. by apply E3.
  - exists hd0. rewrite list_lookup_insert_ne by done. split_and!; try done.
Qed.

(** What is in an entry or in a collection has been recorded. *)
Lemma in_hold_le s v k h hd x :
  s_holds s !! h = Some hd -> h_view hd = v -> h_key hd = k ->
  (mlt (c:=c) x (h_sto hd) <= mlt (c:=c) x (stored v k s))%nat.
Proof.
  intros Hh Hv Hk. unfold stored. rewrite mlt_op, mlt_msum.
  pose proof (nsum_elem (fun y => mlt (c:=c) x (in_hold v k y)) _ _ _ Hh) as N. unfold in_hold in N at 1.
  assert (of_series v k (h_view hd) (h_key hd) = true) as E by (by apply of_series_true).
  rewrite E in N. cbn [only] in N. lia.
Qed.
Lemma stored_log s v k x : conserved s ->
  (mlt (c:=c) x (stored v k s) <= mlt (c:=c) x (log_sum v k (s_log s)))%nat.
Proof. intros C. rewrite (C v k), mlt_op. lia. Qed.

Lemma PI_step s s' t : Inv s -> Inv s' -> stepR s t s' -> PI s -> PI s'.
Proof.
  intros I I' H (C & PO & PD & G). pose proof (stepR_cons s s' t I H C) as C'.
  assert (HH : forall p, has_home s p -> has_home s' p).
  { intros p. apply has_home_holds. clear PO PD G C C' I'.
    stepR_cases H; snorm; try (intros h0 hd0 H0 _; by exists hd0).
    - assert (forall h0 hd0, s_holds s !! h0 = Some hd0 -> s_holds s1 !! h0 = Some hd0) as E.
      { intros h0 hd0 H0. destruct S1 as [->|(? & -> & _)]; [done|]. by apply lookup_app_l_Some. }
      intros h0 hd0 H0 D0. eapply (holds_insert_grow s1); [done| | | |by apply E|done]; done.
    - eapply holds_insert_grow; [done..|]. cbn [h_sto h_setsto]. intros D x. rewrite mlt_op. lia.
    - by eapply holds_insert_grow.
    - eapply holds_insert_grow; [done..|]. subst v. intros D'. change (vdelta tc) with (vdelta c) in D. congruence.
    - by eapply holds_insert_grow. }
  assert (CH : forall p, psub s p -> psub s' p).
  { intros p. clear PO PD G C C' I' HH. stepR_cases H; snorm; try done.
    - by destruct S1 as [->|(? & -> & _)].
    - by eapply psub_log. }
  assert (OUT : s_out s' = s_out s \/ exists p, s_out s' = s_out s ++ [p] /\ psub s' p /\ has_home s' p /\
     (forall i p0, s_out s !! i = Some p0 -> p_view p0 = p_view p -> p_key p0 = p_key p -> vdelta c (p_view p0) = false ->
        forall x, (mlt (c:=c) x (p_agg p0) <= mlt (c:=c) x (p_agg p))%nat)).
  { clear PD G CH HH I'. pose proof I as I0. unfold Inv in I0. inv_I I0.
    stepR_cases H; snorm; try (by left).
    - left. by destruct S1 as [->|(? & -> & _)].
    - right. exists (Point (c:=tc) t v (h_key hd) (h_sto hd)). split; [done|]. cbn [p_view p_key p_agg]. split_and!.
      + intros x. cbn [p_view p_key p_agg s_log]. etransitivity; [by eapply in_hold_le|]. by apply (stored_log s).
      + intros _. by exists h, hd.
      + intros i p0 H0 Ev Ek Dv x. destruct (PO _ _ H0) as [_ HM]. destruct (HM Dv) as (h' & hd' & Hh' & Hv' & Hk' & Hx).
        assert (h' = h) as ->.
        { eapply IU; [done|done| |done|congruence|congruence].
          destruct (IH _ _ Hh') as (_ & _ & X). apply X. change (vdelta tc) with (vdelta c). congruence. }
        assert (hd' = hd) by congruence. subst hd'. apply Hx.
    - right. exists (Point (c:=tc) t v (h_key hd) a). split; [done|]. cbn [p_view p_key p_agg]. split_and!.
      + intros x. cbn [p_view p_key p_agg s_log]. etransitivity; [|by apply (stored_log s)].
        unfold stored. rewrite !mlt_op, !mlt_msum.
        pose proof (nsum_elem (fun y => mlt (c:=c) x (in_thr (s_recs s) (s_holds s) v (h_key hd) y)) _ _ _ Ht) as N.
        cbn [in_thr] in N. rewrite (hmatch_at _ _ _ _ _ Hh), Hv, of_series_refl in N. cbn [only] in N. lia.
      + intros D'. change (vdelta tc) with (vdelta c) in D. cbn in D'. congruence.
      + intros i p0 H0 Ev Ek Dv x. change (vdelta tc) with (vdelta c) in D. cbn in Ev. congruence. }
  assert (DR : s_drop s' = s_drop s \/ exists p, s_drop s' = s_drop s ++ [p] /\ psub s' p /\ c_change tc (p_view p) (p_agg p) = false /\ vdelta c (p_view p) = true).
  { clear PO G CH HH I' OUT. 
    stepR_cases H; snorm; try (by left).
    - left. by destruct S1 as [->|(? & -> & _)].
    - right. exists (Point (c:=tc) t v (h_key hd) a). split; [done|]. cbn [p_view p_key p_agg]. split_and!; [|done|done].
      intros x. cbn [p_view p_key p_agg s_log]. etransitivity; [|by apply (stored_log s)].
      unfold stored. rewrite !mlt_op, !mlt_msum.
      pose proof (nsum_elem (fun y => mlt (c:=c) x (in_thr (s_recs s) (s_holds s) v (h_key hd) y)) _ _ _ Ht) as N.
      cbn [in_thr] in N. rewrite (hmatch_at _ _ _ _ _ Hh), Hv, of_series_refl in N. cbn [only] in N. lia.
    - right. exists (Point (c:=tc) t v (h_key hd) a). split; [done|]. cbn [p_view p_key p_agg]. split_and!; [|done|done].
      intros x. cbn [p_view p_key p_agg s_log]. etransitivity; [|by apply (stored_log s)].
      unfold stored. rewrite !mlt_op, !mlt_msum.
      pose proof (nsum_elem (fun y => mlt (c:=c) x (in_thr (s_recs s) (s_holds s) v (h_key hd) y)) _ _ _ Ht) as N.
      cbn [in_thr] in N. rewrite (hmatch_at _ _ _ _ _ Hh), Hv, of_series_refl in N. cbn [only] in N. lia. }
  split_and!.
  - done.
  - intros i p Hp. destruct OUT as [E|(p1 & E & X1 & X2 & X3)]; rewrite E in Hp.
    + destruct (PO _ _ Hp). split; auto.
    + apply lookup_snoc in Hp as [Hp|[_ ->]]; [|done]. destruct (PO _ _ Hp). split; auto.
  - intros i p Hp. destruct DR as [E|(p1 & E & X1 & X2 & X3)]; rewrite E in Hp.
    + destruct (PD _ _ Hp) as (? & ? & ?). split_and!; auto.
    + apply lookup_snoc in Hp as [Hp|[_ ->]]; [|done]. destruct (PD _ _ Hp) as (? & ? & ?). split_and!; auto.
  - destruct OUT as [E|(p1 & E & X1 & X2 & X3)]; unfold grows; rewrite E; [exact G|].
    intros i j p p' Hij Hi Hj. apply lookup_snoc in Hj as [Hj|[-> ->]].
    + rewrite lookup_app_l in Hi by (apply lookup_lt_Some in Hj; lia). by eapply G.
    + rewrite lookup_app_l in Hi by done. by eapply X3.
Qed.
Lemma PI_reachable s : reachable s -> PI s.
Proof.
  apply (reachable_ind PI).
  - split_and!; try done. apply conserved_reachable. by exists [].
  - intros s0 o k n I P0 Ho. destruct P0 as (C & P0). split; [|exact P0].
    by apply cons_spawn.
  - intros s0 rd I P0. destruct P0 as (C & P0). split; [|exact P0].
    by apply cons_spawn.
  - intros s0 t s1 I I1 P0 H. by apply (PI_step s0 s1 t).
Qed.

(** ** The account of a tagged state *)
Lemma NoDup_elements (X : gmultiset nat) : (forall x, multiplicity x X <= 1)%nat -> NoDup (elements X).
Proof.
  induction X as [|x X IH] using gmultiset_ind; intros H.
  - rewrite gmultiset_elements_empty. constructor.
  - rewrite gmultiset_elements_disj_union, gmultiset_elements_singleton. cbn. apply list.NoDup_cons. split.
    + intros E. apply gmultiset_elem_of_elements in E. rewrite elem_of_multiplicity in E.
      specialize (H x). rewrite multiplicity_disj_union, multiplicity_singleton in H. lia.
    + apply IH. intros y. specialize (H y). rewrite multiplicity_disj_union in H. lia.
Qed.
Lemma mlt_log_le v k log x : (mlt (c:=c) x (log_sum v k log) <= 1)%nat.
Proof. rewrite mlt_log. destruct (log !! x); [|lia]. destruct (of_series _ _ _ _); lia. Qed.

Definition tags_of (l : list (point tc)) (i : nat) : list nat :=
  match l !! i with Some p => elements (snd (p_agg p : PM) : gmultiset nat) | None => [] end.
Definition is_held s (x : nat) : bool :=
  match s_log s !! x with
  | Some u => Nat.ltb 0 (mlt (c:=c) x (stored (u_view u) (u_key u) s))
  | None => false
  end.
Definition pending s : list nat := List.filter (is_held s) (seq 0 (length (s_log s))).

Lemma elem_of_tags l i p x : l !! i = Some p -> x ∈ tags_of l i <-> (0 < mlt (c:=c) x (p_agg p))%nat.
Proof. intros H. unfold tags_of. rewrite H. apply mlt_elem. Qed.
Lemma e_value s x : value (erase c s) x = tval (s_log s) x.
Proof.
  unfold value, tval, erase. cbn [s_log]. rewrite list_lookup_fmap. by destruct (s_log s !! x).
Qed.
Lemma e_in_series s v k x u :
  s_log s !! x = Some u -> of_series (c:=tc) v k (u_view u) (u_key u) = true -> in_series (erase c s) v k x.
Proof.
  intros L E. apply of_series_true in E as [E1 E2]. exists (e_upd c u). unfold erase. cbn [s_log].
  rewrite list_lookup_fmap, L. done.
Qed.
Lemma made_of_tags s l i p :
  cells good s -> psub s p -> good (s_log s) (p_agg p) -> l !! i = Some p ->
  made_of (erase c s) (e_point c p) (tags_of l i).
Proof.
  intros _ S (G1 & G2) L. split_and!.
  - unfold tags_of. rewrite L. apply NoDup_elements. intros x. specialize (S x).
    pose proof (mlt_log_le (p_view p) (p_key p) (s_log s) x). unfold mlt in *. lia.
  - intros x Hx. apply (elem_of_tags _ _ _ _ L) in Hx. specialize (S x). rewrite mlt_log in S.
    destruct (s_log s !! x) as [u|] eqn:E; [|lia].
    destruct (of_series (p_view p) (p_key p) (u_view u) (u_key u)) eqn:O; [|lia]. by eapply e_in_series.
  - cbn [e_point p_agg]. unfold tags_of. rewrite L, G2. apply msum_ext. intros x _. symmetry. apply e_value.
Qed.

Lemma good_msum {X} log (f : X -> PM) l : (forall i y, l !! i = Some y -> good log (f y)) -> good log (msum f l).
Proof.
  intros H. induction l as [|y l IH]; cbn [msum].
  - split; [|done]. intros x. rewrite mlt_mu. lia.
  - assert (good log (f y)) as [A1 A2] by (by apply (H 0%nat)).
    destruct IH as [B1 B2]; [intros i; apply (H (S i))|]. split.
    + intros x. rewrite mlt_op. intros Hx. destruct (decide (0 < mlt (c:=c) x (f y))%nat); [by apply A1|apply B1; lia].
    + change ((mop (f y) (msum f l)).1) with (@mop (c_mon c) (f y).1 (msum f l).1).
      rewrite A2, B2, <- msum_app. apply msum_perm. symmetry. apply gmultiset_elements_disj_union.
Qed.
Lemma good_op log (a b : PM) : good log a -> good log b -> good log (mop a b).
Proof.
  intros HA HB. pose proof (good_msum log (fun z : PM => z) [a; b]) as H. cbn [msum] in H.
  rewrite mop_unit_r in H. apply H. intros [|[|]] y E; inversion E; by subst.
Qed.
Lemma good_mu log : good log (mu : PM).
Proof. apply (good_msum log (fun z : PM => z) []). done. Qed.
Lemma good_only log b (a : PM) : good log a -> good log (only b a).
Proof. destruct b; [done|]. intros _. apply good_mu. Qed.
Lemma good_stored s v k : cells good s -> good (s_log s) (stored v k s).
Proof.
  intros (C1 & C2 & C3 & C4 & _). unfold stored. apply good_op; [|apply good_op]; apply good_msum.
  - intros h hd Hh. apply good_only. by eapply C2.
  - intros i r Hr. apply good_msum. intros j a Ha. apply good_only. by eapply C1.
  - intros t p Ht. destruct p; cbn [in_thr]; try apply good_mu.
    + destruct (s_recs s !! r) as [r0|]; [|apply good_mu]. destruct (r_accs r0 !! j); [|apply good_mu].
      apply good_only. by eapply C3.
    + apply good_only. by eapply C4.
Qed.

Lemma e_same_series v k v' k' : same_series (c:=c) v k v' k' = of_series (c:=tc) v k v' k'.
Proof. done. Qed.
Lemma e_entry_of s v k h : entry_of (erase c s) v k h = hmatch (c:=tc) (s_holds s) v k h.
Proof. unfold entry_of, hmatch, erase. cbn [s_holds]. rewrite list_lookup_fmap. by destruct (s_holds s !! h). Qed.
Lemma msum_fmap {M : cmon} {X Y} (f : Y -> M) (g : X -> Y) l : msum f (g <$> l) = msum (fun x => f (g x)) l.
Proof. induction l as [|x l IH]; cbn; [done|]. by rewrite <- IH. Qed.
Lemma e_held s v k : held (erase c s) v k = (stored (c:=tc) v k s).1.
Proof.
  unfold held, stored.
  change ((mop ?a (mop ?b ?d) : PM).1) with (@mop (c_mon c) a.1 (@mop (c_mon c) b.1 d.1)).
  f_equal; [|f_equal].
  - unfold held_by_entries. cbn [erase s_holds]. rewrite msum_fmap, fst_msum. apply msum_ext. intros h _.
    unfold in_hold. rewrite fst_only. done.
  - unfold held_by_records. cbn [erase s_recs]. rewrite msum_fmap, fst_msum. apply msum_ext. intros r _.
    unfold in_rec. cbn [e_rec r_accs]. rewrite msum_fmap, fst_msum. apply msum_ext. intros a _.
    rewrite fst_only. cbn [e_acc a_hold a_cur]. by rewrite e_entry_of.
  - unfold held_by_collections. change (s_thr (erase c s)) with (e_pc c <$> s_thr s). rewrite msum_fmap, fst_msum.
    apply msum_ext. intros p _. destruct p; cbn [e_pc in_thr]; try done.
    + change (s_recs (erase c s)) with (e_rec c <$> s_recs s). rewrite list_lookup_fmap.
      destruct (s_recs s !! r) as [r0|]; cbn [fmap option_fmap option_map]; [|done].
      change (r_accs (e_rec c r0)) with (e_acc c <$> r_accs r0). rewrite list_lookup_fmap.
      destruct (r_accs r0 !! j) as [ac|]; cbn [fmap option_fmap option_map]; [|done].
      rewrite fst_only, e_entry_of. done.
    + rewrite fst_only, e_entry_of. done.
Qed.

Lemma msum_filter {M : cmon} {X} (f : X -> M) (P : X -> bool) l :
  msum f (List.filter P l) = msum (fun x => only (P x) (f x)) l.
Proof. induction l as [|x l IH]; cbn; [done|]. destruct (P x); cbn; rewrite IH; [done|by rewrite mop_unit]. Qed.

Lemma NoDup_lfilter {X} (P : X -> bool) (l : list X) : NoDup l -> NoDup (List.filter P l).
Proof. rewrite !NoDup_ListNoDup. apply List.NoDup_filter. Qed.

Lemma account_tagged s :
  reachable s ->
  account (erase c s) (tags_of (s_out s)) (tags_of (s_drop s)) (pending s).
Proof.
  intros R. pose proof (good_cells _ R) as GC. destruct (PI_reachable _ R) as (C & PO & PD & G).
  pose proof GC as (_ & _ & _ & _ & GO & GD).
  assert (CNT : forall (l : list (point tc)) v (k : c_key c) x, (forall i p, l !! i = Some p -> psub s p) ->
    in_series (erase c s) v k x ->
    mlt (c:=c) x (pts_sum (c:=tc) v k l) = count_in (tags_of l) (length l) x).
  { intros l v k x HP (u & L & Ev & Ek). unfold pts_sum. rewrite mlt_msum. unfold count_in. apply nsum_count.
    intros i p Hp. rewrite mlt_only.
    pose proof (HP _ _ Hp x) as S. rewrite mlt_log in S.
    unfold erase in L. cbn [s_log] in L. rewrite list_lookup_fmap in L.
    destruct (s_log s !! x) as [u0|] eqn:L0; [|done]. inversion L as [L1]. subst u. cbn in Ev, Ek.
    case_bool_decide as B.
    - apply (elem_of_tags _ _ _ _ Hp) in B.
      destruct (of_series (p_view p) (p_key p) (u_view u0) (u_key u0)) eqn:O; [|lia].
      apply of_series_true in O as [O1 O2]. rewrite <- O1, <- O2.
      rewrite Ev, Ek, of_series_refl. lia.
    - destruct (of_series (c:=tc) v k (p_view p) (p_key p)); [|done].
      destruct (decide (0 < mlt (c:=c) x (p_agg p))%nat) as [Hx|Hx]; [|lia].
      by apply (elem_of_tags _ _ _ _ Hp) in Hx. }
  assert (HELD : forall x u, s_log s !! x = Some u ->
    mlt (c:=c) x (stored (u_view u) (u_key u) s) = one_if (bool_decide (x ∈ pending s))).
  { intros x u L. pose proof (stored_log s (u_view u) (u_key u) x C) as S.
    pose proof (mlt_log_le (u_view u) (u_key u) (s_log s) x) as S1.
    case_bool_decide as B; unfold pending in B; rewrite elem_of_list_In, filter_In in B; cbn [one_if].
    - destruct B as [_ B]. unfold is_held in B. rewrite L in B. apply Nat.ltb_lt in B. lia.
    - destruct (decide (0 < mlt (c:=c) x (stored (u_view u) (u_key u) s))%nat) as [Hx|]; [|lia].
      destruct B. split; [apply in_seq; apply lookup_lt_Some in L; lia|]. unfold is_held. rewrite L. by apply Nat.ltb_lt. }
  assert (LOG : forall x u, s_log (erase c s) !! x = Some u -> exists u0, s_log s !! x = Some u0 /\ u = e_upd c u0).
  { intros x u L. unfold erase in L. cbn [s_log] in L. rewrite list_lookup_fmap in L.
    destruct (s_log s !! x) as [u0|] eqn:L0; [|done]. exists u0. by inversion L. }
  assert (POINT : forall (l : list (point tc)) (i : nat) p, (e_point c <$> l) !! i = Some p -> exists p0, l !! i = Some p0 /\ p = e_point c p0).
  { intros l i p H. rewrite list_lookup_fmap in H. destruct (l !! i) as [p0|]; [|done]. exists p0. by inversion H. }
  split.
  - intros i p Hp. apply POINT in Hp as (p0 & Hp & ->). apply made_of_tags; [done| | |done].
    + by eapply PO.
    + by eapply GO.
  - intros i p Hp. apply POINT in Hp as (p0 & Hp & ->). destruct (PD _ _ Hp) as (P1 & P2 & _). split; [|exact P2].
    apply made_of_tags; [done..| |done]. by eapply GD.
  - apply NoDup_filter_seq.
  - intros v k. rewrite e_held. destruct (good_stored s v k GC) as [G1 G2]. rewrite G2.
    transitivity (msum (value (erase c s)) (List.filter (fun x => match s_log s !! x with
       | Some u => same_series (c:=c) v k (u_view (c:=tc) u) (u_key (c:=tc) u) | None => false end) (pending s))).
    + rewrite (msum_ext _ (value (erase c s))) by (intros; by rewrite e_value).
      apply msum_perm. apply NoDup_Permutation.
      * apply NoDup_elements. intros x. pose proof (stored_log s v k x C). pose proof (mlt_log_le v k (s_log s) x).
        unfold mlt in *. lia.
      * apply NoDup_lfilter, NoDup_filter_seq.
      * intros x. rewrite mlt_elem. rewrite elem_of_list_In, filter_In, <- elem_of_list_In.
        pose proof (stored_log s v k x C) as S. rewrite mlt_log in S.
        split.
        -- intros Hx. destruct (s_log s !! x) as [u|] eqn:L; [|lia].
           destruct (of_series (c:=tc) v k (u_view u) (u_key u)) eqn:O; [|lia]. split; [|exact O].
           pose proof O as O'. apply of_series_true in O' as [<- <-]. pose proof (HELD x u L) as E. case_bool_decide; [done|]. cbn [one_if] in E. lia.
        -- intros [Hx O]. destruct (s_log s !! x) as [u|] eqn:L; [|done].
           rewrite e_same_series in O. apply of_series_true in O as [<- <-]. pose proof (HELD x u L) as E.
           rewrite bool_decide_eq_true_2 in E by done. cbn [one_if] in E. lia.
    + rewrite msum_filter. apply msum_ext. intros x _. cbn [erase s_log]. rewrite list_lookup_fmap.
      by destruct (s_log s !! x).
  - intros x u L D. pose proof L as L'. apply LOG in L as (u0 & L & ->).
    assert (in_series (erase c s) (u_view u0) (u_key u0) x) as IS by (by exists (e_upd c u0)).
    pose proof (C (u_view u0) (u_key u0)) as CV. apply (f_equal (mlt (c:=c) x)) in CV.
    rewrite mlt_log, L, of_series_refl, mlt_op, (HELD _ _ L) in CV.
    unfold emitted in CV. change (vdelta tc (u_view u0)) with (vdelta c (u_view (e_upd c u0))) in CV. rewrite D in CV.
    rewrite mlt_op in CV. rewrite !CNT in CV; [| |done| |done].
    + cbn [erase s_out s_drop]. rewrite !fmap_length. lia.
    + intros; by eapply PD.
    + intros; by eapply PO.
  - intros x u L D. pose proof L as L'. apply LOG in L as (u0 & L & ->).
    pose proof (C (u_view u0) (u_key u0)) as CV. apply (f_equal (mlt (c:=c) x)) in CV.
    rewrite mlt_log, L, of_series_refl, mlt_op, (HELD _ _ L) in CV.
    unfold emitted in CV. change (vdelta tc (u_view u0)) with (vdelta c (u_view (e_upd c u0))) in CV. rewrite D in CV.
    rewrite mlt_mu in CV. case_bool_decide; [done|]. cbn [one_if] in CV. lia.
  - intros i p Hp. apply POINT in Hp as (p0 & Hp & ->). by destruct (PD _ _ Hp) as (_ & _ & ?).
  - intros i j p p' Hij Hp Hp' Ev Ek D x. apply POINT in Hp as (p0 & Hp & ->). apply POINT in Hp' as (p1 & Hp' & ->).
    rewrite (elem_of_tags _ _ _ _ Hp), (elem_of_tags _ _ _ _ Hp').
    specialize (G i j p0 p1 Hij Hp Hp' Ev Ek D x). lia.
Qed.
End once.
