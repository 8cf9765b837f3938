(** Conservation: what was recorded is what was output, suppressed, or is still stored. *)
From Coq Require Import ZArith Lia Bool.
From stdpp Require Import base list option.
From Verif Require Import Base Lib SyncModel SyncSpec SyncInv SyncStep SyncStepB SyncCases.
Local Open Scope Z_scope.

Section cons.
Context {c : config} (WF : wf c).
Notation M := (c_mon c).
Notation A := (car (c_mon c)).
Notation num := (c_num c).
Notation K := (c_K c).
Notation key := (c_key c).
Notation st := (state c).
Notation pcT := (pc c).
Notation recT := (rec c).
Notation holdT := (holder c).
Implicit Types (recs : list recT) (holds : list holdT) (thr : list pcT) (p : pcT) (r : recT) (k : key).

(** The sum of the Updates at positions [n], [n+1], ... that satisfy [P]. *)
Fixpoint log_sum_from (P : upd c -> bool) (n : nat) (l : list (upd c)) : M :=
  match l with
  | [] => mu
  | u :: l => mop (only (P u) (c_inj c n (u_num u))) (log_sum_from P (S n) l)
  end.
Lemma log_sum_from_app P n l l' :
  log_sum_from P n (l ++ l') = mop (log_sum_from P n l) (log_sum_from P (n + length l) l').
Proof.
  revert n. induction l as [|u l IH]; intros n; cbn; [by rewrite mop_unit, Nat.add_0_r|].
  rewrite IH, Nat.add_succ_r. by rewrite mop_assoc.
Qed.

Definition of_series (v : nat) (k : key) (v' : nat) (k' : key) : bool :=
  Nat.eqb v' v && bool_decide (k' = k).
Lemma of_series_ne v k v' k' : v' <> v -> of_series v k v' k' = false.
Proof. intros H. unfold of_series. by apply Nat.eqb_neq in H as ->. Qed.
Lemma only_false (x : M) : only false x = mu.
Proof. done. Qed.
Definition log_sum (v : nat) (k : key) (l : list (upd c)) : M :=
  log_sum_from (fun u => of_series v k (u_view u) (u_key u)) 0 l.
Definition pts_sum (v : nat) (k : key) (l : list (point c)) : M :=
  msum (fun q : point c => only (of_series v k (p_view q) (p_key q)) (p_agg q)) l.
Definition hmatch holds (v : nat) (k : key) (h : nat) : bool :=
  match holds !! h with Some hd => of_series v k (h_view hd) (h_key hd) | None => false end.
Definition in_rec holds v k (r : recT) : M :=
  msum (fun a => only (hmatch holds v k (a_hold a)) (a_cur a)) (r_accs r).
Definition in_hold v k (hd : holdT) : M := only (of_series v k (h_view hd) (h_key hd)) (h_sto hd).
Definition in_thr recs holds v k (p : pcT) : M :=
  match p with
  | QMerge _ i _ _ j a =>
      match recs !! i with
      | Some r => match r_accs r !! j with
                  | Some ac => only (hmatch holds v k (a_hold ac)) a
                  | None => mu
                  end
      | None => mu
      end
  | QDecide _ _ _ _ h _ a => only (hmatch holds v k h) a
  | _ => mu
  end.
(** Where the data of series [k] of view [v] can be while it waits to be output. *)
Definition stored (v : nat) (k : key) (s : st) : M :=
  mop (msum (in_hold v k) (s_holds s))
      (mop (msum (in_rec (s_holds s) v k) (s_recs s)) (msum (in_thr (s_recs s) (s_holds s) v k) (s_thr s))).
Definition emitted (v : nat) (k : key) (s : st) : M :=
  if vdelta c v then mop (pts_sum v k (s_out s)) (pts_sum v k (s_drop s)) else mu.

Definition conserved (s : st) : Prop :=
  forall v k, log_sum v k (s_log s) = mop (emitted v k s) (stored v k s).

(** *** Frames *)
Lemma in_thr_recs recs recs' holds v k thr :
  (forall i r, recs !! i = Some r -> exists r', recs' !! i = Some r' /\ map a_hold (r_accs r') = map a_hold (r_accs r)) ->
  (forall t p, thr !! t = Some p -> TI recs holds p) ->
  msum (in_thr recs' holds v k) thr = msum (in_thr recs holds v k) thr.
Proof.
  intros E HT. apply msum_ext. intros p Hp. apply elem_of_list_lookup in Hp as (t & Ht).
  specialize (HT _ _ Ht). destruct p; cbn in *; try done.
  destruct HT as (_ & _ & (r0 & Hr & Hj) & _). destruct (E _ _ Hr) as (r1 & Hr1 & Em).
  rewrite Hr, Hr1. destruct (lookup_lt_is_Some_2 _ _ Hj) as (ac & Hac). rewrite Hac.
  assert (map a_hold (r_accs r1) !! j = Some (a_hold ac)) as X.
  { rewrite Em. change (map a_hold) with (fmap (M:=list) (@a_hold c)). by rewrite list_lookup_fmap, Hac. }
  change (map a_hold) with (fmap (M:=list) (@a_hold c)) in X. rewrite list_lookup_fmap in X.
  destruct (r_accs r1 !! j) as [ac'|]; cbn in X; inversion X as [X1]. by rewrite X1.
Qed.
Lemma hmatch_ext holds holds' v k h :
  (forall h hd, holds !! h = Some hd -> exists hd', holds' !! h = Some hd' /\ h_view hd' = h_view hd /\ h_key hd' = h_key hd) ->
  (exists hd, holds !! h = Some hd) -> hmatch holds' v k h = hmatch holds v k h.
Proof.
  intros E (hd & Hh). destruct (E _ _ Hh) as (hd' & Hh' & E1 & E2). unfold hmatch. by rewrite Hh, Hh', E1, E2.
Qed.
Lemma in_rec_holds holds holds' v k thr i r :
  (forall h hd, holds !! h = Some hd -> exists hd', holds' !! h = Some hd' /\ h_view hd' = h_view hd /\ h_key hd' = h_key hd) ->
  RI holds thr i r -> in_rec holds' v k r = in_rec holds v k r.
Proof.
  intros E (_ & _ & _ & _ & _ & R6 & _). apply msum_ext. intros a Ha.
  apply elem_of_list_lookup in Ha as (j & Ha). destruct (R6 _ _ Ha) as (hd & Hh & _).
  f_equal. apply hmatch_ext; [done|by exists hd].
Qed.
Lemma in_thr_holds recs holds holds' v k thr thr' :
  (forall h hd, holds !! h = Some hd -> exists hd', holds' !! h = Some hd' /\ h_view hd' = h_view hd /\ h_key hd' = h_key hd) ->
  (forall t p, thr !! t = Some p -> TI recs holds p) ->
  (forall i r, recs !! i = Some r -> RI holds thr' i r) ->
  msum (in_thr recs holds' v k) thr = msum (in_thr recs holds v k) thr.
Proof.
  intros E HT HR. apply msum_ext. intros p Hp. apply elem_of_list_lookup in Hp as (t & Ht).
  specialize (HT _ _ Ht). destruct p; cbn in *; try done.
  - destruct (recs !! r) as [r0|] eqn:Hr; [|done]. destruct (r_accs r0 !! j) as [ac|] eqn:Ha; [|done].
    destruct (HR _ _ Hr) as (_ & _ & _ & _ & _ & R6 & _). destruct (R6 _ _ Ha) as (hd & Hh & _).
    f_equal. apply hmatch_ext; [done|by exists hd].
  - destruct HT as ((_ & _ & _ & V) & _). destruct (V h ltac:(left)) as (hd & Hh & _).
    f_equal. apply hmatch_ext; [done|by exists hd].
Qed.

Lemma thr_goto recs holds v k thr t p p' :
  thr !! t = Some p -> in_thr recs holds v k p = mu ->
  msum (in_thr recs holds v k) (<[t:=p']> thr) = mop (in_thr recs holds v k p') (msum (in_thr recs holds v k) thr).
Proof.
  intros Ht E. rewrite (msum_insert _ _ _ _ _ Ht), (msum_delete _ _ _ _ Ht), E. by rewrite mop_unit.
Qed.
Lemma thr_goto_same recs holds v k thr t p p' :
  thr !! t = Some p -> in_thr recs holds v k p' = in_thr recs holds v k p ->
  msum (in_thr recs holds v k) (<[t:=p']> thr) = msum (in_thr recs holds v k) thr.
Proof. intros Ht E. by apply (msum_insert_same _ _ _ _ _ Ht). Qed.

Lemma rec_same (f : recT -> M) recs i r r' :
  recs !! i = Some r -> f r' = f r -> msum f (<[i:=r']> recs) = msum f recs.
Proof. intros Hr E. by apply (msum_insert_same _ _ _ _ _ Hr). Qed.
Lemma insert_hold_map recs i r r' :
  recs !! i = Some r -> map a_hold (r_accs r') = map a_hold (r_accs r) ->
  forall i0 r0, recs !! i0 = Some r0 ->
    exists r1, <[i:=r']> recs !! i0 = Some r1 /\ map a_hold (r_accs r1) = map a_hold (r_accs r0).
Proof.
  intros Hr E i0 r0 H0. destruct (decide (i = i0)) as [<-|Hne].
  - exists r'. rewrite list_lookup_insert by (by eapply lookup_lt_Some). split; [done|]. congruence.
  - exists r0. by rewrite list_lookup_insert_ne.
Qed.
Lemma insert_hold_key holds h hd hd' :
  holds !! h = Some hd -> h_view hd' = h_view hd -> h_key hd' = h_key hd ->
  forall h0 hd0, holds !! h0 = Some hd0 ->
    exists hd1, <[h:=hd']> holds !! h0 = Some hd1 /\ h_view hd1 = h_view hd0 /\ h_key hd1 = h_key hd0.
Proof.
  intros Hr E1 E2 i0 r0 H0. destruct (decide (h = i0)) as [<-|Hne].
  - exists hd'. rewrite list_lookup_insert by (by eapply lookup_lt_Some). split; [done|]. split; congruence.
  - exists r0. by rewrite list_lookup_insert_ne.
Qed.

Definition rest_rec holds v k (r : recT) (j : nat) : M :=
  msum (fun a => only (hmatch holds v k (a_hold a)) (a_cur a)) (delete j (r_accs r)).
Lemma in_rec_insert holds v k r j a a' :
  r_accs r !! j = Some a ->
  in_rec holds v k (r_setaccs (<[j:=a']>) r) =
  mop (only (hmatch holds v k (a_hold a')) (a_cur a')) (rest_rec holds v k r j).
Proof. intros Ha. unfold in_rec, rest_rec. cbn [r_accs r_setaccs]. by rewrite (msum_insert _ _ _ _ _ Ha). Qed.
Lemma in_rec_split holds v k r j a :
  r_accs r !! j = Some a ->
  in_rec holds v k r = mop (only (hmatch holds v k (a_hold a)) (a_cur a)) (rest_rec holds v k r j).
Proof. intros Ha. unfold in_rec, rest_rec. by rewrite (msum_delete _ _ _ _ Ha). Qed.
Lemma hmatch_at holds v k h hd : holds !! h = Some hd -> hmatch holds v k h = of_series v k (h_view hd) (h_key hd).
Proof. unfold hmatch. by intros ->. Qed.

Ltac inv_I I := pose proof (I_wl _ _ _ _ _ I) as Iwl; pose proof (I_il _ _ _ _ _ I) as Iil;
  pose proof (I_T _ _ _ _ _ I) as IT; pose proof (I_R _ _ _ _ _ I) as IR;
  pose proof (I_H _ _ _ _ _ I) as IH; pose proof (I_U _ _ _ _ _ I) as IU.

(** A step that moves no data. *)
Lemma cons_quiet (s s' : st) :
  (forall v k, stored v k s' = stored v k s) -> s_log s' = s_log s -> s_out s' = s_out s -> s_drop s' = s_drop s ->
  conserved s -> conserved s'.
Proof. intros E E1 E2 E3 C v k. unfold emitted. rewrite E, E1, E2, E3. apply C. Qed.

(** The record at [i] changes without moving data and thread [t] moves on, neither holding data. *)
Lemma stored_rec (s : st) t p p' i r r' v k :
  Inv s -> s_thr s !! t = Some p -> s_recs s !! i = Some r ->
  r_accs r' = r_accs r ->
  (forall recs, in_thr recs (s_holds s) v k p = mu) -> (forall recs, in_thr recs (s_holds s) v k p' = mu) ->
  stored v k (goto t p' (upd_rec i r' s)) = stored v k s.
Proof.
  intros I Ht Hr Ea Ep Ep'. inv_I I. unfold stored. cbn. f_equal. f_equal.
  - apply rec_same with r; [done|]. unfold in_rec. by rewrite Ea.
  - rewrite (thr_goto_same _ _ _ _ _ _ p) by (rewrite ?Ep, ?Ep'; done).
    apply in_thr_recs; [|done]. apply insert_hold_map with r; [done|]. by rewrite Ea.
Qed.
Lemma stored_goto (s : st) t p p' v k :
  s_thr s !! t = Some p ->
  in_thr (s_recs s) (s_holds s) v k p' = in_thr (s_recs s) (s_holds s) v k p ->
  stored v k (goto t p' s) = stored v k s.
Proof. intros Ht E. unfold stored. cbn. by rewrite (thr_goto_same _ _ _ _ _ _ p). Qed.

Lemma stepR_cons (s s' : st) t : Inv s -> stepR s t s' -> conserved s -> conserved s'.
Proof.
  intros I H C. pose proof I as I'. unfold Inv in I. inv_I I.
  destruct H as
    [o k n k' i r Ht W Hk F Hr Hl Ho
    |o k n Ht W F1 F2
    |o k n i r Ht W F Hr Hl Ho
    |o k n Ht W F Hlt
    |i n r Ht Hr Ho
    |i n r Ht Hr Ho
    |i n j r v s1 h hd Ht Hr Ho Hj Hv W G S1 Hh Hl Hhv
    |i n j r Ht Hr Ho Hj Hv
    |i n j r a hd Ht Hr Ha Hh
    |i n j r Ht Hr Ha
    |i r Ht Hr
    |i r Ht Hr
    |rd Ht
    |rd o os Ht W
    |q Ht Hj
    |q ch i Ht Hj
    |q i r Ht Hr Hs Hp
    |q i r Ht Hr Hs Hp
    |q i r Ht Hr Hs
    |q i r Ht Hr Hv
    |q i r Ht Hr Hv
    |q i r Ht Hr Hv
    |q i r Ht Hr Hv
    |q i r Ht Hr Hs
    |q i unm r Ht Hr D Ho
    |q i mods ph j r a Ht Hr Ha
    |q i mods ph j r Ht Hr Ha Hph
    |q i mods j r Ht Hr Ha
    |q i mods ph j a r ac hd Ht Hr Ha Hh
    |q i mods ph j r ac hd Ht Hr Ha Hh Hph
    |rd Ht
    |rd v vs Ht W
    |rd vs v Ht
    |rd vs v todo ch h hd Ht Hc Hh Hl Hv D
    |rd vs v todo ch h hd Ht Hc Hh Hl Hv D
    |rd vs v todo h refs hd Ht Hh Hl Hv D
    |rd vs v todo h refs a hd Ht Hh Hl Hv D Hch
    |rd vs v todo h a hd Ht Hh Hl Hv D Hch
    |rd vs v todo h refs a hd Ht Hh Hl Hv D Hch Hz].
  all: try (apply (cons_quiet s); [|done..|exact C]; intros v1 k1;
            first [eapply stored_rec; [done|done|done|done|done|done] | by eapply stored_goto
                  | unfold stored; cbn [goto set_thr set_wl set_il s_recs s_holds s_thr];
                    erewrite thr_goto_same; [reflexivity|done|done]]; fail).
  - (* SR_write_new *)
    apply (cons_quiet s); [|done..|exact C]. intros v1 k1. unfold stored. cbn. f_equal.
    rewrite msum_app. cbn. rewrite mop_unit_r, mop_unit_r. f_equal.
    rewrite (thr_goto_same _ _ _ _ _ _ (PWrite o k n)) by done.
    apply in_thr_recs; [|done]. intros i0 r0 H0. exists r0. split; [by apply lookup_app_l_Some|done].
  - (* SR_acc *)
    apply (cons_quiet s); [|by destruct S1 as [->|(? & -> & _)]..|exact C].
    intros v1 k1.
    assert (forall h0 hd0, s_holds s !! h0 = Some hd0 -> exists hd1,
       <[h:=h_setaux (h_aux hd + 1) hd]> (s_holds s1) !! h0 = Some hd1 /\ h_view hd1 = h_view hd0 /\ h_key hd1 = h_key hd0) as EH.
    { intros h0 hd0 H0. assert (s_holds s1 !! h0 = Some hd0) as H1.
      { destruct S1 as [->|(? & -> & _)]; [done|]. by apply lookup_app_l_Some. }
      by eapply (insert_hold_key _ h hd). }
    assert (s_recs s1 = s_recs s) as Er by (by destruct S1 as [->|(? & -> & _)]).
    assert (s_thr s1 = s_thr s) as Et by (by destruct S1 as [->|(? & -> & _)]).
    unfold stored. cbn [goto set_thr upd_rec set_recs upd_hold set_holds s_recs s_holds s_thr].
    rewrite Er, Et. f_equal; [|f_equal].
    + rewrite (msum_insert_same _ _ _ _ _ Hh) by done.
      destruct S1 as [->|(? & -> & _)]; [done|]. cbn. rewrite msum_app. cbn. rewrite mop_unit_r.
      unfold in_hold at 2. cbn. by rewrite only_mu, mop_unit_r.
    + rewrite (rec_same _ _ _ r).
      * apply msum_ext. intros r0 Hr0. apply elem_of_list_lookup in Hr0 as (i0 & Hr0).
        eapply in_rec_holds; [done|by eapply IR].
      * done.
      * unfold in_rec. cbn. rewrite msum_app. cbn. by rewrite only_mu, !mop_unit_r.
    + rewrite (thr_goto_same _ _ _ _ _ _ (PInitV i n j)) by done.
      rewrite <- (in_thr_holds (s_recs s) _ (<[h:=h_setaux (h_aux hd + 1) hd]> (s_holds s1)) v1 k1 _ _ EH IT IR).
      apply msum_ext. intros p Hp. apply elem_of_list_lookup in Hp as (t0 & Ht0).
      specialize (IT _ _ Ht0). destruct p; cbn in *; try done.
      destruct IT as (_ & (r1 & Hr1 & Hd) & _ & _). assert (i <> r0) as Hne by (intros ->; congruence).
      by rewrite list_lookup_insert_ne.
  - (* SR_upd *)
    intros v1 k1. specialize (C v1 k1). unfold log_sum, emitted, stored in *.
    cbn [goto set_thr upd_rec set_recs add_log s_recs s_holds s_thr s_log s_out s_drop].
    rewrite log_sum_from_app, C. cbn [log_sum_from]. cbn [u_view u_key u_num].
    rewrite mop_unit_r, Nat.add_0_l, <- !mop_assoc. f_equal. f_equal.
    rewrite (thr_goto_same _ _ _ _ _ _ (PUpd i n j)) by done.
    rewrite (in_thr_recs (s_recs s) (<[i:=_]> (s_recs s))); [|apply insert_hold_map with r; [done|by apply map_hold_insert]|done].
    rewrite (msum_insert _ _ _ _ _ Hr), (msum_delete _ _ _ _ Hr).
    rewrite (in_rec_insert _ _ _ _ _ _ _ Ha), (in_rec_split _ _ _ _ _ _ Ha). cbn [a_hold a_cur].
    rewrite !(hmatch_at _ _ _ _ _ Hh), only_mop. mac.
  - (* SR_move *)
    apply (cons_quiet s); [|done..|exact C]. intros v1 k1. unfold stored.
    cbn [goto set_thr upd_rec set_recs s_recs s_holds s_thr]. f_equal.
    rewrite (thr_goto _ _ _ _ _ _ (QMove q i mods ph j)) by done.
    rewrite (in_thr_recs (s_recs s) (<[i:=_]> (s_recs s))); [|apply insert_hold_map with r; [done|by apply map_hold_insert]|done].
    rewrite (msum_insert _ _ _ _ _ Hr), (msum_delete _ _ _ _ Hr).
    rewrite (in_rec_insert _ _ _ _ _ _ _ Ha), (in_rec_split _ _ _ _ _ _ Ha). cbn [a_hold a_cur].
    rewrite only_mu, mop_unit. cbn [in_thr]. rewrite list_lookup_insert by (by eapply lookup_lt_Some).
    cbn [r_accs r_setaccs]. rewrite list_lookup_insert by (by eapply lookup_lt_Some). cbn [a_hold].
    mac.
  - (* SR_merge *)
    apply (cons_quiet s); [|done..|exact C]. intros v1 k1. unfold stored.
    cbn [goto set_thr upd_hold set_holds s_recs s_holds s_thr].
    assert (forall h0 hd0, s_holds s !! h0 = Some hd0 -> exists hd1,
       <[a_hold ac:=h_setsto (mop (h_sto hd) a) hd]> (s_holds s) !! h0 = Some hd1 /\ h_view hd1 = h_view hd0 /\ h_key hd1 = h_key hd0) as EH
      by (by apply insert_hold_key with hd).
    rewrite (msum_insert _ _ _ _ _ Hh), (msum_delete _ _ _ _ Hh).
    unfold in_hold. cbn [h_view h_key h_sto h_setsto]. rewrite only_mop.
    rewrite (msum_insert _ _ _ _ _ Ht). 
    rewrite (msum_delete (in_thr (s_recs s) (s_holds s) v1 k1) _ _ _ Ht).
    assert (msum (in_rec (<[a_hold ac:=h_setsto (mop (h_sto hd) a) hd]> (s_holds s)) v1 k1) (s_recs s) =
            msum (in_rec (s_holds s) v1 k1) (s_recs s)) as ->.
    { apply msum_ext. intros r0 Hr0. apply elem_of_list_lookup in Hr0 as (i0 & Hr0).
      eapply in_rec_holds; [done|by eapply IR]. }
    rewrite (in_thr_holds (s_recs s) _ _ v1 k1 (delete t (s_thr s)) (s_thr s) EH); [| |done].
    2:{ intros t0 p0 H0. apply elem_of_list_lookup_2, elem_of_delete, elem_of_list_lookup in H0 as (t1 & H1). by eapply IT. }
    assert (in_thr (s_recs s) (<[a_hold ac:=h_setsto (mop (h_sto hd) a) hd]> (s_holds s)) v1 k1
              (match ph with Some true => QRel q i mods ph j | _ => QMove q i mods ph (S j) end) = mu) as ->
      by (by destruct ph as [[]|]).
    rewrite mop_unit. cbn [in_thr]. rewrite Hr, Ha. rewrite (hmatch_at _ _ _ _ _ Hh).
    mac.
  - (* SR_rel *)
    apply (cons_quiet s); [|done..|exact C]. intros v1 k1. unfold stored.
    cbn [goto set_thr upd_hold set_holds s_recs s_holds s_thr].
    assert (forall h0 hd0, s_holds s !! h0 = Some hd0 -> exists hd1,
       <[a_hold ac:=h_setaux (h_aux hd - 1) hd]> (s_holds s) !! h0 = Some hd1 /\ h_view hd1 = h_view hd0 /\ h_key hd1 = h_key hd0) as EH
      by (by apply insert_hold_key with hd).
    f_equal; [|f_equal].
    + by apply (msum_insert_same _ _ _ _ _ Hh).
    + apply msum_ext. intros r0 Hr0. apply elem_of_list_lookup in Hr0 as (i0 & Hr0).
      eapply in_rec_holds; [done|by eapply IR].
    + rewrite (thr_goto_same _ _ _ _ _ _ (QRel q i mods ph j)) by done.
      eapply in_thr_holds; done.
  - (* SR_coll_cum *)
    intros v1 k1. specialize (C v1 k1). unfold log_sum, emitted in *.
    cbn [goto set_thr add_out s_log s_out s_drop]. rewrite C. f_equal.
    + destruct (vdelta c v1) eqn:D1; [|done]. f_equal. unfold pts_sum. rewrite msum_app. cbn [msum p_view p_key p_agg].
      destruct (Nat.eqb_spec v v1) as [->|Hne]; [congruence|]. rewrite (of_series_ne _ _ _ _ Hne). rewrite only_false. mac.
    + symmetry. change (stored v1 k1 (goto t (QColl rd vs v (delete ch todo)) s) = stored v1 k1 s). by eapply stored_goto.
  - (* SR_point *)
    apply (cons_quiet s); [|done..|exact C]. intros v1 k1. unfold stored.
    cbn [goto set_thr upd_hold set_holds s_recs s_holds s_thr].
    assert (forall h0 hd0, s_holds s !! h0 = Some hd0 -> exists hd1,
       <[h:=h_setsto mu hd]> (s_holds s) !! h0 = Some hd1 /\ h_view hd1 = h_view hd0 /\ h_key hd1 = h_key hd0) as EH
      by (by apply insert_hold_key with hd).
    rewrite (thr_goto _ _ _ _ _ _ (QPoint rd vs v todo h refs)) by done.
    rewrite (in_thr_holds (s_recs s) _ _ v1 k1 _ _ EH IT IR).
    rewrite (msum_insert _ _ _ _ _ Hh), (msum_delete _ _ _ _ Hh).
    unfold in_hold. cbn [h_view h_key h_sto h_setsto]. rewrite only_mu, mop_unit.
    assert (msum (in_rec (<[h:=h_setsto mu hd]> (s_holds s)) v1 k1) (s_recs s) =
            msum (in_rec (s_holds s) v1 k1) (s_recs s)) as ->.
    { apply msum_ext. intros r0 Hr0. apply elem_of_list_lookup in Hr0 as (i0 & Hr0).
      eapply in_rec_holds; [done|by eapply IR]. }
    cbn [in_thr]. rewrite (hmatch_at _ _ _ _ (h_setsto mu hd)) by (apply list_lookup_insert; by eapply lookup_lt_Some).
    cbn [h_view h_key h_sto h_setsto]. mac.
  - (* SR_decide_out *)
    intros v1 k1. specialize (C v1 k1). unfold log_sum, emitted in *.
    cbn [goto set_thr add_out s_log s_out s_drop]. rewrite C. clear C.
    unfold stored. cbn [goto set_thr add_out s_recs s_holds s_thr].
    rewrite (msum_insert _ _ _ _ _ Ht), (msum_delete _ _ _ _ Ht). cbn [in_thr]. rewrite mop_unit.
    rewrite (hmatch_at _ _ _ _ _ Hh), Hv. unfold pts_sum. rewrite !msum_app. cbn [msum p_view p_key p_agg].
    destruct (Nat.eqb_spec v v1) as [->|Hne]; [rewrite D; mac|].
    rewrite (of_series_ne _ _ _ _ Hne). rewrite !only_false. destruct (vdelta c v1); mac.
  - (* SR_decide_delete *)
    intros v1 k1. specialize (C v1 k1). unfold log_sum, emitted in *.
    cbn [goto set_thr add_drop upd_hold set_holds s_log s_out s_drop]. rewrite C. clear C.
    unfold stored. cbn [goto set_thr add_drop upd_hold set_holds s_recs s_holds s_thr].
    assert (forall h0 hd0, s_holds s !! h0 = Some hd0 -> exists hd1,
       <[h:=h_setlive false hd]> (s_holds s) !! h0 = Some hd1 /\ h_view hd1 = h_view hd0 /\ h_key hd1 = h_key hd0) as EH
      by (by apply insert_hold_key with hd).
    rewrite (msum_insert_same _ _ _ _ _ Hh) by done.
    assert (msum (in_rec (<[h:=h_setlive false hd]> (s_holds s)) v1 k1) (s_recs s) =
            msum (in_rec (s_holds s) v1 k1) (s_recs s)) as ->.
    { apply msum_ext. intros r0 Hr0. apply elem_of_list_lookup in Hr0 as (i0 & Hr0).
      eapply in_rec_holds; [done|by eapply IR]. }
    rewrite (msum_insert _ _ _ _ _ Ht), (msum_delete (in_thr (s_recs s) (s_holds s) v1 k1) _ _ _ Ht).
    rewrite (in_thr_holds (s_recs s) _ _ v1 k1 (delete t (s_thr s)) (s_thr s) EH); [| |done].
    2:{ intros t0 p0 H0. apply elem_of_list_lookup_2, elem_of_delete, elem_of_list_lookup in H0 as (t1 & H1). by eapply IT. }
    cbn [in_thr]. rewrite mop_unit.
    rewrite (hmatch_at _ _ _ _ _ Hh), Hv. unfold pts_sum. rewrite !msum_app. cbn [msum p_view p_key p_agg].
    destruct (Nat.eqb_spec v v1) as [->|Hne]; [rewrite D; mac|].
    rewrite (of_series_ne _ _ _ _ Hne). rewrite !only_false. destruct (vdelta c v1); mac.
  - (* SR_decide_drop *)
    intros v1 k1. specialize (C v1 k1). unfold log_sum, emitted in *.
    cbn [goto set_thr add_drop s_log s_out s_drop]. rewrite C. clear C.
    unfold stored. cbn [goto set_thr add_drop s_recs s_holds s_thr].
    rewrite (msum_insert _ _ _ _ _ Ht), (msum_delete _ _ _ _ Ht). cbn [in_thr]. rewrite mop_unit.
    rewrite (hmatch_at _ _ _ _ _ Hh), Hv. unfold pts_sum. rewrite !msum_app. cbn [msum p_view p_key p_agg].
    destruct (Nat.eqb_spec v v1) as [->|Hne]; [rewrite D; mac|].
    rewrite (of_series_ne _ _ _ _ Hne). rewrite !only_false. destruct (vdelta c v1); mac.
Qed.

Lemma cons_spawn (s : st) p :
  (forall v k, in_thr (s_recs s) (s_holds s) v k p = mu) -> conserved s -> conserved (set_thr (fun l => l ++ [p]) s).
Proof.
  intros E. apply cons_quiet; try done. intros v k. unfold stored. cbn [set_thr s_thr s_recs s_holds].
  rewrite msum_app. cbn [msum]. by rewrite E, !mop_unit_r.
Qed.
Lemma conserved_reachable (s : st) : reachable s -> conserved s.
Proof.
  apply (reachable_ind conserved).
  - intros v k. unfold log_sum, emitted, stored. cbn. destruct (vdelta c v); unfold pts_sum; cbn; by rewrite !mop_unit.
  - intros s0 o k n I C _. by apply cons_spawn.
  - intros s0 rd I C. by apply cons_spawn.
  - intros s0 t s1 I I1 C H. by apply (stepR_cons s0 s1 t).
Qed.

End cons.
