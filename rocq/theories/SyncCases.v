(** The reachable steps of the synchronous instrument model, one case per kind of step, with the
    impossible branches removed; the invariant is preserved. *)
From Coq Require Import ZArith Lia Bool.
From stdpp Require Import base list option.
From Verif Require Import Base Lib SyncModel SyncSpec SyncInv SyncStep SyncStepB.
Local Open Scope Z_scope.

Section cases.
Context {c : config} (WF : wf c).
Notation A := (car (c_mon c)).
Notation num := (c_num c).
Notation K := (c_K c).
Notation key := (c_key c).
Notation st := (state c).
Notation pcT := (pc c).
Notation recT := (rec c).
Notation holdT := (holder c).
Implicit Types (recs : list recT) (holds : list holdT) (thr : list pcT) (p : pcT) (r : recT).

(** The key under which a miss is retried: the overflow attributes once the limit is reached. *)
Definition miss_key (o : nat) (k : K) (s : st) : K :=
  if c_ilimit c - 1 <=? nfp o s then c_ovk c else k.

Inductive stepR (s : st) (t : nat) : st -> Prop :=
  | SR_read_hit o k n k' i r :
      s_thr s !! t = Some (PRead o k n) -> s_wl s !! o = Some None ->
      (k' = k \/ (find_read o k s = None /\ k' = miss_key o k s)) ->
      find_read o k' s = Some i -> s_recs s !! i = Some r -> r_live r = true -> r_inst r = o ->
      stepR s t (goto t (PInit i n) (upd_rec i (r_setval (r_val r + 2) r) s))
  | SR_read_miss o k n :
      s_thr s !! t = Some (PRead o k n) -> s_wl s !! o = Some None ->
      find_read o k s = None -> find_read o (miss_key o k s) s = None ->
      stepR s t (goto t (PWrite o (miss_key o k s) n) s)
  | SR_write_hit o k n i r :
      s_thr s !! t = Some (PWrite o k n) -> s_wl s !! o = Some None ->
      find_write o k s = Some i -> s_recs s !! i = Some r -> r_live r = true -> r_inst r = o ->
      stepR s t (goto t (PInit i n) (upd_rec i (r_setval (r_val r + 2) r) s))
  | SR_write_new o k n :
      s_thr s !! t = Some (PWrite o k n) -> s_wl s !! o = Some None -> find_write o k s = None ->
      (o < length (c_insts c))%nat ->
      stepR s t (goto t (PInit (length (s_recs s)) n) (set_recs (fun l => l ++ [new_rec o k]) s))
  | SR_init_start i n r :
      s_thr s !! t = Some (PInit i n) -> s_recs s !! i = Some r -> r_once r = ONew ->
      stepR s t (goto t (PInitV i n 0) (upd_rec i (r_setonce ORun r) s))
  | SR_init_done i n r :
      s_thr s !! t = Some (PInit i n) -> s_recs s !! i = Some r -> r_once r = ODone ->
      stepR s t (goto t (PUpd i n 0) s)
  | SR_acc i n j r v s1 h hd :
      s_thr s !! t = Some (PInitV i n j) -> s_recs s !! i = Some r -> r_once r = ORun ->
      length (r_accs r) = j -> iviews c (r_inst r) !! j = Some v -> s_il s !! v = Some None ->
      get_or_create v (c_vkey c v (r_attrs r)) s = (s1, h) ->
      (s1 = s \/ exists k, s1 = set_holds (fun l => l ++ [Holder v k true 0 mu]) s /\ h = length (s_holds s) /\
                           find_holder v k s = None) ->
      s_holds s1 !! h = Some hd -> h_live hd = true -> h_view hd = v ->
      stepR s t (goto t (PInitV i n (S j))
                   (upd_rec i (r_setaccs (fun l => l ++ [Acc mu h]) r)
                      (upd_hold h (h_setaux (h_aux hd + 1) hd) s1)))
  | SR_init_end i n j r :
      s_thr s !! t = Some (PInitV i n j) -> s_recs s !! i = Some r -> r_once r = ORun ->
      length (r_accs r) = j -> iviews c (r_inst r) !! j = None ->
      stepR s t (goto t (PUpd i n 0) (upd_rec i (r_setonce ODone r) s))
  | SR_upd i n j r a hd :
      s_thr s !! t = Some (PUpd i n j) -> s_recs s !! i = Some r -> r_accs r !! j = Some a ->
      s_holds s !! a_hold a = Some hd ->
      stepR s t (goto t (PUpd i n (S j))
                   (add_log (Upd t (h_view hd) (h_key hd) n)
                      (upd_rec i (r_setaccs (<[j := Acc (mop (a_cur a) (c_inj c (length (s_log s)) n)) (a_hold a)]>) r) s)))
  | SR_upd_end i n j r :
      s_thr s !! t = Some (PUpd i n j) -> s_recs s !! i = Some r -> r_accs r !! j = None ->
      stepR s t (goto t (PCount i) s)
  | SR_count i r :
      s_thr s !! t = Some (PCount i) -> s_recs s !! i = Some r ->
      stepR s t (goto t (PUnref i) (upd_rec i (r_setupd (r_upd r + 1) r) s))
  | SR_unref i r :
      s_thr s !! t = Some (PUnref i) -> s_recs s !! i = Some r ->
      stepR s t (goto t PDone (upd_rec i (r_setval (r_val r - 2) r) s))
  | SR_lock_end rd :
      s_thr s !! t = Some (QLock rd []) ->
      stepR s t (goto t (QViews rd (views_of c rd)) s)
  | SR_lock rd o os :
      s_thr s !! t = Some (QLock rd (o :: os)) -> s_wl s !! o = Some None ->
      stepR s t (goto t (QRecs (Job rd os o (live_recs o s))) (set_wl o (Some t) s))
  | SR_recs_end q :
      s_thr s !! t = Some (QRecs q) -> j_todo q = [] ->
      stepR s t (goto t (QLock (j_rd q) (j_rest q)) (set_wl (j_inst q) None s))
  | SR_recs q ch i :
      s_thr s !! t = Some (QRecs q) -> j_todo q !! ch = Some i ->
      stepR s t (goto t (QLoad (Job (j_rd q) (j_rest q) (j_inst q) (delete ch (j_todo q))) i) s)
  | SR_load_idle q i r :
      s_thr s !! t = Some (QLoad q i) -> s_recs s !! i = Some r -> same32 (r_upd r) (r_col r) = true ->
      r_inact r + 1 < c_periods c ->
      stepR s t (goto t (QRecs q) (upd_rec i (r_setinact (r_inact r + 1) r) s))
  | SR_load_try q i r :
      s_thr s !! t = Some (QLoad q i) -> s_recs s !! i = Some r -> same32 (r_upd r) (r_col r) = true ->
      c_periods c <= r_inact r + 1 ->
      stepR s t (goto t (QTry q i) (upd_rec i (r_setinact (r_inact r + 1) r) s))
  | SR_load_move q i r :
      s_thr s !! t = Some (QLoad q i) -> s_recs s !! i = Some r -> same32 (r_upd r) (r_col r) = false ->
      stepR s t (goto t (QMove q i (r_upd r) None 0) s)
  | SR_try_zero q i r :
      s_thr s !! t = Some (QTry q i) -> s_recs s !! i = Some r -> r_val r = 0 ->
      stepR s t (goto t (QCas q i) s)
  | SR_try_busy q i r :
      s_thr s !! t = Some (QTry q i) -> s_recs s !! i = Some r -> r_val r <> 0 ->
      stepR s t (goto t (QScav q i false) s)
  | SR_cas q i r :
      s_thr s !! t = Some (QCas q i) -> s_recs s !! i = Some r -> r_val r = 0 ->
      stepR s t (goto t (QScav q i true) (upd_rec i (r_setval 1 r) s))
  | SR_cas_fail q i r :
      s_thr s !! t = Some (QCas q i) -> s_recs s !! i = Some r -> r_val r <> 0 ->
      stepR s t (goto t (QScav q i false) s)
  | SR_scav_keep q i r :
      s_thr s !! t = Some (QScav q i false) -> s_recs s !! i = Some r -> same32 (r_upd r) (r_col r) = true ->
      stepR s t (goto t (QRecs q) (upd_rec i (r_setinact 0 r) s))
  | SR_scav_move q i unm r :
      s_thr s !! t = Some (QScav q i unm) -> s_recs s !! i = Some r ->
      (unm = true \/ same32 (r_upd r) (r_col r) = false) -> r_once r = ODone ->
      stepR s t (goto t (QMove q i (r_upd r) (Some unm) 0) s)
  | SR_move q i mods ph j r a :
      s_thr s !! t = Some (QMove q i mods ph j) -> s_recs s !! i = Some r -> r_accs r !! j = Some a ->
      stepR s t (goto t (QMerge q i mods ph j (a_cur a))
                   (upd_rec i (r_setaccs (<[j := Acc mu (a_hold a)]>) r) s))
  | SR_move_keep q i mods ph j r :
      s_thr s !! t = Some (QMove q i mods ph j) -> s_recs s !! i = Some r -> r_accs r !! j = None ->
      ph <> Some true ->
      stepR s t (goto t (QRecs q) (upd_rec i (r_setinact 0 (r_setcol mods r)) s))
  | SR_move_remove q i mods j r :
      s_thr s !! t = Some (QMove q i mods (Some true) j) -> s_recs s !! i = Some r -> r_accs r !! j = None ->
      stepR s t (goto t (QRecs q) (upd_rec i (r_setlive false (r_setinact 0 (r_setcol mods r))) s))
  | SR_merge q i mods ph j a r ac hd :
      s_thr s !! t = Some (QMerge q i mods ph j a) -> s_recs s !! i = Some r -> r_accs r !! j = Some ac ->
      s_holds s !! a_hold ac = Some hd ->
      stepR s t (goto t (match ph with Some true => QRel q i mods ph j | _ => QMove q i mods ph (S j) end)
                   (upd_hold (a_hold ac) (h_setsto (mop (h_sto hd) a) hd) s))
  | SR_rel q i mods ph j r ac hd :
      s_thr s !! t = Some (QRel q i mods ph j) -> s_recs s !! i = Some r -> r_accs r !! j = Some ac ->
      s_holds s !! a_hold ac = Some hd -> ph = Some true ->
      stepR s t (goto t (QMove q i mods ph (S j)) (upd_hold (a_hold ac) (h_setaux (h_aux hd - 1) hd) s))
  | SR_views_end rd :
      s_thr s !! t = Some (QViews rd []) ->
      stepR s t (goto t QDone s)
  | SR_views rd v vs :
      s_thr s !! t = Some (QViews rd (v :: vs)) -> s_il s !! v = Some None ->
      stepR s t (goto t (QColl rd vs v (live_holders v s)) (set_il v (Some t) s))
  | SR_coll_end rd vs v :
      s_thr s !! t = Some (QColl rd vs v []) ->
      stepR s t (goto t (QViews rd vs) (set_il v None s))
  | SR_coll_delta rd vs v todo ch h hd :
      s_thr s !! t = Some (QColl rd vs v todo) -> todo !! ch = Some h -> s_holds s !! h = Some hd ->
      h_live hd = true -> h_view hd = v -> vdelta c v = true ->
      stepR s t (goto t (QPoint rd vs v (delete ch todo) h (h_aux hd)) s)
  | SR_coll_cum rd vs v todo ch h hd :
      s_thr s !! t = Some (QColl rd vs v todo) -> todo !! ch = Some h -> s_holds s !! h = Some hd ->
      h_live hd = true -> h_view hd = v -> vdelta c v = false ->
      stepR s t (goto t (QColl rd vs v (delete ch todo)) (add_out (Point t v (h_key hd) (h_sto hd)) s))
  | SR_point rd vs v todo h refs hd :
      s_thr s !! t = Some (QPoint rd vs v todo h refs) -> s_holds s !! h = Some hd ->
      h_live hd = true -> h_view hd = v -> vdelta c v = true ->
      stepR s t (goto t (QDecide rd vs v todo h refs (h_sto hd)) (upd_hold h (h_setsto mu hd) s))
  | SR_decide_out rd vs v todo h refs a hd :
      s_thr s !! t = Some (QDecide rd vs v todo h refs a) -> s_holds s !! h = Some hd ->
      h_live hd = true -> h_view hd = v -> vdelta c v = true -> c_change c v a = true ->
      stepR s t (goto t (QColl rd vs v todo) (add_out (Point t v (h_key hd) a) s))
  | SR_decide_delete rd vs v todo h a hd :
      s_thr s !! t = Some (QDecide rd vs v todo h 0 a) -> s_holds s !! h = Some hd ->
      h_live hd = true -> h_view hd = v -> vdelta c v = true -> c_change c v a = false ->
      stepR s t (goto t (QColl rd vs v todo)
                   (add_drop (Point t v (h_key hd) a) (upd_hold h (h_setlive false hd) s)))
  | SR_decide_drop rd vs v todo h refs a hd :
      s_thr s !! t = Some (QDecide rd vs v todo h refs a) -> s_holds s !! h = Some hd ->
      h_live hd = true -> h_view hd = v -> vdelta c v = true -> c_change c v a = false -> refs <> 0 ->
      stepR s t (goto t (QColl rd vs v todo) (add_drop (Point t v (h_key hd) a) s)).

Lemma get_or_create_cases v k (s s1 : st) h :
  get_or_create v k s = (s1, h) ->
  (exists k0 hd, (k0 = k \/ k0 = c_ovkey c) /\ find_holder v k0 s = Some h /\
      s1 = s /\ s_holds s !! h = Some hd /\ h_live hd = true /\ h_view hd = v /\ h_key hd = k0) \/
  (exists k0, (k0 = k \/ k0 = c_ovkey c) /\ s1 = set_holds (fun l => l ++ [Holder v k0 true 0 mu]) s /\
      h = length (s_holds s) /\ find_holder v k0 s = None).
Proof.
  assert (F : forall k0 h0, find_holder v k0 s = Some h0 ->
    exists hd, s_holds s !! h0 = Some hd /\ h_live hd = true /\ h_view hd = v /\ h_key hd = k0).
  { intros k0 h0 H. apply find_first_Some in H as (hd & Hh & E). exists hd.
    rewrite !andb_true_iff in E. destruct E as ((E1 & E2) & E3). apply Nat.eqb_eq in E2.
    apply bool_decide_eq_true in E3. done. }
  unfold get_or_create. destruct (find_holder v k s) as [h0|] eqn:F1.
  { intros H. inversion H; subst. left. destruct (F _ _ F1) as (hd & ? & ? & ? & ?).
    exists k, hd. split_and!; try done. by left. }
  destruct (Nat.eqb (vsize v s) (vlimit c v)).
  { destruct (find_holder v (c_ovkey c) s) as [h0|] eqn:F2; intros H; inversion H; subst.
    - left. destruct (F _ _ F2) as (hd & ? & ? & ? & ?). exists (c_ovkey c), hd. split_and!; try done. by right.
    - right. exists k. split_and!; try done. by left. }
  destruct (Nat.eqb (vsize v s + 1) (vlimit c v)).
  { destruct (bool_decide (k = c_ovkey c)) eqn:B.
    - intros H; inversion H; subst. right. exists k. split_and!; try done. by left.
    - destruct (find_holder v (c_ovkey c) s) as [h0|] eqn:F2; intros H; inversion H; subst; right.
      + exists k. split_and!; try done. by left.
      + exists (c_ovkey c). split_and!; try done. by right. }
  intros H; inversion H; subst. right. exists k. split_and!; try done. by left.
Qed.

Ltac inv_I I := pose proof (I_wl _ _ _ _ _ I) as Iwl; pose proof (I_il _ _ _ _ _ I) as Iil;
  pose proof (I_T _ _ _ _ _ I) as IT; pose proof (I_R _ _ _ _ _ I) as IR;
  pose proof (I_H _ _ _ _ _ I) as IH; pose proof (I_U _ _ _ _ _ I) as IU.

Lemma set_recs_id (s : st) : set_recs (fun l => l) s = s.
Proof. by destruct s. Qed.

Lemma step_cases (s s' : st) t p ch :
  Inv s -> s_thr s !! t = Some p -> step_pc s t p ch = Some s' -> stepR s t s'.
Proof.
  intros I Ht E. pose proof I as I'. inv_I I'. pose proof (IT _ _ Ht) as T.
  destruct p; cbn [step_pc] in E; cbn [TI] in T; try done.
  - (* PRead *)
    destruct (s_wl s !! o) as [[|]|] eqn:W; try done.
    assert (C0 : forall j, holds_ref j (PRead o k n) = false /\ initialising j (PRead o k n) = false /\
                 unmapping j (PRead o k n) = false /\ released j (PRead (c:=c) o k n) = 0) by done.
    destruct (try_read_spec s t _ o k I Ht eq_refl eq_refl C0 W) as [[E1 F1]|(i & r & s1 & F1 & Hr & E1 & -> & _)].
    + rewrite E1 in E. assert (miss_key o k s = if c_ilimit c - 1 <=? nfp o s then c_ovk c else k) as M by done.
      destruct (c_ilimit c - 1 <=? nfp o s).
      * destruct (try_read_spec s t _ o (c_ovk c) I Ht eq_refl eq_refl C0 W) as [[E2 F2]|(i & r & s1 & F2 & Hr & E2 & -> & _)].
        -- rewrite E2 in E. inversion E; subst. pose proof (SR_read_miss s t o k n Ht W F1) as X. rewrite M in X. by apply X.
        -- rewrite E2 in E. inversion E; subst. destruct (find_read_spec _ _ _ _ F2) as (r' & Hr' & ? & ? & _).
           assert (r' = r) by congruence. subst r'.
           eapply SR_read_hit with (k' := c_ovk c); try done. right. done.
      * inversion E; subst. pose proof (SR_read_miss s t o k n Ht W F1) as X. rewrite M in X. by apply X.
    + rewrite E1 in E. inversion E; subst. destruct (find_read_spec _ _ _ _ F1) as (r' & Hr' & ? & ? & _).
      assert (r' = r) by congruence. subst r'. eapply SR_read_hit with (k' := k); try done. by left.
  - (* PWrite *)
    destruct (s_wl s !! o) as [[|]|] eqn:W; try done.
    destruct (find_write o k s) as [i|] eqn:F.
    + destruct (find_write_spec _ _ _ _ F) as (r & Hr & Hl & Ho & _). unfold ref in E. rewrite Hr in E.
      assert (Z.even (r_val r + 2) = true) as EV.
      { subst o. pose proof (wl_free_nunm _ _ _ _ _ _ _ I Hr W) as Hu.
        destruct (IR _ _ Hr) as (R1 & _). rewrite Hl, Hu in R1. rewrite R1.
        rewrite Z.add_0_r, Z.even_add, Z.even_mul. done. }
      rewrite EV in E. inversion E; subst. by eapply SR_write_hit.
    + inversion E; subst. by apply SR_write_new.
  - (* PInit *)
    destruct T as (r0 & Hr). rewrite Hr in E. destruct (r_once r0) eqn:O; inversion E; subst.
    + by apply SR_init_start.
    + by eapply SR_init_done.
  - (* PInitV *)
    destruct T as (r0 & Hr & Ho & Hj). rewrite Hr in E.
    destruct (iviews c (r_inst r0) !! j) as [v|] eqn:V.
    + destruct (s_il s !! v) as [[|]|] eqn:W; try done.
      destruct (get_or_create v (c_vkey c v (r_attrs r0)) s) as [s1 h] eqn:G.
      destruct (get_or_create_cases _ _ _ _ _ G) as [(k0 & hd & Hk & F & -> & Hh & Hl & Hv & Hke)|(k0 & Hk & -> & -> & F)].
      * rewrite Hh in E. inversion E; subst s'. eapply SR_acc; try done. by left.
      * cbn in E. rewrite list_lookup_app_last in E. inversion E; subst s'.
        eapply SR_acc; try done; [|apply list_lookup_app_last].
        right. exists k0. done.
    + inversion E; subst. by eapply SR_init_end.
  - (* PUpd *)
    destruct T as ((r0 & Hr & Ho) & _). rewrite Hr in E.
    destruct (r_accs r0 !! j) as [a|] eqn:Ha.
    + destruct (IR _ _ Hr) as (_ & _ & _ & _ & _ & R6 & _). destruct (R6 _ _ Ha) as (hd & Hh & _).
      rewrite Hh in E. inversion E; subst. by apply SR_upd.
    + inversion E; subst. by eapply SR_upd_end.
  - (* PCount *)
    destruct T as (r0 & Hr & Ho). rewrite Hr in E. inversion E; subst. by apply SR_count.
  - (* PUnref *)
    destruct T as (r0 & Hr & Ho). rewrite Hr in E. inversion E; subst. by apply SR_unref.
  - (* QLock *)
    destruct os as [|o os].
    + inversion E; subst. by apply SR_lock_end.
    + destruct (s_wl s !! o) as [[|]|] eqn:W; try done. inversion E; subst. by apply SR_lock.
  - (* QRecs *)
    destruct (j_todo q) as [|i0 l] eqn:J.
    + inversion E; subst. by apply SR_recs_end.
    + rewrite <- J in E. destruct (j_todo q !! ch) as [i|] eqn:C; [|done]. inversion E; subst. by apply SR_recs.
  - (* QLoad *)
    destruct T as (J1 & J2 & J3 & J4). destruct (J4 r ltac:(left)) as (r0 & Hr & _). rewrite Hr in E.
    destruct (same32 (r_upd r0) (r_col r0)) eqn:S.
    + destruct (Z.ltb_spec (r_inact r0 + 1) (c_periods c)); inversion E; subst.
      * by apply SR_load_idle.
      * by apply SR_load_try.
    + inversion E; subst. by eapply SR_load_move.
  - (* QTry *)
    destruct T as (J1 & J2 & J3 & J4). destruct (J4 r ltac:(left)) as (r0 & Hr & _). rewrite Hr in E.
    destruct (Z.eqb_spec (r_val r0) 0); inversion E; subst; [by eapply SR_try_zero|by eapply SR_try_busy].
  - (* QCas *)
    destruct T as (J1 & J2 & J3 & J4). destruct (J4 r ltac:(left)) as (r0 & Hr & _). rewrite Hr in E.
    destruct (Z.eqb_spec (r_val r0) 0); inversion E; subst; [by eapply SR_cas|by eapply SR_cas_fail].
  - (* QScav *)
    destruct T as (J1 & J2 & J3 & J4). destruct (J4 r ltac:(left)) as (r0 & Hr & _). rewrite Hr in E.
    destruct (negb unm && same32 (r_upd r0) (r_col r0)) eqn:S.
    + apply andb_true_iff in S as [S1 S2]. destruct unm; [done|]. inversion E; subst. by apply SR_scav_keep.
    + inversion E; subst.
      assert (unm = true \/ same32 (r_upd r0) (r_col r0) = false) as D.
      { destruct unm; [by left|right]. by apply andb_false_iff in S as [S|S]. }
      eapply SR_scav_move; try done.
      destruct (IR _ _ Hr) as (_ & _ & R3 & _ & R5 & _).
      pose proof (ninit_le_nref (s_thr s) r).
      destruct D as [->|D].
      * pose proof (nunm_pos _ _ _ _ Ht (Nat.eqb_refl r)). destruct (r_once r0); try done; intuition lia.
      * destruct (r_once r0); [destruct R5 as (_ & U1 & U2 & _)|destruct R5 as (U1 & U2 & _)|done];
          rewrite U1, U2 in D; done.
  - (* QMove *)
    destruct T as (TJ & (r0 & Hr & Ho) & _). rewrite Hr, Ho in E.
    destruct (r_accs r0 !! j) as [a|] eqn:Ha.
    + inversion E; subst. by apply SR_move.
    + inversion E; subst. unfold finish. destruct ph as [[]|].
      * by eapply SR_move_remove.
      * by eapply SR_move_keep.
      * by eapply SR_move_keep.
  - (* QMerge *)
    destruct T as (TJ & (r0 & Hr & Ho) & (r1 & Hr1 & Hj) & _). assert (r1 = r0) by congruence. subst r1.
    rewrite Hr in E. destruct (lookup_lt_is_Some_2 _ _ Hj) as (ac & Hac). rewrite Hac in E.
    destruct (IR _ _ Hr) as (_ & _ & _ & _ & _ & R6 & _). destruct (R6 _ _ Hac) as (hd & Hh & _).
    rewrite Hh in E. inversion E; subst. by eapply SR_merge.
  - (* QRel *)
    destruct T as (TJ & (r0 & Hr & Ho) & (r1 & Hr1 & Hj) & -> & _). assert (r1 = r0) by congruence. subst r1.
    rewrite Hr in E. destruct (lookup_lt_is_Some_2 _ _ Hj) as (ac & Hac). rewrite Hac in E.
    destruct (IR _ _ Hr) as (_ & _ & _ & _ & _ & R6 & _). destruct (R6 _ _ Hac) as (hd & Hh & _).
    rewrite Hh in E. inversion E; subst. by eapply SR_rel.
  - (* QViews *)
    destruct vs as [|v vs].
    + inversion E; subst. by eapply SR_views_end.
    + destruct (s_il s !! v) as [[|]|] eqn:W; try done. inversion E; subst. by apply SR_views.
  - (* QColl *)
    destruct todo as [|h0 l] eqn:L.
    + inversion E; subst. by apply SR_coll_end.
    + rewrite <- L in E, T. rewrite <- L in Ht. destruct (todo !! ch) as [h|] eqn:C; [|done].
      destruct T as (V1 & V2 & V3 & V4). destruct (V4 h) as (hd & Hh & Hl & Hv); [by eapply elem_of_list_lookup_2|].
      rewrite Hh in E. destruct (vdelta c v) eqn:D; inversion E; subst s'; [by eapply SR_coll_delta|by eapply SR_coll_cum].
  - (* QPoint *)
    destruct T as ((V1 & V2 & V3 & V4) & T2 & T3). destruct (V4 h ltac:(left)) as (hd & Hh & Hl & Hv).
    rewrite Hh in E. inversion E; subst s'. by apply SR_point.
  - (* QDecide *)
    destruct T as ((V1 & V2 & V3 & V4) & T2 & T3). destruct (V4 h ltac:(left)) as (hd & Hh & Hl & Hv).
    rewrite Hh in E. destruct (c_change c v a) eqn:C; [inversion E; subst s'; by eapply SR_decide_out|].
    destruct (Z.eqb_spec refs 0) as [->|]; inversion E; subst s'; [by eapply SR_decide_delete|by eapply SR_decide_drop].
Qed.

(** ** Preservation *)
Lemma find_holder_None v k (s : st) : find_holder v k s = None ->
  forall h hd, s_holds s !! h = Some hd -> h_live hd && Nat.eqb (h_view hd) v && bool_decide (h_key hd = k) = false.
Proof. intros H h hd Hh. exact (find_first_None _ _ H _ _ Hh). Qed.

Lemma JI_drop_head recs q i : JI recs q [i] -> JI recs q [].
Proof.
  intros (J1 & J2 & J3 & J4). cbn in J3. apply list.NoDup_cons in J3 as [_ J3].
  split_and!; try done. intros i' Hi'. apply J4. by right.
Qed.

Lemma stepR_inv (s s' : st) t : Inv s -> stepR s t s' -> Inv s'.
Proof.
  intros I H. pose proof I as I'. unfold Inv in I. inv_I I.
  destruct H as
    [o k n k' i r Ht W Hk F Hr Hl Ho
    |o k n Ht W F1 F2
    |o k n i r Ht W F Hr Hl Ho
    |o k n Ht W F Hlt
    |i n r Ht Hr Ho
    |i n r Ht Hr Ho
    |i n j r v s1 h hd Ht Hr Ho Hj Hv W G S1 Hh Hl Hhv
    |i n j r Ht Hr Ho Hj Hv
    |i n j r a hd Ht Hr Ha Hh
    |i n j r Ht Hr Ha
    |i r Ht Hr
    |i r Ht Hr
    |rd Ht
    |rd o os Ht W
    |q Ht Hj
    |q ch i Ht Hj
    |q i r Ht Hr Hs Hp
    |q i r Ht Hr Hs Hp
    |q i r Ht Hr Hs
    |q i r Ht Hr Hv
    |q i r Ht Hr Hv
    |q i r Ht Hr Hv
    |q i r Ht Hr Hv
    |q i r Ht Hr Hs
    |q i unm r Ht Hr D Ho
    |q i mods ph j r a Ht Hr Ha
    |q i mods ph j r Ht Hr Ha Hph
    |q i mods j r Ht Hr Ha
    |q i mods ph j a r ac hd Ht Hr Ha Hh
    |q i mods ph j r ac hd Ht Hr Ha Hh Hph
    |rd Ht
    |rd v vs Ht W
    |rd vs v Ht
    |rd vs v todo ch h hd Ht Hc Hh Hl Hv D
    |rd vs v todo ch h hd Ht Hc Hh Hl Hv D
    |rd vs v todo h refs hd Ht Hh Hl Hv D
    |rd vs v todo h refs a hd Ht Hh Hl Hv D C
    |rd vs v todo h a hd Ht Hh Hl Hv D C
    |rd vs v todo h refs a hd Ht Hh Hl Hv D C Hz]; pose proof (IT _ _ Ht) as T; unfold Inv; cbn in T.
  - subst o. by eapply (Inv_ref _ _ _ _ _ t (PRead (r_inst r) k n) i r n).
  - by eapply Inv_goto.
  - subst o. by eapply (Inv_ref _ _ _ _ _ t (PWrite (r_inst r) k n) i r n).
  - by eapply (Inv_new _ _ _ _ _ t (PWrite o k n)).
  - by eapply Inv_PInit.
  - eapply Inv_goto; try done. cbn. split; [by exists r|]. exists r. split; [done|lia].
  - destruct S1 as [->|(k0 & -> & -> & F)].
    + by eapply Inv_PInitV_acc.
    + pose proof (Inv_newholder _ _ _ _ _ v k0 I' (find_holder_None _ _ _ F)) as I2.
      eapply (Inv_PInitV_acc _ _ _ _ _ t i n j r v (length (s_holds s)) hd I2); done.
  - by eapply Inv_PInitV_end.
  - by eapply Inv_PUpd.
  - eapply Inv_goto; try done. by destruct T.
  - destruct T as (r0 & Hr0 & Ho). assert (r0 = r) by congruence. subst r0.
    eapply (Inv_rec_sim _ _ _ _ _ t (PCount i) _ i r); try done. by exists r.
  - by eapply Inv_PUnref.
  - eapply Inv_goto; try done. cbn. apply list.Forall_forall. intros v Hv. unfold views_of in Hv.
    apply elem_of_filter_seq in Hv as [_ ?]. done.
  - apply list.Forall_cons in T as [T1 T2]. eapply Inv_lock; try done.
    + by eapply LI_acquire.
    + by eapply LI_same.
    + cbn. split_and!; try done.
      * apply NoDup_filter_seq.
      * intros i Hi. apply elem_of_filter_seq in Hi as [Hi _]. cbn.
        destruct (s_recs s !! i) as [r|] eqn:Hr; [|done]. apply andb_true_iff in Hi as [H1 H2].
        apply Nat.eqb_eq in H2. by exists r.
  - eapply Inv_lock; try done.
    + by eapply LI_release.
    + by eapply LI_same.
    + by destruct T as (_ & T & _).
  - eapply Inv_goto; try done. cbn. destruct T as (J1 & J2 & J3 & J4). cbn in *. split_and!; try done.
    + apply list.NoDup_cons. split; [by apply NoDup_lookup_delete|by apply NoDup_delete].
    + intros i' Hi'. apply J4. apply elem_of_cons in Hi' as [->|Hi']; [by eapply elem_of_list_lookup_2|].
      by eapply elem_of_delete.
  - eapply (Inv_rec_sim _ _ _ _ _ t (QLoad q i) _ i r); try done. by eapply JI_drop_head.
  - eapply (Inv_rec_sim _ _ _ _ _ t (QLoad q i) _ i r); try done.
  - eapply Inv_goto; try done. cbn. destruct (IR _ _ Hr) as (_ & _ & _ & _ & R5 & _).
    assert (r_once r = ODone) as Ho.
    { destruct (r_once r); [destruct R5 as (_ & U1 & U2 & _)|destruct R5 as (U1 & U2 & _)|done];
          rewrite U1, U2 in Hs; done. }
    split_and!; try done; [by exists r|]. exists r. split; [done|lia].
  - eapply Inv_goto; try done.
  - eapply Inv_goto; try done.
  - by eapply Inv_QCas.
  - eapply Inv_goto; try done.
  - eapply (Inv_rec_sim _ _ _ _ _ t (QScav q i false) _ i r); try done. by eapply JI_drop_head.
  - eapply Inv_goto; try done.
    + intros i'. unfold same_counts. cbn. destruct unm; [|done]. split_and!; try done. by destruct (Nat.eqb i i').
    + cbn. split_and!; try done; [by exists r|exists r; split; [done|lia]|]. intros _. exists r. split; [done|]. lia.
  - by eapply Inv_QMove.
  - destruct T as (TJ & (r0 & Hr0 & Ho) & _). assert (r0 = r) by congruence. subst r0.
    eapply (Inv_rec_sim _ _ _ _ _ t (QMove q i mods ph j) _ i r); try done.
    + intros i'. unfold same_counts. cbn. by destruct ph as [[]|].
    + by eapply JI_drop_head.
  - by eapply Inv_remove.
  - by eapply Inv_QMerge.
  - by eapply Inv_QRel.
  - by eapply Inv_goto.
  - apply list.Forall_cons in T as [T1 T2]. eapply Inv_lock; try done.
    + by eapply LI_same.
    + by eapply LI_acquire.
    + cbn. split_and!; try done.
      * apply NoDup_filter_seq.
      * intros i Hi. apply elem_of_filter_seq in Hi as [Hi _]. cbn.
        destruct (s_holds s !! i) as [r|] eqn:Hr; [|done]. apply andb_true_iff in Hi as [H1 H2].
        apply Nat.eqb_eq in H2. by exists r.
  - eapply Inv_lock; try done.
    + by eapply LI_same.
    + by eapply LI_release.
    + by destruct T as (_ & T & _).
  - eapply Inv_goto; try done. cbn. destruct T as (J1 & J2 & J3 & J4). split_and!; try done.
    + split_and!; try done.
      * apply list.NoDup_cons. split; [by apply NoDup_lookup_delete|by apply NoDup_delete].
      * intros i' Hi'. apply J4. apply elem_of_cons in Hi' as [->|Hi']; [by eapply elem_of_list_lookup_2|].
        by eapply elem_of_delete.
    + intros E. by exists hd.
  - eapply Inv_goto; try done. cbn. destruct T as (J1 & J2 & J3 & J4). split_and!; try done.
    + by apply NoDup_delete.
    + intros i' Hi'. apply J4. by eapply elem_of_delete.
  - by eapply Inv_QPoint.
  - eapply Inv_goto; try done. cbn. destruct T as ((J1 & J2 & J3 & J4) & _). apply list.NoDup_cons in J3 as [_ J3].
    split_and!; try done. intros h' Hh'. apply J4. by right.
  - by eapply Inv_QDecide_delete.
  - eapply Inv_goto; try done. cbn. destruct T as ((J1 & J2 & J3 & J4) & _). apply list.NoDup_cons in J3 as [_ J3].
    split_and!; try done. intros h' Hh'. apply J4. by right.
Qed.

Lemma step_inv (s s' : st) l : Inv s -> step s l = Some s' -> Inv s'.
Proof.
  intros I E. destruct l as [o k n|rd|t ch]; cbn [step] in E.
  - destruct (Nat.ltb_spec o (length (c_insts c))); inversion E; subst. by apply Inv_spawn.
  - inversion E; subst. apply Inv_spawn; try done. cbn. apply list.Forall_forall. intros o Ho.
    apply elem_of_list_In, in_seq in Ho. lia.
  - destruct (s_thr s !! t) as [p|] eqn:Ht; [|done]. eapply stepR_inv; [done|]. by eapply step_cases.
Qed.

Lemma run_inv (s s' : st) ls : Inv s -> run s ls = Some s' -> Inv s'.
Proof.
  revert s. induction ls as [|l ls IHl]; intros s I E; cbn in E; [by inversion E; subst|].
  destruct (step s l) as [s1|] eqn:S; [|done]. eapply IHl; [|done]. by eapply step_inv.
Qed.

Theorem reachable_inv (s : st) : reachable s -> Inv s.
Proof. intros (ls & E). eapply run_inv; [|done]. apply Inv_init. Qed.

(** Induction on reachable states: [P] holds initially, is kept when a call starts, and is kept by
    every step from a state where both [P] and the invariant hold. *)
Lemma reachable_ind (P : st -> Prop) :
  P (init c) ->
  (forall s o k n, Inv s -> P s -> (o < length (c_insts c))%nat -> P (set_thr (fun l => l ++ [PRead o k n]) s)) ->
  (forall s rd, Inv s -> P s -> P (set_thr (fun l => l ++ [QLock rd (seq 0 (length (c_insts c)))]) s)) ->
  (forall s t s', Inv s -> Inv s' -> P s -> stepR s t s' -> P s') ->
  forall s, reachable s -> P s.
Proof.
  intros H0 H1 H2 H3 s (ls & E).
  assert (forall s0, Inv s0 -> P s0 -> run s0 ls = Some s -> P s) as G; [|by eapply G; [apply Inv_init|..]].
  clear E. induction ls as [|l ls IHl]; intros s0 I0 P0 E; cbn in E; [by inversion E; subst|].
  destruct (step s0 l) as [s1|] eqn:S; [|done].
  assert (Inv s1) by (by eapply step_inv). eapply IHl; [done| |done].
  destruct l as [o k n|rd|t ch]; cbn [step] in S.
  - destruct (Nat.ltb_spec o (length (c_insts c))); inversion S; subst. by apply H1.
  - inversion S; subst. by apply H2.
  - destruct (s_thr s0 !! t) as [p|] eqn:Ht; [|done]. apply (H3 s0 t s1); try done. by eapply step_cases.
Qed.

End cases.
