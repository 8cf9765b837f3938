(** Reclamation is safe (C05); few calls are calm; records and fingerprints (C09). *)
From Coq Require Import ZArith Lia Bool.
From stdpp Require Import base list option.
From Verif Require Import Base Lib SyncModel SyncInv SyncStep SyncStepB SyncCases SyncRun SyncSpec SyncCall SyncVis SyncLimit SyncIdle SyncFit.
Local Open Scope Z_scope.

Section safe.
Context {c : config}.
Notation st := (state c).
Notation pcT := (pc c).
Notation recT := (rec c).
Implicit Types (ls : list (label c)) (s : st) (p : pcT) (r : recT) (i t : nat).

Ltac acc_split := try match goal with S1 : _ = _ \/ exists _, _ = set_holds _ _ /\ _ |- _ =>
  destruct S1 as [->|(?k0 & -> & -> & ?F)] end.

Lemma uses_ref i p : uses i p = holds_ref i p.
Proof. by destruct p. Qed.
Lemma nref_zero s i t p : nref (s_thr s) i = 0 -> s_thr s !! t = Some p -> uses i p = false.
Proof.
  intros N Hp. rewrite uses_ref. destruct (holds_ref i p) eqn:E; [|done].
  pose proof (zsum_elem (fun p => b2z (holds_ref i p)) (s_thr s) t p (fun p => proj1 (b2z_range _)) Hp) as L.
  cbn in L. rewrite E in L. unfold nref in N. cbn in L. lia.
Qed.

(** A removed record: no call holds it and all its data has been handed over. *)
Theorem removed_record ls s i r : run (init c) ls = Some s -> s_recs s !! i = Some r -> r_live r = false ->
  (forall t p, s_thr s !! t = Some p -> uses i p = false) /\
  (forall j a, r_accs r !! j = Some a -> a_cur a = mu).
Proof.
  intros R Hr Hl. assert (I : Inv s) by (apply reachable_inv; by exists ls).
  destruct (I_R _ _ _ _ _ I _ _ Hr) as (_ & R2 & _ & _ & _ & _ & R7). split; [|by apply R7].
  intros t p Hp. by eapply nref_zero; [apply R2|].
Qed.

(** A removed entry of a view: it is empty. *)
Theorem removed_entry ls s h hd : run (init c) ls = Some s -> s_holds s !! h = Some hd -> h_live hd = false ->
  h_sto hd = mu /\ vdelta c (h_view hd) = true.
Proof.
  intros R Hr Hl. assert (I : Inv s) by (apply reachable_inv; by exists ls).
  destruct (I_H _ _ _ _ _ I _ _ Hr) as (_ & H1 & H2). split; [by apply H1|].
  destruct (vdelta c (h_view hd)); [done|]. rewrite H2 in Hl; done.
Qed.

(** Whatever record a call uses is still mapped, and so are the entries it will feed. *)
Theorem used_live ls s t p i : run (init c) ls = Some s -> s_thr s !! t = Some p -> uses i p = true ->
  exists r, s_recs s !! i = Some r /\ r_live r = true /\
    forall j a, r_accs r !! j = Some a -> exists hd, s_holds s !! a_hold a = Some hd /\ h_live hd = true.
Proof.
  intros R Hp U. assert (I : Inv s) by (apply reachable_inv; by exists ls).
  assert (exists r, s_recs s !! i = Some r) as (r & Hr).
  { pose proof (I_T _ _ _ _ _ I _ _ Hp) as T.
    destruct p; try done; apply Nat.eqb_eq in U; subst; cbn in T.
    - destruct T as (r0 & T); eauto.
    - destruct T as (r0 & T & _); eauto.
    - destruct T as ((r0 & T & _) & _); eauto.
    - destruct T as (r0 & T & _); eauto.
    - destruct T as (r0 & T & _); eauto. }
  assert (RP : 0 < nref (s_thr s) i).
  { pose proof (zsum_elem (fun p => b2z (holds_ref i p)) (s_thr s) t p (fun p => proj1 (b2z_range _)) Hp) as L.
    cbn in L. rewrite <- uses_ref, U in L. cbn in L. unfold nref. lia. }
  destruct (I_R _ _ _ _ _ I _ _ Hr) as (_ & R2 & R3 & _ & _ & R6 & _).
  assert (r_live r = true) as Hl by (destruct (r_live r); [done|]; specialize (R2 eq_refl); lia).
  exists r. split; [done|]. split; [done|]. intros j a Ha. destruct (R6 _ _ Ha) as (hd & Hh & _). exists hd. split; [done|].
  destruct (h_live hd) eqn:E; [done|]. exfalso.
  destruct (I_H _ _ _ _ _ I _ _ Hh) as (H1 & H2 & _). destruct (H2 E) as [H3 _]. rewrite H3 in H1.
  assert (NU : nunm (s_thr s) i = 0).
  { pose proof (zsum_nonneg (fun p => b2z (unmapping i p)) (s_thr s) (fun p _ => proj1 (b2z_range _))) as P. unfold nunm in *.
    destruct (Z.eq_dec (zsum (fun p => b2z (unmapping i p)) (s_thr s)) 0); [done|]. lia. }
  assert (NR : nrel (s_thr s) i = 0%nat).
  { unfold nrel. assert (zsum (released i) (s_thr s) = 0) as ->; [|done].
    destruct (Z.ltb_spec 0 (zsum (released i) (s_thr s))) as [P|P].
    - apply zsum_pos in P as (t' & p' & Hp' & P). exfalso.
      assert (unmapping i p' = true) as Um.
      { destruct p'; cbn in P |- *; try lia; destruct ph as [[]|]; try lia; by destruct (Nat.eqb _ i). }
      pose proof (zsum_elem (fun p => b2z (unmapping i p)) (s_thr s) t' p' (fun p => proj1 (b2z_range _)) Hp') as L.
      cbn in L. rewrite Um in L. unfold nunm in NU. cbn in L. lia.
    - assert (0 <= zsum (released i) (s_thr s)); [|lia]. apply zsum_nonneg. intros p' _. destruct p'; cbn; try lia; destruct ph as [[]|]; try lia; destruct (Nat.eqb _ i); lia. }
  assert (PN : forall (l : list (acc c)) h, 0 <= zsum (points_to h) l).
  { intros l h. apply zsum_nonneg. intros x _. apply b2z_range. }
  assert (UN : forall j z, 0 <= unrel (s_thr s) (a_hold a) j z).
  { intros j0 z. unfold unrel. destruct (r_live z); [apply PN|lia]. }
  pose proof (isum_elem _ _ _ _ UN Hr) as L. unfold unrel at 1 in L. rewrite Hl, NR in L. cbn [drop] in L.
  pose proof (zsum_elem (points_to (a_hold a)) (r_accs r) j a (fun _ => proj1 (b2z_range _)) Ha) as L2.
  unfold points_to at 1 in L2. rewrite Nat.eqb_refl in L2. cbn in L2.
  change (drop 0 (r_accs r)) with (r_accs r) in L. lia.
Qed.

(** ** Few calls are calm *)
Definition counted p : Z := match p with PUnref _ | PDone => 1 | _ => 0 end.
Definition CN s : Prop := zsum (@r_upd c) (s_recs s) = zsum counted (s_thr s) /\ 
  (forall i r, s_recs s !! i = Some r -> 0 <= r_upd r /\ 0 <= r_col r) /\
  (forall t p i m, s_thr s !! t = Some p -> mods_on i p = Some m -> 0 <= m).
Lemma CN_step s t s' : stepR s t s' -> CN s -> CN s'.
Proof.
  intros H (E & N & P). split; [|split].
  - stepR_cases H; acc_split; snorm;
      try (rewrite (zsum_insert _ _ _ _ _ Hr)); try rewrite (zsum_app (@r_upd c)); rewrite (zsum_insert _ _ _ _ _ Ht); cbn [counted r_upd r_setval r_setlive r_setupd r_setcol r_setinact r_setonce r_setaccs zsum new_rec]; try lia;
      destruct ph as [[]|]; cbn [counted]; lia.
  - intros i0 r0 Hr0. stepR_cases H; acc_split; snorm; try (by eapply N);
      try (apply lookup_insert_inv in Hr0 as [(<- & <- & _)|(_ & Hr0)]; [pose proof (N _ _ Hr); cbn; try lia|by eapply N]).
    + apply lookup_snoc in Hr0 as [Hr0|[-> ->]]; [by eapply N|cbn; lia].
    + split; [lia|]. eapply (P t _ i); [exact Ht|]. cbn. by rewrite Nat.eqb_refl.
    + split; [lia|]. eapply (P t _ i); [exact Ht|]. cbn. by rewrite Nat.eqb_refl.
  - intros t0 p0 i0 m0 H0 Hm. destruct (thr_step _ _ _ H) as (p1 & p1' & Ht1 & Et & _). rewrite Et in H0.
    apply lookup_insert_inv in H0 as [(<- & <- & _)|(_ & H0)]; [|exact (P _ _ _ _ H0 Hm)].
    assert (t < length (s_thr s))%nat as L by (by eapply lookup_lt_Some).
    assert (Hp1 : s_thr s' !! t = Some p1') by (rewrite Et; by rewrite list_lookup_insert).
    clear Et. stepR_cases H; acc_split; snorm; rewrite list_lookup_insert in Hp1 by done; inversion Hp1; subst p1'; try done; cbn in Hm.
    + destruct (Nat.eqb_spec i i0); inversion Hm; subst. by eapply N.
    + destruct (Nat.eqb_spec i i0); inversion Hm; subst. by eapply N.
    + destruct (Nat.eqb_spec i i0); inversion Hm; subst. eapply (P t _ i0); [exact Ht|]. cbn. by rewrite Nat.eqb_refl.
    + destruct ph as [[]|]; cbn in Hm; (destruct (Nat.eqb_spec i i0); inversion Hm; subst; eapply (P t _ i0); [exact Ht|]; cbn; by rewrite Nat.eqb_refl).
    + destruct (Nat.eqb_spec i i0); inversion Hm; subst. eapply (P t _ i0); [exact Ht|]. cbn. by rewrite Nat.eqb_refl.
Qed.
Lemma CN_run ls s : run (init c) ls = Some s -> CN s.
Proof.
  assert (SP : forall s p, counted p = 0 -> (forall i, mods_on i p = None) -> CN s -> CN (set_thr (fun l => l ++ [p]) s)).
  { intros s0 p Hc Hm (E & N & P). split; [|split; [done|]].
    - snorm. rewrite zsum_app. cbn [zsum]. rewrite Hc. lia.
    - intros t p0 i m H0 Hm0. snorm. apply lookup_snoc in H0 as [H0|[-> ->]]; [exact (P _ _ _ _ H0 Hm0)|]. by rewrite Hm in Hm0. }
  revert ls s. apply (run_ind (fun _ s => CN s)).
  - split; [done|]. split; done.
  - intros ls s o k n R I P _. by apply SP.
  - intros ls s rd R I P. by apply SP.
  - intros ls s t ch s' R I I' P S. exact (CN_step s t s' S P).
Qed.
Lemma counted_calls ls s : run (init c) ls = Some s -> zsum counted (s_thr s) <= Z.of_nat (length (List.filter is_call ls)).
Proof.
  intros R. destruct (CI_run _ _ R) as ((C1 & C2) & _).
  assert (List.filter is_call ls = List.filter is_call (calls ls)) as ->.
  { unfold calls. clear. induction ls as [|l ls IH]; [done|]. cbn. destruct l; cbn; by rewrite IH. }
  revert C1 C2. generalize (calls ls) (s_thr s). intros cl thr.
  assert (G : forall (cl : list (label c)) (thr : list pcT), length cl = length thr ->
    (forall t p, thr !! t = Some p -> match cl !! t with Some l => counted p <= b2z (is_call l) | None => True end) ->
    zsum counted thr <= Z.of_nat (length (List.filter is_call cl))).
  { induction cl0 as [|l cl0 IH]; intros [|p thr0] L H; try done. cbn [zsum List.filter].
    pose proof (H 0%nat p eq_refl) as H0. cbn in H0.
    assert (zsum counted thr0 <= Z.of_nat (length (List.filter is_call cl0))) as H1.
    { apply IH; [by inversion L|]. intros t q Hq. exact (H (S t) q Hq). }
    destruct (is_call l); cbn [b2z length] in *; lia. }
  intros C1 C2. apply G; [done|]. intros t p Hp. specialize (C2 _ _ Hp). destruct (cl !! t) as [l|]; [|done].
  destruct l as [o k n|rd|]; [|destruct C2 as [C2 _]|done]; cbn [is_call b2z]; [by destruct p|by destruct p].
Qed.
Theorem few_calm ls : Z.of_nat (length (List.filter is_call ls)) < 4294967296 -> calm ls.
Proof.
  intros L l s i r [x ->] R Hr. destruct (CN_run _ _ R) as (E & N & _). pose proof (counted_calls _ _ R) as C.
  rewrite filter_app, app_length in L. destruct (N _ _ Hr) as [_ N2].
  assert (r_upd r <= zsum (@r_upd c) (s_recs s)); [|lia].
  clear -N Hr. assert (G : forall (l : list recT) i r, (forall j z, l !! j = Some z -> 0 <= r_upd z) -> l !! i = Some r -> r_upd r <= zsum (@r_upd c) l /\ 0 <= zsum (@r_upd c) l).
  { clear. intros l. assert (forall l : list recT, (forall j z, l !! j = Some z -> 0 <= r_upd z) -> 0 <= zsum (@r_upd c) l) as NN.
    { clear. induction l as [|x l IH]; intros H; cbn; [lia|]. pose proof (H 0%nat x eq_refl). assert (0 <= zsum (@r_upd c) l); [|lia].
      apply IH. intros j z Hj. exact (H (S j) z Hj). }
    induction l as [|x l IH]; intros i r H Hr; [done|]. assert (0 <= zsum (@r_upd c) l) as Z1 by (apply NN; intros j z Hj; exact (H (S j) z Hj)).
    pose proof (H 0%nat x eq_refl). cbn [zsum]. destruct i as [|i]; cbn in Hr.
    - inversion Hr; subst. lia.
    - destruct (IH i r) as [I1 _]; [intros j z Hj; exact (H (S j) z Hj)|done|]. lia. }
  eapply G; [|exact Hr]. intros j z Hj. by eapply N.
Qed.

(** ** One record per fingerprint when attributes do not collide *)
Definition OF s : Prop := forall i j r r', s_recs s !! i = Some r -> s_recs s !! j = Some r' -> r_live r = true -> r_live r' = true ->
  r_inst r = r_inst r' -> c_fp c (r_attrs r) = c_fp c (r_attrs r') -> i = j.
Lemma OF_run ls s : (c_ignore c = true \/ forall k k', c_fp c k = c_fp c k' -> c_keq c k k' = true) ->
  run (init c) ls = Some s -> OF s.
Proof.
  intros NC. revert ls s. apply (run_ind (fun _ s => OF s)); try done.
  intros ls s t ch0 s' R I I' P S i0 j0 r1 r2 H1 H2 L1 L2 E1 E2.
  assert (FIN : (forall i1 rr0, s_recs s' !! i1 = Some rr0 -> r_live rr0 = true -> exists r0, s_recs s !! i1 = Some r0 /\ r_live r0 = true /\ r_inst r0 = r_inst rr0 /\ r_attrs r0 = r_attrs rr0) -> i0 = j0).
  { intros G. destruct (G _ _ H1 L1) as (q1 & Q1 & Q2 & Q3 & Q4). destruct (G _ _ H2 L2) as (q2 & W1 & W2 & W3 & W4).
    eapply P; [exact Q1|exact W1|done|done|congruence|congruence]. }
  assert (FL : forall o k, find_write o k s = None -> forall i r, s_recs s !! i = Some r -> r_live r = true -> r_inst r = o -> c_fp c (r_attrs r) <> c_fp c k).
  { intros o k Hf i r Hr Hl <- E. pose proof (find_last_None _ _ Hf _ _ Hr) as X. cbn in X. rewrite Hl, E, Z.eqb_refl, Nat.eqb_refl in X. cbn in X.
    apply orb_false_iff in X as [X1 X2]. destruct NC as [NC|NC]; [congruence|]. rewrite NC in X2; done. }
  stepR_cases S; acc_split; snorm; try (by eapply P); 
    try (apply FIN; intros i1 rr0 Hx Hy; snorm; apply lookup_insert_inv in Hx as [(<- & <- & _)|(_ & Hx)]; [|by exists rr0];
         first [discriminate Hy | exists r; by auto]).
  apply lookup_snoc in H1 as [H1|[-> ->]]; apply lookup_snoc in H2 as [H2|[-> ->]]; try done.
  - by eapply P.
  - cbn in *. destruct (FL _ _ F _ _ H1 L1 E1 E2).
  - cbn in *. by destruct (FL _ _ F _ _ H2 L2 (eq_sym E1)).
Qed.
Lemma NoDup_map_filter {X} (P : X -> bool) (f : X -> Z) (l : list X) :
  (forall i j x y, l !! i = Some x -> l !! j = Some y -> P x = true -> P y = true -> f x = f y -> i = j) ->
  NoDup (map f (List.filter P l)).
Proof.
  induction l as [|x l IH]; intros H; cbn; [by apply list.NoDup_nil|].
  assert (IH' : NoDup (map f (List.filter P l))).
  { apply IH. intros i j y z Hi Hj Py Pz E. pose proof (H (S i) (S j) y z Hi Hj Py Pz E). lia. }
  destruct (P x) eqn:Px; [|done]. cbn. apply list.NoDup_cons. split; [|done].
  rewrite elem_of_list_In, in_map_iff. intros (y & Ey & Hy). apply filter_In in Hy as [Hy Py].
  apply elem_of_list_In, elem_of_list_lookup_1 in Hy as (j & Hj).
  pose proof (H 0%nat (S j) x y eq_refl Hj Px Py (eq_sym Ey)). lia.
Qed.
Lemma remove_dups_NoDup (l : list Z) : NoDup l -> length (remove_dups l) = length l.
Proof.
  induction 1 as [|x l Hx N IH]; [done|]. cbn. destruct (decide_rel _ _ _) as [D|D]; [done|]. cbn. by rewrite IH.
Qed.
Theorem records_fps ls s o : (c_ignore c = true \/ forall k k', c_fp c k = c_fp c k' -> c_keq c k k' = true) ->
  run (init c) ls = Some s ->
  Z.of_nat (length (List.filter (fun r => r_live r && Nat.eqb (r_inst r) o) (s_recs s))) = nfp o s.
Proof.
  intros NC R. pose proof (OF_run _ _ NC R) as O. unfold nfp, live_fps. rewrite remove_dups_NoDup; [by rewrite map_length|].
  apply NoDup_map_filter. intros i j x y Hi Hj Px Py E. apply andb_prop in Px as [P1 P2]. apply andb_prop in Py as [P3 P4].
  apply Nat.eqb_eq in P2, P4. eapply O; [exact Hi|exact Hj|done|done|congruence|done].
Qed.
End safe.
