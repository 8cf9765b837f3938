(** Proofs about the provider. *)
From Coq Require Import ZArith Bool String Lia.
From stdpp Require Import base list option strings gmap.
From Verif Require Import Num Attr AttrProofs View ViewSpec ViewProofs ViewRun ViewHist Data Prov ProvSpec.
Local Open Scope Z_scope.

Lemma find_pair_cons {K V} `{EqDecision K} (k k' : K) (v : V) l : find_pair k ((k', v) :: l) = if decide (k' = k) then Some v else find_pair k l.
Proof. unfold find_pair. cbn. case_decide; [by rewrite bool_decide_eq_true_2|by rewrite bool_decide_eq_false_2]. Qed.

Section prov.
Context (L : libs).

(** One meter. *)
Record mok (vs : list views) (m : meter) : Prop := Mok {
  mk_len : length (mr_comp m) = length vs;
  mk_wf : Forall wf (mr_comp m);
  mk_want : forall d x, find_pair d (mr_desc m) = Some x -> synchronous (i_kind d) = true -> ~ unwanted L vs (mr_lib m) d
}.
Record mstable (m m' : meter) : Prop := Mstable {
  st_lib : mr_lib m' = mr_lib m;
  st_comp : Forall2 ext (mr_comp m) (mr_comp m');
  st_desc : forall d x, find_pair d (mr_desc m) = Some x -> find_pair d (mr_desc m') = Some x;
  st_sync : mr_sync m `prefix_of` mr_sync m';
  st_async : mr_async m `prefix_of` mr_async m'
}.
Lemma mstable_refl m : mstable m m.
Proof. split; try done. by apply Reflexive_instance_0; intros c; apply ext_refl. Qed.
Lemma mstable_trans a b c : mstable a b -> mstable b c -> mstable a c.
Proof.
  intros [A1 A2 A3 A4 A5] [B1 B2 B3 B4 B5]. split.
  - congruence.
  - eapply Forall2_transitive; [|exact A2|exact B2]. intros x y z. apply ext_trans.
  - auto.
  - exact (transitivity A4 B4).
  - exact (transitivity A5 B5).
Qed.

Lemma compile_each_spec vs lib cs d : length cs = length vs -> Forall wf cs ->
  let '(cs', idss, es) := compile_each L vs lib cs d in
  length cs' = length vs /\ Forall wf cs' /\ Forall2 ext cs cs' /\ (forallb is_nil idss = true <-> unwanted L vs lib d).
Proof.
  revert cs. induction vs as [|v vs IH]; intros [|c cs] Len W; try done; cbn [compile_each].
  - split; [done|]. split; [done|]. split; [done|]. split; [|done]. intros _ v Hv. by apply elem_of_nil in Hv.
  - inversion W; subst. destruct (compile L v lib c d) as [[c' ids] e] eqn:E. destruct (compile_spec L v lib c d c' ids e) as (d' & bs & B & P); [done..|].
    specialize (IH cs ltac:(cbn in Len; lia) H2). destruct (compile_each L vs lib cs d) as [[cs'' idss] es].
    destruct IH as (IL & IW & IE & IU). split; [cbn; lia|]. split; [constructor; [apply P|done]|]. split; [constructor; [apply P|done]|].
    cbn [forallb]. rewrite andb_true_iff, IU. pose proof (Forall2_length _ _ _ (ap_settled _ _ _ _ _ _ P)) as LB. split.
    + intros [N U] v' Hv. apply elem_of_cons in Hv as [->|Hv]; [|by apply U]. rewrite B. cbn. destruct ids; [|done]. by destruct bs.
    + intros U. split; [|intros v' Hv; apply U; by right]. specialize (U v ltac:(left)). rewrite B in U. cbn in U. subst bs. by destruct ids.
Qed.

Lemma configure_spec vs m d n m' x e : mok vs m -> configure L vs m d n = (m', x, e) ->
  mok vs m' /\ mstable m m' /\
  (match x with
   | Some y => find_pair d (mr_desc m') = Some y /\ crashes m' = crashes m
   | None => synchronous (i_kind d) = true /\ unwanted L vs (mr_lib m) d /\ find_pair d (mr_desc m) = None /\ crashes m' = true
   end) /\
  (forall d' y, find_pair d' (mr_desc m') = Some y -> find_pair d' (mr_desc m) = Some y \/ (y = n /\ d' = d /\ x = Some n)) /\
  ((find_pair d (mr_desc m) = None /\ synchronous (i_kind d) = true /\ unwanted L vs (mr_lib m) d) -> x = None).
Proof.
  intros [Len W Wt] E. unfold configure in E. pose proof (compile_each_spec vs (mr_lib m) (mr_comp m) d Len W) as C.
  destruct (compile_each L vs (mr_lib m) (mr_comp m) d) as [[cs idss] es]. destruct C as (CL & CW & CE & CU).
  destruct (find_pair d (mr_desc m)) as [y|] eqn:F.
  - injection E as <- <- <-. split; [by split|]. split; [by split|]. cbn. split; [done|]. split; [by left|]. by intros [? _].
  - assert (New : forall d' y, find_pair d' ((d, n) :: mr_desc m) = Some y -> find_pair d' (mr_desc m) = Some y \/ (y = n /\ d' = d)).
    { intros d' y. rewrite find_pair_cons. case_decide; [|by left]. intros [= <-]. right. done. }
    assert (Old : forall d' y, find_pair d' (mr_desc m) = Some y -> find_pair d' ((d, n) :: mr_desc m) = Some y).
    { intros d' y H. rewrite find_pair_cons. case_decide; [|done]. subst d'. congruence. }
    assert (Now : find_pair d ((d, n) :: mr_desc m) = Some n) by (rewrite find_pair_cons; by rewrite decide_True).
    destruct (synchronous (i_kind d)) eqn:Sy; [destruct (forallb is_nil idss) eqn:N|]; injection E as <- <- <-.
    + split; [by split|]. split; [split; try done; by apply prefix_app_r|]. cbn. split; [|split; [by left|done]].
      split; [done|]. split; [by apply CU|]. split; [done|]. unfold crashes. cbn. rewrite existsb_app. cbn. by rewrite orb_true_r.
    + assert (U : ~ unwanted L vs (mr_lib m) d) by (intros U%CU; congruence). split; [split; [done|done|]|].
      { cbn. intros d' y [H|[-> ->]]%New; [by eapply Wt|done]. }
      split; [split; try done; by apply prefix_app_r|]. cbn. split.
      { split; [done|]. unfold crashes. cbn. rewrite existsb_app. cbn. by rewrite orb_false_r. }
      split; [intros d' y H%New; naive_solver|]. intros (_ & _ & ?). done.
    + split; [split; [done|done|]|].
      { cbn. intros d' y [H|[-> ->]]%New Sy'; [by eapply Wt|congruence]. }
      split; [split; try done; by apply prefix_app_r|]. cbn. split; [done|]. split; [intros d' y H%New; naive_solver|]. intros (_ & ? & _). done.
Qed.

(** The whole provider. *)
Record inv (p : prov) : Prop := Inv {
  iv_meters : Forall (mok (pv_views p)) (pv_ordered p);
  iv_libs : forall i j m m', pv_ordered p !! i = Some m -> pv_ordered p !! j = Some m' -> mr_lib m = mr_lib m' -> i = j;
  iv_map : forall l, pv_meters p = Some l -> forall lib i, find_pair lib l = Some i <-> exists m, pv_ordered p !! i = Some m /\ mr_lib m = lib;
  iv_fresh : forall i m d x, pv_ordered p !! i = Some m -> find_pair d (mr_desc m) = Some x -> (x < pv_next p)%nat;
  iv_insts : forall i j m m' d d' x, pv_ordered p !! i = Some m -> pv_ordered p !! j = Some m' ->
     find_pair d (mr_desc m) = Some x -> find_pair d' (mr_desc m') = Some x -> i = j /\ d = d';
  iv_last : length (pv_last p) = length (pv_views p)
}.
Record stable (p p' : prov) : Prop := Stable {
  sb_views : pv_views p' = pv_views p;
  sb_start : pv_start p' = pv_start p;
  sb_ord : forall i m, pv_ordered p !! i = Some m -> exists m', pv_ordered p' !! i = Some m' /\ mstable m m';
  sb_down : pv_meters p = None -> pv_meters p' = None
}.
Lemma stable_refl p : stable p p.
Proof. split; try done. intros i m H. exists m. split; [done|apply mstable_refl]. Qed.
Lemma stable_trans a b c : stable a b -> stable b c -> stable a c.
Proof.
  intros [A1 A2 A3 A4] [B1 B2 B3 B4]. split; [congruence|congruence| |auto].
  intros i m H. destruct (A3 i m H) as (m1 & H1 & S1). destruct (B3 i m1 H1) as (m2 & H2 & S2). exists m2. split; [done|]. exact (mstable_trans _ _ _ S1 S2).
Qed.

(** What a result says about the state after it, now and later. *)
Definition fact (p : prov) (a : act) (r : res) : Prop :=
  match a, r with
  | AMeter lib, RMeter i => exists m, pv_ordered p !! i = Some m /\ mr_lib m = lib
  | AMeter lib, RNoop => pv_meters p = None
  | AInst i d, RInst (Some x) _ => exists m, pv_ordered p !! i = Some m /\ find_pair d (mr_desc m) = Some x
  | AInst i d, RInst None _ => exists m, pv_ordered p !! i = Some m /\ synchronous (i_kind d) = true /\ unwanted L (pv_views p) (mr_lib m) d /\ crashes m = true
  | AMeter _, _ | AInst _ _, _ => False
  | _, _ => True
  end.
Lemma crashes_prefix m m' : mr_sync m `prefix_of` mr_sync m' -> crashes m = true -> crashes m' = true.
Proof. intros [k E] H. unfold crashes in *. rewrite E, existsb_app, H. done. Qed.
Lemma fact_stable p p' a r : stable p p' -> fact p a r -> fact p' a r.
Proof.
  intros [S1 S2 S3 S4]. destruct a; try done; destruct r; try done; cbn.
  - intros (m & H & <-). destruct (S3 _ _ H) as (m' & H' & M). exists m'. split; [done|]. apply M.
  - destruct x.
    + intros (m' & H & F). destruct (S3 _ _ H) as (m2 & H' & M). exists m2. split; [done|]. by apply M.
    + intros (m' & H & Sy & U & C). destruct (S3 _ _ H) as (m2 & H' & M). exists m2. split; [done|]. split; [done|]. rewrite S1, (st_lib _ _ M).
      split; [done|]. eapply crashes_prefix; [apply M|done].
Qed.

Lemma step_spec p a p' r : inv p -> step L p a = Some (p', r) -> inv p' /\ stable p p' /\ fact p' a r.
Proof.
  intros I E. destruct p as [vs t0 ord ms nx la cl calls]. destruct a as [lib|i d|k now| |t errs]; cbn [step] in E.
  - destruct ms as [l|]; [|injection E as <- <-; split; [done|]; split; [apply stable_refl|done]].
    destruct (find_pair lib l) as [i|] eqn:F.
    { injection E as <- <-. split; [done|]. split; [apply stable_refl|]. cbn. by apply (iv_map _ I l eq_refl). }
    injection E as <- <-. set (m := Meter lib (map (fun _ => cempty) vs) [] [] []).
    assert (NL : forall i m', ord !! i = Some m' -> mr_lib m' <> lib).
    { intros i m' H E. assert (find_pair lib l = Some i) by (apply (iv_map _ I l eq_refl); cbn; eauto). congruence. }
    assert (SN : forall i m', (ord ++ [m]) !! i = Some m' -> ord !! i = Some m' \/ (i = length ord /\ m' = m)).
    { intros i m' H. apply lookup_app_Some in H as [H|[Hl H]]; [by left|]. right. apply list_lookup_singleton_Some in H as [H <-]. split; [lia|done]. }
    destruct I as [I1 I2 I3 I4 I5 I6]. cbn in *. split; [split; cbn|split; [split; cbn|]].
    + apply list.Forall_app. split; [done|]. constructor; [|constructor]. split; cbn.
      * by rewrite map_length.
      * apply list.Forall_forall. intros c Hc. change (map (fun _ : views => cempty) vs) with ((fun _ : views => cempty) <$> vs) in Hc.
        apply elem_of_list_fmap in Hc as (? & -> & _). apply wf_empty.
      * done.
    + intros i j m1 m2 [H1|[-> ->]]%SN [H2|[-> ->]]%SN EL; [by eapply I2| | |done].
      * exfalso. by apply (NL _ _ H1).
      * exfalso. by apply (NL _ _ H2).
    + intros l' [= <-] lib' i. rewrite find_pair_cons. case_decide as D.
      * subst lib'. split.
        -- intros [= <-]. exists m. split; [|done]. by rewrite lookup_app_r, Nat.sub_diag by lia.
        -- intros (m' & [H|[-> ->]]%SN & EL); [|done]. by destruct (NL _ _ H).
      * rewrite (I3 l eq_refl lib' i). split.
        -- intros (m' & H & EL). exists m'. split; [by apply lookup_app_l_Some|done].
        -- intros (m' & [H|[-> ->]]%SN & EL); [eauto|]. by destruct D.
    + intros i m1 d x [H|[-> ->]]%SN F1; [by eapply I4|done].
    + intros i j m1 m2 d d' x [H1|[-> ->]]%SN [H2|[-> ->]]%SN F1 F2; [by eapply I5|done..].
    + done.
    + done.
    + done.
    + intros i m1 H. exists m1. split; [by apply lookup_app_l_Some|apply mstable_refl].
    + done.
    + exists m. split; [|done]. by rewrite lookup_app_r, Nat.sub_diag by lia.
  - destruct (ord !! i) as [m|] eqn:Hm; [|done]. cbn in E. destruct (configure L vs m d nx) as [[m' x] e] eqn:C. injection E as <- <-.
    assert (Li : (i < length ord)%nat) by (by eapply lookup_lt_Some).
    destruct I as [I1 I2 I3 I4 I5 I6]. cbn in *. pose proof (Forall_lookup_1 _ _ _ _ I1 Hm) as Mk.
    destruct (configure_spec vs m d nx m' x e Mk C) as (Mk' & St & Out & Desc & _).
    assert (SN : forall j m2, <[i := m']> ord !! j = Some m2 -> (j <> i /\ ord !! j = Some m2) \/ (j = i /\ m2 = m')).
    { intros j m2 H. destruct (decide (j = i)) as [->|N]; [rewrite list_lookup_insert in H by done|rewrite list_lookup_insert_ne in H by done]; [|by left].
      injection H as <-. by right. }
    assert (DD : forall d1 y, find_pair d1 (mr_desc m') = Some y -> (y < nx)%nat /\ find_pair d1 (mr_desc m) = Some y \/ (y = nx /\ d1 = d)).
    { intros d1 y H. destruct (Desc d1 y H) as [H'|(-> & -> & _)]; [|by right]. left. split; [by eapply I4|done]. }
    split; [split; cbn|split; [split; cbn|]].
    + apply Forall_insert; done.
    + intros j1 j2 m1 m2 [[N1 H1]|[-> ->]]%SN [[N2 H2]|[-> ->]]%SN EL; rewrite ?(st_lib _ _ St) in EL; [by eapply I2| | |done].
      * by eapply (I2 j1 i).
      * by eapply (I2 i j2).
    + intros l Hl lib' j. rewrite (I3 l Hl lib' j). split.
      * intros (m1 & H1 & EL). destruct (decide (j = i)) as [->|N].
        -- exists m'. rewrite list_lookup_insert by done. split; [done|]. rewrite (st_lib _ _ St). congruence.
        -- exists m1. by rewrite list_lookup_insert_ne.
      * intros (m1 & [[N1 H1]|[-> ->]]%SN & EL); [eauto|]. exists m. split; [done|]. by rewrite <- (st_lib _ _ St).
    + intros j m1 d1 y [[N1 H1]|[-> ->]]%SN F1; [pose proof (I4 _ _ _ _ H1 F1); lia|]. apply DD in F1 as [[? _]|[-> _]]; lia.
    + intros j1 j2 m1 m2 d1 d2 y [[N1 H1]|[-> ->]]%SN [[N2 H2]|[-> ->]]%SN F1 F2.
      * by eapply I5.
      * apply DD in F2 as [[_ F2]|[-> ->]]; [by eapply (I5 j1 i)|]. pose proof (I4 _ _ _ _ H1 F1); lia.
      * apply DD in F1 as [[_ F1]|[-> ->]]; [by eapply (I5 i j2)|]. pose proof (I4 _ _ _ _ H2 F2); lia.
      * apply DD in F1 as [[L1 F1]|[-> ->]]; apply DD in F2 as [[L2 F2]|[E2 ->]]; [by eapply (I5 i i)|lia|lia|done].
    + done.
    + done.
    + done.
    + intros j m1 H1. destruct (decide (j = i)) as [->|N].
      * exists m'. rewrite list_lookup_insert by done. split; [done|]. congruence.
      * exists m1. rewrite list_lookup_insert_ne by done. split; [done|apply mstable_refl].
    + done.
    + cbn. destruct x as [y|].
      * exists m'. rewrite list_lookup_insert by done. split; [done|apply Out].
      * exists m'. rewrite list_lookup_insert by done. rewrite (st_lib _ _ St). split; [done|]. split; [apply Out|]. split; [apply Out|]. apply Out.
  - destruct (la !! k) as [last|] eqn:Hk; [|done]. cbn in E. injection E as <- <-. destruct I as [I1 I2 I3 I4 I5 I6]. cbn in *.
    split; [split; cbn; try done; by rewrite insert_length|]. split; [|done]. split; try done. intros i m H. exists m. split; [done|apply mstable_refl].
  - injection E as <- <-. destruct I as [I1 I2 I3 I4 I5 I6]. split; [by split|]. split; [|done]. split; try done. intros i m H. exists m. split; [done|apply mstable_refl].
  - destruct (cl !! t) as [c|] eqn:Hc; [|done]. cbn [mbind option_bind] in E. destruct I as [I1 I2 I3 I4 I5 I6]. cbn in I1, I2, I3, I4, I5, I6.
    assert (K : forall ms' cl' calls', (ms' = ms \/ ms' = None) -> inv (Prov vs t0 ord ms' nx la cl' calls') /\
       stable (Prov vs t0 ord ms nx la cl calls) (Prov vs t0 ord ms' nx la cl' calls')).
    { intros ms' cl' calls' Hms. split; [split; cbn; try done|split; cbn; try done].
      - intros l Hl. destruct Hms as [->| ->]; [by apply I3|done].
      - intros i m H. exists m. split; [done|apply mstable_refl].
      - intros ->. by destruct Hms. }
    destruct c as [|n es|es|]; try done.
    + destruct ms as [l|]; injection E as <- <-; (split; [apply K; by right|split; [apply K; by right|done]]).
    + destruct (Nat.ltb n (length vs)); injection E as <- <-; (split; [apply K; by left|split; [apply K; by left|done]]).
Qed.

Lemma run_spec l : forall p p' tr, inv p -> run L p l = Some (p', tr) -> inv p' /\ stable p p' /\ map fst tr = l /\ Forall (fun x => fact p' x.1 x.2) tr.
Proof.
  induction l as [|a l IH]; intros p p' tr I E; cbn [run] in E.
  - injection E as <- <-. split; [done|]. split; [apply stable_refl|]. by split.
  - destruct (step L p a) as [[p1 r]|] eqn:S; [|done]. cbn in E. destruct (run L p1 l) as [[p2 rs]|] eqn:R; [|done]. cbn in E. injection E as <- <-.
    destruct (step_spec _ _ _ _ I S) as (I1 & S1 & F1). destruct (IH _ _ _ I1 R) as (I2 & S2 & M & Fa).
    split; [done|]. split; [exact (stable_trans _ _ _ S1 S2)|]. split; [cbn; by rewrite M|]. constructor; [|done]. cbn. exact (fact_stable _ _ _ _ S2 F1).
Qed.
Lemma run_app l1 l2 p p' tr : run L p (l1 ++ l2) = Some (p', tr) ->
  exists p1 tr1 tr2, run L p l1 = Some (p1, tr1) /\ run L p1 l2 = Some (p', tr2) /\ tr = tr1 ++ tr2.
Proof.
  revert p tr. induction l1 as [|a l IH]; intros p tr E; cbn [run app] in E |- *.
  - exists p, [], tr. done.
  - destruct (step L p a) as [[p1 r]|]; [|done]. cbn in E |- *. destruct (run L p1 (l ++ l2)) as [[p2 rs]|] eqn:R; [|done]. cbn in E. injection E as <- <-.
    destruct (IH _ _ R) as (p3 & tr1 & tr2 & -> & E2 & ->). cbn. eexists _, _, _. done.
Qed.
Lemma inv_new os t0 : inv (new_provider L os t0).
Proof. split; cbn; try done; [|by rewrite !map_length]. intros l [= <-] lib i. split; [done|]. by intros (m & ? & _). Qed.

(** Shutdown. *)
Definition idle (c : closing) : Prop := match c with Entering | AlreadyShutdown => True | _ => False end.
Definition progress (n : nat) (c : closing) (calls : list (nat * list string)) : Prop :=
  match c with
  | Closing k es => (k <= n)%nat /\ map fst calls = seq 0 k /\ es = concat (map snd calls)
  | Returned es => map fst calls = seq 0 n /\ es = concat (map snd calls)
  | _ => False
  end.
Definition down (p : prov) : Prop :=
  match pv_meters p with
  | Some _ => pv_calls p = [] /\ Forall (fun c => c = Entering) (pv_closers p)
  | None => exists t c, pv_closers p !! t = Some c /\ progress (length (pv_views p)) c (pv_calls p) /\
              forall t' c', pv_closers p !! t' = Some c' -> t' <> t -> idle c'
  end.
Lemma step_down p a p' r : down p -> step L p a = Some (p', r) -> down p'.
Proof.
  intros D E. destruct p as [vs t0 ord ms nx la cl calls]. unfold down in *. destruct a as [lib|i d|k now| |t errs]; cbn [step pv_meters pv_closers pv_calls pv_views] in *.
  - destruct ms as [l|]; [|by injection E as <- <-]. destruct (find_pair lib l); by injection E as <- <-.
  - destruct (ord !! i); [|done]. cbn in E. destruct (configure _ _ _ _ _) as [[m' x] e]. by injection E as <- <-.
  - destruct (la !! k); [|done]. cbn in E. by injection E as <- <-.
  - injection E as <- <-. cbn. destruct ms.
    + destruct D as [D1 D2]. split; [done|]. apply list.Forall_app. split; [done|]. by constructor.
    + destruct D as (t & c & Hc & P & O). exists t, c. split; [by apply lookup_app_l_Some|]. split; [done|]. intros t' c' H N.
      apply lookup_app_Some in H as [H|[_ H]]; [by eapply O|]. apply list_lookup_singleton_Some in H as [_ <-]. done.
  - destruct (cl !! t) as [c|] eqn:Hc; [|done]. cbn [mbind option_bind] in E. assert (Lt : (t < length cl)%nat) by (by eapply lookup_lt_Some).
    destruct c as [|n es|es|]; try done.
    + destruct ms as [l|]; injection E as <- <-; cbn.
      * destruct D as [-> D2]. exists t, (Closing 0 []). rewrite list_lookup_insert by done. split; [done|]. split; [split; [lia|done]|].
        intros t' c' H N. rewrite list_lookup_insert_ne in H by done. rewrite (Forall_lookup_1 _ _ _ _ D2 H). done.
      * destruct D as (t1 & c1 & H1 & P & O). assert (t <> t1) by (intros <-; rewrite Hc in H1; by injection H1 as <-).
        exists t1, c1. rewrite list_lookup_insert_ne by done. split; [done|]. split; [done|]. intros t' c' H' N.
        destruct (decide (t' = t)) as [->|N2]; [rewrite list_lookup_insert in H' by done; by injection H' as <-|].
        rewrite list_lookup_insert_ne in H' by done. by eapply O.
    + destruct ms as [l|]; [by pose proof (Forall_lookup_1 _ _ _ _ (proj2 D) Hc)|].
      destruct D as (t1 & c1 & H1 & P & O). destruct (decide (t = t1)) as [<-|N]; [|exfalso; exact (O _ _ Hc N)].
      rewrite Hc in H1. injection H1 as <-. cbn in P. destruct P as (Le & Cs & Es).
      destruct (Nat.ltb n (length vs)) eqn:Lb; injection E as <- <-; cbn.
      * apply Nat.ltb_lt in Lb. exists t, (Closing (S n) (es ++ errs)). rewrite list_lookup_insert by done. split; [done|]. split.
        -- split; [lia|]. rewrite !map_app, concat_app, Cs, seq_S. cbn. rewrite app_nil_r. by rewrite Es.
        -- intros t' c' H' N. rewrite list_lookup_insert_ne in H' by done. by eapply O.
      * apply Nat.ltb_ge in Lb. assert (n = length vs) as -> by lia. exists t, (Returned es). rewrite list_lookup_insert by done. split; [done|]. split; [done|].
        intros t' c' H' N. rewrite list_lookup_insert_ne in H' by done. by eapply O.
Qed.
Lemma down_new os t0 : down (new_provider L os t0).
Proof. split; [done|constructor]. Qed.
Lemma run_down l : forall p p' tr, down p -> run L p l = Some (p', tr) -> down p'.
Proof.
  induction l as [|a l IH]; intros p p' tr D E; cbn [run] in E; [by injection E as <- <-|].
  destruct (step L p a) as [[p1 r]|] eqn:S; [|done]. cbn in E. destruct (run L p1 l) as [[p2 rs]|] eqn:R; [|done]. cbn in E. injection E as <- <-.
  eapply IH; [|exact R]. by eapply step_down.
Qed.
(** Meters are gone exactly after the first step of a Shutdown. *)
Definition stepped (l : list act) : Prop := exists t e, AStep t e ∈ l.
Lemma step_meters p a p' r : down p -> step L p a = Some (p', r) -> (pv_meters p' = None <-> pv_meters p = None \/ exists t e, a = AStep t e).
Proof.
  intros D E. destruct p as [vs t0 ord ms nx la cl calls]. destruct a as [lib|i d|k now| |t errs]; cbn [step pv_meters] in *.
  - destruct ms as [l|]; [destruct (find_pair lib l)|]; injection E as <- <-; cbn; naive_solver.
  - destruct (ord !! i); [|done]. cbn in E. destruct (configure _ _ _ _ _) as [[m' x] e]. injection E as <- <-. cbn. naive_solver.
  - destruct (la !! k); [|done]. cbn in E. injection E as <- <-. cbn. naive_solver.
  - injection E as <- <-. cbn. naive_solver.
  - destruct (cl !! t) as [c|] eqn:Hc; [|done]. cbn [mbind option_bind] in E. destruct c as [|n es|es|]; try done.
    + destruct ms; injection E as <- <-; cbn; naive_solver.
    + destruct ms as [l|]; [by pose proof (Forall_lookup_1 _ _ _ _ (proj2 D) Hc)|]. destruct (Nat.ltb n (length vs)); injection E as <- <-; cbn; naive_solver.
Qed.
Lemma run_meters l : forall p p' tr, down p -> run L p l = Some (p', tr) -> (pv_meters p' = None <-> pv_meters p = None \/ stepped l).
Proof.
  induction l as [|a l IH]; intros p p' tr D E; cbn [run] in E.
  - injection E as <- <-. split; [by left|]. intros [?|(t & e & H)]; [done|by apply elem_of_nil in H].
  - destruct (step L p a) as [[p1 r]|] eqn:S; [|done]. cbn in E. destruct (run L p1 l) as [[p2 rs]|] eqn:R; [|done]. cbn in E. injection E as <- <-.
    rewrite (IH _ _ _ (step_down _ _ _ _ D S) R), (step_meters _ _ _ _ D S). unfold stepped. split.
    + intros [[?|(t & e & ->)]|(t & e & H)]; [by left|right; exists t, e; left|right; exists t, e; by right].
    + intros [?|(t & e & H)]; [by left; left|]. apply elem_of_cons in H as [<-|H]; [left; right; eauto|right; eauto].
Qed.

(** The clocks. *)
Definition uncrashed (tr : list (act * res)) : Prop := forall a, (a, RCrash) ∉ tr.
Lemma step_last p a p' r k : step L p a = Some (p', r) ->
  pv_start p' = pv_start p /\
  match a with
  | AProduce k' now => exists last, pv_last p !! k' = Some last /\ pv_last p' = <[k' := now]> (pv_last p) /\ (r = RCrash \/ r = RSequence (Sequence (pv_start p) last now))
  | _ => pv_last p' = pv_last p /\ sequences k [(a, r)] = []
  end.
Proof.
  intros E. destruct p as [vs t0 ord ms nx la cl calls]. destruct a as [lib|i d|k' now| |t errs]; cbn [step pv_meters pv_last pv_start] in *.
  - destruct ms as [l|]; [destruct (find_pair lib l)|]; injection E as <- <-; done.
  - destruct (ord !! i); [|done]. cbn in E. destruct (configure _ _ _ _ _) as [[m' x] e]. injection E as <- <-. done.
  - destruct (la !! k') as [last|] eqn:Hk; [|done]. cbn in E. injection E as <- <-. split; [done|]. exists last. split; [done|]. split; [done|].
    destruct (existsb _ _); [by left|by right].
  - by injection E as <- <-.
  - destruct (cl !! t) as [c|]; [|done]. cbn [mbind option_bind] in E. destruct c as [|n es|es|]; try done; [destruct ms|destruct (Nat.ltb n (length vs))]; by injection E as <- <-.
Qed.
Lemma sequences_app k a b : sequences k (a ++ b) = sequences k a ++ sequences k b.
Proof. unfold sequences. apply omap_app. Qed.
Lemma run_chained k l : forall p p' tr last, run L p l = Some (p', tr) -> uncrashed tr -> pv_last p !! k = Some last ->
  chained (pv_start p) last (sequences k tr).
Proof.
  induction l as [|a l IH]; intros p p' tr last E U Hl; cbn [run] in E; [by injection E as <- <-|].
  destruct (step L p a) as [[p1 r]|] eqn:S; [|done]. cbn in E. destruct (run L p1 l) as [[p2 rs]|] eqn:R; [|done]. cbn in E. injection E as <- <-.
  assert (U2 : uncrashed rs) by (intros b Hb; apply (U b); by right).
  change ((a, r) :: rs) with ([(a, r)] ++ rs). rewrite sequences_app. destruct (step_last _ _ _ _ k S) as [Es Ea].
  destruct a as [lib|i d|k' now| |t errs].
  1,2,4,5: destruct Ea as [El ->]; cbn [app]; rewrite <- Es; eapply IH; [exact R|done|by rewrite El].
  destruct Ea as (last' & Hk & El & Hr). destruct Hr as [->| ->]; [exfalso; apply (U (AProduce k' now)); left|].
  unfold sequences at 1. cbn. destruct (decide (k' = k)) as [->|N]; cbn.
  - rewrite Hl in Hk. injection Hk as <-. split; [done|]. split; [done|]. rewrite <- Es. eapply IH; [exact R|done|]. rewrite El.
    apply list_lookup_insert. by eapply lookup_lt_Some.
  - rewrite <- Es. eapply IH; [exact R|done|]. rewrite El. by rewrite list_lookup_insert_ne.
Qed.
Lemma run_forward k l : forall p p' tr t, run L p l = Some (p', tr) -> ascending t (times l) -> Forall (fun x => x <= t) (pv_last p) ->
  Forall (fun s => sq_last s <= sq_now s) (sequences k tr).
Proof.
  induction l as [|a l IH]; intros p p' tr t E A Fl; cbn [run] in E; [injection E as <- <-; constructor|].
  destruct (step L p a) as [[p1 r]|] eqn:S; [|done]. cbn in E. destruct (run L p1 l) as [[p2 rs]|] eqn:R; [|done]. cbn in E. injection E as <- <-.
  change ((a, r) :: rs) with ([(a, r)] ++ rs). rewrite sequences_app. destruct (step_last _ _ _ _ k S) as [Es Ea].
  destruct a as [lib|i d|k' now| |t' errs].
  1,2,4,5: destruct Ea as [El ->]; cbn [app]; eapply IH; [exact R|exact A|by rewrite El].
  cbn in A. destruct A as [At A]. destruct Ea as (last' & Hk & El & Hr). apply list.Forall_app. split.
  - destruct Hr as [->| ->]; unfold sequences; cbn; [constructor|]. destruct (decide _); [|constructor]. constructor; [|constructor]. cbn.
    pose proof (Forall_lookup_1 _ _ _ _ Fl Hk). cbn in *. lia.
  - eapply IH; [exact R|exact A|]. rewrite El. apply Forall_insert; [|lia]. eapply list.Forall_impl; [exact Fl|]. cbn. intros. lia.
Qed.

(** Crashes. *)
Lemma existsb_lookup {X} (f : X -> bool) l : existsb f l = true <-> exists i x, l !! i = Some x /\ f x = true.
Proof.
  rewrite existsb_exists. split.
  - intros (x & H & F). apply elem_of_list_In, elem_of_list_lookup in H as [i H]. eauto.
  - intros (i & x & H & F). exists x. split; [|done]. apply elem_of_list_In. by eapply elem_of_list_lookup_2.
Qed.
Lemma step_crash p a p' r : inv p -> step L p a = Some (p', r) ->
  (existsb crashes (pv_ordered p') = true <-> existsb crashes (pv_ordered p) = true \/ exists i d e, a = AInst i d /\ r = RInst None e).
Proof.
  intros I E. destruct p as [vs t0 ord ms nx la cl calls]. destruct a as [lib|i d|k now| |t errs]; cbn [step pv_ordered] in *.
  - destruct ms as [l|]; [destruct (find_pair lib l)|]; injection E as <- <-; cbn; try naive_solver. rewrite existsb_app. cbn. rewrite orb_false_r. naive_solver.
  - destruct (ord !! i) as [m|] eqn:Hm; [|done]. cbn in E. destruct (configure L vs m d nx) as [[m' x] e] eqn:C. injection E as <- <-. cbn.
    pose proof (Forall_lookup_1 _ _ _ _ (iv_meters _ I) Hm) as Mk. assert (Li : (i < length ord)%nat) by (by eapply lookup_lt_Some).
    destruct (configure_spec vs m d nx m' x e Mk C) as (_ & _ & Out & _). rewrite !existsb_lookup. split.
    + intros (j & y & Hy & Cy). destruct (decide (j = i)) as [->|N].
      * rewrite list_lookup_insert in Hy by done. injection Hy as <-. destruct x as [z|]; [|right; eauto]. left. exists i, m. split; [done|]. destruct Out as [_ <-]. done.
      * rewrite list_lookup_insert_ne in Hy by done. left. eauto.
    + intros [(j & y & Hy & Cy)|(i' & d' & e' & [= <- <-] & [= -> <-])].
      * destruct (decide (j = i)) as [->|N]; [|exists j, y; by rewrite list_lookup_insert_ne]. exists i, m'. rewrite list_lookup_insert by done. split; [done|].
        rewrite Hm in Hy. injection Hy as <-. destruct x; [destruct Out as [_ ->]; done|apply Out].
      * exists i, m'. rewrite list_lookup_insert by done. split; [done|]. apply Out.
  - destruct (la !! k); [|done]. cbn in E. injection E as <- <-. cbn. naive_solver.
  - injection E as <- <-. cbn. naive_solver.
  - destruct (cl !! t) as [c|] eqn:Hc; [|done]. cbn [mbind option_bind] in E. destruct c as [|n es|es|]; try done; [destruct ms|destruct (Nat.ltb n (length vs))]; injection E as <- <-; cbn; naive_solver.
Qed.
Lemma run_crash l : forall p p' tr, inv p -> run L p l = Some (p', tr) ->
  (existsb crashes (pv_ordered p') = true <-> existsb crashes (pv_ordered p) = true \/ exists i d e, (AInst i d, RInst None e) ∈ tr).
Proof.
  induction l as [|a l IH]; intros p p' tr I E; cbn [run] in E.
  - injection E as <- <-. split; [by left|]. intros [?|(i & d & e & H)]; [done|by apply elem_of_nil in H].
  - destruct (step L p a) as [[p1 r]|] eqn:S; [|done]. cbn in E. destruct (run L p1 l) as [[p2 rs]|] eqn:R; [|done]. cbn in E. injection E as <- <-.
    destruct (step_spec _ _ _ _ I S) as (I1 & _). rewrite (IH _ _ _ I1 R), (step_crash _ _ _ _ I S). split.
    + intros [[?|(i & d & e & -> & ->)]|(i & d & e & H)]; [by left|right; exists i, d, e; left|right; exists i, d, e; by right].
    + intros [?|(i & d & e & H)]; [by left; left|]. apply elem_of_cons in H as [[= <- <-]|H]; [left; right; eauto|right; eauto].
Qed.
End prov.
