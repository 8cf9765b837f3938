(** What each call records and what each collection outputs. *)
From Coq Require Import ZArith Lia Bool.
From stdpp Require Import base list option.
From Verif Require Import Base Lib SyncModel SyncInv SyncStep SyncStepB SyncCases SyncRun SyncSpec.
Local Open Scope Z_scope.

Section call.
Context {c : config}.
Notation K := (c_K c).
Notation num := (c_num c).
Notation key := (c_key c).
Notation st := (state c).
Notation pcT := (pc c).
Notation recT := (rec c).
Implicit Types (ls : list (label c)) (s : st) (recs : list recT) (p : pcT) (r : recT).

Lemma calls_snoc ls l : calls (ls ++ [l]) = calls ls ++ match l with LStep _ _ => [] | _ => [l] end.
Proof. unfold calls. rewrite filter_app. cbn. by destruct l. Qed.

(** Overflow is considered possible when [ov] is true; see [no_overflow] below for when it is not. *)
Context (ov : bool).

(** Attributes [a] of a record that serves a call with attributes [k]. *)
Definition serves1 (k a : K) : Prop :=
  a = k \/ (c_fp c a = c_fp c k /\ (c_ignore c = true \/ c_keq c k a = true \/ c_keq c a k = true)).
Definition wkey (k k' : K) : Prop := k' = k \/ (ov = true /\ k' = c_ovk c).
Definition serves (k a : K) : Prop := serves1 k a \/ (ov = true /\ serves1 (c_ovk c) a).

Definition rec_serves recs (o : nat) (k : K) (i : nat) : Prop :=
  exists r, recs !! i = Some r /\ r_inst r = o /\ serves k (r_attrs r).

(** The program counter of a call [o], [k], [n], and how many of its streams it has updated. *)
Definition call_pc recs (o : nat) (k : K) (n : num) (p : pcT) : Prop :=
  match p with
  | PRead o' k' n' => o' = o /\ k' = k /\ n' = n
  | PWrite o' k' n' => o' = o /\ wkey k k' /\ n' = n
  | PInit i n' | PInitV i n' _ | PUpd i n' _ => rec_serves recs o k i /\ n' = n
  | PCount i | PUnref i => rec_serves recs o k i
  | PDone => True
  | _ => False
  end.
Definition progress (o : nat) (p : pcT) : nat :=
  match p with
  | PUpd _ _ j => j
  | PCount _ | PUnref _ | PDone => length (iviews c o)
  | _ => 0%nat
  end.
Definition coll_pc (rd : nat) (p : pcT) : Prop :=
  match p with
  | QLock rd' _ | QViews rd' _ | QColl rd' _ _ _ | QPoint rd' _ _ _ _ _ | QDecide rd' _ _ _ _ _ _ => rd' = rd
  | QRecs q | QLoad q _ | QTry q _ | QCas q _ | QScav q _ _ | QMove q _ _ _ _
  | QMerge q _ _ _ _ _ | QRel q _ _ _ _ => j_rd q = rd
  | QDone => True
  | _ => False
  end.
Definition good_key (v : nat) (a : K) (kk : key) : Prop := kk = c_vkey c v a \/ (ov = true /\ kk = c_ovkey c).

(** Threads, accumulators, log entries. *)
Definition CT ls s : Prop :=
  length (calls ls) = length (s_thr s) /\
  (forall t p, s_thr s !! t = Some p ->
     match calls ls !! t with
     | Some (LObserve o k n) =>
         call_pc (s_recs s) o k n p /\
         recorded_by s t = map (fun v => (v, n)) (take (progress o p) (iviews c o))
     | Some (LCollect rd) => coll_pc rd p /\ recorded_by s t = []
     | _ => False
     end).
Definition CA s : Prop :=
  forall i r j a hd v, s_recs s !! i = Some r -> r_accs r !! j = Some a -> s_holds s !! a_hold a = Some hd ->
     iviews c (r_inst r) !! j = Some v -> good_key v (r_attrs r) (h_key hd).
Definition CL ls s : Prop :=
  forall x u, s_log s !! x = Some u ->
     exists o k n a, calls ls !! u_tid u = Some (LObserve o k n) /\ u_num u = n /\ u_view u ∈ iviews c o /\
                     serves k a /\ good_key (u_view u) a (u_key u).

Lemma rec_serves_recs recs recs' o k i :
  (forall i r, recs !! i = Some r -> exists r', recs' !! i = Some r' /\ r_inst r' = r_inst r /\ r_attrs r' = r_attrs r) ->
  rec_serves recs o k i -> rec_serves recs' o k i.
Proof.
  intros E (r & Hr & Ho & Hs). destruct (E _ _ Hr) as (r' & Hr' & E1 & E2). exists r'. rewrite E1, E2. done.
Qed.
Lemma call_pc_recs recs recs' o k n p :
  (forall i r, recs !! i = Some r -> exists r', recs' !! i = Some r' /\ r_inst r' = r_inst r /\ r_attrs r' = r_attrs r) ->
  call_pc recs o k n p -> call_pc recs' o k n p.
Proof.
  intros E. destruct p; cbn; try done; try (intros [H ->]; split; [|done]); try (intros H);
    by eapply rec_serves_recs.
Qed.
Lemma recs_insert_same recs i r r' :
  recs !! i = Some r -> r_inst r' = r_inst r -> r_attrs r' = r_attrs r ->
  forall i0 r0, recs !! i0 = Some r0 -> exists r1, <[i:=r']> recs !! i0 = Some r1 /\ r_inst r1 = r_inst r0 /\ r_attrs r1 = r_attrs r0.
Proof.
  intros Hr E1 E2 i0 r0 H0. destruct (decide (i = i0)) as [<-|Hne].
  - exists r'. rewrite list_lookup_insert by (by eapply lookup_lt_Some). assert (r0 = r) by congruence. by subst.
  - exists r0. by rewrite list_lookup_insert_ne.
Qed.

Lemma recorded_by_add s s' t u :
  s_log s' = s_log s ++ [u] ->
  recorded_by s' t = recorded_by s t ++ if Nat.eqb (u_tid u) t then [(u_view u, u_num u)] else [].
Proof.
  intros E. unfold recorded_by. rewrite E, filter_app, map_app. f_equal. cbn. by destruct (Nat.eqb (u_tid u) t).
Qed.
Lemma recorded_by_same s s' t : s_log s' = s_log s -> recorded_by s' t = recorded_by s t.
Proof. intros E. unfold recorded_by. by rewrite E. Qed.

(** The thread part, for a step that leaves the log alone. *)
Lemma CI_thr ls s s' t p p' :
  CT ls s -> s_thr s !! t = Some p -> s_thr s' = <[t:=p']> (s_thr s) -> s_log s' = s_log s ->
  (forall i r, s_recs s !! i = Some r -> exists r1, s_recs s' !! i = Some r1 /\ r_inst r1 = r_inst r /\ r_attrs r1 = r_attrs r) ->
  (forall o k n, calls ls !! t = Some (LObserve o k n) -> call_pc (s_recs s) o k n p ->
     call_pc (s_recs s') o k n p' /\ take (progress o p') (iviews c o) = take (progress o p) (iviews c o)) ->
  (forall rd, calls ls !! t = Some (LCollect rd) -> coll_pc rd p -> coll_pc rd p') ->
  CT ls s'.
Proof.
  intros (C1 & C2) Ht E1 E2 ER HP HQ. split; [by rewrite E1, insert_length|].
  intros t0 p0 H0. rewrite E1 in H0. rewrite (recorded_by_same s s') by done.
  apply lookup_insert_inv in H0 as [(<- & <- & _)|(_ & H0)].
  - specialize (C2 _ _ Ht). destruct (calls ls !! t) as [[o k n|rd|]|] eqn:L; try done.
    + destruct C2 as [C2 C3]. destruct (HP _ _ _ eq_refl C2) as [X1 X2]. split; [done|]. by rewrite X2.
    + destruct C2 as [C2 C3]. split; [|done]. by apply HQ.
  - specialize (C2 _ _ H0). destruct (calls ls !! t0) as [[o k n|rd|]|] eqn:L; try done.
    destruct C2 as [C2 C3]. split; [|done]. by eapply call_pc_recs.
Qed.

(** The accumulator part, when accumulators keep their entries. *)
Lemma CI_acc s s' :
  CA s ->
  (forall i r, s_recs s' !! i = Some r -> exists r1, s_recs s !! i = Some r1 /\ r_inst r1 = r_inst r /\ r_attrs r1 = r_attrs r /\
     map a_hold (r_accs r1) = map a_hold (r_accs r)) ->
  (forall h hd, s_holds s' !! h = Some hd -> exists hd1, s_holds s !! h = Some hd1 /\ h_key hd1 = h_key hd) ->
  CA s'.
Proof.
  intros H ER EH i r j a hd v Hr Ha Hh Hv. destruct (ER _ _ Hr) as (r1 & Hr1 & E1 & E2 & E3).
  destruct (EH _ _ Hh) as (hd1 & Hh1 & E4). rewrite <- E2, <- E4.
  assert (map a_hold (r_accs r1) !! j = Some (a_hold a)) as X.
  { rewrite E3. change (map a_hold) with (fmap (M:=list) (@a_hold c)). by rewrite list_lookup_fmap, Ha. }
  change (map a_hold) with (fmap (M:=list) (@a_hold c)) in X. rewrite list_lookup_fmap in X.
  destruct (r_accs r1 !! j) as [a1|] eqn:Ha1; [|done]. inversion X as [X1].
  eapply H; [done|done|by rewrite X1|by rewrite E1].
Qed.
Lemma recs_insert_back recs i r r' :
  recs !! i = Some r -> r_inst r' = r_inst r -> r_attrs r' = r_attrs r -> map a_hold (r_accs r) = map a_hold (r_accs r') ->
  forall i0 r0, <[i:=r']> recs !! i0 = Some r0 -> exists r1, recs !! i0 = Some r1 /\ r_inst r1 = r_inst r0 /\ r_attrs r1 = r_attrs r0 /\
     map a_hold (r_accs r1) = map a_hold (r_accs r0).
Proof.
  intros Hr E1 E2 E3 i0 r0 H0. apply lookup_insert_inv in H0 as [(<- & <- & _)|(_ & H0)].
  - exists r. done.
  - exists r0. done.
Qed.
Lemma holds_insert_back (holds : list (holder c)) i h h' :
  holds !! i = Some h -> h_key h' = h_key h ->
  forall i0 h0, <[i:=h']> holds !! i0 = Some h0 -> exists h1, holds !! i0 = Some h1 /\ h_key h1 = h_key h0.
Proof.
  intros Hr E1 i0 r0 H0. apply lookup_insert_inv in H0 as [(<- & <- & _)|(_ & H0)].
  - exists h. done.
  - exists r0. done.
Qed.

Lemma serves_read o k k' i r s :
  find_read o k' s = Some i -> s_recs s !! i = Some r -> wkey k k' -> serves k (r_attrs r).
Proof.
  intros F Hr Hk. apply find_last_Some in F as (r' & Hr' & E). assert (r' = r) by congruence. subst.
  rewrite !andb_true_iff, orb_true_iff, Z.eqb_eq in E. destruct E as ((E1 & E2) & E3).
  assert (serves1 k' (r_attrs r)) as X by (right; split; [done|]; destruct E3; auto).
  destruct Hk as [->|[? ->]]; [by left|by right].
Qed.
Lemma serves_write o k k' i r s :
  find_write o k' s = Some i -> s_recs s !! i = Some r -> wkey k k' -> serves k (r_attrs r).
Proof.
  intros F Hr Hk. apply find_last_Some in F as (r' & Hr' & E). assert (r' = r) by congruence. subst.
  rewrite !andb_true_iff, orb_true_iff, Z.eqb_eq in E. destruct E as ((E1 & E2) & E3).
  assert (serves1 k' (r_attrs r)) as X by (right; split; [done|]; destruct E3; auto).
  destruct Hk as [->|[? ->]]; [by left|by right].
Qed.
Lemma miss_key_or o k s : miss_key o k s = k \/ miss_key o k s = c_ovk c.
Proof. unfold miss_key. destruct (_ <=? _); auto. Qed.

(** Thread [t] is not about to use overflow attributes or an overflow entry. *)
Definition no_overflow s t : Prop :=
  (forall o k n, s_thr s !! t = Some (PRead o k n) -> find_read o k s = None -> miss_key o k s = k) /\
  (forall i n j r v s1 h hd, s_thr s !! t = Some (PInitV i n j) -> s_recs s !! i = Some r -> iviews c (r_inst r) !! j = Some v -> s_il s !! v = Some None ->
     get_or_create v (c_vkey c v (r_attrs r)) s = (s1, h) -> s_holds s1 !! h = Some hd -> h_key hd = c_vkey c v (r_attrs r)).

Lemma CI_step ls s t s' : Inv s -> (ov = false -> no_overflow s t) -> stepR s t s' -> CT ls s /\ CA s /\ CL ls s -> CT ls s' /\ CA s' /\ CL ls s'.
Proof.
  intros I NO H (C1 & C3 & C4).
  pose proof I as I0. unfold Inv in I0. inv_I I0.
  assert (MK : forall o k n, s_thr s !! t = Some (PRead o k n) -> find_read o k s = None -> wkey k (miss_key o k s)).
  { intros o1 k1 n1 H1 H2. destruct ov eqn:E.
    - destruct (miss_key_or o1 k1 s); [by left|by right].
    - left. by eapply (proj1 (NO eq_refl)). }
  stepR_cases H; (split; [|split]); try exact C3; try exact C4;
    try (apply (CI_acc s); [done|snorm; first [by eapply recs_insert_back|intros i0 r0 H0; by exists r0]
                   |snorm; first [by eapply holds_insert_back|intros h0 hd0 H0; by exists hd0]]; fail);
    try (eapply (CI_thr ls s); snorm; [done|exact Ht|done|done
         |first [by eapply recs_insert_same|intros i0 r0 H0; by exists r0]
         |intros o0 k0 n0 _; cbn [call_pc progress]; try (intros X; tauto); 
            try (intros (X & ->); split; [split; [|done]|done]; eapply rec_serves_recs; [|exact X]; by eapply recs_insert_same)
         |intros rd0 _; cbn [coll_pc]; try (intros X; tauto)]; fail).
  - (* read hit *)
    eapply (CI_thr ls s); snorm; [done|exact Ht|done|done|by eapply recs_insert_same| |by intros].
    intros o0 k0 n0 _; cbn [call_pc progress]. intros (-> & -> & ->). split; [split; [|done]|done].
    exists (r_setval (r_val r + 2) r). rewrite list_lookup_insert by (by eapply lookup_lt_Some). split_and!; try done.
    cbn. eapply serves_read; [exact F|done|]. destruct Hk as [->|[? ->]]; [by left|]. by eapply MK.
  - (* read miss *)
    eapply (CI_thr ls s); snorm; [done|exact Ht|done|done|intros i0 r0 H0; by exists r0| |by intros].
    intros o0 k0 n0 _; cbn [call_pc progress]. intros (-> & -> & ->). split_and!; try done. by eapply MK.
  - (* write hit *)
    eapply (CI_thr ls s); snorm; [done|exact Ht|done|done|by eapply recs_insert_same| |by intros].
    intros o0 k0 n0 _; cbn [call_pc progress]. intros (-> & Hk & ->). split; [split; [|done]|done].
    exists (r_setval (r_val r + 2) r). rewrite list_lookup_insert by (by eapply lookup_lt_Some). split_and!; try done.
    cbn. by eapply serves_write.
  - (* write new *)
    eapply (CI_thr ls s); snorm; [done|exact Ht|done|done|intros i0 r0 H0; exists r0; split; [by apply lookup_app_l_Some|done]| |by intros].
    intros o0 k0 n0 _; cbn [call_pc progress]. intros (-> & Hk & ->). split; [split; [|done]|done].
    exists (new_rec o0 k). rewrite list_lookup_app_last. split_and!; try done. cbn.
    destruct Hk as [->|[? ->]]; [left|right; split; [done|]]; by left.
  - intros i0 r0 j0 a0 hd0 v0 Hr0 Ha0. snorm. apply lookup_snoc in Hr0 as [Hr0|[-> ->]]; [by eapply C3|done].
  - (* acc *)
    assert (s_thr s1 = s_thr s /\ s_recs s1 = s_recs s /\ s_log s1 = s_log s) as (Q1 & Q2 & Q3) by (by destruct S1 as [->|(? & -> & _)]).
    eapply (CI_thr ls s); snorm; [done|exact Ht|by rewrite Q1|by rewrite Q3|rewrite Q2; by eapply recs_insert_same| |by intros].
    intros o0 k0 n0 _; cbn [call_pc progress]. intros (X & ->). split; [split; [|done]|done].
    eapply rec_serves_recs; [|exact X]. rewrite Q2. by eapply recs_insert_same.
  - assert (s_recs s1 = s_recs s) as Q2 by (by destruct S1 as [->|(? & -> & _)]).
    intros i0 r0 j0 a0 hd0 v0 Hr0 Ha0 Hh0 Hv0. snorm. rewrite Q2 in Hr0.
    assert (Hlt : (h < length (s_holds s1))%nat) by (by eapply lookup_lt_Some).
    assert (old : forall i0 r0 j0 a0 hd0, s_recs s !! i0 = Some r0 -> r_accs r0 !! j0 = Some a0 ->
       <[h:=h_setaux (h_aux hd + 1) hd]> (s_holds s1) !! a_hold a0 = Some hd0 ->
       iviews c (r_inst r0) !! j0 = Some v0 -> good_key v0 (r_attrs r0) (h_key hd0)).
    { clear Hr0 Ha0 Hh0 Hv0. intros i1 r1 j1 a1 hd1 Hr1 Ha1 Hh1 Hv1.
      destruct (IR _ _ Hr1) as (_ & _ & _ & _ & _ & R6 & _). destruct (R6 _ _ Ha1) as (hd2 & Hh2 & _).
      pose proof (C3 _ _ _ _ _ _ Hr1 Ha1 Hh2 Hv1) as G1.
      assert (s_holds s1 !! a_hold a1 = Some hd2) as Hh3.
      { destruct S1 as [->|(? & -> & _)]; [done|]. snorm. by apply lookup_app_l_Some. }
      destruct (holds_insert_back _ h hd (h_setaux (h_aux hd + 1) hd) Hh eq_refl _ _ Hh1) as (hd4 & Hh4 & <-). congruence. }
    apply lookup_insert_inv in Hr0 as [(<- & <- & _)|(_ & Hr0)]; [|by eapply old].
    cbn in Ha0, Hv0 |- *. apply lookup_snoc in Ha0 as [Ha0|[-> ->]]; [by eapply old|].
    cbn in Hh0. rewrite list_lookup_insert in Hh0 by done. inversion Hh0; subst hd0. cbn.
    assert (v0 = v) by (rewrite Hj in Hv0; congruence). subst v0.
    destruct ov eqn:E; [|left; by eapply (proj2 (NO eq_refl))].
    destruct (get_or_create_cases _ _ _ _ _ G) as [(k0 & hd1 & Hk & _ & -> & Hh1 & _ & _ & Hke)|(k0 & Hk & -> & -> & _)].
    + assert (hd1 = hd) by congruence. subst. destruct Hk; [by left|by right].
    + snorm. rewrite list_lookup_app_last in Hh. inversion Hh; subst. destruct Hk; [by left|by right].
  - destruct S1 as [->|(? & -> & _)]; done.
  - (* upd *)
    destruct (IR _ _ Hr) as (_ & _ & _ & _ & _ & R6 & _). destruct (R6 _ _ Ha) as (hd2 & Hh2 & Hv2).
    assert (hd2 = hd) by congruence. subst hd2.
    destruct C1 as [C1 C2]. split; [snorm; by rewrite insert_length|].
    intros t0 p0 H0. erewrite (recorded_by_add s); [|done]. snorm. cbn [u_tid u_view u_num].
    apply lookup_insert_inv in H0 as [(<- & <- & _)|(Hne & H0)].
    + specialize (C2 _ _ Ht). destruct (calls ls !! t) as [[o0 k0 n0|rd0|]|] eqn:L; try done.
      2: { by destruct C2 as [[] _]. }
      destruct C2 as [[C2 ->] C5]. cbn in C2, C5. split.
      { split; [|done]. eapply rec_serves_recs; [|exact C2]. by eapply recs_insert_same. }
      rewrite C5, Nat.eqb_refl. cbn. destruct C2 as (r1 & Hr1 & Ho & _). assert (r1 = r) by congruence. subst r1.
      rewrite Ho in Hv2. by erewrite take_S_r, map_app by done.
    + specialize (C2 _ _ H0). destruct (Nat.eqb_spec t t0) as [|_]; [done|]. rewrite app_nil_r.
      destruct (calls ls !! t0) as [[o0 k0 n0|rd0|]|] eqn:L; try done.
      destruct C2 as [C2 C5]. split; [|done]. eapply call_pc_recs; [|exact C2]. by eapply recs_insert_same.
  - apply (CI_acc s); [done|snorm|snorm; intros h0 hd0 H0; by exists hd0].
    eapply recs_insert_back; try done. cbn. change (map a_hold) with (fmap (M:=list) (@a_hold c)).
    rewrite list_fmap_insert. cbn. rewrite list_insert_id; [done|]. by rewrite list_lookup_fmap, Ha.
  - intros x u Hx. snorm. apply lookup_snoc in Hx as [Hx|[-> ->]]; [by eapply C4|]. cbn.
    destruct (IR _ _ Hr) as (_ & _ & _ & _ & _ & R6 & _). destruct (R6 _ _ Ha) as (hd2 & Hh2 & Hv2).
    assert (hd2 = hd) by congruence. subst hd2.
    destruct C1 as [C1 C2]. specialize (C2 _ _ Ht). destruct (calls ls !! t) as [[o0 k0 n0|rd0|]|] eqn:L; try done.
    2: { by destruct C2 as [[] _]. }
    destruct C2 as [[(r1 & Hr1 & Ho & Hs) ->] _]. assert (r1 = r) by congruence. subst r1. rewrite Ho in Hv2.
    exists o0, k0, n0, (r_attrs r). split_and!; try done; [by eapply elem_of_list_lookup_2|].
    eapply C3; try done. by rewrite Ho.
  - (* upd end *)
    eapply (CI_thr ls s); snorm; [done|exact Ht|done|done|intros i0 r0 H0; by exists r0| |by intros].
    intros o0 k0 n0 _; cbn [call_pc progress]. intros (X & ->). split; [done|].
    destruct X as (r1 & Hr1 & Ho & _). assert (r1 = r) by congruence. subst r1.
    pose proof (IT _ _ Ht) as ((r1 & Hr1' & Hd) & _). assert (r1 = r) by congruence. subst r1.
    destruct (IR _ _ Hr) as (_ & _ & _ & _ & R5 & _). rewrite Hd in R5. destruct R5 as [_ R5].
    apply lookup_ge_None in Ha. rewrite Ho in R5. rewrite !take_ge; [done|lia|lia].
  - (* count *)
    eapply (CI_thr ls s); snorm; [done|exact Ht|done|done|by eapply recs_insert_same| |by intros].
    intros o0 k0 n0 _; cbn [call_pc progress]. intros X. split; [|done].
    eapply rec_serves_recs; [|exact X]. by eapply recs_insert_same.
  - apply (CI_acc s); [done|snorm|snorm; intros h0 hd0 H0; by exists hd0].
    eapply recs_insert_back; try done. cbn. change (map a_hold) with (fmap (M:=list) (@a_hold c)).
    rewrite list_fmap_insert. cbn. rewrite list_insert_id; [done|]. by rewrite list_lookup_fmap, Ha.
  - eapply (CI_thr ls s); snorm; [done|exact Ht|done|done|intros i0 r0 H0; by exists r0|by intros|].
    intros rd0 _; cbn [coll_pc]. by destruct ph as [[]|].
Qed.


Lemma CI_spawn_thr ls s l p : CT ls s ->
  match l with
  | LObserve o k n => call_pc (s_recs s) o k n p /\ progress o p = 0%nat
  | LCollect rd => coll_pc rd p
  | _ => False
  end ->
  CL ls s -> CT (ls ++ [l]) (set_thr (fun l => l ++ [p]) s).
Proof.
  intros (C1 & C2) Hp C4.
  assert (calls (ls ++ [l]) = calls ls ++ [l]) as E by (rewrite calls_snoc; by destruct l).
  split; [rewrite E; snorm; by rewrite !app_length, C1|].
  intros t q Hq. rewrite E. snorm. rewrite (recorded_by_same s) by done.
  apply lookup_snoc in Hq as [Hq|[-> ->]].
  - assert (t < length (calls ls))%nat as Hlt by (rewrite C1; by eapply lookup_lt_Some).
    rewrite lookup_app_l by done. by apply C2.
  - rewrite <- C1, list_lookup_app_last.
    assert (recorded_by s (length (calls ls)) = []) as R0.
    { unfold recorded_by. rewrite (filter_none (fun u : upd c => Nat.eqb (u_tid u) (length (calls ls)))); [done|]. intros u Hu.
      apply elem_of_list_lookup in Hu as (x & Hx). destruct (C4 _ _ Hx) as (o & k & n & a & Hc & _).
      apply Nat.eqb_neq. apply lookup_lt_Some in Hc. lia. }
    rewrite R0. destruct l as [o k n|rd|]; [|done|done]. destruct Hp as [Hp ->]. done.
Qed.
Lemma CL_spawn ls s l p : CL ls s -> CL (ls ++ [l]) (set_thr (fun l => l ++ [p]) s).
Proof.
  intros C x u Hx. snorm. destruct (C _ _ Hx) as (o & k & n & a & Hc & H). exists o, k, n, a. split; [|done].
  rewrite calls_snoc. by apply lookup_app_l_Some.
Qed.

End call.

Theorem CI_run {c : config} ls (s : state c) : run (init c) ls = Some s -> CT true ls s /\ CA true s /\ CL true ls s.
Proof.
  revert ls s. apply run_ind.
  - split; [|split]; try done.
  - intros ls s o k n R I (C1 & C3 & C4) Ho. split; [|split]; [|done|by apply CL_spawn].
    by apply CI_spawn_thr.
  - intros ls s rd R I (C1 & C3 & C4). split; [|split]; [|done|by apply CL_spawn].
    by apply CI_spawn_thr.
  - intros ls s t ch0 s' R I I' P H. destruct (CI_step true ls s t s' I ltac:(done) H P) as (C1 & C3 & C4).
    unfold CT, CL. rewrite calls_snoc, app_nil_r. done.
Qed.
