(** Visibility: what a collection has reported when it ends.  [has] says that an aggregate contains
    the measurement with stamp [x]; it is instantiated with tagged aggregates at the end. *)
From Coq Require Import ZArith Lia Bool.
From stdpp Require Import base list option gmultiset.
From Verif Require Import Base Lib SyncModel SyncInv SyncStep SyncStepB SyncCases SyncCons SyncRun SyncSpec.
Local Open Scope Z_scope.

Section vis.
Context {c : config}.
Notation A := (car (c_mon c)).
Notation st := (state c).
Notation pcT := (pc c).
Notation recT := (rec c).
Notation holdT := (holder c).
Implicit Types (ls : list (label c)) (s : st) (recs : list recT) (p : pcT) (r : recT).
Context (has : A -> Prop) (x : nat).
Context (has_mu : ~ has mu) (has_op : forall a b, has (mop a b) <-> has a \/ has b)
        (has_inj : forall y n, has (c_inj c y n) <-> y = x).

Lemma has_only b a : has (only b a) <-> b = true /\ has a.
Proof. destruct b; cbn; [tauto|]. split; [intros H; by destruct has_mu|by intros []]. Qed.
Lemma has_msum {X} (f : X -> A) l : has (msum f l) <-> exists i y, l !! i = Some y /\ has (f y).
Proof.
  induction l as [|y l IH]; cbn.
  - split; [intros H; by destruct has_mu|]. intros (i & y & H & _). by rewrite lookup_nil in H.
  - rewrite has_op, IH. split.
    + intros [H|(i & z & Hz & H)]; [by exists 0%nat, y|by exists (S i), z].
    + intros ([|i] & z & Hz & H); [inversion Hz; subst; by left|right; by exists i, z].
Qed.
Lemma has_log_from (P : upd c -> bool) n l :
  has (log_sum_from P n l) <-> exists i u, l !! i = Some u /\ P u = true /\ (n + i)%nat = x.
Proof.
  revert n. induction l as [|u l IH]; intros n; cbn.
  - split; [intros H; by destruct has_mu|]. intros (i & y & H & _). by rewrite lookup_nil in H.
  - rewrite has_op, has_only, IH, has_inj. split.
    + intros [[H1 H2]|(i & z & Hz & H & E)]; [exists 0%nat, u; split_and!; [done|done|lia]|].
      exists (S i), z. split_and!; [done|done|lia].
    + intros ([|i] & z & Hz & H & E); [inversion Hz; subst; left; split; [done|lia]|].
      right. exists i, z. split_and!; [done|done|lia].
Qed.
Lemma has_log v k l : has (log_sum v k l) <-> exists u, l !! x = Some u /\ u_view u = v /\ u_key u = k.
Proof.
  unfold log_sum. rewrite has_log_from. split.
  - intros (i & u & H1 & H2 & E). cbn in E. subst i. exists u. split; [done|].
    unfold of_series in H2. apply andb_true_iff in H2 as [H2 H3]. apply Nat.eqb_eq in H2.
    by apply bool_decide_eq_true in H3.
  - intros (u & H & E1 & E2). exists x, u. split_and!; [done| |done]. unfold of_series.
    apply andb_true_iff. split; [by apply Nat.eqb_eq|by apply bool_decide_eq_true].
Qed.

(** ** Counters *)
Definition mods_on (i : nat) (p : pcT) : option Z :=
  match p with
  | QMove _ i' m _ _ | QMerge _ i' m _ _ _ | QRel _ i' m _ _ => if Nat.eqb i' i then Some m else None
  | _ => None
  end.
(** The pass of [p] over record [i] has already moved accumulator [j]. *)
Definition passed (i j : nat) (p : pcT) : bool :=
  match p with
  | QMove _ i' _ _ j' => Nat.eqb i' i && Nat.ltb j j'
  | QMerge _ i' _ _ j' _ | QRel _ i' _ _ j' => Nat.eqb i' i && Nat.leb j j'
  | _ => false
  end.
Definition VA s : Prop :=
  forall i r, s_recs s !! i = Some r ->
    r_col r <= r_upd r /\
    forall t p m, s_thr s !! t = Some p -> mods_on i p = Some m -> m <= r_upd r.

Lemma mods_on_liver s t p i m : Inv s -> s_thr s !! t = Some p -> mods_on i p = Some m ->
  exists r, s_recs s !! i = Some r.
Proof.
  intros I Ht E. pose proof (I_T _ _ _ _ _ I _ _ Ht) as T.
  destruct p; try done; cbn in E; destruct (Nat.eqb_spec r i); try done; subst;
    destruct T as (_ & (r0 & Hr & _) & _); by exists r0.
Qed.

Lemma VA_gen s s' t p p' :
  Inv s -> s_thr s !! t = Some p -> s_thr s' = <[t:=p']> (s_thr s) ->
  (forall i r', s_recs s' !! i = Some r' ->
     (exists r, s_recs s !! i = Some r /\ r_upd r <= r_upd r' /\ (r_col r' = r_col r \/ mods_on i p = Some (r_col r'))) \/
     (s_recs s !! i = None /\ r_col r' <= r_upd r')) ->
  (forall i m, mods_on i p' = Some m -> mods_on i p = Some m \/ exists r, s_recs s !! i = Some r /\ m = r_upd r) ->
  VA s -> VA s'.
Proof.
  intros I Ht E HR HP V i r' Hr'. destruct (HR _ _ Hr') as [(r & Hr & Hu & Hc)|(Hn & Hc)].
  - destruct (V _ _ Hr) as [V1 V2]. split.
    + destruct Hc as [->|Hc]; [lia|]. specialize (V2 _ _ _ Ht Hc). lia.
    + intros t0 p0 m H0 Hm. rewrite E in H0. apply lookup_insert_inv in H0 as [(<- & <- & _)|(_ & H0)].
      * destruct (HP _ _ Hm) as [Hm'|(r1 & Hr1 & ->)]; [specialize (V2 _ _ _ Ht Hm'); lia|].
        assert (r1 = r) by congruence. subst. lia.
      * specialize (V2 _ _ _ H0 Hm). lia.
  - split; [done|]. intros t0 p0 m H0 Hm. rewrite E in H0. apply lookup_insert_inv in H0 as [(<- & <- & _)|(_ & H0)].
    + destruct (HP _ _ Hm) as [Hm'|(r1 & Hr1 & ->)]; [|congruence].
      destruct (mods_on_liver _ _ _ _ _ I Ht Hm'). congruence.
    + destruct (mods_on_liver _ _ _ _ _ I H0 Hm). congruence.
Qed.
Lemma recs_ins (Q : nat -> recT -> recT -> Prop) recs i r r' :
  recs !! i = Some r -> Q i r r' -> (forall i r, Q i r r) ->
  forall i0 r0, <[i:=r']> recs !! i0 = Some r0 -> exists r1, recs !! i0 = Some r1 /\ Q i0 r1 r0.
Proof.
  intros Hr H1 H2 i0 r0 H0. apply lookup_insert_inv in H0 as [(<- & <- & _)|(_ & H0)]; eauto.
Qed.

Ltac acc_split := try match goal with S1 : _ = _ \/ exists _, _ = set_holds _ _ /\ _ |- _ =>
  destruct S1 as [->|(?k0 & -> & -> & ?F)] end.

Lemma VA_step s t s' : Inv s -> stepR s t s' -> VA s -> VA s'.
Proof.
  intros I H V.
  stepR_cases H; acc_split; (eapply (VA_gen s _ t); [done|exact Ht|snorm; reflexivity|..|exact V]); snorm.
  all: try (intros i0 m0; cbn; auto; fail).
  all: try (intros i0 m0; cbn; destruct (Nat.eqb i i0); auto; fail).
  all: try (intros i0 m0; cbn; done).
  all: try (intros i0 r0 H0; left; exists r0; split; [done|]; split; [lia|by left]).
  all: try (intros i0 r0 H0; left; apply lookup_insert_inv in H0 as [(<- & <- & _)|(_ & H0)];
       [exists r; split; [done|]; cbn; split; [lia|auto]; rewrite ?Nat.eqb_refl; auto
       |exists r0; split; [done|]; split; [lia|by left]]; fail).
  - intros i0 r0 H0. apply lookup_snoc in H0 as [H0|[-> ->]].
    + left. exists r0. split; [done|]. split; [lia|by left].
    + right. split; [by apply lookup_ge_None|done].
  - intros i0 m0. cbn. destruct (Nat.eqb_spec i i0); [|done]. subst. intros E. inversion E. right. by exists r.
  - intros i0 m0. cbn. destruct (Nat.eqb_spec i i0); [|done]. subst. intros E. inversion E. right. by exists r.
  - intros i0 m0. cbn. destruct ph as [[]|]; cbn; destruct (Nat.eqb i i0); auto.
Qed.

Definition uncounted (i : nat) (p : pcT) : bool :=
  match p with PUpd i' _ _ | PCount i' => Nat.eqb i' i | _ => false end.
Definition stage s (i j : nat) r p : Prop :=
  uncounted i p = true \/
  ((p = PUnref i \/ p = PDone) /\ r_col r < r_upd r /\
   forall t2 p2 m, s_thr s !! t2 = Some p2 -> passed i j p2 = true -> mods_on i p2 = Some m -> m < r_upd r).
Definition VB s : Prop :=
  forall i r j a, s_recs s !! i = Some r -> r_accs r !! j = Some a -> has (a_cur a) ->
    exists u p, s_log s !! x = Some u /\ s_thr s !! u_tid u = Some p /\ stage s i j r p.

Lemma VB_gen s s' t p p' :
  s_thr s !! t = Some p -> s_thr s' = <[t:=p']> (s_thr s) ->
  (forall u, s_log s !! x = Some u -> s_log s' !! x = Some u) ->
  (forall i r' j a', s_recs s' !! i = Some r' -> r_accs r' !! j = Some a' -> has (a_cur a') ->
     (exists r a, s_recs s !! i = Some r /\ r_accs r !! j = Some a /\ has (a_cur a) /\ r_upd r <= r_upd r' /\
        (r_col r' = r_col r \/ (passed i j p = true /\ mods_on i p = Some (r_col r'))) /\
        (p = PCount i -> r_upd r < r_upd r' /\ r_col r' = r_col r)) \/
     (exists u, s_log s' !! x = Some u /\ u_tid u = t /\ uncounted i p' = true)) ->
  (forall i j m, passed i j p' = true -> mods_on i p' = Some m ->
     (passed i j p = true /\ mods_on i p = Some m) \/
     (forall r a, s_recs s' !! i = Some r -> r_accs r !! j = Some a -> ~ has (a_cur a))) ->
  (forall i, uncounted i p = true -> uncounted i p' = true \/ (p = PCount i /\ p' = PUnref i)) ->
  (forall i, p = PUnref i -> p' = PDone) -> p <> PDone ->
  VA s -> VB s -> VB s'.
Proof.
  intros Ht E EL ER EP EU1 EU2 EU3 V B i r' j a' Hr' Ha' Hh.
  assert (Hlt : (t < length (s_thr s))%nat) by (by eapply lookup_lt_Some).
  destruct (ER _ _ _ _ Hr' Ha' Hh) as [(r & a & Hr & Ha & Hh0 & Hu & Hc & HN)|(u & Hx & Hu & Hn)].
  - destruct (B _ _ _ _ Hr Ha Hh0) as (u & q & Hx & Hq & S). exists u.
    assert (K : r_col r < r_upd r ->
      (forall t2 p2 m, s_thr s !! t2 = Some p2 -> passed i j p2 = true -> mods_on i p2 = Some m -> m < r_upd r) ->
      r_col r' < r_upd r' /\ forall t2 p2 m, s_thr s' !! t2 = Some p2 -> passed i j p2 = true -> mods_on i p2 = Some m -> m < r_upd r').
    { intros L1 L2. split.
      - destruct Hc as [->|[Hc1 Hc2]]; [lia|]. specialize (L2 _ _ _ Ht Hc1 Hc2). lia.
      - intros t2 p2 m H2 P2 M2. rewrite E in H2. apply lookup_insert_inv in H2 as [(<- & <- & _)|(_ & H2)].
        + destruct (EP _ _ _ P2 M2) as [[P3 M3]|C]; [specialize (L2 _ _ _ Ht P3 M3); lia|].
          by destruct (C _ _ Hr' Ha').
        + specialize (L2 _ _ _ H2 P2 M2). lia. }
    destruct (decide (u_tid u = t)) as [Et|Et].
    + rewrite Et in Hq. assert (q = p) by congruence. subst q. exists p'. rewrite E, Et, list_lookup_insert by done.
      split; [by apply EL|]. split; [done|].
      destruct S as [S|(S1 & S2 & S3)].
      * destruct (EU1 _ S) as [S'|[-> ->]]; [by left|]. right. split; [by left|].
        destruct (V _ _ Hr) as [V1 V2]. destruct (HN eq_refl) as [HN1 HN2]. split; [lia|].
        intros t2 p2 m H2 P2 M2. rewrite E in H2. apply lookup_insert_inv in H2 as [(<- & <- & _)|(_ & H2)]; [done|].
        specialize (V2 _ _ _ H2 M2). lia.
      * right. destruct S1 as [->| ->]; [|done]. rewrite (EU2 _ eq_refl) in *. split; [by right|]. by apply K.
    + exists q. rewrite E, list_lookup_insert_ne by done. split; [by apply EL|]. split; [done|].
      destruct S as [S|(S1 & S2 & S3)]; [by left|]. right. split; [done|]. by apply K.
  - exists u, p'. split; [done|]. rewrite Hu, E, list_lookup_insert by done. split; [done|]. by left.
Qed.

Lemma VB_step s t s' : Inv s -> stepR s t s' -> VA s -> VB s -> VB s'.
Proof.
  intros I H V B.
  assert (Keep : forall s2 p i r' j a', s_recs s2 = s_recs s -> s_recs s2 !! i = Some r' -> r_accs r' !! j = Some a' -> has (a_cur a') ->
     (forall i, p <> PCount i) ->
     (exists r a, s_recs s !! i = Some r /\ r_accs r !! j = Some a /\ has (a_cur a) /\ r_upd r <= r_upd r' /\
        (r_col r' = r_col r \/ (passed i j p = true /\ mods_on i p = Some (r_col r'))) /\
        (p = PCount i -> r_upd r < r_upd r' /\ r_col r' = r_col r))).
  { intros s2 p i r' j a' E Hr Ha Hh Hp. rewrite E in Hr. exists r', a'. split_and!; try done; try lia; first [by left|intros ->; by destruct (Hp i)]. }
  stepR_cases H; acc_split; (eapply (VB_gen s _ t); [exact Ht|snorm; reflexivity|snorm; try done|..|exact V|exact B]); snorm.
  all: try done.
  all: try (intros i0; cbn; auto; fail).
  all: try (intros i0 r0 j0 a0 H0 H1 H2; left; by eapply (Keep s)).
  all: try (intros i0 r0 j0 a0 H0 H1 H2; left; apply lookup_insert_inv in H0 as [(<- & <- & _)|(_ & H0)]; [|by eapply (Keep s)];
    cbn in H1; exists r, a0; split_and!; try done; cbn; try lia; by left).
  - intros i0 r0 j0 a0 H0 H1 H2. apply lookup_snoc in H0 as [H0|[-> ->]]; [left; by eapply (Keep s)|done].
  - intros i0 r0 j0 a0 H0 H1 H2. left. apply lookup_insert_inv in H0 as [(<- & <- & _)|(_ & H0)]; [|by eapply (Keep s)].
    cbn in H1. apply lookup_snoc in H1 as [H1|[-> ->]]; [|by destruct has_mu].
    exists r, a0. split_and!; try done; cbn; first [lia|by left].
  - intros i0 r0 j0 a0 H0 H1 H2. left. apply lookup_insert_inv in H0 as [(<- & <- & _)|(_ & H0)]; [|by eapply (Keep s)].
    cbn in H1. apply lookup_snoc in H1 as [H1|[-> ->]]; [|by destruct has_mu].
    exists r, a0. split_and!; try done; cbn; first [lia|by left].
  - intros u Hu. by apply lookup_app_l_Some.
  - intros i0 r0 j0 a0 H0 H1 H2. apply lookup_insert_inv in H0 as [(<- & <- & _)|(_ & H0)]; [|left; by eapply (Keep s)].
    cbn in H1. apply lookup_insert_inv in H1 as [(<- & <- & _)|(_ & H1)].
    + cbn in H2. apply has_op in H2 as [H2|H2].
      * left. exists r, a. split_and!; try done; cbn; first [lia|by left].
      * apply has_inj in H2. right. rewrite <- H2. eexists. rewrite list_lookup_app_last. split; [done|]. split; [done|].
        cbn. apply Nat.eqb_refl.
    + left. exists r, a0. split_and!; try done; cbn; first [lia|by left].
  - intros i0 r0 j0 a0 H0 H1 H2. left. apply lookup_insert_inv in H0 as [(<- & <- & _)|(Hne & H0)].
    + exists r, a0. split_and!; try done; cbn; try lia; try (by left); try (intros _; split; [lia|done]).
    + exists r0, a0. split_and!; try done; try (by left); try lia; try (by intros [=]).
  - intros i0. cbn. destruct (Nat.eqb_spec i i0); [|done]. subst. auto.
  - intros i0 j0 m0. cbn. by rewrite andb_false_r.
  - intros i0 j0 m0. cbn. by rewrite andb_false_r.
  - intros i0 r0 j0 a0 H0 H1 H2. left. apply lookup_insert_inv in H0 as [(<- & <- & _)|(_ & H0)]; [|by eapply (Keep s)].
    cbn in H1. apply lookup_insert_inv in H1 as [(<- & <- & _)|(_ & H1)]; [by destruct has_mu|].
    exists r, a0. split_and!; try done; cbn; first [lia|by left].
  - intros i0 j0 m0. cbn. destruct (Nat.eqb_spec i i0) as [<-|]; [|done]. cbn. intros H1 H2. apply Nat.leb_le in H1.
    destruct (decide (j0 = j)) as [->|Hne].
    + right. intros r1 a1 Hr1 Ha1. rewrite list_lookup_insert in Hr1 by (by eapply lookup_lt_Some). inversion Hr1; subst r1.
      cbn in Ha1. rewrite list_lookup_insert in Ha1 by (by eapply lookup_lt_Some). by inversion Ha1; subst a1.
    + left. split; [|done]. apply Nat.ltb_lt. lia.
  - intros i0 r0 j0 a0 H0 H1 H2. left. apply lookup_insert_inv in H0 as [(<- & <- & _)|(_ & H0)]; [|by eapply (Keep s)].
    cbn in H1. exists r, a0. split_and!; try done; cbn; try lia. right. rewrite Nat.eqb_refl. split; [|done].
    apply lookup_lt_Some in H1. apply lookup_ge_None in Ha. cbn. apply Nat.ltb_lt. lia.
  - intros i0 r0 j0 a0 H0 H1 H2. left. apply lookup_insert_inv in H0 as [(<- & <- & _)|(_ & H0)]; [|by eapply (Keep s)].
    cbn in H1. exists r, a0. split_and!; try done; cbn; try lia. right. rewrite Nat.eqb_refl. split; [|done].
    apply lookup_lt_Some in H1. apply lookup_ge_None in Ha. cbn. apply Nat.ltb_lt. lia.
  - intros i0 j0 m0. cbn. destruct ph as [[]|]; cbn; auto.
Qed.

(** ** The collection under study: thread [t1], a stream [V] of its reader [rd0] *)
Context (t1 rd0 V : nat) (HV : V ∈ views_of c rd0).

Definition ahead1 (p1 : pcT) (o i j : nat) : Prop :=
  match p1 with
  | QLock _ os => o ∈ os
  | QRecs q => o ∈ j_rest q \/ (o = j_inst q /\ i ∈ j_todo q)
  | QLoad q i' | QTry q i' | QCas q i' | QScav q i' _ => o ∈ j_rest q \/ (o = j_inst q /\ (i = i' \/ i ∈ j_todo q))
  | QMove q i' _ _ j' => o ∈ j_rest q \/ (o = j_inst q /\ ((i = i' /\ (j' <= j)%nat) \/ i ∈ j_todo q))
  | QMerge q i' _ _ j' _ | QRel q i' _ _ j' =>
      o ∈ j_rest q \/ (o = j_inst q /\ ((i = i' /\ (j' < j)%nat) \/ i ∈ j_todo q))
  | _ => False
  end.
Definition ahead2 (p1 : pcT) (o : nat) : Prop :=
  match p1 with
  | QLock _ os => o ∈ os
  | QRecs q | QTry q _ | QCas q _ | QScav q _ _ | QLoad q _ | QMove q _ _ _ _ | QMerge q _ _ _ _ _
  | QRel q _ _ _ _ => o ∈ j_rest q
  | _ => False
  end.
(** Not yet looking at output entries. *)
Definition early (p1 : pcT) : Prop :=
  match p1 with
  | QLock _ _ | QRecs _ | QTry _ _ | QCas _ _ | QScav _ _ _ | QLoad _ _ | QMove _ _ _ _ _ | QMerge _ _ _ _ _ _
  | QRel _ _ _ _ _ => True
  | _ => False
  end.
Definition ahead3 (p1 : pcT) (h : nat) : Prop :=
  early p1 \/
  match p1 with
  | QViews _ vs => V ∈ vs
  | QColl _ vs v todo | QDecide _ vs v todo _ _ _ => V ∈ vs \/ (V = v /\ h ∈ todo)
  | QPoint _ vs v todo h' _ => V ∈ vs \/ (V = v /\ (h = h' \/ h ∈ todo))
  | _ => False
  end.
Definition ahead4 (p1 : pcT) : Prop :=
  early p1 \/
  match p1 with
  | QViews _ vs | QColl _ vs _ _ | QDecide _ vs _ _ _ _ _ | QPoint _ vs _ _ _ _ => V ∈ vs
  | _ => False
  end.
Definition reported s : Prop :=
  exists i pt, s_out s !! i = Some pt /\ p_tid pt = t1 /\ p_view pt = V /\ has (p_agg pt).
Record W s : Prop := {
  W_u : exists u, s_log s !! x = Some u /\ u_view u = V /\ s_thr s !! u_tid u = Some PDone;
  W_1 : forall p1 i r j a, s_thr s !! t1 = Some p1 -> s_recs s !! i = Some r -> r_accs r !! j = Some a -> has (a_cur a) ->
        ahead1 p1 (r_inst r) i j;
  W_2 : forall p1 t2 q i m ph j a, s_thr s !! t1 = Some p1 -> t2 <> t1 -> s_thr s !! t2 = Some (QMerge q i m ph j a) -> has a ->
        ahead2 p1 (j_inst q);
  W_3 : forall p1 h hd, s_thr s !! t1 = Some p1 -> s_holds s !! h = Some hd -> has (h_sto hd) ->
        ahead3 p1 h \/ (vdelta c V = false /\ reported s);
  W_4 : forall p1 t2 rd vs v todo h refs a, s_thr s !! t1 = Some p1 -> t2 <> t1 ->
        s_thr s !! t2 = Some (QDecide rd vs v todo h refs a) -> has a -> ahead4 p1;
  W_r : exists p1, s_thr s !! t1 = Some p1 /\ match p1 with QLock rd _ => rd = rd0
        | QRecs q | QTry q _ | QCas q _ | QScav q _ _ | QLoad q _ | QMove q _ _ _ _ | QMerge q _ _ _ _ _
        | QRel q _ _ _ _ => j_rd q = rd0 | QViews _ _ | QColl _ _ _ _ | QPoint _ _ _ _ _ _ | QDecide _ _ _ _ _ _ _ | QDone => True
        | _ => False end
}.

(** What one step can do to where [x] is. *)
Lemma cur_step s t s' : stepR s t s' -> (x < length (s_log s))%nat ->
  forall i r' j a', s_recs s' !! i = Some r' -> r_accs r' !! j = Some a' -> has (a_cur a') ->
  exists r a, s_recs s !! i = Some r /\ r_accs r !! j = Some a /\ has (a_cur a) /\ r_inst r' = r_inst r.
Proof.
  intros H Hx i0 r0 j0 a0 H0 H1 H2.
  stepR_cases H; acc_split; snorm.
  all: try (by exists r0, a0).
  all: try (apply lookup_insert_inv in H0 as [(<- & <- & _)|(_ & H0)]; [|by exists r0, a0]; cbn in H1 |- *;
      (by exists r, a0)).
  - apply lookup_snoc in H0 as [H0|[-> ->]]; [by exists r0, a0|done].
  - apply lookup_insert_inv in H0 as [(<- & <- & _)|(_ & H0)]; [|by exists r0, a0]. cbn in H1.
    apply lookup_snoc in H1 as [H1|[-> ->]]; [by exists r, a0|by destruct has_mu].
  - apply lookup_insert_inv in H0 as [(<- & <- & _)|(_ & H0)]; [|by exists r0, a0]. cbn in H1.
    apply lookup_snoc in H1 as [H1|[-> ->]]; [by exists r, a0|by destruct has_mu].
  - apply lookup_insert_inv in H0 as [(<- & <- & _)|(_ & H0)]; [|by exists r0, a0]. cbn in H1.
    apply lookup_insert_inv in H1 as [(<- & <- & _)|(_ & H1)]; [|by exists r, a0].
    cbn in H2. apply has_op in H2 as [H2|H2]; [by exists r, a|]. apply has_inj in H2. lia.
  - apply lookup_insert_inv in H0 as [(<- & <- & _)|(_ & H0)]; [|by exists r0, a0]. cbn in H1.
    apply lookup_insert_inv in H1 as [(<- & <- & _)|(_ & H1)]; [by destruct has_mu|by exists r, a0].
Qed.
Lemma sto_step s t s' : stepR s t s' ->
  forall h hd', s_holds s' !! h = Some hd' -> has (h_sto hd') ->
  (exists hd, s_holds s !! h = Some hd /\ has (h_sto hd) /\ h_view hd = h_view hd') \/
  (exists q i m ph j a, s_thr s !! t = Some (QMerge q i m ph j a) /\ has a).
Proof.
  intros H h0 hd0 H0 H1.
  stepR_cases H; acc_split; snorm.
  all: try (left; by exists hd0).
  all: try (apply lookup_insert_inv in H0 as [(<- & <- & _)|(_ & H0)]; [|left; by exists hd0]; cbn in H1 |- *;
      left; by exists hd).
  - rewrite list_lookup_app_last in Hh. inversion Hh; subst hd.
    apply lookup_insert_inv in H0 as [(<- & <- & _)|(_ & H0)]; [by destruct has_mu|].
    apply lookup_snoc in H0 as [H0|[-> ->]]; [left; by exists hd0|by destruct has_mu].
  - apply lookup_insert_inv in H0 as [(<- & <- & _)|(_ & H0)]; [|left; by exists hd0]. cbn in H1.
    apply has_op in H1 as [H1|H1]; [left; by exists hd|]. right. by exists q, i, mods, ph, j, a.
Qed.
Lemma thr_step s t s' : stepR s t s' ->
  exists p p', s_thr s !! t = Some p /\ s_thr s' = <[t:=p']> (s_thr s) /\ p <> PDone.
Proof. intros H. stepR_cases H; acc_split; snorm; eexists _, _; (split; [exact Ht|]); done. Qed.
Lemma log_step s t s' : stepR s t s' -> forall y u, s_log s !! y = Some u -> s_log s' !! y = Some u.
Proof. intros H y u Hu. stepR_cases H; acc_split; snorm; try done. by apply lookup_app_l_Some. Qed.
Lemma out_step s t s' : stepR s t s' -> forall y u, s_out s !! y = Some u -> s_out s' !! y = Some u.
Proof. intros H y u Hu. stepR_cases H; acc_split; snorm; try done; by apply lookup_app_l_Some. Qed.
Lemma out_new s t s' : stepR s t s' -> forall y u, s_out s' !! y = Some u -> s_out s !! y = Some u \/ p_tid u = t.
Proof.
  intros H y u Hu. stepR_cases H; acc_split; snorm; try (by left); (apply lookup_app_Some in Hu as [Hu|[_ Hu]]; [by left|]); right;
    (destruct (y - length (s_out s))%nat; [by injection Hu as <-|done]).
Qed.
Lemma drop_step s t s' : stepR s t s' -> forall y u, s_drop s !! y = Some u -> s_drop s' !! y = Some u.
Proof. intros H y u Hu. stepR_cases H; acc_split; snorm; try done; by apply lookup_app_l_Some. Qed.
Lemma thr_ended s t s' : stepR s t s' ->
  exists p p', s_thr s !! t = Some p /\ s_thr s' = <[t:=p']> (s_thr s) /\ p <> PDone /\ p <> QDone.
Proof. intros H. stepR_cases H; acc_split; snorm; eexists _, _; (split; [exact Ht|]); done. Qed.
Lemma merge_step s t s' q5 i5 m5 ph5 j5 a5 : stepR s t s' -> s_thr s' !! t = Some (QMerge q5 i5 m5 ph5 j5 a5) ->
  exists r ac, s_thr s !! t = Some (QMove q5 i5 m5 ph5 j5) /\ s_recs s !! i5 = Some r /\ r_accs r !! j5 = Some ac /\ a5 = a_cur ac.
Proof.
  intros H E. stepR_cases H; acc_split; snorm; rewrite list_lookup_insert in E by (by eapply lookup_lt_Some); try done.
  - inversion E; subst. by exists r, a.
  - by destruct ph as [[]|].
Qed.
Lemma decide_step s t s' rd5 vs5 v5 todo5 h5 refs5 a5 : stepR s t s' -> s_thr s' !! t = Some (QDecide rd5 vs5 v5 todo5 h5 refs5 a5) ->
  exists hd, s_thr s !! t = Some (QPoint rd5 vs5 v5 todo5 h5 refs5) /\ s_holds s !! h5 = Some hd /\ a5 = h_sto hd /\ h_view hd = v5 /\ vdelta c v5 = true.
Proof.
  intros H E. stepR_cases H; acc_split; snorm; rewrite list_lookup_insert in E by (by eapply lookup_lt_Some); try done.
  - by destruct ph as [[]|].
  - inversion E; subst. by exists hd.
Qed.
Lemma has_view s u h hd : conserved s -> s_log s !! x = Some u -> s_holds s !! h = Some hd -> has (h_sto hd) ->
  h_view hd = u_view u /\ h_key hd = u_key u.
Proof.
  intros C Hx Hh H. assert (has (log_sum (h_view hd) (h_key hd) (s_log s))) as L.
  { rewrite (C (h_view hd) (h_key hd)). apply has_op. right. unfold stored. apply has_op.
    left. apply has_msum. exists h, hd. split; [done|]. unfold in_hold. apply has_only. split; [|done].
    unfold of_series. apply andb_true_iff. split; [by apply Nat.eqb_eq|by apply bool_decide_eq_true]. }
  apply has_log in L as (u' & Hu & E1 & E2). assert (u' = u) by congruence. subst. done.
Qed.

Lemma has_decide s u t rd vs v todo h refs a : Inv s -> conserved s -> s_log s !! x = Some u ->
  s_thr s !! t = Some (QDecide rd vs v todo h refs a) -> has a -> v = u_view u.
Proof.
  intros I C Hx Ht H. pose proof (I_T _ _ _ _ _ I _ _ Ht) as ((_ & _ & _ & L) & _).
  destruct (L h ltac:(left)) as (hd & Hh & _ & Hv).
  assert (has (log_sum (h_view hd) (h_key hd) (s_log s))) as G.
  { rewrite (C (h_view hd) (h_key hd)). apply has_op. right. unfold stored. apply has_op.
    right. apply has_op. right. apply has_msum. exists t. eexists. split; [exact Ht|]. cbn. apply has_only. split; [|done].
    unfold hmatch. rewrite Hh. unfold of_series. apply andb_true_iff. split; [by apply Nat.eqb_eq|by apply bool_decide_eq_true]. }
  apply has_log in G as (u' & Hu & E1 & E2). assert (u' = u) by congruence. subst. done.
Qed.
Lemma delete_or {X} (l : list X) n y z : l !! n = Some y -> z ∈ l -> z = y \/ z ∈ delete n l.
Proof.
  intros Hn Hz. apply elem_of_list_lookup in Hz as (m & Hm). destruct (decide (m = n)) as [->|Hne]; [left; congruence|right].
  destruct (decide (m < n)%nat).
  - apply elem_of_list_lookup. exists m. by rewrite lookup_delete_lt.
  - apply elem_of_list_lookup. exists (pred m). rewrite lookup_delete_ge by lia. by replace (S (pred m)) with m by lia.
Qed.

Lemma ahead12 (p1 : pcT) o i j : ahead1 p1 o i j -> in_wl p1 <> Some o -> ahead2 p1 o.
Proof. destruct p1; cbn; try done; intros [H|[-> _]] N; try done. Qed.
Lemma ahead2_early (p1 : pcT) o : ahead2 p1 o -> early p1.
Proof. by destruct p1. Qed.
Lemma ahead34 (p1 : pcT) h : ahead3 p1 h -> in_il p1 <> Some V -> ahead4 p1.
Proof.
  intros [H|H] N; [by left|]. right. destruct p1; cbn in *; try done; destruct H as [H|[-> _]]; done.
Qed.
Lemma reported_step s t s' : stepR s t s' -> reported s -> reported s'.
Proof. intros H (i & pt & Hi & E). exists i, pt. split; [by eapply out_step|done]. Qed.

Lemma W_other s t s' : Inv s -> conserved s -> stepR s t s' -> t <> t1 -> W s -> W s'.
Proof.
  intros I C H N [(u & Hx & Hu & HT) W1 W2 W3 W4 (p1 & Hp1 & Wr)].
  destruct (thr_step _ _ _ H) as (p & p' & Ht & Et & Hp).
  assert (s_thr s' !! t1 = Some p1) as Hp1' by (rewrite Et, list_lookup_insert_ne by done; done).
  assert (s_thr s' !! t = Some p') as Ht' by (rewrite Et, list_lookup_insert; [done|by eapply lookup_lt_Some]).
  constructor.
  - exists u. split; [by eapply log_step|]. split; [done|]. rewrite Et, list_lookup_insert_ne; [done|]. intros ->. congruence.
  - intros q1 i r' j a' Hq Hr' Ha' Hh. assert (q1 = p1) by congruence. subst q1.
    destruct (cur_step _ _ _ H (lookup_lt_Some _ _ _ Hx) _ _ _ _ Hr' Ha' Hh) as (r & a & Hr & Ha & Hh' & ->).
    by eapply W1.
  - intros q1 t2 q i m ph j a Hq N2 H2 Hh. assert (q1 = p1) by congruence. subst q1.
    destruct (decide (t2 = t)) as [->|Nt].
    + destruct (merge_step _ _ _ _ _ _ _ _ _ H H2) as (r & ac & Hm & Hr & Ha & ->).
      assert (r_inst r = j_inst q) as Eo.
      { pose proof (I_T _ _ _ _ _ I _ _ Hm) as ((_ & _ & _ & J) & _). destruct (J i ltac:(left)) as (r1 & Hr1 & _ & E). congruence. }
      rewrite <- Eo. eapply ahead12; [by eapply W1|]. intros Q. destruct N.
      eapply (LI_uniq in_wl); [exact (I_wl _ _ _ _ _ I)|exact Hm|exact Hp1|reflexivity|by rewrite Q, Eo].
    + rewrite Et, list_lookup_insert_ne in H2 by done. by eapply W2.
  - intros q1 h hd' Hq Hh' Hs. assert (q1 = p1) by congruence. subst q1.
    destruct (sto_step _ _ _ H _ _ Hh' Hs) as [(hd & Hh & Hs0 & _)|(q & i & m & ph & j & a & Hm & Ha)].
    + destruct (W3 _ _ _ Hp1 Hh Hs0) as [?|[? ?]]; [by left|]. right. split; [done|]. by eapply reported_step.
    + left. left. eapply ahead2_early. by eapply W2.
  - intros q1 t2 rd vs v todo h refs a Hq N2 H2 Hh. assert (q1 = p1) by congruence. subst q1.
    destruct (decide (t2 = t)) as [->|Nt].
    + destruct (decide_step _ _ _ _ _ _ _ _ _ _ H H2) as (hd & Hm & Hhd & -> & Hv & Hd).
      destruct (has_view _ _ _ _ C Hx Hhd Hh) as [Ev _].
      assert (v = V) as -> by congruence.
      destruct (W3 _ _ _ Hp1 Hhd Hh) as [Q|[Q _]]; [|congruence].
      eapply ahead34; [done|]. intros Qi. destruct N.
      by eapply (LI_uniq in_il); [exact (I_il _ _ _ _ _ I)|exact Hm|exact Hp1|done|done].
    + rewrite Et, list_lookup_insert_ne in H2 by done. by eapply W4.
  - by exists p1.
Qed.

(** No uint32 wrap between two collections of a record. *)
Definition nowrap s : Prop := forall i r, s_recs s !! i = Some r -> r_upd r - r_col r < 4294967296.
Lemma same32_eq s i r : VA s -> nowrap s -> s_recs s !! i = Some r -> same32 (r_upd r) (r_col r) = true -> r_upd r = r_col r.
Proof.
  intros V0 N Hr E. unfold same32 in E. apply Z.eqb_eq in E. destruct (V0 _ _ Hr) as [Hc _]. specialize (N _ _ Hr).
  rewrite Z.mod_small in E by lia. lia.
Qed.
Lemma idle_not_has s i r j a : VA s -> VB s -> nowrap s -> W s -> s_recs s !! i = Some r -> same32 (r_upd r) (r_col r) = true ->
  r_accs r !! j = Some a -> ~ has (a_cur a).
Proof.
  intros HA HB HN HW Hr Hs Ha Hh. pose proof (same32_eq _ _ _ HA HN Hr Hs) as E.
  destruct (HB _ _ _ _ Hr Ha Hh) as (u & p & Hx & Hp & S). destruct (W_u _ HW) as (u' & Hx' & _ & Hd).
  assert (u' = u) by congruence. subst u'. assert (p = PDone) by congruence. subst p.
  destruct S as [S|(_ & S & _)]; [done|lia].
Qed.

(** The collection does not pass by a record that holds [x]. *)
Definition unhidden s : Prop :=
  forall q i r j a, s_recs s !! i = Some r -> r_accs r !! j = Some a -> same32 (r_upd r) (r_col r) = true ->
    (s_thr s !! t1 = Some (QLoad q i) /\ r_inact r + 1 < c_periods c \/ s_thr s !! t1 = Some (QScav q i false)) -> ~ has (a_cur a).
Lemma nowrap_unhidden s : VA s -> VB s -> nowrap s -> W s -> unhidden s.
Proof. intros HA HB HN HW q i r j a Hr Ha Hs _. by eapply idle_not_has. Qed.

Lemma W_self s s' : Inv s -> conserved s -> unhidden s -> stepR s t1 s' -> W s -> W s'.
Proof.
  intros I C HU H HW. pose proof HW as [(u & Hx & Hu & HT) W1 W2 W3 W4 (p1 & Hp1 & Wr)].
  destruct (thr_step _ _ _ H) as (p & p' & Ht & Et & Hp). assert (p = p1) by congruence. subst p.
  assert (s_thr s' !! t1 = Some p') as Ht' by (rewrite Et, list_lookup_insert; [done|by eapply lookup_lt_Some]).
  assert (G : 
    (match p' with QLock rd _ => rd = rd0
        | QRecs q | QTry q _ | QCas q _ | QScav q _ _ | QLoad q _ | QMove q _ _ _ _ | QMerge q _ _ _ _ _
        | QRel q _ _ _ _ => j_rd q = rd0 | QViews _ _ | QColl _ _ _ _ | QPoint _ _ _ _ _ _ | QDecide _ _ _ _ _ _ _ | QDone => True
        | _ => False end) /\
    (forall i r j a, s_recs s' !! i = Some r -> r_accs r !! j = Some a -> has (a_cur a) -> ahead1 p1 (r_inst r) i j -> ahead1 p' (r_inst r) i j) /\
    (forall t2 q i m ph j a, t2 <> t1 -> s_thr s !! t2 = Some (QMerge q i m ph j a) -> has a -> ahead2 p1 (j_inst q) -> ahead2 p' (j_inst q)) /\
    (forall h hd, s_holds s' !! h = Some hd -> has (h_sto hd) -> ahead3 p1 h -> ahead3 p' h \/ (vdelta c V = false /\ reported s')) /\
    (forall t2 rd vs v todo h refs a, t2 <> t1 -> s_thr s !! t2 = Some (QDecide rd vs v todo h refs a) -> has a -> ahead4 p1 -> ahead4 p') /\
    (forall q i m ph j a, p1 = QMerge q i m ph j a -> early p')).
  2: { destruct G as (G0 & G1 & G2 & G3 & G4 & G5). constructor.
    - exists u. split; [by eapply log_step|]. split; [done|]. rewrite Et, list_lookup_insert_ne; [done|]. intros E.
      rewrite <- E in HT. congruence.
    - intros q1 i r' j a' Hq Hr' Ha' Hh. assert (q1 = p') by congruence. subst q1.
      destruct (cur_step _ _ _ H (lookup_lt_Some _ _ _ Hx) _ _ _ _ Hr' Ha' Hh) as (r & a & Hr & Ha & Hh' & Ei).
      eapply G1; try done. rewrite Ei. by eapply W1.
    - intros q1 t2 q i m ph j a Hq N2 H2 Hh. assert (q1 = p') by congruence. subst q1.
      rewrite Et, list_lookup_insert_ne in H2 by done. eapply G2; try done. by eapply W2.
    - intros q1 h hd' Hq Hh' Hs. assert (q1 = p') by congruence. subst q1.
      destruct (sto_step _ _ _ H _ _ Hh' Hs) as [(hd & Hh & Hs0 & _)|(q & i & m & ph & j & a & Hm & Ha)].
      + destruct (W3 _ _ _ Hp1 Hh Hs0) as [?|[? ?]]; [by eapply G3|]. right. split; [done|]. by eapply reported_step.
      + left. left. apply (G5 q i m ph j a). congruence.
    - intros q1 t2 rd vs v todo h refs a Hq N2 H2 Hh. assert (q1 = p') by congruence. subst q1.
      rewrite Et, list_lookup_insert_ne in H2 by done. eapply G4; try done. by eapply W4.
    - by exists p'. }
  clear Et Hp Ht.
  stepR_cases H; acc_split; snorm; rewrite Ht in Hp1; inversion Hp1; subst p1; clear Hp1; try done;
    rewrite list_lookup_insert in Ht' by (by eapply lookup_lt_Some); inversion Ht'; subst p'; clear Ht'.
  all: (split; [|split; [|split; [|split; [|split]]]]); try done.
  all: try (intros; by left).
  all: try (intros; left; by left).
  - intros i r j a _ _ _ Q. cbn in Q. by apply elem_of_nil in Q.
  - intros t2 q i m ph j a _ _ _ Q. cbn in Q. by apply elem_of_nil in Q.
  - intros h hd _ _ _. left. right. cbn in *. by subst.
  - intros t2 rd2 vs v todo h refs a _ _ _ _. right. cbn in *. by subst.
  - intros i r j a Hr Ha Hh Q. cbn in Q |- *. apply elem_of_cons in Q as [Q|Q]; [right|by left]. split; [done|].
    unfold live_recs. apply elem_of_list_In, filter_In. split; [apply in_seq; apply lookup_lt_Some in Hr; lia|].
    rewrite Hr, <- Q, Nat.eqb_refl, andb_true_r. destruct (r_live r) eqn:L; [done|].
    destruct (I_R _ _ _ _ _ I _ _ Hr) as (_ & _ & _ & _ & _ & _ & R7). rewrite (R7 L _ _ Ha) in Hh. by destruct has_mu.
  - intros t2 q i m ph j a N2 H2 Hh Q. cbn in Q |- *. apply elem_of_cons in Q as [Q|Q]; [|done].
    destruct (I_wl _ _ _ _ _ I) as (_ & L & _). specialize (L _ _ _ H2 eq_refl). congruence.
  - intros i r j a Hr Ha Hh Q. cbn in Q |- *. destruct Q as [Q|[_ Q]]; [done|]. rewrite Hj in Q. by apply elem_of_nil in Q.
  - intros i0 r j a Hr Ha Hh Q. cbn in Q |- *. destruct Q as [Q|[? Q]]; [by left|right]. split; [done|]. by eapply delete_or.
  - intros i0 r0 j a Hr0 Ha Hh Q. cbn in Q |- *. destruct Q as [Q|[? [->|Q]]]; [by left| |by right].
    rewrite list_lookup_insert in Hr0 by (by eapply lookup_lt_Some). inversion Hr0; subst r0.
    by destruct (HU q i r j a Hr Ha Hs (or_introl (conj Ht Hp))).
  - intros i0 r0 j a Hr0 Ha Hh Q. cbn in Q |- *. destruct Q as [Q|[? [->|Q]]]; [by left| |right; by auto].
    right. split; [done|]. left. split; [done|lia].
  - intros i0 r0 j a Hr0 Ha Hh Q. cbn in Q |- *. destruct Q as [Q|[? [->|Q]]]; [by left| |by right].
    rewrite list_lookup_insert in Hr0 by (by eapply lookup_lt_Some). inversion Hr0; subst r0.
    by destruct (HU q i r j a Hr Ha Hs (or_intror Ht)).
  - intros i0 r0 j a Hr0 Ha Hh Q. cbn in Q |- *. destruct Q as [Q|[? [->|Q]]]; [by left| |right; by auto].
    right. split; [done|]. left. split; [done|lia].
  - intros i0 r0 j0 a0 Hr0 Ha0 Hh Q. cbn in Q |- *. destruct Q as [Q|[? [[-> Q]|Q]]]; [by left| |right; by auto].
    right. split; [done|]. left. split; [done|]. destruct (decide (j0 = j)) as [->|]; [|lia].
    rewrite list_lookup_insert in Hr0 by (by eapply lookup_lt_Some). inversion Hr0; subst r0. cbn in Ha0.
    rewrite list_lookup_insert in Ha0 by (by eapply lookup_lt_Some). inversion Ha0; subst a0. by destruct has_mu.
  - intros i0 r0 j0 a0 Hr0 Ha0 Hh Q. cbn in Q |- *. destruct Q as [Q|[? [[-> Q]|Q]]]; [by left| |right; by auto].
    rewrite list_lookup_insert in Hr0 by (by eapply lookup_lt_Some). inversion Hr0; subst r0. cbn in Ha0.
    apply lookup_lt_Some in Ha0. apply lookup_ge_None in Ha. lia.
  - intros i0 r0 j0 a0 Hr0 Ha0 Hh Q. cbn in Q |- *. destruct Q as [Q|[? [[-> Q]|Q]]]; [by left| |right; by auto].
    rewrite list_lookup_insert in Hr0 by (by eapply lookup_lt_Some). inversion Hr0; subst r0. cbn in Ha0.
    apply lookup_lt_Some in Ha0. apply lookup_ge_None in Ha. lia.
  - by destruct ph as [[]|].
  - intros i0 r0 j0 a0 Hr0 Ha0 Hh0 Q. by destruct ph as [[]|].
  - intros t2 q0 i0 m ph0 j0 a0 _ _ _ Q. by destruct ph as [[]|].
  - intros h0 hd0 _ _ Q. left. left. by destruct ph as [[]|].
  - intros t2 rd2 vs v todo h refs a0 _ _ _ _. left. by destruct ph as [[]|].
  - intros q0 i0 m ph0 j0 a0 _. by destruct ph as [[]|].
  - intros h hd _ _ [Q|Q]; [done|]. by apply elem_of_nil in Q.
  - intros t2 rd2 vs v todo h refs a _ _ _ [Q|Q]; [done|]. by apply elem_of_nil in Q.
  - intros h hd Hh Hs [Q|Q]; [done|]. left. right. cbn. apply elem_of_cons in Q as [Q|Q]; [right|by left]. split; [done|].
    unfold live_holders. apply elem_of_list_In, filter_In. split; [apply in_seq; apply lookup_lt_Some in Hh; lia|].
    destruct (has_view _ _ _ _ C Hx Hh Hs) as [Ev _].
    rewrite Hh. apply andb_true_iff. split; [|apply Nat.eqb_eq; congruence].
    destruct (h_live hd) eqn:L; [done|].
    destruct (I_H _ _ _ _ _ I _ _ Hh) as (_ & R2 & _). destruct (R2 L) as [_ R3]. rewrite R3 in Hs. by destruct has_mu.
  - intros t2 rd2 vs2 v0 todo h refs a N2 H2 Hh [Q|Q]; [done|]. right. cbn. apply elem_of_cons in Q as [Q|Q]; [|done].
    pose proof (has_decide _ _ _ _ _ _ _ _ _ _ I C Hx H2 Hh) as Ev.
    destruct (I_il _ _ _ _ _ I) as (_ & L & _). specialize (L _ _ _ H2 eq_refl). congruence.
  - intros h hd _ _ [Q|Q]; [done|]. left. right. cbn. destruct Q as [Q|[_ Q]]; [done|]. by apply elem_of_nil in Q.
  - intros h0 hd0 _ _ [Q|Q]; [done|]. left. right. cbn. destruct Q as [Q|[? Q]]; [by left|right]. split; [done|].
    by eapply delete_or.
  - intros h0 hd0 Hh0 Hs0 [Q|Q]; [done|]. destruct Q as [Q|[Ev Q]]; [left; right; by left|].
    destruct (delete_or _ _ _ _ Hc Q) as [->|Q']; [|left; right; right; done].
    right. split; [congruence|]. exists (length (s_out s)). eexists. split; [apply list_lookup_app_last|]. cbn.
    split_and!; try done. congruence.
  - intros h0 hd0 Hh0 Hs0 [Q|Q]; [done|]. left. right. cbn. destruct Q as [Q|[? [->|Q]]]; [by left| |by right].
    rewrite list_lookup_insert in Hh0 by (by eapply lookup_lt_Some). inversion Hh0; subst hd0. by destruct has_mu.
Qed.

(** The end of the collection. *)
Definition output s : Prop := exists i pt, s_out s !! i = Some pt /\ p_view pt = V /\ has (p_agg pt).
Definition suppressed s : Prop := exists i pt, s_drop s !! i = Some pt /\ p_view pt = V /\ has (p_agg pt).
Lemma W_end s : Inv s -> conserved s -> W s -> s_thr s !! t1 = Some QDone ->
  if vdelta c V then output s \/ suppressed s else reported s.
Proof.
  intros I C [(u & Hx & Hu & HT) W1 W2 W3 W4 _] Hd.
  assert (has (log_sum V (u_key u) (s_log s))) as L by (apply has_log; by exists u).
  rewrite (C V (u_key u)) in L. apply has_op in L as [L|L].
  - unfold emitted in L. destruct (vdelta c V); [|by destruct has_mu].
    assert (forall l, has (pts_sum V (u_key u) l) -> exists i pt, l !! i = Some pt /\ p_view pt = V /\ has (p_agg pt)) as G.
    { intros l Hl. apply has_msum in Hl as (i & pt & Hi & Hl). apply has_only in Hl as [Hl1 Hl2].
      apply andb_true_iff in Hl1 as [Hl1 _]. apply Nat.eqb_eq in Hl1. by exists i, pt. }
    apply has_op in L as [L|L]; [left|right]; by apply G.
  - unfold stored in L. apply has_op in L as [L|L]; [|apply has_op in L as [L|L]].
    + apply has_msum in L as (h & hd & Hh & L). apply has_only in L as [_ L].
      destruct (W3 _ _ _ Hd Hh L) as [[Q|Q]|[Q1 Q2]]; [done|done|]. by rewrite Q1.
    + apply has_msum in L as (i & r & Hr & L). apply has_msum in L as (j & a & Ha & L). apply has_only in L as [_ L].
      by destruct (W1 _ _ _ _ _ Hd Hr Ha L).
    + apply has_msum in L as (t & p & Ht & L). destruct p; try (by destruct has_mu); cbn in L.
      * assert (has a) as La.
        { destruct (s_recs s !! r) as [r0|]; [|by destruct has_mu]. destruct (r_accs r0 !! j); [|by destruct has_mu].
          by apply has_only in L as [_ L]. }
        destruct (decide (t = t1)) as [->|Nt]; [congruence|]. by destruct (W2 _ _ _ _ _ _ _ _ Hd Nt Ht La).
      * apply has_only in L as [_ L]. destruct (decide (t = t1)) as [->|Nt]; [congruence|].
        by destruct (W4 _ _ _ _ _ _ _ _ _ Hd Nt Ht L).
Qed.
End vis.
