(** The inductive invariant of the synchronous instrument model, and its preservation by every
    step.  Nothing in this file models Go code. *)
From Coq Require Import ZArith Lia Bool.
From stdpp Require Import base list option.
From Verif Require Import Base Lib SyncModel SyncSpec.
Local Open Scope Z_scope.

Section inv.
Context {c : config}.
Notation A := (car (c_mon c)).
Notation num := (c_num c).
Notation K := (c_K c).
Notation key := (c_key c).
Notation st := (state c).
Notation pcT := (pc c).
Notation recT := (rec c).
Notation holdT := (holder c).

Definition b2z (b : bool) : Z := if b then 1 else 0.
Lemma b2z_range b : 0 <= b2z b <= 1.
Proof. destruct b; cbn; lia. Qed.

(** Thread [p] holds a reference on record [i]. *)
Definition holds_ref (i : nat) (p : pcT) : bool :=
  match p with
  | PInit i' _ | PInitV i' _ _ | PUpd i' _ _ | PCount i' | PUnref i' => Nat.eqb i' i
  | _ => false
  end.
(** Thread [p] is initialising record [i]. *)
Definition initialising (i : nat) (p : pcT) : bool :=
  match p with PInitV i' _ _ => Nat.eqb i' i | _ => false end.
(** Thread [p] has unmapped record [i] and is removing it. *)
Definition unmapping (i : nat) (p : pcT) : bool :=
  match p with
  | QScav _ i' true | QMove _ i' _ (Some true) _ | QMerge _ i' _ (Some true) _ _
  | QRel _ i' _ (Some true) _ => Nat.eqb i' i
  | _ => false
  end.
(** How many accumulators of record [i] thread [p] has released. *)
Definition released (i : nat) (p : pcT) : Z :=
  match p with
  | QMove _ i' _ (Some true) j | QMerge _ i' _ (Some true) j _ | QRel _ i' _ (Some true) j =>
      if Nat.eqb i' i then Z.of_nat j else 0
  | _ => 0
  end.

Definition nref (thr : list pcT) (i : nat) : Z := zsum (fun p => b2z (holds_ref i p)) thr.
Definition ninit (thr : list pcT) (i : nat) : Z := zsum (fun p => b2z (initialising i p)) thr.
Definition nunm (thr : list pcT) (i : nat) : Z := zsum (fun p => b2z (unmapping i p)) thr.
Definition nrel (thr : list pcT) (i : nat) : nat := Z.to_nat (zsum (released i) thr).

(** The instrument whose lock [p] holds. *)
Definition in_wl (p : pcT) : option nat :=
  match p with
  | QRecs q | QLoad q _ | QTry q _ | QCas q _ | QScav q _ _ | QMove q _ _ _ _
  | QMerge q _ _ _ _ _ | QRel q _ _ _ _ => Some (j_inst q)
  | _ => None
  end.
(** The view whose instLock [p] holds. *)
Definition in_il (p : pcT) : option nat :=
  match p with
  | QColl _ _ v _ | QPoint _ _ v _ _ _ | QDecide _ _ v _ _ _ _ => Some v
  | _ => None
  end.

(** Facts about records. *)
Definition isrec (recs : list recT) (i : nat) : Prop := exists r, recs !! i = Some r.
Definition doner (recs : list recT) (i : nat) : Prop :=
  exists r, recs !! i = Some r /\ r_once r = ODone.
Definition running (recs : list recT) (i j : nat) : Prop :=
  exists r, recs !! i = Some r /\ r_once r = ORun /\ length (r_accs r) = j.
Definition liver (recs : list recT) (o i : nat) : Prop :=
  exists r, recs !! i = Some r /\ r_live r = true /\ r_inst r = o.
Definition nacc (recs : list recT) (i j : nat) : Prop :=
  exists r, recs !! i = Some r /\ (j < length (r_accs r))%nat.
Definition nacc_le (recs : list recT) (i j : nat) : Prop :=
  exists r, recs !! i = Some r /\ (j <= length (r_accs r))%nat.
Definition clean (recs : list recT) (i j : nat) : Prop :=
  exists r, recs !! i = Some r /\ forall j' a, (j' < j)%nat -> r_accs r !! j' = Some a -> a_cur a = mu.

(** Facts about holders. *)
Definition liveh (holds : list holdT) (v h : nat) : Prop :=
  exists hd, holds !! h = Some hd /\ h_live hd = true /\ h_view hd = v.
Definition noaux (holds : list holdT) (h : nat) : Prop :=
  exists hd, holds !! h = Some hd /\ h_aux hd = 0.
Definition nosto (holds : list holdT) (h : nat) : Prop :=
  exists hd, holds !! h = Some hd /\ h_sto hd = mu.

Definition JI (recs : list recT) (q : job) (l : list nat) : Prop :=
  (j_inst q < length (c_insts c))%nat /\ Forall (fun o => o < length (c_insts c))%nat (j_rest q) /\
  NoDup (l ++ j_todo q) /\ forall i, i ∈ l ++ j_todo q -> liver recs (j_inst q) i.
Definition VI (holds : list holdT) (vs : list nat) (v : nat) (todo : list nat) : Prop :=
  (v < length (c_views c))%nat /\ Forall (fun o => o < length (c_views c))%nat vs /\
  NoDup todo /\ forall h, h ∈ todo -> liveh holds v h.

(** What holds of a thread. *)
Definition TI (recs : list recT) (holds : list holdT) (p : pcT) : Prop :=
  match p with
  | PRead o _ _ | PWrite o _ _ => (o < length (c_insts c))%nat
  | PInit i _ => isrec recs i
  | PInitV i _ j => running recs i j
  | PUpd i _ j => doner recs i /\ nacc_le recs i j
  | PCount i | PUnref i => doner recs i
  | PDone => True
  | QLock _ os => Forall (fun o => o < length (c_insts c))%nat os
  | QRecs q => JI recs q []
  | QLoad q i | QTry q i | QCas q i | QScav q i _ => JI recs q [i]
  | QMove q i _ ph j => JI recs q [i] /\ doner recs i /\ nacc_le recs i j /\ (ph = Some true -> clean recs i j)
  | QMerge q i _ ph j _ =>
      JI recs q [i] /\ doner recs i /\ nacc recs i j /\ (ph = Some true -> clean recs i (S j))
  | QRel q i _ ph j =>
      JI recs q [i] /\ doner recs i /\ nacc recs i j /\ ph = Some true /\ clean recs i (S j)
  | QViews _ vs => Forall (fun v => v < length (c_views c))%nat vs
  | QColl _ vs v todo => VI holds vs v todo
  | QPoint _ vs v todo h refs =>
      VI holds vs v (h :: todo) /\ vdelta c v = true /\ (refs = 0 -> noaux holds h)
  | QDecide _ vs v todo h refs _ =>
      VI holds vs v (h :: todo) /\ vdelta c v = true /\ (refs = 0 -> noaux holds h /\ nosto holds h)
  | QDone => True
  | PBad => False
  end.

(** What holds of a record. *)
Definition RI (holds : list holdT) (thr : list pcT) (i : nat) (r : recT) : Prop :=
  r_val r = 2 * nref thr i + (if r_live r then nunm thr i else 1) /\
  (r_live r = false -> nref thr i = 0) /\
  (0 < nunm thr i -> nref thr i = 0) /\
  (r_inst r < length (c_insts c))%nat /\
  match r_once r with
  | ONew => r_accs r = [] /\ r_upd r = 0 /\ r_col r = 0 /\ 1 <= nref thr i /\ ninit thr i = 0
  | ORun => r_upd r = 0 /\ r_col r = 0 /\ ninit thr i = 1
  | ODone => ninit thr i = 0 /\ length (r_accs r) = length (iviews c (r_inst r))
  end /\
  (forall j a, r_accs r !! j = Some a ->
     exists hd, holds !! a_hold a = Some hd /\ iviews c (r_inst r) !! j = Some (h_view hd)) /\
  (r_live r = false -> forall j a, r_accs r !! j = Some a -> a_cur a = mu).

(** The accumulators of record [i] that have not been released. *)
Definition points_to (h : nat) (a : acc c) : Z := b2z (Nat.eqb (a_hold a) h).
Definition unrel (thr : list pcT) (h : nat) (i : nat) (r : recT) : Z :=
  if r_live r then zsum (points_to h) (drop (nrel thr i) (r_accs r)) else 0.

(** What holds of a holder. *)
Definition HI (recs : list recT) (thr : list pcT) (h : nat) (hd : holdT) : Prop :=
  h_aux hd = isum (unrel thr h) recs /\
  (h_live hd = false -> h_aux hd = 0 /\ h_sto hd = mu) /\
  (vdelta c (h_view hd) = false -> h_live hd = true).

Definition uniq (holds : list holdT) : Prop :=
  forall h h' hd hd', holds !! h = Some hd -> holds !! h' = Some hd' ->
    h_live hd = true -> h_live hd' = true -> h_view hd = h_view hd' -> h_key hd = h_key hd' -> h = h'.

(** Which thread holds which lock. *)
Definition LI (inx : pcT -> option nat) (n : nat) (thr : list pcT) (wl : list (option nat)) : Prop :=
  length wl = n /\
  (forall t p o, thr !! t = Some p -> inx p = Some o -> wl !! o = Some (Some t)) /\
  (forall t o, wl !! o = Some (Some t) -> exists p, thr !! t = Some p /\ inx p = Some o).

Record InvC (recs : list recT) (holds : list holdT) (thr : list pcT) (wl il : list (option nat)) : Prop := {
  I_wl : LI in_wl (length (c_insts c)) thr wl;
  I_il : LI in_il (length (c_views c)) thr il;
  I_T : forall t p, thr !! t = Some p -> TI recs holds p;
  I_R : forall i r, recs !! i = Some r -> RI holds thr i r;
  I_H : forall h hd, holds !! h = Some hd -> HI recs thr h hd;
  I_U : uniq holds
}.
Definition Inv (s : st) : Prop := InvC (s_recs s) (s_holds s) (s_thr s) (s_wl s) (s_il s).

(** ** Locks *)
Lemma LI_same inx n thr wl t p p' :
  LI inx n thr wl -> thr !! t = Some p -> inx p' = inx p -> LI inx n (<[t:=p']> thr) wl.
Proof.
  intros (Hn & H1 & H2) Ht E. split; [done|]. split.
  - intros t' p1 o Hl Hi. apply lookup_insert_inv in Hl as [(<- & <- & _)|(_ & Hl)]; [|by eapply H1].
    eapply H1; [done|]. by rewrite <- E.
  - intros t' o Hw. destruct (H2 _ _ Hw) as (p1 & Hp1 & Hi).
    destruct (decide (t = t')) as [<-|Hne].
    + exists p'. rewrite list_lookup_insert by (by eapply lookup_lt_Some).
      split; [done|]. rewrite E. congruence.
    + exists p1. by rewrite list_lookup_insert_ne.
Qed.
Lemma LI_acquire inx n thr wl t p p' o :
  LI inx n thr wl -> thr !! t = Some p -> inx p = None -> inx p' = Some o -> wl !! o = Some None ->
  LI inx n (<[t:=p']> thr) (<[o:=Some t]> wl).
Proof.
  intros (Hn & H1 & H2) Ht Ep Ep' Ho. split; [by rewrite insert_length|]. split.
  - intros t' p1 o1 Hl Hi. apply lookup_insert_inv in Hl as [(<- & <- & _)|(Hne & Hl)].
    + rewrite Ep' in Hi. inversion Hi; subst. rewrite list_lookup_insert; [done|by eapply lookup_lt_Some].
    + specialize (H1 _ _ _ Hl Hi). rewrite list_lookup_insert_ne; [done|]. intros ->. congruence.
  - intros t' o1 Hw. apply lookup_insert_inv in Hw as [(<- & Ht' & _)|(Hne & Hw)].
    + inversion Ht'; subst. exists p'. rewrite list_lookup_insert by (by eapply lookup_lt_Some). done.
    + destruct (H2 _ _ Hw) as (p1 & Hp1 & Hi). exists p1. split; [|done].
      rewrite list_lookup_insert_ne; [done|]. intros ->. congruence.
Qed.
Lemma LI_release inx n thr wl t p p' o :
  LI inx n thr wl -> thr !! t = Some p -> inx p = Some o -> inx p' = None ->
  LI inx n (<[t:=p']> thr) (<[o:=None]> wl).
Proof.
  intros (Hn & H1 & H2) Ht Ep Ep'. split; [by rewrite insert_length|]. split.
  - intros t' p1 o1 Hl Hi. apply lookup_insert_inv in Hl as [(<- & <- & _)|(Hne & Hl)]; [congruence|].
    rewrite list_lookup_insert_ne; [by eapply H1|]. intros ->.
    specialize (H1 _ _ _ Hl Hi) as H3. destruct (H2 _ _ H3) as (p2 & ? & ?).
    assert (wl !! o1 = Some (Some t)) by (by eapply H1). congruence.
  - intros t' o1 Hw. apply lookup_insert_inv in Hw as [(<- & Ht' & _)|(Hne & Hw)]; [done|].
    destruct (H2 _ _ Hw) as (p1 & Hp1 & Hi). exists p1. split; [|done].
    rewrite list_lookup_insert_ne; [done|]. intros ->. congruence.
Qed.
Lemma LI_spawn inx n thr wl p :
  LI inx n thr wl -> inx p = None -> LI inx n (thr ++ [p]) wl.
Proof.
  intros (Hn & H1 & H2) Ep. split; [done|]. split.
  - intros t' p1 o1 Hl Hi. apply lookup_snoc in Hl as [Hl|[-> ->]]; [by eapply H1|congruence].
  - intros t' o1 Hw. destruct (H2 _ _ Hw) as (p1 & Hp1 & Hi). exists p1. split; [|done].
    by apply lookup_app_l_Some.
Qed.
Lemma LI_uniq inx n thr wl t t' p p' o :
  LI inx n thr wl -> thr !! t = Some p -> thr !! t' = Some p' -> inx p = Some o -> inx p' = Some o -> t = t'.
Proof.
  intros (Hn & H1 & H2) Ht Ht' E E'. specialize (H1 _ _ _ Ht E) as W. specialize (H1 _ _ _ Ht' E') as W'.
  congruence.
Qed.

(** ** Counts *)
Lemma zsum_goto (f : pcT -> Z) thr t p p' :
  thr !! t = Some p -> f p' = f p -> zsum f (<[t:=p']> thr) = zsum f thr.
Proof. intros H E. rewrite (zsum_insert _ _ _ _ _ H). lia. Qed.

Lemma ninit_le_nref thr i : ninit thr i <= nref thr i.
Proof.
  apply zsum_le. intros p _. destruct p; cbn; try lia; try (destruct (Nat.eqb r i); cbn; lia).
Qed.
Lemma nref_nonneg thr i : 0 <= nref thr i.
Proof. apply zsum_nonneg. intros p _. apply b2z_range. Qed.
Lemma nunm_nonneg thr i : 0 <= nunm thr i.
Proof. apply zsum_nonneg. intros p _. apply b2z_range. Qed.
Lemma ninit_nonneg thr i : 0 <= ninit thr i.
Proof. apply zsum_nonneg. intros p _. apply b2z_range. Qed.
Lemma nref_pos thr i t p : thr !! t = Some p -> holds_ref i p = true -> 1 <= nref thr i.
Proof.
  intros H E. pose proof (zsum_elem (fun p => b2z (holds_ref i p)) thr t p
    (fun y => proj1 (b2z_range (holds_ref i y))) H) as L. cbn in L. rewrite E in L. exact L.
Qed.
Lemma nunm_pos thr i t p : thr !! t = Some p -> unmapping i p = true -> 1 <= nunm thr i.
Proof.
  intros H E. pose proof (zsum_elem (fun p => b2z (unmapping i p)) thr t p
    (fun y => proj1 (b2z_range (unmapping i y))) H) as L. cbn in L. rewrite E in L. exact L.
Qed.
Lemma ninit_two thr i t t' p p' : t <> t' -> thr !! t = Some p -> thr !! t' = Some p' ->
  initialising i p = true -> initialising i p' = true -> 2 <= ninit thr i.
Proof.
  intros Hne Ht Ht' E E'. unfold ninit.
  pose proof (zsum_insert (fun p => b2z (initialising i p)) thr t p PDone Ht) as H.
  assert (<[t:=PDone]> thr !! t' = Some p') as H' by (by rewrite list_lookup_insert_ne).
  pose proof (zsum_elem (fun p => b2z (initialising i p)) _ t' p'
    (fun y => proj1 (b2z_range (initialising i y))) H') as L. cbn in L, H.
  rewrite E in H. rewrite E' in L. cbn in *. lia.
Qed.
Lemma nref_rest thr i t p t' p' : t <> t' -> thr !! t = Some p -> thr !! t' = Some p' ->
  holds_ref i p' = true -> b2z (holds_ref i p) + 1 <= nref thr i.
Proof.
  intros Hne Ht Ht' E'. unfold nref.
  pose proof (zsum_insert (fun p => b2z (holds_ref i p)) thr t p PDone Ht) as H.
  assert (<[t:=PDone]> thr !! t' = Some p') as H' by (by rewrite list_lookup_insert_ne).
  pose proof (zsum_elem (fun p => b2z (holds_ref i p)) _ t' p'
    (fun y => proj1 (b2z_range (holds_ref i y))) H') as L. cbn in L, H.
  rewrite E' in L. cbn in *. lia.
Qed.

(** Two program counters count the same for record [i]. *)
Definition same_counts (i : nat) (p p' : pcT) : Prop :=
  holds_ref i p' = holds_ref i p /\ initialising i p' = initialising i p /\
  unmapping i p' = unmapping i p /\ released i p' = released i p.

Lemma counts_goto thr t p p' i : thr !! t = Some p -> same_counts i p p' ->
  nref (<[t:=p']> thr) i = nref thr i /\ ninit (<[t:=p']> thr) i = ninit thr i /\
  nunm (<[t:=p']> thr) i = nunm thr i /\ nrel (<[t:=p']> thr) i = nrel thr i.
Proof.
  intros Ht (E1 & E2 & E3 & E4). unfold nref, ninit, nunm, nrel.
  repeat split; [..|f_equal]; apply zsum_goto with p; try done; by f_equal.
Qed.

Lemma RI_counts holds thr thr' i r :
  nref thr' i = nref thr i -> ninit thr' i = ninit thr i -> nunm thr' i = nunm thr i ->
  RI holds thr i r -> RI holds thr' i r.
Proof. unfold RI. by intros -> -> ->. Qed.

(** ** Threads *)
Lemma TI_rec recs holds p i r r' :
  recs !! i = Some r ->
  r_inst r' = r_inst r ->
  (r_once r = ODone -> r_once r' = ODone) ->
  (length (r_accs r) <= length (r_accs r'))%nat ->
  (initialising i p = true -> r_once r' = r_once r /\ length (r_accs r') = length (r_accs r)) ->
  (in_wl p = Some (r_inst r) -> r_live r = true -> r_live r' = true) ->
  (unmapping i p = true -> forall j a', r_accs r' !! j = Some a' ->
      exists a, r_accs r !! j = Some a /\ (a_cur a = mu -> a_cur a' = mu)) ->
  TI recs holds p -> TI (<[i:=r']> recs) holds p.
Proof.
  intros Hi Einst Edone Elen Erun Elive Eclean.
  assert (Hlt : (i < length recs)%nat) by (by eapply lookup_lt_Some).
  assert (L1 : forall i', isrec recs i' -> isrec (<[i:=r']> recs) i').
  { intros i' (x & Hx). destruct (decide (i = i')) as [<-|Hne].
    - exists r'. by rewrite list_lookup_insert.
    - exists x. by rewrite list_lookup_insert_ne. }
  assert (L2 : forall i', doner recs i' -> doner (<[i:=r']> recs) i').
  { intros i' (x & Hx & Hd). destruct (decide (i = i')) as [<-|Hne].
    - exists r'. rewrite list_lookup_insert by done. split; [done|]. apply Edone. congruence.
    - exists x. by rewrite list_lookup_insert_ne. }
  assert (L3 : forall i' j, nacc recs i' j -> nacc (<[i:=r']> recs) i' j).
  { intros i' j (x & Hx & Hd). destruct (decide (i = i')) as [<-|Hne].
    - exists r'. rewrite list_lookup_insert by done. split; [done|]. assert (x = r) by congruence. subst. lia.
    - exists x. by rewrite list_lookup_insert_ne. }
  assert (L4 : forall i' j, nacc_le recs i' j -> nacc_le (<[i:=r']> recs) i' j).
  { intros i' j (x & Hx & Hd). destruct (decide (i = i')) as [<-|Hne].
    - exists r'. rewrite list_lookup_insert by done. split; [done|]. assert (x = r) by congruence. subst. lia.
    - exists x. by rewrite list_lookup_insert_ne. }
  assert (L5 : forall o i', in_wl p = Some o -> liver recs o i' -> liver (<[i:=r']> recs) o i').
  { intros o i' Hw (x & Hx & Hl & Hn). destruct (decide (i = i')) as [<-|Hne].
    - exists r'. rewrite list_lookup_insert by done. assert (x = r) by congruence. subst.
      split; [done|]. split; [|done]. by apply Elive.
    - exists x. by rewrite list_lookup_insert_ne. }
  assert (L6 : forall i' j, unmapping i' p = true -> clean recs i' j -> clean (<[i:=r']> recs) i' j).
  { intros i' j Hu (x & Hx & Hl). destruct (decide (i = i')) as [<-|Hne].
    - exists r'. rewrite list_lookup_insert by done. assert (x = r) by congruence. subst.
      split; [done|]. intros j' a' Hj' Ha'. destruct (Eclean Hu _ _ Ha') as (a & Ha & Hm).
      apply Hm. by eapply Hl.
    - exists x. by rewrite list_lookup_insert_ne. }
  assert (L7 : forall q l, in_wl p = Some (j_inst q) -> JI recs q l -> JI (<[i:=r']> recs) q l).
  { intros q l Hw (J1 & J2 & J3 & J4). repeat split; try done. intros i' Hi'. apply L5; [done|]. by apply J4. }
  destruct p; cbn; try done; cbn in *; intros H.
  - by apply L1.
  - destruct H as (x & Hx & Ho & Hn). destruct (decide (i = r0)) as [<-|Hne].
    + exists r'. rewrite list_lookup_insert by done. rewrite Nat.eqb_refl in Erun.
      destruct (Erun eq_refl) as [-> ->]. assert (x = r) by congruence. by subst.
    + exists x. by rewrite list_lookup_insert_ne.
  - destruct H; auto.
  - auto.
  - auto.
  - auto.
  - auto.
  - auto.
  - auto.
  - auto.
  - destruct H as (H1 & H2 & H3 & H4). split_and!; auto. intros ->. apply L6; [apply Nat.eqb_refl|auto].
  - destruct H as (H1 & H2 & H3 & H4). split_and!; auto. intros ->. apply L6; [apply Nat.eqb_refl|auto].
  - destruct H as (H1 & H2 & H3 & -> & H5). split_and!; auto. apply L6; [apply Nat.eqb_refl|auto].
Qed.

Lemma TI_rec_app recs holds p r : TI recs holds p -> TI (recs ++ [r]) holds p.
Proof.
  assert (L : forall i (x : recT), recs !! i = Some x -> (recs ++ [r]) !! i = Some x).
  { intros. by apply lookup_app_l_Some. }
  assert (LJ : forall q l, JI recs q l -> JI (recs ++ [r]) q l).
  { intros q l (J1 & J2 & J3 & J4). repeat split; try done. intros i' Hi'.
    destruct (J4 _ Hi') as (x & ? & ?). exists x. eauto. }
  destruct p; cbn; try done; intros H.
  - destruct H as (x & Hx). eexists; eauto.
  - destruct H as (x & Hx & ?). eexists; eauto.
  - destruct H as ((x & Hx & ?) & (y & Hy & ?)). split; eexists; eauto.
  - destruct H as (x & Hx & ?). eexists; eauto.
  - destruct H as (x & Hx & ?). eexists; eauto.
  - auto.
  - auto.
  - auto.
  - auto.
  - auto.
  - destruct H as (H1 & (x & Hx & ?) & (y & Hy & ?) & H4). split_and!; auto; try (eexists; eauto; fail).
    intros ->. destruct (H4 eq_refl) as (z & ? & ?). eexists; eauto.
  - destruct H as (H1 & (x & Hx & ?) & (y & Hy & ?) & H4). split_and!; auto; try (eexists; eauto; fail).
    intros ->. destruct (H4 eq_refl) as (z & ? & ?). eexists; eauto.
  - destruct H as (H1 & (x & Hx & ?) & (y & Hy & ?) & H4 & (z & ? & ?)). split_and!; auto; try (eexists; eauto; fail).
Qed.

Lemma TI_hold recs holds p h hd hd' :
  holds !! h = Some hd -> h_view hd' = h_view hd ->
  (in_il p = Some (h_view hd) -> h_live hd = true -> h_live hd' = true) ->
  (in_il p = Some (h_view hd) -> h_aux hd = 0 -> h_aux hd' = 0 /\ (h_sto hd = mu -> h_sto hd' = mu)) ->
  TI recs holds p -> TI recs (<[h:=hd']> holds) p.
Proof.
  intros Hh Ev El Ea.
  assert (Hlt : (h < length holds)%nat) by (by eapply lookup_lt_Some).
  assert (L1 : forall v h', in_il p = Some v -> liveh holds v h' -> liveh (<[h:=hd']> holds) v h').
  { intros v h' Hp (x & Hx & Hl & Hv). destruct (decide (h = h')) as [<-|Hne].
    - exists hd'. rewrite list_lookup_insert by done. assert (x = hd) by congruence. subst.
      split; [done|]. split; [|done]. by apply El.
    - exists x. by rewrite list_lookup_insert_ne. }
  assert (L2 : forall v h', in_il p = Some v -> liveh holds v h' -> noaux holds h' -> noaux (<[h:=hd']> holds) h').
  { intros v h' Hp (x & Hx & Hl & Hv) (x' & Hx' & Ha). destruct (decide (h = h')) as [<-|Hne].
    - exists hd'. rewrite list_lookup_insert by done. assert (x = hd) by congruence.
      assert (x' = hd) by congruence. subst. split; [done|]. by apply Ea.
    - exists x'. by rewrite list_lookup_insert_ne. }
  assert (L3 : forall v h', in_il p = Some v -> liveh holds v h' -> noaux holds h' -> nosto holds h' -> nosto (<[h:=hd']> holds) h').
  { intros v h' Hp (x & Hx & Hl & Hv) (x' & Hx' & Ha) (x'' & Hx'' & Hs). destruct (decide (h = h')) as [<-|Hne].
    - exists hd'. rewrite list_lookup_insert by done. assert (x = hd) by congruence.
      assert (x' = hd) by congruence. assert (x'' = hd) by congruence. subst. split; [done|]. by apply Ea.
    - exists x''. by rewrite list_lookup_insert_ne. }
  assert (L4 : forall vs v l, in_il p = Some v -> VI holds vs v l -> VI (<[h:=hd']> holds) vs v l).
  { intros vs v l Hp (J1 & J2 & J3 & J4). repeat split; try done. intros i' Hi'. apply L1; [done|]. by apply J4. }
  destruct p; cbn; try done; cbn in *; intros H.
  - by apply L4.
  - destruct H as (H1 & H2 & H3). split; [by apply L4|]. split; [done|]. intros E. eapply L2; [done| |auto].
    apply H1. left.
  - destruct H as (H1 & H2 & H3). split; [by apply L4|]. split; [done|]. intros E. destruct (H3 E) as [H4 H5].
    assert (liveh holds v h0) by (apply H1; left). split; [by eapply L2|by eapply L3].
Qed.

Lemma TI_hold_app recs holds p hd : TI recs holds p -> TI recs (holds ++ [hd]) p.
Proof.
  assert (L : forall i (x : holdT), holds !! i = Some x -> (holds ++ [hd]) !! i = Some x).
  { intros. by apply lookup_app_l_Some. }
  assert (LJ : forall vs v l, VI holds vs v l -> VI (holds ++ [hd]) vs v l).
  { intros q v l (J1 & J2 & J3 & J4). repeat split; try done. intros i' Hi'.
    destruct (J4 _ Hi') as (x & ? & ?). exists x. eauto. }
  destruct p; cbn; try done; intros H.
  - auto.
  - destruct H as (H1 & H2 & H3). split; [by apply LJ|]. split; [done|]. intros E.
    destruct (H3 E) as (x & ? & ?). exists x. eauto.
  - destruct H as (H1 & H2 & H3). split; [by apply LJ|]. split; [done|]. intros E.
    destruct (H3 E) as ((x & ? & ?) & (y & ? & ?)). split; eexists; eauto.
Qed.

(** ** Records and holders *)
Lemma RI_holds holds holds' thr i r :
  (forall h hd, holds !! h = Some hd -> exists hd', holds' !! h = Some hd' /\ h_view hd' = h_view hd) ->
  RI holds thr i r -> RI holds' thr i r.
Proof.
  intros E (H1 & H2 & H3 & H4 & H5 & H6 & H7). repeat (split; [done|]). split; [|done].
  intros j a Ha. destruct (H6 _ _ Ha) as (hd & Hh & Hv). destruct (E _ _ Hh) as (hd' & ? & Ev).
  exists hd'. by rewrite Ev.
Qed.
Lemma holds_insert_ext (holds : list holdT) h hd hd' :
  holds !! h = Some hd -> h_view hd' = h_view hd ->
  forall h1 hd1, holds !! h1 = Some hd1 -> exists hd2, <[h:=hd']> holds !! h1 = Some hd2 /\ h_view hd2 = h_view hd1.
Proof.
  intros Hh Ev h1 hd1 H1. destruct (decide (h = h1)) as [<-|Hne].
  - exists hd'. rewrite list_lookup_insert by (by eapply lookup_lt_Some). split; [done|]. congruence.
  - exists hd1. by rewrite list_lookup_insert_ne.
Qed.

Lemma unrel_nonneg thr h i r : 0 <= unrel thr h i r.
Proof.
  unfold unrel. destruct (r_live r); [|done]. apply zsum_nonneg. intros a _. unfold points_to. apply b2z_range.
Qed.

Lemma HI_isum recs recs' thr thr' h hd :
  isum (unrel thr' h) recs' = isum (unrel thr h) recs -> HI recs thr h hd -> HI recs' thr' h hd.
Proof. unfold HI. by intros ->. Qed.

(** ** Whole steps *)

(** A thread moves on without touching shared state that the invariant mentions. *)
Lemma Inv_goto recs holds thr wl il t p p' :
  InvC recs holds thr wl il -> thr !! t = Some p ->
  in_wl p' = in_wl p -> in_il p' = in_il p -> (forall i, same_counts i p p') ->
  TI recs holds p' -> InvC recs holds (<[t:=p']> thr) wl il.
Proof.
  intros [Hw Hi HT HR HH HU] Ht Ew Ei Ec HT'. constructor; try done.
  - by eapply LI_same.
  - by eapply LI_same.
  - intros t' p1 H. apply lookup_insert_inv in H as [(<- & <- & _)|(_ & H)]; [done|by eapply HT].
  - intros i r Hr. destruct (counts_goto thr t p p' i Ht (Ec i)) as (E1 & E2 & E3 & _).
    eapply RI_counts; eauto.
  - intros h hd Hh. eapply HI_isum; [|by eapply HH]. apply isum_ext. intros i r Hr.
    destruct (counts_goto thr t p p' i Ht (Ec i)) as (_ & _ & _ & E4). unfold unrel. by rewrite E4.
Qed.

(** The same while taking or giving back a lock. *)
Lemma Inv_lock recs holds thr wl il t p p' wl' il' :
  InvC recs holds thr wl il -> thr !! t = Some p ->
  LI in_wl (length (c_insts c)) (<[t:=p']> thr) wl' ->
  LI in_il (length (c_views c)) (<[t:=p']> thr) il' -> (forall i, same_counts i p p') ->
  TI recs holds p' -> InvC recs holds (<[t:=p']> thr) wl' il'.
Proof.
  intros [Hw Hi HT HR HH HU] Ht Ew Ei Ec HT'. constructor; try done.
  - intros t' p1 H. apply lookup_insert_inv in H as [(<- & <- & _)|(_ & H)]; [done|by eapply HT].
  - intros i r Hr. destruct (counts_goto thr t p p' i Ht (Ec i)) as (E1 & E2 & E3 & _).
    eapply RI_counts; eauto.
  - intros h hd Hh. eapply HI_isum; [|by eapply HH]. apply isum_ext. intros i r Hr.
    destruct (counts_goto thr t p p' i Ht (Ec i)) as (_ & _ & _ & E4). unfold unrel. by rewrite E4.
Qed.

(** A thread changes record [i]. *)
Lemma Inv_rec recs holds thr wl il t p p' i r r' :
  InvC recs holds thr wl il -> thr !! t = Some p -> recs !! i = Some r ->
  in_wl p' = in_wl p -> in_il p' = in_il p ->
  (forall i', i' <> i -> same_counts i' p p') ->
  (forall t' p1, t' <> t -> thr !! t' = Some p1 -> TI recs holds p1 -> TI (<[i:=r']> recs) holds p1) ->
  TI (<[i:=r']> recs) holds p' ->
  RI holds (<[t:=p']> thr) i r' ->
  (forall h, unrel (<[t:=p']> thr) h i r' = unrel thr h i r) ->
  InvC (<[i:=r']> recs) holds (<[t:=p']> thr) wl il.
Proof.
  intros [Hw Hi HT HR HH HU] Ht Hr Ew Ei Ec HTo HT' HR' Hun. constructor; try done.
  - by eapply LI_same.
  - by eapply LI_same.
  - intros t' p1 H. apply lookup_insert_inv in H as [(<- & <- & _)|(? & H)]; [done|].
    eapply HTo; [|done|]; [done|]. by eapply HT.
  - intros i' r1 H1. apply lookup_insert_inv in H1 as [(<- & <- & _)|(Hne & H1)]; [done|].
    destruct (counts_goto thr t p p' i' Ht (Ec i' ltac:(done))) as (E1 & E2 & E3 & _).
    eapply RI_counts; eauto.
  - intros h hd Hh. eapply HI_isum; [|by eapply HH].
    rewrite (isum_change (unrel thr h) _ recs i r r' Hr); [rewrite Hun; lia|].
    intros i' r1 Hne H1. destruct (counts_goto thr t p p' i' Ht (Ec i' ltac:(done))) as (_ & _ & _ & E4).
    unfold unrel. by rewrite E4.
Qed.

End inv.
