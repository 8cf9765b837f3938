(** Every step of the synchronous instrument model preserves the invariant, continued. *)
From Coq Require Import ZArith Lia Bool.
From stdpp Require Import base list option.
From Verif Require Import Base Lib SyncModel SyncSpec SyncInv SyncStep.
Local Open Scope Z_scope.

Section inv.
Context {c : config} (WF : wf c).
Notation A := (car (c_mon c)).
Notation num := (c_num c).
Notation K := (c_K c).
Notation key := (c_key c).
Notation st := (state c).
Notation pcT := (pc c).
Notation recT := (rec c).
Notation holdT := (holder c).
Implicit Types (recs : list recT) (holds : list holdT) (thr : list pcT) (p : pcT) (r : recT).

Ltac inv_I I := pose proof (I_wl _ _ _ _ _ I) as Iwl; pose proof (I_il _ _ _ _ _ I) as Iil;
  pose proof (I_T _ _ _ _ _ I) as IT; pose proof (I_R _ _ _ _ _ I) as IR;
  pose proof (I_H _ _ _ _ _ I) as IH; pose proof (I_U _ _ _ _ _ I) as IU.
Ltac rsplit R := destruct R as (R1 & R2 & R3 & R4 & R5 & R6 & R7).
Ltac neqb := repeat match goal with
  | H : ?i' <> ?i |- context [Nat.eqb ?i ?i'] =>
      rewrite (proj2 (Nat.eqb_neq i i') (fun e => H (eq_sym e)))
  | |- context [Nat.eqb ?i ?i] => rewrite (Nat.eqb_refl i)
  end.
Lemma nrel_same thr t p p' i : thr !! t = Some p -> released i p' = released i p ->
  nrel (<[t:=p']> thr) i = nrel thr i.
Proof. intros H E. unfold nrel. f_equal. by apply zsum_goto with p. Qed.

Ltac rnorm := cbn [r_inst r_attrs r_live r_val r_upd r_col r_inact r_once r_accs r_setval r_setlive
  r_setupd r_setcol r_setinact r_setonce r_setaccs h_view h_key h_live h_aux h_sto h_setlive h_setaux h_setsto a_cur a_hold].

(** A record update that keeps instrument, membership, once and accumulators, by a thread whose
    reference and unmapping status for every record stays the same. *)
Lemma Inv_rec_sim recs holds thr wl il t p p' i r r' :
  InvC recs holds thr wl il -> thr !! t = Some p -> recs !! i = Some r ->
  in_wl p' = in_wl p -> in_il p' = in_il p -> (forall i', same_counts i' p p') ->
  rsim r r' -> r_val r' = r_val r ->
  (r_once r <> ODone -> r_upd r' = r_upd r /\ r_col r' = r_col r) ->
  TI recs holds p' -> InvC (<[i:=r']> recs) holds (<[t:=p']> thr) wl il.
Proof.
  intros I Ht Hr Ew Ei Ec S Ev Eo HT'. inv_I I.
  destruct (counts_goto thr t p p' i Ht (Ec i)) as (C1 & C2 & C3 & C4).
  eapply Inv_rec with (p := p) (r := r); try done.
  - intros t' p1 _ _. by apply TI_rec_sim with r.
  - by apply TI_rec_sim with r.
  - destruct S as (S1 & S2 & S3 & S4). specialize (IR _ _ Hr). unfold RI in *.
    rewrite S1, S2, S3, S4, Ev, C1, C2, C3. rsplit IR. split_and!; try done.
    destruct (r_once r); [destruct Eo as [-> ->]; done..|done].
  - intros h. unfold unrel. destruct S as (S1 & S2 & S3 & S4). by rewrite S4, S3, C4.
Qed.

(** The initialising thread starts. *)
Lemma Inv_PInit recs holds thr wl il t i n r :
  InvC recs holds thr wl il -> thr !! t = Some (PInit i n) -> recs !! i = Some r -> r_once r = ONew ->
  InvC (<[i:=r_setonce ORun r]> recs) holds (<[t:=PInitV i n 0]> thr) wl il.
Proof.
  intros I Ht Hr Ho. inv_I I. pose proof (IR _ _ Hr) as R. unfold RI in R. rsplit R. rewrite Ho in R5.
  destruct R5 as (O1 & O2 & O3 & O4 & O5).
  assert (Hlt : (i < length recs)%nat) by (by eapply lookup_lt_Some).
  eapply Inv_rec with (p := PInit i n) (r := r); try done.
  - intros i' Hne. unfold same_counts; cbn. neqb. done.
  - intros t' p1 Hne Ht' HT. apply TI_rec with r; try done; cbn.
    + congruence.
    + intros E. pose proof (zsum_elem (fun p => b2z (initialising i p)) thr t' p1
        (fun y => proj1 (b2z_range (initialising i y))) Ht') as L. cbn in L. rewrite E in L.
      unfold ninit in O5. cbn in L. lia.
    + intros _ j a' Ha. by exists a'.
  - cbn. exists (r_setonce ORun r). rewrite list_lookup_insert by done. cbn. by rewrite O1.
  - unfold RI; cbn. rewrite (nref_insert _ _ _ _ _ Ht), (ninit_insert _ _ _ _ _ Ht), (nunm_insert _ _ _ _ _ Ht).
    cbn. neqb. cbn. split_and!; try done; try (destruct (r_live r)); intuition lia.
  - intros h. unfold unrel. cbn. rewrite (nrel_same _ _ _ _ _ Ht); done.
Qed.

(** Initialisation ends. *)
Lemma Inv_PInitV_end recs holds thr wl il t i n j r :
  InvC recs holds thr wl il -> thr !! t = Some (PInitV i n j) -> recs !! i = Some r ->
  iviews c (r_inst r) !! j = None ->
  InvC (<[i:=r_setonce ODone r]> recs) holds (<[t:=PUpd i n 0]> thr) wl il.
Proof.
  intros I Ht Hr Hv. inv_I I. pose proof (IR _ _ Hr) as R. unfold RI in R. rsplit R.
  pose proof (IT _ _ Ht) as (x & Hx & Ho & Hj). assert (x = r) by congruence. subst x.
  rewrite Ho in R5. destruct R5 as (O1 & O2 & O3).
  assert (Hlt : (i < length recs)%nat) by (by eapply lookup_lt_Some).
  assert (length (r_accs r) = length (iviews c (r_inst r))) as Hlen.
  { apply lookup_ge_None in Hv. apply Nat.le_antisymm; [|lia].
    destruct (length (r_accs r)) as [|m] eqn:E; [lia|].
    destruct (lookup_lt_is_Some_2 (r_accs r) m) as (a & Ha); [lia|].
    destruct (R6 _ _ Ha) as (hd & _ & Hd). apply lookup_lt_Some in Hd. lia. }
  eapply Inv_rec with (p := PInitV i n j) (r := r); try done.
  - intros i' Hne. unfold same_counts; cbn. neqb. done.
  - intros t' p1 Hne Ht' HT. apply TI_rec with r; try done; cbn.
    + intros E. pose proof (ninit_two thr i t t' _ _ ltac:(done) Ht Ht' (Nat.eqb_refl i) E). lia.
    + intros _ j' a' Ha. by exists a'.
  - cbn. split.
    + exists (r_setonce ODone r). rewrite list_lookup_insert by done. done.
    + exists (r_setonce ODone r). rewrite list_lookup_insert by done. cbn. split; [done|lia].
  - unfold RI; cbn. rewrite (nref_insert _ _ _ _ _ Ht), (ninit_insert _ _ _ _ _ Ht), (nunm_insert _ _ _ _ _ Ht).
    cbn. neqb. cbn. split_and!; try done; try (destruct (r_live r)); intuition lia.
  - intros h. unfold unrel. cbn. rewrite (nrel_same _ _ _ _ _ Ht); done.
Qed.

(** An accumulator is created. *)
Lemma Inv_PInitV_acc recs holds thr wl il t i n j r v h hd :
  InvC recs holds thr wl il -> thr !! t = Some (PInitV i n j) -> recs !! i = Some r ->
  iviews c (r_inst r) !! j = Some v -> il !! v = Some None ->
  holds !! h = Some hd -> h_live hd = true -> h_view hd = v ->
  InvC (<[i:=r_setaccs (fun l => l ++ [Acc mu h]) r]> recs) (<[h:=h_setaux (h_aux hd + 1) hd]> holds)
       (<[t:=PInitV i n (S j)]> thr) wl il.
Proof.
  intros I Ht Hr Hv Hil Hh Hl Hhv. inv_I I. pose proof (IR _ _ Hr) as R. unfold RI in R. rsplit R.
  pose proof (IT _ _ Ht) as (x & Hx & Ho & Hj). assert (x = r) by congruence. subst x.
  rewrite Ho in R5. destruct R5 as (O1 & O2 & O3).
  assert (Hlt : (i < length recs)%nat) by (by eapply lookup_lt_Some).
  destruct (ref_live _ _ _ _ _ _ _ _ _ I Hr Ht (Nat.eqb_refl i)) as (Hlive & Hu & Href).
  set (r' := r_setaccs (fun l => l ++ [Acc mu h]) r).
  set (hd' := h_setaux (h_aux hd + 1) hd).
  assert (Hlth : (h < length holds)%nat) by (by eapply lookup_lt_Some).
  assert (forall i', same_counts i' (PInitV i n j) (PInitV (c:=c) i n (S j))) as Ec by done.
  assert (forall t' p1, t' <> t -> thr !! t' = Some p1 -> TI (<[i:=r']> recs) (<[h:=hd']> holds) p1) as HTo.
  { intros t' p1 Hne Ht'. apply TI_hold with hd; try done.
    - intros E. exfalso. destruct Iil as (_ & L & _). specialize (L _ _ _ Ht' E).
      rewrite Hhv, Hil in L. done.
    - apply TI_rec with r; try done; cbn; rewrite ?app_length; cbn; try lia.
      + intros E. pose proof (ninit_two thr i t t' _ _ ltac:(done) Ht Ht' (Nat.eqb_refl i) E). lia.
      + intros E. pose proof (nunm_pos _ _ _ _ Ht' E). lia.
      + by eapply IT. }
  constructor.
  - eapply LI_same; try done.
  - eapply LI_same; try done.
  - intros t' p1 H. apply lookup_insert_inv in H as [(<- & <- & _)|(? & H)]; [|by eapply HTo].
    cbn. exists r'. rewrite list_lookup_insert by done. cbn. rewrite app_length. cbn. split_and!; [done..|lia].
  - intros i' r1 H1. apply RI_holds with holds; [by apply holds_insert_ext with hd|].
    destruct (counts_goto thr t _ _ i' Ht (Ec i')) as (C1 & C2 & C3 & C4).
    apply (RI_counts _ thr); [done..|].
    apply lookup_insert_inv in H1 as [(<- & <- & _)|(Hne & H1)]; [|by eapply IR].
    unfold RI; cbn. rewrite Ho. split_and!; try done.
    + intros j' a Ha. apply lookup_snoc in Ha as [Ha|[-> ->]]; [by eapply R6|]. cbn.
      exists hd. split; [done|]. by rewrite Hj, Hv, Hhv.
    + intros E. congruence.
  - assert (forall h', isum (unrel (<[t:=PInitV i n (S j)]> thr) h') (<[i:=r']> recs) =
                       isum (unrel thr h') recs + b2z (Nat.eqb h h')) as E.
    { intros h'. rewrite (isum_change (unrel thr h') _ recs i r r' Hr).
      - unfold unrel at 2 3. destruct (counts_goto thr t _ _ i Ht (Ec i)) as (_ & _ & _ & ->).
        change (r_live r') with (r_live r). change (r_accs r') with (r_accs r ++ [Acc mu h]).
        rewrite Hlive. unfold nrel. rewrite (nunm_zero_nrel thr i Hu).
        change (Z.to_nat 0) with 0%nat. rewrite !drop_0, zsum_app. cbn. unfold points_to at 3. cbn. lia.
      - intros i' r1 Hne H1. unfold unrel.
        destruct (counts_goto thr t _ _ i' Ht (Ec i')) as (_ & _ & _ & ->). done. }
    intros h' hd1 H1. apply lookup_insert_inv in H1 as [(<- & <- & _)|(Hne & H1)].
    + destruct (IH _ _ Hh) as (H2 & H3 & H4). unfold HI. cbn. rewrite E, Nat.eqb_refl. cbn.
      split; [lia|]. split; [|done]. congruence.
    + destruct (IH _ _ H1) as (H2 & H3 & H4). unfold HI. rewrite E.
      apply Nat.eqb_neq in Hne. rewrite Hne. cbn. rewrite Z.add_0_r. done.
  - intros h1 h2 hd1 hd2 H1 H2 L1 L2 E1 E2.
    apply lookup_insert_inv in H1 as [(<- & <- & _)|(Hne1 & H1)];
    apply lookup_insert_inv in H2 as [(<- & <- & _)|(Hne2 & H2)]; try done; cbn in *; by eapply IU.
Qed.

(** An accumulator is updated. *)
Lemma Inv_PUpd recs holds thr wl il t i n j r a x :
  InvC recs holds thr wl il -> thr !! t = Some (PUpd i n j) -> recs !! i = Some r ->
  r_accs r !! j = Some a ->
  InvC (<[i:=r_setaccs (<[j:=Acc x (a_hold a)]>) r]> recs) holds (<[t:=PUpd i n (S j)]> thr) wl il.
Proof.
  intros I Ht Hr Ha. inv_I I. pose proof (IR _ _ Hr) as R. unfold RI in R. rsplit R.
  pose proof (IT _ _ Ht) as ((y & Hy & Ho) & (y' & Hy' & Hj)).
  assert (y = r) by congruence. assert (y' = r) by congruence. subst y y'.
  assert (Hlt : (i < length recs)%nat) by (by eapply lookup_lt_Some).
  destruct (ref_live _ _ _ _ _ _ _ _ _ I Hr Ht (Nat.eqb_refl i)) as (Hlive & Hu & Href).
  destruct (counts_goto thr t (PUpd i n j) (PUpd i n (S j)) i Ht ltac:(done)) as (C1 & C2 & C3 & C4).
  assert (length (<[j:=Acc x (a_hold a)]> (r_accs r)) = length (r_accs r)) as El by apply insert_length.
  eapply Inv_rec with (p := PUpd i n j) (r := r); try done.
  - intros t' p1 Hne Ht' HT. apply TI_rec with r; try done; rnorm; try (rewrite El; done).
    intros E. pose proof (nunm_pos _ _ _ _ Ht' E). lia.
  - cbn [TI]. apply lookup_lt_Some in Ha. split.
    + eexists. split; [by apply list_lookup_insert|done].
    + eexists. split; [by apply list_lookup_insert|]. rnorm. rewrite El. lia.
  - unfold RI; rnorm. rewrite C1, C2, C3, El. split_and!; try done.
    + rewrite Ho in *. done.
    + intros j' a' Ha'. apply lookup_insert_inv in Ha' as [(<- & <- & _)|(_ & Ha')]; [exact (R6 _ _ Ha)|by eapply R6].
    + congruence.
  - intros h. unfold unrel. rnorm. rewrite C4. destruct (r_live r); [|done].
    apply zsum_points_to_hold. by apply map_hold_insert.
Qed.

(** A reference is given back. *)
Lemma Inv_PUnref recs holds thr wl il t i r :
  InvC recs holds thr wl il -> thr !! t = Some (PUnref i) -> recs !! i = Some r ->
  InvC (<[i:=r_setval (r_val r - 2) r]> recs) holds (<[t:=PDone]> thr) wl il.
Proof.
  intros I Ht Hr. inv_I I. pose proof (IR _ _ Hr) as R. unfold RI in R. rsplit R.
  pose proof (IT _ _ Ht) as (y & Hy & Ho). assert (y = r) by congruence. subst y.
  destruct (ref_live _ _ _ _ _ _ _ _ _ I Hr Ht (Nat.eqb_refl i)) as (Hlive & Hu & Href).
  assert (rsim r (r_setval (r_val r - 2) r)) as S by done.
  eapply Inv_rec with (p := PUnref i) (r := r); try done.
  - intros i' Hne. unfold same_counts; cbn. neqb. done.
  - intros t' p1 _ _. by apply TI_rec_sim with r.
  - unfold RI; cbn. rewrite (nref_insert _ _ _ _ _ Ht), (ninit_insert _ _ _ _ _ Ht), (nunm_insert _ _ _ _ _ Ht).
    cbn. neqb. cbn. rewrite Hlive, Ho in *. split_and!; try done; intuition lia.
  - intros h. unfold unrel. cbn. rewrite (nrel_same _ _ _ _ _ Ht); done.
Qed.

(** The compare and swap succeeds. *)
Lemma Inv_QCas recs holds thr wl il t q i r :
  InvC recs holds thr wl il -> thr !! t = Some (QCas q i) -> recs !! i = Some r -> r_val r = 0 ->
  InvC (<[i:=r_setval 1 r]> recs) holds (<[t:=QScav q i true]> thr) wl il.
Proof.
  intros I Ht Hr H0. inv_I I. pose proof (IR _ _ Hr) as R. unfold RI in R. rsplit R.
  pose proof (IT _ _ Ht) as J. cbn in J. destruct J as (J1 & J2 & J3 & J4).
  destruct (J4 i ltac:(left)) as (y & Hy & Hl & Hi). assert (y = r) by congruence. subst y.
  assert (rsim r (r_setval 1 r)) as S by done. rewrite Hl in R1.
  pose proof (nref_nonneg thr i). pose proof (nunm_nonneg thr i).
  eapply Inv_rec with (p := QCas q i) (r := r); try done.
  - intros i' Hne. unfold same_counts; cbn. neqb. done.
  - intros t' p1 _ _. by apply TI_rec_sim with r.
  - apply TI_rec_sim with r; try done.
  - unfold RI; cbn. rewrite (nref_insert _ _ _ _ _ Ht), (ninit_insert _ _ _ _ _ Ht), (nunm_insert _ _ _ _ _ Ht).
    cbn. neqb. cbn. rewrite Hl in *. split_and!; try done; try lia. destruct (r_once r); intuition lia.
  - intros h. unfold unrel. cbn. rewrite (nrel_same _ _ _ _ _ Ht); done.
Qed.

(** Move of an accumulator. *)
Lemma Inv_QMove recs holds thr wl il t q i mods ph j r a :
  InvC recs holds thr wl il -> thr !! t = Some (QMove q i mods ph j) -> recs !! i = Some r ->
  r_accs r !! j = Some a ->
  InvC (<[i:=r_setaccs (<[j:=Acc mu (a_hold a)]>) r]> recs) holds (<[t:=QMerge q i mods ph j (a_cur a)]> thr) wl il.
Proof.
  intros I Ht Hr Ha. inv_I I. pose proof (IR _ _ Hr) as R. unfold RI in R. rsplit R.
  pose proof (IT _ _ Ht) as T. cbn in T. destruct T as (TJ & (y & Hy & Ho) & (y' & Hy' & Hj) & Hcl).
  assert (y = r) by congruence. assert (y' = r) by congruence. subst y y'.
  assert (Hlt : (i < length recs)%nat) by (by eapply lookup_lt_Some).
  assert (forall i', same_counts i' (QMove q i mods ph j) (QMerge (c:=c) q i mods ph j (a_cur a))) as Ec.
  { intros i'. unfold same_counts; cbn. by destruct ph as [[]|]. }
  destruct (counts_goto thr t _ _ i Ht (Ec i)) as (C1 & C2 & C3 & C4).
  assert (length (<[j:=Acc mu (a_hold a)]> (r_accs r)) = length (r_accs r)) as El by apply insert_length.
  assert (Hst : forall p1, TI recs holds p1 -> TI (<[i:=r_setaccs (<[j:=Acc mu (a_hold a)]>) r]> recs) holds p1).
  { intros p1. apply TI_rec with r; try done; rnorm; try (rewrite El; done).
    intros E j' a' Ha'. apply lookup_insert_inv in Ha' as [(<- & <- & _)|(_ & Ha')]; [by exists a|by exists a']. }
  eapply Inv_rec with (p := QMove q i mods ph j) (r := r); try done.
  - intros t' p1 Hne Ht' HT. by apply Hst.
  - pose proof (Hst _ (IT _ _ Ht)) as T. cbn in T. destruct T as (T1 & T2 & T3 & T4).
    cbn [TI]. split_and!; try done.
    + eexists. split; [by apply list_lookup_insert|]. rnorm. rewrite El. by apply lookup_lt_Some in Ha.
    + intros ->. destruct (T4 eq_refl) as (x & Hx & Hc). exists x. split; [done|].
      intros j' a' Hj' Ha'. destruct (decide (j' = j)) as [->|Hne]; [|eapply Hc; [|done]; lia].
      rewrite list_lookup_insert in Hx by done. inversion Hx; subst. cbn in Ha'.
      apply lookup_insert_inv in Ha' as [(_ & <- & _)|(? & _)]; done.
  - unfold RI; rnorm. rewrite C1, C2, C3, El. split_and!; try done.
    + rewrite Ho in *. done.
    + intros j' a' Ha'. apply lookup_insert_inv in Ha' as [(<- & <- & _)|(_ & Ha')]; [exact (R6 _ _ Ha)|by eapply R6].
    + intros E j' a' Ha'. apply lookup_insert_inv in Ha' as [(<- & <- & _)|(_ & Ha')]; [done|by eapply R7].
  - intros h. unfold unrel. rnorm. rewrite C4. destruct (r_live r); [|done].
    apply zsum_points_to_hold. by apply map_hold_insert.
Qed.

(** An unmapped record leaves the map. *)
Lemma Inv_remove recs holds thr wl il t q i mods j r r' :
  InvC recs holds thr wl il -> thr !! t = Some (QMove q i mods (Some true) j) -> recs !! i = Some r ->
  r_accs r !! j = None ->
  r_inst r' = r_inst r -> r_once r' = r_once r -> r_accs r' = r_accs r -> r_live r' = false -> r_val r' = r_val r ->
  InvC (<[i:=r']> recs) holds (<[t:=QRecs q]> thr) wl il.
Proof.
  intros I Ht Hr Ha E1 E2 E3 E4 E5. inv_I I. pose proof (IR _ _ Hr) as R. unfold RI in R. rsplit R.
  pose proof (IT _ _ Ht) as T. cbn in T. destruct T as (TJ & (y & Hy & Ho) & (y' & Hy' & Hj) & Hcl).
  assert (y = r) by congruence. assert (y' = r) by congruence. subst y y'.
  destruct (Hcl eq_refl) as (y & Hy3 & Hc). assert (y = r) by congruence. subst y.
  destruct TJ as (J1 & J2 & J3 & J4).
  destruct (J4 i ltac:(left)) as (y & Hy'' & Hl & Hi). assert (y = r) by congruence. subst y.
  assert (Hlt : (i < length recs)%nat) by (by eapply lookup_lt_Some).
  assert (in_wl (QMove (c:=c) q i mods (Some true) j) = Some (r_inst r)) as Ew by (cbn; congruence).
  destruct (wl_counts _ _ _ _ _ _ _ _ _ I Ht Hr Ew) as (N1 & N2). cbn in N1, N2.
  rewrite Nat.eqb_refl in N1, N2. cbn in N1. rewrite Hl, N1 in R1.
  assert (Hmu : forall j' a, r_accs r !! j' = Some a -> a_cur a = mu).
  { intros j' a Ha'. eapply Hc; [|done]. apply lookup_lt_Some in Ha'. apply lookup_ge_None in Ha. lia. }
  eapply Inv_rec with (p := QMove q i mods (Some true) j) (r := r); try done.
  - intros i' Hne. unfold same_counts; cbn. neqb. done.
  - intros t' p1 Hne Ht' HT. apply TI_rec with r; try done; rewrite ?E1, ?E2, ?E3; try done.
    + intros E. destruct Hne. exact (LI_uniq _ _ _ _ _ _ _ _ _ Iwl Ht' Ht E Ew).
    + intros _ j' a' Ha'. by exists a'.
  - cbn. cbn in J3. apply list.NoDup_cons in J3 as [J3 J3']. split_and!; try done.
    intros i' Hi'. destruct (J4 i' ltac:(by right)) as (z & Hz & ? & ?). exists z.
    rewrite list_lookup_insert_ne; [done|]. intros ->. done.
  - unfold RI; cbn. rewrite E1, E2, E3, E4, E5.
    rewrite (nref_insert _ _ _ _ _ Ht), (ninit_insert _ _ _ _ _ Ht), (nunm_insert _ _ _ _ _ Ht).
    cbn. neqb. cbn. rewrite Ho in *. split_and!; try done; intuition lia.
  - intros h. unfold unrel. rewrite E4, Hl. unfold nrel. rewrite N2, Nat2Z.id.
    rewrite drop_ge; [done|]. by apply lookup_ge_None in Ha.
Qed.

(** Merge of a snapshot into its holder. *)
Lemma nrel_le recs holds thr wl il t p i r j :
  InvC recs holds thr wl il -> thr !! t = Some p -> recs !! i = Some r -> in_wl p = Some (r_inst r) ->
  released i p <= Z.of_nat j -> (nrel thr i <= j)%nat.
Proof.
  intros I Ht Hr Ew Hrel. destruct (wl_counts _ _ _ _ _ _ _ _ _ I Ht Hr Ew) as (_ & N2).
  unfold nrel. rewrite N2. lia.
Qed.

Lemma Inv_QMerge recs holds thr wl il t q i mods ph j a r ac hd x p' :
  InvC recs holds thr wl il -> thr !! t = Some (QMerge q i mods ph j a) -> recs !! i = Some r ->
  r_accs r !! j = Some ac -> holds !! a_hold ac = Some hd ->
  p' = match ph with Some true => QRel q i mods ph j | _ => QMove q i mods ph (S j) end ->
  InvC recs (<[a_hold ac:=h_setsto x hd]> holds) (<[t:=p']> thr) wl il.
Proof.
  intros I Ht Hr Ha Hh Ep. inv_I I.
  pose proof (IT _ _ Ht) as T. cbn in T. destruct T as (TJ & TD & (y' & Hy' & Hj) & Hcl).
  assert (y' = r) by congruence. subst y'.
  destruct TJ as (J1 & J2 & J3 & J4).
  destruct (J4 i ltac:(left)) as (y & Hy'' & Hl & Hi). assert (y = r) by congruence. subst y.
  assert (in_wl (QMerge (c:=c) q i mods ph j a) = Some (r_inst r)) as Ew by (cbn; congruence).
  assert (1 <= h_aux hd) as Haux.
  { eapply acc_aux_pos; [done..| |done]. eapply nrel_le; [done..|]. cbn.
    destruct ph as [[]|]; try lia. rewrite Nat.eqb_refl. lia. }
  assert (forall i', same_counts i' (QMerge q i mods ph j a) p') as Ec.
  { intros i'. subst p'. unfold same_counts; cbn. by destruct ph as [[]|]. }
  assert (Hst : forall p1, TI recs holds p1 -> TI recs (<[a_hold ac:=h_setsto x hd]> holds) p1).
  { intros p1. apply TI_hold with hd; try done. cbn. intros _ E. lia. }
  apply (Inv_goto _ _ _ _ _ _ (QMerge q i mods ph j a)); try done; try (subst p'; by destruct ph as [[]|]).
  - constructor; try done.
    + intros t' p1 H1. apply Hst. by eapply IT.
    + intros i' r1 H1. eapply RI_holds; [|by eapply IR]. by apply holds_insert_ext with hd.
    + intros h' hd1 H1. apply lookup_insert_inv in H1 as [(<- & <- & _)|(Hne & H1)]; [|by eapply IH].
      destruct (IH _ _ Hh) as (H2 & H3 & H4). split_and!; try done. cbn. intros E. destruct (H3 E). lia.
    + intros h1 h2 hd1 hd2 H1 H2 L1 L2 E1 E2.
      apply lookup_insert_inv in H1 as [(<- & <- & _)|(Hne1 & H1)];
      apply lookup_insert_inv in H2 as [(<- & <- & _)|(Hne2 & H2)]; try done; cbn in *; by eapply IU.
  - apply Hst. subst p'. destruct ph as [[]|]; cbn.
    + split_and!; try done. by exists r. by apply Hcl.
    + split_and!; try done. exists r. split; [done|lia].
    + split_and!; try done. exists r. split; [done|lia].
Qed.

(** Release of an accumulator. *)
Lemma Inv_QRel recs holds thr wl il t q i mods ph j r ac hd :
  InvC recs holds thr wl il -> thr !! t = Some (QRel q i mods ph j) -> recs !! i = Some r ->
  r_accs r !! j = Some ac -> holds !! a_hold ac = Some hd ->
  InvC recs (<[a_hold ac:=h_setaux (h_aux hd - 1) hd]> holds) (<[t:=QMove q i mods ph (S j)]> thr) wl il.
Proof.
  intros I Ht Hr Ha Hh. inv_I I.
  pose proof (IT _ _ Ht) as T. cbn in T. destruct T as (TJ & TD & (y' & Hy' & Hj) & -> & Hcl).
  assert (y' = r) by congruence. subst y'.
  destruct TJ as (J1 & J2 & J3 & J4).
  destruct (J4 i ltac:(left)) as (y & Hy'' & Hl & Hi). assert (y = r) by congruence. subst y.
  set (p := QRel (c:=c) q i mods (Some true) j). set (p' := QMove (c:=c) q i mods (Some true) (S j)).
  fold p in Ht.
  assert (in_wl p = Some (r_inst r)) as Ew by (cbn; congruence).
  assert (1 <= h_aux hd) as Haux.
  { eapply acc_aux_pos; [done..| |done]. eapply nrel_le; [done..|]. cbn. rewrite Nat.eqb_refl. lia. }
  destruct (wl_counts _ _ _ _ _ _ _ _ _ I Ht Hr Ew) as (N1 & N2). cbn in N1, N2.
  rewrite Nat.eqb_refl in N1, N2.
  set (hd' := h_setaux (h_aux hd - 1) hd).
  assert (Hst : forall p1, TI recs holds p1 -> TI recs (<[a_hold ac:=hd']> holds) p1).
  { intros p1. apply TI_hold with hd; try done. cbn. intros _ E. lia. }
  assert (C : forall i', nref (<[t:=p']> thr) i' = nref thr i' /\ ninit (<[t:=p']> thr) i' = ninit thr i' /\
               nunm (<[t:=p']> thr) i' = nunm thr i').
  { intros i'. rewrite (nref_insert _ _ _ _ _ Ht), (ninit_insert _ _ _ _ _ Ht), (nunm_insert _ _ _ _ _ Ht).
    cbn. lia. }
  assert (E : forall h', isum (unrel (<[t:=p']> thr) h') recs = isum (unrel thr h') recs - b2z (Nat.eqb (a_hold ac) h')).
  { intros h'. rewrite <- (list_insert_id recs i r Hr) at 1.
    rewrite (isum_change (unrel thr h') _ recs i r r Hr).
    - unfold unrel at 2 3. rewrite Hl, (nrel_insert _ _ _ _ _ Ht). unfold nrel. rewrite N2. cbn [released p p'].
      rewrite Nat.eqb_refl, Nat2Z.id. replace (Z.to_nat _) with (S j) by lia.
      rewrite (drop_S _ _ _ Ha). cbn. unfold points_to at 1. lia.
    - intros i' r1 Hne H1. unfold unrel. rewrite (nrel_same _ _ _ _ _ Ht); [done|]. cbn. neqb. done. }
  constructor.
  - by eapply LI_same.
  - by eapply LI_same.
  - intros t' p1 H. apply Hst. apply lookup_insert_inv in H as [(<- & <- & _)|(? & H)]; [|by eapply IT].
    cbn. split_and!; try done. exists r. split; [done|lia].
  - intros i' r1 H1. apply RI_holds with holds; [by apply holds_insert_ext with hd|].
    destruct (C i') as (C1 & C2 & C3). apply (RI_counts _ thr); try done. by eapply IR.
  - intros h' hd1 H1. apply lookup_insert_inv in H1 as [(<- & <- & _)|(Hne & H1)].
    + destruct (IH _ _ Hh) as (H2 & H3 & H4). unfold HI. cbn. rewrite E, Nat.eqb_refl. cbn.
      split; [lia|]. split; [|done]. intros L. destruct (H3 L). lia.
    + destruct (IH _ _ H1) as (H2 & H3 & H4). unfold HI. rewrite E.
      apply Nat.eqb_neq in Hne. rewrite Hne. cbn. rewrite Z.sub_0_r. done.
  - intros h1 h2 hd1 hd2 H1 H2 L1 L2 E1 E2.
    apply lookup_insert_inv in H1 as [(<- & <- & _)|(Hne1 & H1)];
    apply lookup_insert_inv in H2 as [(<- & <- & _)|(Hne2 & H2)]; try done; cbn in *; by eapply IU.
Qed.

(** The reader's steps on holders. *)
Lemma Inv_QPoint recs holds thr wl il t rd vs v todo h refs hd :
  InvC recs holds thr wl il -> thr !! t = Some (QPoint rd vs v todo h refs) -> holds !! h = Some hd ->
  InvC recs (<[h:=h_setsto mu hd]> holds) (<[t:=QDecide rd vs v todo h refs (h_sto hd)]> thr) wl il.
Proof.
  intros I Ht Hh. inv_I I. pose proof (IT _ _ Ht) as T. cbn in T. destruct T as (T1 & T2 & T3).
  assert (Hst : forall p1, TI recs holds p1 -> TI recs (<[h:=h_setsto mu hd]> holds) p1).
  { intros p1. by apply TI_hold with hd. }
  assert (Hlt : (h < length holds)%nat) by (by eapply lookup_lt_Some).
  apply (Inv_goto _ _ _ _ _ _ (QPoint rd vs v todo h refs)); try done.
  - constructor; try done.
    + intros t' p1 H1. apply Hst. by eapply IT.
    + intros i' r1 H1. eapply RI_holds; [|by eapply IR]. by apply holds_insert_ext with hd.
    + intros h' hd1 H1. apply lookup_insert_inv in H1 as [(<- & <- & _)|(Hne & H1)]; [|by eapply IH].
      destruct (IH _ _ Hh) as (H2 & H3 & H4). split_and!; try done. cbn. intros E. by destruct (H3 E).
    + intros h1 h2 hd1 hd2 H1 H2 L1 L2 E1 E2.
      apply lookup_insert_inv in H1 as [(<- & <- & _)|(Hne1 & H1)];
      apply lookup_insert_inv in H2 as [(<- & <- & _)|(Hne2 & H2)]; try done; cbn in *; by eapply IU.
  - pose proof (Hst _ (IT _ _ Ht)) as T. cbn in T. destruct T as (U1 & U2 & U3). cbn. split_and!; try done.
    intros E. split; [auto|]. exists (h_setsto mu hd). rewrite list_lookup_insert by done. done.
Qed.

Lemma Inv_QDecide_delete recs holds thr wl il t rd vs v todo h a hd :
  InvC recs holds thr wl il -> thr !! t = Some (QDecide rd vs v todo h 0 a) -> holds !! h = Some hd ->
  InvC recs (<[h:=h_setlive false hd]> holds) (<[t:=QColl rd vs v todo]> thr) wl il.
Proof.
  intros I Ht Hh. inv_I I. pose proof (IT _ _ Ht) as T. cbn in T. destruct T as (T1 & T2 & T3).
  destruct (T3 eq_refl) as ((y & Hy & Haux) & (y' & Hy' & Hsto)).
  assert (y = hd) by congruence. assert (y' = hd) by congruence. subst y y'.
  destruct T1 as (V1 & V2 & V3 & V4). destruct (V4 h ltac:(left)) as (y & Hy'' & Hl & Hv).
  assert (y = hd) by congruence. subst y.
  assert (Hlt : (h < length holds)%nat) by (by eapply lookup_lt_Some).
  constructor.
  - by eapply LI_same.
  - by eapply LI_same.
  - intros t' p1 H. apply lookup_insert_inv in H as [(<- & <- & _)|(Hne & H)].
    + cbn. apply list.NoDup_cons in V3 as [V3 V3']. split_and!; try done.
      intros h' Hh'. destruct (V4 h' ltac:(by right)) as (z & Hz & ? & ?). exists z.
      rewrite list_lookup_insert_ne; [done|]. intros ->. done.
    + apply TI_hold with hd; try done; [|by eapply IT]. rewrite Hv. intros E. exfalso. apply Hne.
      eapply LI_uniq; [apply Iil|apply Ht|done|done|done].
  - intros i' r1 H1. apply RI_holds with holds; [by apply holds_insert_ext with hd|].
    destruct (counts_goto thr t _ (QColl rd vs v todo) i' Ht ltac:(done)) as (C1 & C2 & C3 & C4).
    apply (RI_counts _ thr); try done. by eapply IR.
  - intros h' hd1 H1. apply (HI_isum recs _ thr).
    + apply isum_ext. intros i' r1 _. unfold unrel.
      destruct (counts_goto thr t _ (QColl rd vs v todo) i' Ht ltac:(done)) as (C1 & C2 & C3 & C4). by rewrite C4.
    + apply lookup_insert_inv in H1 as [(<- & <- & _)|(Hne & H1)]; [|by eapply IH].
      destruct (IH _ _ Hh) as (H2 & H3 & H4). split_and!; try done. cbn. rewrite Hv. congruence.
  - intros h1 h2 hd1 hd2 H1 H2 L1 L2 E1 E2.
    apply lookup_insert_inv in H1 as [(<- & <- & _)|(Hne1 & H1)];
    apply lookup_insert_inv in H2 as [(<- & <- & _)|(Hne2 & H2)]; try done; cbn in *; by eapply IU.
Qed.

(** ** All steps *)
Lemma Inv_init : Inv (init c).
Proof.
  constructor; try done; cbn.
  - split; [by rewrite map_length|]. split; [done|]. intros t o H. apply list_lookup_fmap_Some in H as (? & ? & ?). done.
  - split; [by rewrite map_length|]. split; [done|]. intros t o H. apply list_lookup_fmap_Some in H as (? & ? & ?). done.
Qed.

Lemma Inv_spawn recs holds thr wl il p :
  InvC recs holds thr wl il -> in_wl p = None -> in_il p = None ->
  (forall i, holds_ref i p = false /\ initialising i p = false /\ unmapping i p = false /\ released i p = 0) ->
  TI recs holds p -> InvC recs holds (thr ++ [p]) wl il.
Proof.
  intros I Ew Ei Ec HT. inv_I I.
  assert (forall i, nref (thr ++ [p]) i = nref thr i /\ ninit (thr ++ [p]) i = ninit thr i /\
     nunm (thr ++ [p]) i = nunm thr i /\ nrel (thr ++ [p]) i = nrel thr i) as C.
  { intros i. destruct (Ec i) as (E1 & E2 & E3 & E4).
    unfold nref, ninit, nunm, nrel. rewrite !zsum_app. cbn. rewrite E1, E2, E3, E4. cbn.
    split_and!; [lia..|f_equal; lia]. }
  constructor; try done.
  - by apply LI_spawn.
  - by apply LI_spawn.
  - intros t' p1 H. apply lookup_snoc in H as [H|[-> ->]]; [by eapply IT|done].
  - intros i r Hr. destruct (C i) as (C1 & C2 & C3 & C4). apply (RI_counts _ thr); try done. by eapply IR.
  - intros h hd Hh. apply (HI_isum recs _ thr); [|by eapply IH]. apply isum_ext. intros i r _.
    unfold unrel. destruct (C i) as (C1 & C2 & C3 & ->). done.
Qed.

Lemma find_read_spec o k (s : st) i :
  find_read o k s = Some i -> exists r, s_recs s !! i = Some r /\ r_live r = true /\ r_inst r = o /\
    c_fp c (r_attrs r) = c_fp c k /\ (c_ignore c = true \/ c_keq c k (r_attrs r) = true).
Proof.
  intros H. apply find_last_Some in H as (r & Hr & E). exists r.
  rewrite !andb_true_iff, orb_true_iff in E. destruct E as (((E1 & E2) & E3) & E4).
  apply Nat.eqb_eq in E2. apply Z.eqb_eq in E3. done.
Qed.
Lemma find_write_spec o k (s : st) i :
  find_write o k s = Some i -> exists r, s_recs s !! i = Some r /\ r_live r = true /\ r_inst r = o /\
    c_fp c (r_attrs r) = c_fp c k /\ (c_ignore c = true \/ c_keq c (r_attrs r) k = true).
Proof.
  intros H. apply find_last_Some in H as (r & Hr & E). exists r.
  rewrite !andb_true_iff, orb_true_iff in E. destruct E as (((E1 & E2) & E3) & E4).
  apply Nat.eqb_eq in E2. apply Z.eqb_eq in E3. done.
Qed.

(** Under the read lock with no writer, the lookup either misses or takes a reference. *)
Lemma try_read_spec (s : st) t p o k :
  Inv s -> s_thr s !! t = Some p -> in_wl p = None -> in_il p = None ->
  (forall j, holds_ref j p = false /\ initialising j p = false /\ unmapping j p = false /\ released j p = 0) ->
  s_wl s !! o = Some None ->
  (try_read o k s = (s, None) /\ find_read o k s = None) \/
  exists i r s', find_read o k s = Some i /\ s_recs s !! i = Some r /\ try_read o k s = (s', Some i) /\
     s' = upd_rec i (r_setval (r_val r + 2) r) s /\
     forall n, Inv (goto t (PInit i n) s').
Proof.
  intros I Ht Ew Ei Ec Hw. unfold try_read. destruct (find_read o k s) as [i|] eqn:F; [|by left].
  right. destruct (find_read_spec _ _ _ _ F) as (r & Hr & Hl & Ho & _). subst o.
  unfold ref. rewrite Hr.
  assert (Z.even (r_val r + 2) = true) as ->.
  { pose proof (wl_free_nunm _ _ _ _ _ _ _ I Hr Hw) as Hu.
    destruct (I_R _ _ _ _ _ I _ _ Hr) as (R1 & _). rewrite Hl, Hu in R1. rewrite R1.
    rewrite Z.add_0_r, Z.even_add, Z.even_mul. done. }
  eexists i, r, _. split_and!; try done. intros n.
  apply (Inv_ref _ _ _ _ _ t p i r n I); done.
Qed.

End inv.
