(** Every step of the synchronous instrument model preserves the invariant of SyncInv. *)
From Coq Require Import ZArith Lia Bool.
From stdpp Require Import base list option.
From Verif Require Import Base Lib SyncModel SyncSpec SyncInv.
Local Open Scope Z_scope.

Section inv.
Context {c : config} (WF : wf c).
Notation A := (car (c_mon c)).
Notation num := (c_num c).
Notation K := (c_K c).
Notation key := (c_key c).
Notation st := (state c).
Notation pcT := (pc c).
Notation recT := (rec c).
Notation holdT := (holder c).

Implicit Types (recs : list recT) (holds : list holdT) (thr : list pcT) (p : pcT) (r : recT).

Lemma find_last_Some {X} (P : X -> bool) l i :
  find_last P l = Some i -> exists x, l !! i = Some x /\ P x = true.
Proof.
  revert i. induction l as [|x l IH]; cbn; intros i H; [done|].
  destruct (find_last P l) as [j|].
  - inversion H; subst. cbn. by apply IH.
  - destruct (P x) eqn:E; [|done]. inversion H; subst. by exists x.
Qed.
Lemma find_last_None {X} (P : X -> bool) l :
  find_last P l = None -> forall i x, l !! i = Some x -> P x = false.
Proof.
  induction l as [|x l IH]; cbn; intros H i y Hy; [done|].
  destruct (find_last P l) as [j|]; [done|]. destruct (P x) eqn:E; [done|].
  destruct i as [|i]; cbn in Hy; [by inversion Hy; subst|]. by eapply IH.
Qed.
Lemma find_first_Some {X} (P : X -> bool) l i :
  find_first P l = Some i -> exists x, l !! i = Some x /\ P x = true.
Proof.
  revert i. induction l as [|x l IH]; cbn; intros i H; [done|].
  destruct (P x) eqn:E; [inversion H; subst; by exists x|].
  destruct (find_first P l) as [j|]; cbn in H; [|done]. inversion H; subst. cbn. by apply IH.
Qed.
Lemma find_first_None {X} (P : X -> bool) l :
  find_first P l = None -> forall i x, l !! i = Some x -> P x = false.
Proof.
  induction l as [|x l IH]; cbn; intros H i y Hy; [done|].
  destruct (P x) eqn:E; [done|]. destruct (find_first P l) as [j|]; [done|].
  destruct i as [|i]; cbn in Hy; [by inversion Hy; subst|]. by eapply IH.
Qed.
Lemma elem_of_filter_seq (P : nat -> bool) n i :
  i ∈ List.filter P (seq 0 n) <-> P i = true /\ (i < n)%nat.
Proof. rewrite elem_of_list_In, filter_In, in_seq. intuition lia. Qed.
Lemma NoDup_filter_seq (P : nat -> bool) n m : NoDup (List.filter P (seq n m)).
Proof. apply NoDup_ListNoDup, List.NoDup_filter, seq_NoDup. Qed.
Lemma elem_of_delete {X} (l : list X) i x : x ∈ delete i l -> x ∈ l.
Proof. rewrite !elem_of_list_In. revert i. induction l as [|y l IH]; intros [|i]; cbn; try done; [by right|]. intros [->|H]; [by left|right; by eapply IH]. Qed.

Lemma NoDup_delete {X} (l : list X) i : NoDup l -> NoDup (delete i l).
Proof.
  revert i. induction l as [|y l IH]; intros [|i] H; cbn; try done; apply list.NoDup_cons in H as [H1 H2]; [done|].
  change (NoDup (y :: delete i l)). apply list.NoDup_cons. split; [|by apply IH].
  intros H. by apply elem_of_delete in H.
Qed.
Lemma NoDup_lookup_delete {X} (l : list X) i x : NoDup l -> l !! i = Some x -> x ∉ delete i l.
Proof.
  revert i. induction l as [|y l IH]; intros [|i] H Hx Hd; try done; apply list.NoDup_cons in H as [H1 H2].
  - cbn in Hx. inversion Hx; subst. done.
  - change (x ∈ y :: delete i l) in Hd. apply elem_of_cons in Hd as [->|Hd]; [|by eapply IH].
    apply H1. by eapply elem_of_list_lookup_2.
Qed.

(** ** Who is unmapping *)
Lemma unmapping_wl recs holds p i :
  TI recs holds p -> unmapping i p = true -> exists o, in_wl p = Some o /\ liver recs o i.
Proof.
  intros HT Hu. destruct p; cbn in *; try done.
  - destruct unm; [|done]. apply Nat.eqb_eq in Hu. subst. eexists. split; [done|]. apply HT. left.
  - destruct ph as [[]|]; try done. apply Nat.eqb_eq in Hu. subst. eexists. split; [done|]. apply HT. left.
  - destruct ph as [[]|]; try done. apply Nat.eqb_eq in Hu. subst. eexists. split; [done|]. apply HT. left.
  - destruct ph as [[]|]; try done. apply Nat.eqb_eq in Hu. subst. eexists. split; [done|]. apply HT. left.
Qed.
Lemma released_unmapping (p : pcT) i : unmapping i p = false -> released i p = 0.
Proof.
  destruct p; cbn; try done; destruct ph as [[]|]; try done; by intros ->.
Qed.
Lemma nunm_zero_nrel (thr : list pcT) i : nunm thr i = 0 -> zsum (released i) thr = 0.
Proof.
  intros H. assert (forall p, p ∈ thr -> released i p = 0) as E.
  { intros p Hp. apply released_unmapping.
    pose proof (zsum_zero _ _ (fun y => proj1 (b2z_range (unmapping i y))) H p Hp) as Z0. cbn in Z0.
    by destruct (unmapping i p). }
  rewrite (zsum_ext _ (fun _ => 0)) by done. clear. induction thr; cbn; lia.
Qed.
Lemma wl_free_nunm recs holds thr wl il i r :
  InvC recs holds thr wl il -> recs !! i = Some r -> wl !! r_inst r = Some None -> nunm thr i = 0.
Proof.
  intros I Hr Hw. pose proof (nunm_nonneg thr i). destruct (Z.eq_dec (nunm thr i) 0) as [|Hne]; [done|exfalso].
  destruct (zsum_pos (fun p => b2z (unmapping i p)) thr) as (t & p & Ht & Hp); [unfold nunm in *; lia|].
  destruct (unmapping i p) eqn:E; [|cbn in Hp; lia].
  destruct (unmapping_wl _ _ _ _ (I_T _ _ _ _ _ I _ _ Ht) E) as (o & Ho & (x & Hx & _ & Hi)).
  destruct (I_wl _ _ _ _ _ I) as (_ & L & _). specialize (L _ _ _ Ht Ho).
  assert (x = r) by congruence. subst. congruence.
Qed.
Lemma zsum_alone (f : pcT -> Z) thr t p :
  thr !! t = Some p -> (forall t' p', t' <> t -> thr !! t' = Some p' -> f p' = 0) -> zsum f thr = f p.
Proof.
  revert t. induction thr as [|q thr IH]; intros [|t] Ht H; try done; cbn in *.
  - inversion Ht; subst. assert (zsum f thr = 0) as ->; [|lia].
    assert (forall t' p', thr !! t' = Some p' -> f p' = 0) as H'. { intros t' p'. by apply (H (S t')). }
    clear -H'. induction thr as [|q thr IH]; cbn; [done|].
    rewrite (H' 0%nat q eq_refl), IH; [done|]. intros t' p'. by apply (H' (S t')).
  - rewrite (IH t Ht); [|intros t' p' Hne; apply (H (S t')); lia]. rewrite (H 0%nat q); [lia|lia|done].
Qed.
Lemma wl_counts recs holds thr wl il t p i r :
  InvC recs holds thr wl il -> thr !! t = Some p -> recs !! i = Some r -> in_wl p = Some (r_inst r) ->
  nunm thr i = b2z (unmapping i p) /\ zsum (released i) thr = released i p.
Proof.
  intros I Ht Hr Hp.
  assert (forall t' p', t' <> t -> thr !! t' = Some p' -> unmapping i p' = false) as H.
  { intros t' p' Hne Ht'. destruct (unmapping i p') eqn:E; [|done].
    destruct (unmapping_wl _ _ _ _ (I_T _ _ _ _ _ I _ _ Ht') E) as (o & Ho & (x & Hx & _ & Hi)).
    assert (x = r) by congruence. subst. destruct Hne.
    eapply LI_uniq; [apply (I_wl _ _ _ _ _ I)|done..]. }
  split.
  - apply (zsum_alone (fun p => b2z (unmapping i p)) thr t p Ht). intros t' p' Hne Ht'. by rewrite (H _ _ Hne Ht').
  - apply zsum_alone with t; [done|]. intros t' p' Hne Ht'. apply released_unmapping. eauto.
Qed.

Lemma ref_live recs holds thr wl il i r t p :
  InvC recs holds thr wl il -> recs !! i = Some r -> thr !! t = Some p -> holds_ref i p = true ->
  r_live r = true /\ nunm thr i = 0 /\ 1 <= nref thr i.
Proof.
  intros I Hr Ht Hp. destruct (I_R _ _ _ _ _ I _ _ Hr) as (H1 & H2 & H3 & _).
  pose proof (nref_pos _ _ _ _ Ht Hp). pose proof (nunm_nonneg thr i).
  repeat split; [|lia|done]. destruct (r_live r); [done|]. specialize (H2 eq_refl). lia.
Qed.

(** An unreleased accumulator keeps its holder referenced. *)
Lemma unrel_ge thr h i (r : recT) j a :
  r_live r = true -> r_accs r !! j = Some a -> (nrel thr i <= j)%nat -> a_hold a = h ->
  1 <= unrel thr h i r.
Proof.
  intros Hl Ha Hn Hh. unfold unrel. rewrite Hl.
  assert (drop (nrel thr i) (r_accs r) !! (j - nrel thr i)%nat = Some a) as E.
  { rewrite lookup_drop. rewrite <- Ha. f_equal. lia. }
  pose proof (zsum_elem (points_to h) _ _ _ (fun y => proj1 (b2z_range _)) E) as L.
  unfold points_to in L at 1. rewrite Hh, Nat.eqb_refl in L. exact L.
Qed.
Lemma acc_aux_pos recs holds thr wl il i r j a hd :
  InvC recs holds thr wl il -> recs !! i = Some r -> r_live r = true -> r_accs r !! j = Some a ->
  (nrel thr i <= j)%nat -> holds !! a_hold a = Some hd -> 1 <= h_aux hd.
Proof.
  intros I Hr Hl Ha Hn Hh. destruct (I_H _ _ _ _ _ I _ _ Hh) as (E & _). rewrite E.
  pose proof (isum_elem (unrel thr (a_hold a)) recs i r (fun j z => unrel_nonneg _ _ j z) Hr).
  pose proof (unrel_ge thr _ _ _ _ _ Hl Ha Hn eq_refl). lia.
Qed.

Lemma zsum_points_to_hold h n (l l' : list (acc c)) :
  map a_hold l = map a_hold l' -> zsum (points_to h) (drop n l) = zsum (points_to h) (drop n l').
Proof.
  revert n l'. induction l as [|x l IH]; intros n [|y l'] E; cbn in E; try done.
  inversion E as [[E1 E2]]. destruct n; cbn.
  - unfold points_to at 1 3. rewrite E1. f_equal. apply (IH 0%nat). exact E2.
  - by apply IH.
Qed.
Lemma map_hold_insert (l : list (acc c)) j a x :
  l !! j = Some a -> map a_hold (<[j:=Acc x (a_hold a)]> l) = map a_hold l.
Proof.
  intros H. change (map a_hold) with (fmap (M:=list) (@a_hold c)). rewrite list_fmap_insert. cbn.
  apply list_insert_id. rewrite list_lookup_fmap, H. done.
Qed.

(** Updates that change neither instrument, map membership, once nor accumulators. *)
Definition rsim (r r' : recT) : Prop :=
  r_inst r' = r_inst r /\ r_once r' = r_once r /\ r_accs r' = r_accs r /\ r_live r' = r_live r.
Lemma TI_rec_sim recs holds p i r r' :
  recs !! i = Some r -> rsim r r' -> TI recs holds p -> TI (<[i:=r']> recs) holds p.
Proof.
  intros Hr (E1 & E2 & E3 & E4). apply TI_rec with r; rewrite ?E1, ?E2, ?E3, ?E4; try done.
  intros _ j a' Ha. by exists a'.
Qed.

Ltac inv_I I := pose proof (I_wl _ _ _ _ _ I) as Iwl; pose proof (I_il _ _ _ _ _ I) as Iil;
  pose proof (I_T _ _ _ _ _ I) as IT; pose proof (I_R _ _ _ _ _ I) as IR;
  pose proof (I_H _ _ _ _ _ I) as IH; pose proof (I_U _ _ _ _ _ I) as IU.

Lemma nref_insert (thr : list pcT) t p p' i : thr !! t = Some p ->
  nref (<[t:=p']> thr) i = nref thr i - b2z (holds_ref i p) + b2z (holds_ref i p').
Proof. intros H. apply (zsum_insert (fun p => b2z (holds_ref i p)) _ _ _ _ H). Qed.
Lemma ninit_insert (thr : list pcT) t p p' i : thr !! t = Some p ->
  ninit (<[t:=p']> thr) i = ninit thr i - b2z (initialising i p) + b2z (initialising i p').
Proof. intros H. apply (zsum_insert (fun p => b2z (initialising i p)) _ _ _ _ H). Qed.
Lemma nunm_insert (thr : list pcT) t p p' i : thr !! t = Some p ->
  nunm (<[t:=p']> thr) i = nunm thr i - b2z (unmapping i p) + b2z (unmapping i p').
Proof. intros H. apply (zsum_insert (fun p => b2z (unmapping i p)) _ _ _ _ H). Qed.
Lemma nrel_insert (thr : list pcT) t p p' i : thr !! t = Some p ->
  nrel (<[t:=p']> thr) i = Z.to_nat (zsum (released i) thr - released i p + released i p').
Proof. intros H. unfold nrel. by rewrite (zsum_insert _ _ _ _ _ H). Qed.

(** *** A reference is taken *)
Lemma Inv_ref recs holds thr wl il t p i r n :
  InvC recs holds thr wl il -> thr !! t = Some p -> recs !! i = Some r -> r_live r = true ->
  wl !! r_inst r = Some None ->
  in_wl p = None -> in_il p = None ->
  (forall j, holds_ref j p = false /\ initialising j p = false /\ unmapping j p = false /\ released j p = 0) ->
  Z.even (r_val r + 2) = true /\
  InvC (<[i:=r_setval (r_val r + 2) r]> recs) holds (<[t:=PInit i n]> thr) wl il.
Proof.
  intros I Ht Hr Hl Hw Ew Ei Ec. inv_I I.
  pose proof (wl_free_nunm _ _ _ _ _ _ _ I Hr Hw) as Hu.
  pose proof (IR _ _ Hr) as (R1 & R2 & R3 & R4 & R5 & R6 & R7). rewrite Hl, Hu in R1.
  pose proof (Ec i) as (C1 & C2 & C3 & C4).
  split. { rewrite R1. replace (2 * nref thr i + 0 + 2) with (2 * (nref thr i + 1)) by lia.
           rewrite Z.even_mul. done. }
  assert (rsim r (r_setval (r_val r + 2) r)) as S by done.
  eapply Inv_rec with (p := p) (r := r); try done.
  - intros i' Hne. destruct (Ec i') as (D1 & D2 & D3 & D4). unfold same_counts.
    rewrite D1, D2, D3, D4. cbn. assert (Nat.eqb i i' = false) as -> by (apply Nat.eqb_neq; lia). done.
  - intros t' p1 _ _. by apply TI_rec_sim with r.
  - eexists. rewrite list_lookup_insert; [done|by eapply lookup_lt_Some].
  - unfold RI. cbn. rewrite (nref_insert _ _ _ _ _ Ht), (ninit_insert _ _ _ _ _ Ht), (nunm_insert _ _ _ _ _ Ht).
    rewrite C1, C2, C3. cbn. rewrite Nat.eqb_refl. cbn. rewrite Hl, Hu.
    split_and!; try done; try lia. destruct (r_once r); intuition lia.
  - intros h. unfold unrel. cbn. rewrite (nrel_insert _ _ _ _ _ Ht), C4. cbn.
    unfold nrel. by replace (zsum (released i) thr - 0 + 0) with (zsum (released i) thr) by lia.
Qed.

(** *** A record is created *)
Lemma Inv_new recs holds thr wl il t p n o k :
  InvC recs holds thr wl il -> thr !! t = Some p -> (o < length (c_insts c))%nat ->
  in_wl p = None -> in_il p = None ->
  (forall j, holds_ref j p = false /\ initialising j p = false /\ unmapping j p = false /\ released j p = 0) ->
  InvC (recs ++ [new_rec o k]) holds (<[t:=PInit (length recs) n]> thr) wl il.
Proof.
  intros I Ht Ho Ew Ei Ec. inv_I I.
  assert (NR : forall t' p1, thr !! t' = Some p1 -> holds_ref (length recs) p1 = false /\
     initialising (length recs) p1 = false /\ unmapping (length recs) p1 = false).
  { intros t' p1 H1. specialize (IT _ _ H1).
    assert (~ isrec recs (length recs)) as N. { intros (x & Hx). apply lookup_lt_Some in Hx. lia. }
    assert (holds_ref (length recs) p1 = false) as E1.
    { destruct (holds_ref (length recs) p1) eqn:E; [|done]. destruct N.
      destruct p1; cbn in E; try done; apply Nat.eqb_eq in E; subst; cbn in IT.
      - done.
      - destruct IT as (x & ? & _). by exists x.
      - destruct IT as ((x & ? & _) & _). by exists x.
      - destruct IT as (x & ? & _). by exists x.
      - destruct IT as (x & ? & _). by exists x. }
    split; [done|]. split.
    - destruct p1; cbn in *; done.
    - destruct (unmapping (length recs) p1) eqn:E; [|done]. destruct N.
      destruct (unmapping_wl _ _ _ _ IT E) as (o' & _ & (x & ? & _)). by exists x. }
  assert (Z0 : forall f : pcT -> Z, (forall t' p1, thr !! t' = Some p1 -> f p1 = 0) -> zsum f thr = 0).
  { intros f Hf. rewrite (zsum_alone f thr t p Ht); [by eapply Hf|]. intros; by eapply Hf. }
  assert (nref thr (length recs) = 0) as N1.
  { apply Z0. intros t' p1 H1. destruct (NR _ _ H1) as (E & _ & _). by rewrite E. }
  assert (ninit thr (length recs) = 0) as N2.
  { apply Z0. intros t' p1 H1. destruct (NR _ _ H1) as (_ & E & _). by rewrite E. }
  assert (nunm thr (length recs) = 0) as N3.
  { apply Z0. intros t' p1 H1. destruct (NR _ _ H1) as (_ & _ & E). by rewrite E. }
  constructor; try done.
  - eapply LI_same; try done.
  - eapply LI_same; try done.
  - intros t' p1 H. apply lookup_insert_inv in H as [(<- & <- & _)|(? & H)].
    + eexists. apply list_lookup_app_last.
    + apply TI_rec_app. by eapply IT.
  - intros i' r1 H1.
    destruct (Ec i') as (C1 & C2 & C3 & C4).
    assert (nref (<[t:=PInit (length recs) n]> thr) i' = nref thr i' + b2z (Nat.eqb (length recs) i')) as E1.
    { rewrite (nref_insert _ _ _ _ _ Ht), C1. cbn. lia. }
    assert (ninit (<[t:=PInit (length recs) n]> thr) i' = ninit thr i') as E2.
    { rewrite (ninit_insert _ _ _ _ _ Ht), C2. cbn. lia. }
    assert (nunm (<[t:=PInit (length recs) n]> thr) i' = nunm thr i') as E3.
    { rewrite (nunm_insert _ _ _ _ _ Ht), C3. cbn. lia. }
    apply lookup_snoc in H1 as [H1|[-> ->]].
    + assert (Nat.eqb (length recs) i' = false) as E0.
      { apply Nat.eqb_neq. apply lookup_lt_Some in H1. lia. }
      rewrite E0 in E1. cbn in E1. eapply RI_counts; [..|by eapply IR]; lia.
    + unfold RI. cbn. rewrite E1, E2, E3, N1, N2, N3, Nat.eqb_refl. cbn. split_and!; try done.
  - intros h hd Hh. eapply HI_isum; [|by eapply IH]. rewrite isum_snoc.
    unfold unrel at 2. cbn. rewrite drop_nil. cbn.
    rewrite Z.add_0_r. apply isum_ext. intros i' r1 _. unfold unrel.
    rewrite (nrel_insert _ _ _ _ _ Ht). destruct (Ec i') as (_ & _ & _ & ->). cbn.
    unfold nrel. by replace (zsum (released i') thr - 0 + 0) with (zsum (released i') thr) by lia.
Qed.

(** *** A holder is created *)
Lemma Inv_newholder recs holds thr wl il v k :
  InvC recs holds thr wl il ->
  (forall h hd, holds !! h = Some hd -> h_live hd && Nat.eqb (h_view hd) v && bool_decide (h_key hd = k) = false) ->
  InvC recs (holds ++ [Holder v k true 0 mu]) thr wl il.
Proof.
  intros I Hf. inv_I I. constructor; try done.
  - intros t p Ht. apply TI_hold_app. by eapply IT.
  - intros i r Hr. eapply RI_holds; [|by eapply IR]. intros h hd Hh. exists hd.
    split; [by apply lookup_app_l_Some|done].
  - intros h hd Hh. apply lookup_snoc in Hh as [Hh|[-> ->]]; [by eapply IH|].
    split; [|done]. cbn.
    assert (forall i r, recs !! i = Some r -> unrel thr (length holds) i r = 0) as E.
    { intros i r Hr. unfold unrel. destruct (r_live r); [|done].
      destruct (IR _ _ Hr) as (_ & _ & _ & _ & _ & R6 & _).
      assert (forall a, a ∈ r_accs r -> points_to (length holds) a = 0) as E.
      { intros a Ha. apply elem_of_list_lookup in Ha as (j & Ha). destruct (R6 _ _ Ha) as (hd & Hh & _).
        unfold points_to. assert (Nat.eqb (a_hold a) (length holds) = false) as ->; [|done].
        apply Nat.eqb_neq. apply lookup_lt_Some in Hh. lia. }
      rewrite (zsum_ext _ (fun _ => 0)).
      - generalize (drop (nrel thr i) (r_accs r)). intros l. induction l; cbn; lia.
      - intros a Ha. apply E. apply elem_of_list_lookup in Ha as (j & Ha). rewrite lookup_drop in Ha. by eapply elem_of_list_lookup_2. }
    symmetry. rewrite (isum_ext (fun _ _ => 0)) by done.
    unfold isum. generalize 0%nat. clear. induction recs as [|x recs IH]; intros n; cbn; [done|]. by rewrite IH.
  - intros h h' hd hd' Hh Hh' Hl Hl' Ev Ek.
    apply lookup_snoc in Hh as [Hh|[-> ->]]; apply lookup_snoc in Hh' as [Hh'|[-> ->]]; [by eapply IU|..|done];
      cbn in *; exfalso.
    + specialize (Hf _ _ Hh). rewrite Hl, Ev, Ek, Nat.eqb_refl, bool_decide_true in Hf; done.
    + specialize (Hf _ _ Hh'). rewrite Hl', <- Ev, <- Ek, Nat.eqb_refl, bool_decide_true in Hf; done.
Qed.

End inv.
