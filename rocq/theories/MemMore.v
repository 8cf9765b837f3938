(** C65: measurements with equal attributes share a record. *)
From Coq Require Import ZArith Bool String Lia.
From stdpp Require Import base list option strings.
From Verif Require Import Base SyncModel Attr AttrSpec AttrProofs Mem MemSpec MemProofs.
Local Open Scope nat_scope.

Section more.
Context (farm : string -> Z) (n : nat) (ignore : bool).
Notation inv := (inv farm n ignore).

Definition kept (y : mrec) : list kv := match r_held y with Kept l => l | _ => [] end.
Definition mapped (s : mem) : Prop := forall c x r, m_calls s !! c = Some x -> c_place x = Init r -> r ∈ m_map s.
Definition apart (s : mem) : Prop := forall r1 r2 y1 y2, r1 ∈ m_map s -> r2 ∈ m_map s -> r1 < r2 -> m_recs s !! r1 = Some y1 -> m_recs s !! r2 = Some y2 ->
  r_inst y1 = r_inst y2 -> r_fp y1 = r_fp y2 -> ignore = false /\ attributes_equal (kept y1) (kept y2) = false.

Lemma kept_contents s r y : inv s -> ignore = false -> m_recs s !! r = Some y -> contents s (r_held y) = kept y.
Proof.
  intros (_ & _ & I & _) G H. destruct (I r y H) as [_ K]. unfold kept, contents. destruct (r_set y), (r_held y); try done; destruct K; congruence.
Qed.
Lemma mapped_put s s' c x p : mapped s -> m_map s' = m_map s -> m_calls s' = <[c := x]> (m_calls s) -> c_place x = p -> (forall r, p = Init r -> r ∈ m_map s) -> mapped s'.
Proof.
  intros M E1 E2 P H c' x' r Hc Hr. rewrite E1. rewrite E2 in Hc. apply list_lookup_insert_Some in Hc as [(_ & <- & _)|[_ Hc]]; [apply H; congruence|by eapply M].
Qed.
Lemma apart_same s s' : apart s -> m_recs s' = m_recs s -> m_map s' = m_map s -> apart s'.
Proof. intros A E1 E2 r1 r2 y1 y2. rewrite E1, E2. apply A. Qed.
Lemma find_rec_map s i fp eq r : find_rec ignore s i fp eq = Some r -> r ∈ m_map s.
Proof. intros H. apply List.find_some in H as [H _]. by apply elem_of_list_In. Qed.
Lemma find_rec_none s i fp eq r y : find_rec ignore s i fp eq = None -> r ∈ m_map s -> m_recs s !! r = Some y -> r_inst y = i -> r_fp y = fp ->
  ignore = false /\ eq (contents s (r_held y)) = false.
Proof.
  intros H M Hy E1 E2. apply List.find_none with (x := r) in H; [|by apply elem_of_list_In]. rewrite Hy, E1, E2, Nat.eqb_refl, Z.eqb_refl in H. cbn in H.
  apply orb_false_iff in H. done.
Qed.

Lemma more_go s c over s' : inv s -> mapped s -> apart s -> go farm n ignore s c over = Some s' -> mapped s' /\ apart s'.
Proof.
  intros I M A E. unfold go in E. destruct (m_calls s !! c) as [x|] eqn:Hc; [|done]. cbn [mbind option_bind] in E.
  assert (Q : forall s1 x1, m_recs s1 = m_recs s -> m_map s1 = m_map s -> m_calls s1 = <[c := x1]> (m_calls s) -> (forall r, c_place x1 = Init r -> r ∈ m_map s) -> mapped s1 /\ apart s1).
  { intros s1 x1 E1 E2 E3 P. split; [by eapply mapped_put|by eapply apart_same]. }
  destruct (c_place x) as [i|i a|i a|i fp|fp|fp|fp l|r|r] eqn:P; cbn beta iota zeta in E.
  - destruct (array s (c_arr x) !! i); injection E as <-; by eapply Q.
  - injection E as <-; by eapply Q.
  - injection E as <-; by eapply Q.
  - destruct (array s (c_arr x) !! i); injection E as <-; by eapply Q.
  - destruct (find_rec ignore s (c_inst x) fp (attributes_equal (array s (c_arr x)))) as [r|] eqn:F.
    { injection E as <-. eapply Q; [done..|]. intros r' [= <-]. by eapply find_rec_map. }
    destruct over; [|injection E as <-; by eapply Q].
    destruct (find_rec ignore s (c_inst x) _ (attributes_equal overflow_attrs)) as [r|] eqn:F2; injection E as <-; [|by eapply Q].
    eapply Q; [done..|]. intros r' [= <-]. by eapply find_rec_map.
  - injection E as <-; by eapply Q.
  - destruct (find_rec ignore s (c_inst x) fp _) as [r|] eqn:F; injection E as <-.
    { eapply Q; [done..|]. intros r' [= <-]. by eapply find_rec_map. }
    clear Q. split.
    + intros c' x' r Hx Hr. cbn in Hx |- *. apply list_lookup_insert_Some in Hx as [(_ & <- & _)|[_ Hx]]; [injection Hr as <-; left|right; by eapply M].
    + intros r1 r2 y1 y2 M1 M2 L H1 H2 Ei Ef. cbn in *. pose proof I as (_ & Lm & _ & Ic).
      apply elem_of_cons in M1 as [->|M1].
      { apply elem_of_cons in M2 as [->|M2]; [lia|]. apply Lm in M2. lia. }
      assert (Hy1 : m_recs s !! r1 = Some y1) by (pose proof (Lm _ M1); by rewrite lookup_app_l in H1 by lia).
      apply elem_of_cons in M2 as [->|M2].
      * rewrite lookup_app_r, Nat.sub_diag in H2 by lia. injection H2 as <-. cbn in Ei, Ef.
        destruct (find_rec_none _ _ _ _ _ _ F M1 Hy1 Ei Ef) as [G H]. split; [done|].
        rewrite (kept_contents s r1 y1 I G Hy1) in H. destruct (Ic c x Hc) as [_ C]. rewrite P in C. destruct C as (_ & _ & [[-> _]|[? _]]); [|congruence]. done.
      * pose proof (Lm _ M2). rewrite lookup_app_l in H2 by lia. by apply (A r1 r2 y1 y2).
  - destruct (m_recs s !! r) as [y|] eqn:Hy; [|done]. cbn [mbind option_bind] in E. destruct (r_set y) eqn:Sy; injection E as <-.
    { by eapply Q. }
    clear Q. split; [by apply (mapped_put s _ c (MCall (c_inst x) (c_arr x) (c_given x) (c_over x) (Returned r)) (Returned r))|]. intros r1 r2 y1 y2 M1 M2 L H1 H2 Ei Ef. cbn in *.
    assert (W : forall r' y', <[r := MRec (r_inst y) (r_fp y) (if ignore then Dropped else r_held y) (Some (contents s (r_held y)))]> (m_recs s) !! r' = Some y' ->
              exists y0, m_recs s !! r' = Some y0 /\ r_inst y0 = r_inst y' /\ r_fp y0 = r_fp y' /\ (ignore = false -> kept y0 = kept y')).
    { intros r' y' H. apply list_lookup_insert_Some in H as [(<- & <- & _)|[_ H]]; [|by exists y'].
      exists y. split; [done|]. split; [done|]. split; [done|]. intros ->. done. }
    destruct (W _ _ H1) as (z1 & Hz1 & I1 & F1 & K1). destruct (W _ _ H2) as (z2 & Hz2 & I2 & F2 & K2).
    destruct (A r1 r2 z1 z2 M1 M2 L Hz1 Hz2 ltac:(congruence) ltac:(congruence)) as [G H]. split; [done|]. by rewrite <- (K1 G), <- (K2 G).
  - done.
Qed.
Lemma more_step s a s' : inv s -> mapped s -> apart s -> mstep farm n ignore s a = Some s' -> mapped s' /\ apart s'.
Proof.
  intros I M A E.
  assert (N : forall r, first_place n <> Init r) by (intros r; unfold first_place; by destruct n).
  assert (Q : forall s1 x1, m_recs s1 = m_recs s -> m_map s1 = m_map s -> m_calls s1 = m_calls s ++ [x1] -> c_place x1 = first_place n -> mapped s1 /\ apart s1).
  { intros s1 x1 E1 E2 E3 P. split; [|by eapply apart_same]. intros c x r Hc Hr. rewrite E2. rewrite E3 in Hc. apply lookup_app_Some in Hc as [Hc|[_ Hc]]; [by eapply M|].
    apply list_lookup_singleton_Some in Hc as [_ <-]. destruct (N r). congruence. }
  destruct a as [l|a i v|i a|i opts|c o|r]; cbn in E.
  - injection E as <-. done.
  - destruct (m_user s !! a) as [[|]|]; try done. destruct (existsb _ _); [done|]. by injection E as <-.
  - destruct (m_user s !! a) as [[|]|]; try done. injection E as <-. by eapply Q.
  - injection E as <-. by eapply Q.
  - by eapply more_go.
  - destruct (existsb (holds r) (m_calls s)) eqn:X; [done|]. injection E as <-. split.
    + intros c x r' Hc P. cbn in *. apply elem_of_list_In, List.filter_In. split; [apply elem_of_list_In; by eapply M|].
      apply negb_true_iff, Nat.eqb_neq. intros <-. apply not_true_iff_false in X. apply X, existsb_exists. exists x. split; [apply elem_of_list_In; by eapply elem_of_list_lookup_2|].
      unfold holds. rewrite P. apply Nat.eqb_refl.
    + intros r1 r2 y1 y2 M1 M2. cbn in *. apply elem_of_list_In, List.filter_In in M1 as [M1 _], M2 as [M2 _]. apply elem_of_list_In in M1, M2. by apply A.
Qed.
Lemma more_run l : forall s s', inv s -> mapped s -> apart s -> mrun farm n ignore s l = Some s' -> inv s' /\ mapped s' /\ apart s'.
Proof.
  induction l as [|a l IH]; intros s s' I M A E; cbn in E; [by injection E as <-|]. destruct (mstep farm n ignore s a) as [s1|] eqn:S1; [|done].
  destruct (more_step _ _ _ I M A S1). pose proof (inv_step farm n ignore _ _ _ I S1). by apply (IH s1).
Qed.
Lemma more_reach l s : mrun farm n ignore m_init l = Some s -> inv s /\ mapped s /\ apart s.
Proof. apply more_run; [apply inv_init| |]; [by intros c x r H|by intros r1 r2 y1 y2 H]. Qed.

(** The fingerprint of the record a call is at. *)
Definition at_rec (x : mcall) (r : nat) : Prop := c_place x = Init r \/ c_place x = Returned r.
Definition printed (s : mem) : Prop := forall c x r, m_calls s !! c = Some x -> at_rec x r -> exists y, m_recs s !! r = Some y /\ r_fp y = fingerprint farm (want n x).
Lemma printed_put s s' c x : printed s -> (forall r y, m_recs s !! r = Some y -> exists y', m_recs s' !! r = Some y' /\ r_fp y' = r_fp y) -> m_calls s' = <[c := x]> (m_calls s) ->
  (forall r, at_rec x r -> exists y, m_recs s' !! r = Some y /\ r_fp y = fingerprint farm (want n x)) -> printed s'.
Proof.
  intros M E1 E2 H c' x' r Hc Hr. rewrite E2 in Hc. apply list_lookup_insert_Some in Hc as [(_ & <- & _)|[_ Hc]]; [by apply H|].
  destruct (M c' x' r Hc Hr) as (y & Hy & F). destruct (E1 r y Hy) as (y' & Hy' & F'). exists y'. split; [done|]. congruence.
Qed.
Lemma find_rec_fp s i fp eq r : find_rec ignore s i fp eq = Some r -> exists y, m_recs s !! r = Some y /\ r_fp y = fp.
Proof.
  intros H. apply List.find_some in H as [_ H]. destruct (m_recs s !! r) as [y|]; [|done]. exists y. split; [done|].
  apply andb_true_iff in H as [H _]. apply andb_true_iff in H as [_ H]. by apply Z.eqb_eq.
Qed.
Lemma printed_go s c over s' : inv s -> printed s -> go farm n ignore s c over = Some s' -> printed s'.
Proof.
  intros I M E. unfold go in E. destruct (m_calls s !! c) as [x|] eqn:Hc; [|done]. cbn [mbind option_bind] in E.
  pose proof I as (_ & _ & _ & Ic). pose proof (Ic c x Hc) as [_ C].
  assert (Same : forall s1, m_recs s1 = m_recs s -> forall r y, m_recs s !! r = Some y -> exists y', m_recs s1 !! r = Some y' /\ r_fp y' = r_fp y).
  { intros s1 -> r y H. by exists y. }
  assert (Q : forall s1 p, m_recs s1 = m_recs s -> m_calls s1 = <[c := MCall (c_inst x) (c_arr x) (c_given x) (c_over x) p]> (m_calls s) -> (forall r, p <> Init r /\ p <> Returned r) -> printed s1).
  { intros s1 p E1 E3 P. eapply (printed_put s); [done|by apply Same|exact E3|]. intros r [Z|Z]; cbn in Z; by destruct (P r). }
  destruct (c_place x) as [i|i a|i a|i fp|fp|fp|fp l|r|r] eqn:P; cbn beta iota zeta in E.
  - destruct (array s (c_arr x) !! i); injection E as <-; by eapply Q.
  - injection E as <-; by eapply Q.
  - injection E as <-; by eapply Q.
  - destruct (array s (c_arr x) !! i); injection E as <-; by eapply Q.
  - destruct C as (_ & Co & Cf).
    destruct (find_rec ignore s (c_inst x) fp (attributes_equal (array s (c_arr x)))) as [r|] eqn:F.
    { injection E as <-. eapply (printed_put s); [done|by apply Same|done|]. intros r' [[= <-]|[=]]. apply find_rec_fp in F as (y & Hy & F). exists y. split; [done|]. rewrite F. exact Cf. }
    destruct over; [|injection E as <-; by eapply Q].
    destruct (find_rec ignore s (c_inst x) _ (attributes_equal overflow_attrs)) as [r|] eqn:F2; injection E as <-.
    + eapply (printed_put s); [done|by apply Same|done|]. intros r' [[= <-]|[=]]. apply find_rec_fp in F2 as (y & Hy & F2). by exists y.
    + eapply (printed_put s); [done|by apply Same|done|]. by intros r' [[=]|[=]].
  - injection E as <-; by eapply Q.
  - destruct C as (_ & Cf & _). destruct (find_rec ignore s (c_inst x) fp _) as [r|] eqn:F; injection E as <-.
    { eapply (printed_put s); [done|by apply Same|done|]. intros r' [[= <-]|[=]]. apply find_rec_fp in F as (y & Hy & F). exists y. split; [done|]. rewrite F. exact Cf. }
    eapply (printed_put s); [done| |done|].
    + intros r y H. cbn. exists y. split; [|done]. by apply lookup_app_l_Some.
    + intros r' [[= <-]|[=]]. cbn. rewrite lookup_app_r, Nat.sub_diag by lia. eexists. split; [done|]. exact Cf.
  - destruct (m_recs s !! r) as [y|] eqn:Hy; [|done]. cbn [mbind option_bind] in E. destruct (M c x r Hc (or_introl P)) as (y0 & Hy0 & F). assert (y0 = y) as -> by congruence.
    destruct (r_set y) eqn:Sy; injection E as <-.
    { eapply (printed_put s); [done|by apply Same|done|]. intros r' [[=]|[= <-]]. by exists y. }
    eapply (printed_put s); [done| |done|]; cbn.
    + intros r' y' H. destruct (decide (r = r')) as [E0|Ne].
      * subst r'. rewrite list_lookup_insert by (by eapply lookup_lt_Some). eexists. split; [done|]. cbn. congruence.
      * rewrite list_lookup_insert_ne by done. by exists y'.
    + intros r' [[=]|[= <-]]. rewrite list_lookup_insert by (by eapply lookup_lt_Some). eexists. split; [done|]. done.
  - done.
Qed.
Lemma printed_step s a s' : inv s -> printed s -> mstep farm n ignore s a = Some s' -> printed s'.
Proof.
  intros I M E.
  assert (N : forall r x, c_place x = first_place n -> ~ at_rec x r) by (intros r x P; unfold at_rec; rewrite P; unfold first_place; destruct n; by intros [?|?]).
  assert (Q : forall s1 x1, m_recs s1 = m_recs s -> m_calls s1 = m_calls s ++ [x1] -> c_place x1 = first_place n -> printed s1).
  { intros s1 x1 E1 E3 P c x r Hc Hr. rewrite E1. rewrite E3 in Hc. apply lookup_app_Some in Hc as [Hc|[_ Hc]]; [by eapply M|].
    apply list_lookup_singleton_Some in Hc as [_ <-]. by destruct (N r x1). }
  destruct a as [l|a i v|i a|i opts|c o|r]; cbn in E.
  - by injection E as <-.
  - destruct (m_user s !! a) as [[|]|]; try done. destruct (existsb _ _); [done|]. by injection E as <-.
  - destruct (m_user s !! a) as [[|]|]; try done. injection E as <-. by eapply Q.
  - injection E as <-. by eapply Q.
  - by eapply printed_go.
  - destruct (existsb (holds r) (m_calls s)); [done|]. by injection E as <-.
Qed.
Lemma printed_reach l s : mrun farm n ignore m_init l = Some s -> printed s.
Proof.
  assert (G : forall l s s', inv s -> printed s -> mrun farm n ignore s l = Some s' -> printed s').
  { clear. induction l as [|a l IH]; intros s s' I M E; cbn in E; [by injection E as <-|]. destruct (mstep farm n ignore s a) as [s1|] eqn:S1; [|done].
    pose proof (printed_step _ _ _ I M S1). pose proof (inv_step farm n ignore _ _ _ I S1). by apply (IH s1). }
  apply G; [apply inv_init|]. by intros c x r H.
Qed.
End more.

(** While a call is between finding its record and leaving it, the record is in the map, so others with the same attributes find it. *)
Theorem C65_mapped farm n ignore l s c x r : mrun farm n ignore m_init l = Some s -> m_calls s !! c = Some x -> c_place x = Init r -> r ∈ m_map s.
Proof. intros R. destruct (more_reach farm n ignore l s R) as (_ & M & _). apply M. Qed.

Lemma nan_canon_float x y : canon_float x = canon_float y -> ~ is_nan y -> ~ is_nan x.
Proof.
  assert (Z : forall z, f_zero z = true -> ~ is_nan z).
  { intros z H. apply f_nan_spec. unfold f_zero, f_nan in *. apply Z.eqb_eq in H. apply andb_false_iff. right. apply negb_false_iff, Z.eqb_eq.
    apply Z.mod_divide in H; [|lia]. apply Z.mod_divide; [lia|]. destruct H as [q ->]. exists (q * 2 ^ 11)%Z. lia. }
  unfold canon_float. intros E N. destruct (f_zero x) eqn:Zx; [by apply Z|]. destruct (f_zero y); subst; [|done]. by vm_compute in Zx.
Qed.
Lemma no_nan_canon l l' : canon l = canon l' -> (forall a, a ∈ l' -> no_nan a.2) -> forall a, a ∈ l -> no_nan a.2.
Proof.
  intros E N a Ha. assert (H : (a.1, canon_value a.2) ∈ canon l') by (rewrite <- E; by apply (elem_of_list_fmap_1 (fun a : kv => (a.1, canon_value a.2)))).
  apply elem_of_list_fmap in H as (b & Eb & Hb). injection Eb as _ Eb. specialize (N b Hb). destruct (a.2) as [| | | | | | |fs|], (b.2) as [| | | | | | |gs|]; cbn in *; try done.
  injection Eb as Eb. intros x Hx. assert (H : canon_float x ∈ map canon_float gs) by (rewrite <- Eb; by apply (elem_of_list_fmap_1 canon_float)).
  apply elem_of_list_fmap in H as (y & Ey & Hy). apply (nan_canon_float x y Ey). by apply N.
Qed.
(** The attributes a call measures with: those its slice held when it began, cut to the limit, or the overflow attributes. *)
Definition asked (n : nat) (x : mcall) : list kv := if c_over x then overflow_attrs else truncate n (c_given x).
(** Two calls of one instrument with equal attributes in the same order, none of them NaN, have measured into the same record, as long as no collection
    has removed the record of either; also if they ran at the same time and both found no record at first.  If collisions are ignored it is enough that
    the fingerprints are equal. *)
Theorem C65_shared farm n ignore l s c1 c2 x1 x2 r1 r2 : mrun farm n ignore m_init l = Some s ->
  m_calls s !! c1 = Some x1 -> m_calls s !! c2 = Some x2 -> c_place x1 = Returned r1 -> c_place x2 = Returned r2 -> c_inst x1 = c_inst x2 ->
  r1 ∈ m_map s -> r2 ∈ m_map s ->
  (if ignore then fingerprint farm (asked n x1) = fingerprint farm (asked n x2)
   else asked n x1 = asked n x2 /\ forall a, a ∈ asked n x1 -> no_nan a.2) ->
  r1 = r2.
Proof.
  intros R H1 H2 P1 P2 Ei M1 M2 Eq. destruct (more_reach farm n ignore l s R) as ((_ & _ & Ir & Ic) & _ & A).
  destruct (Ic _ _ H1) as [_ C1]. destruct (Ic _ _ H2) as [_ C2]. rewrite P1 in C1. rewrite P2 in C2.
  destruct C1 as (y1 & l1 & Hy1 & S1 & I1 & G1). destruct C2 as (y2 & l2 & Hy2 & S2 & I2 & G2).
  change (want n x1) with (asked n x1) in G1. change (want n x2) with (asked n x2) in G2.
  destruct (Ir _ _ Hy1) as [F1 K1]. destruct (Ir _ _ Hy2) as [F2 K2]. unfold val in F1, F2. rewrite S1 in F1, K1. rewrite S2 in F2, K2.
  assert (Z : forall r r' y y', r ∈ m_map s -> r' ∈ m_map s -> m_recs s !! r = Some y -> m_recs s !! r' = Some y' -> r_inst y = r_inst y' -> r_fp y = r_fp y' ->
            (ignore = false -> attributes_equal (kept y) (kept y') = true) -> ~ r < r').
  { intros r r' y y' m m' h h' e f g L. destruct (A r r' y y' m m' L h h' e f) as [G H]. rewrite (g G) in H. done. }
  assert (Fp : r_fp y1 = r_fp y2).
  { destruct (printed_reach farm n ignore l s R c1 x1 r1 H1 (or_intror P1)) as (z1 & Hz1 & E1). destruct (printed_reach farm n ignore l s R c2 x2 r2 H2 (or_intror P2)) as (z2 & Hz2 & E2).
    assert (z1 = y1) as -> by congruence. assert (z2 = y2) as -> by congruence. change (want n x1) with (asked n x1) in E1. change (want n x2) with (asked n x2) in E2. destruct ignore; [congruence|]. destruct Eq as [Eq _]. congruence. }
  assert (B : ignore = false -> attributes_equal (kept y1) (kept y2) = true /\ attributes_equal (kept y2) (kept y1) = true).
  { intros ->. destruct Eq as [Eq Na]. destruct (r_held y1) as [k1| |] eqn:Q1; try done. destruct (r_held y2) as [k2| |] eqn:Q2; try done.
    destruct K1 as [_ <-]. destruct K2 as [_ <-]. unfold kept. rewrite Q1, Q2.
    assert (N1 : forall a, a ∈ l1 -> no_nan a.2) by (by eapply no_nan_canon).
    assert (N2 : forall a, a ∈ l2 -> no_nan a.2) by (eapply no_nan_canon; [|exact Na]; congruence).
    split; apply equal_complete; [congruence|done|congruence|done]. }
  destruct (Nat.lt_trichotomy r1 r2) as [L|[L|L]]; [|done|].
  - destruct (Z r1 r2 y1 y2); try done; [congruence|]. intros G. by apply B.
  - destruct (Z r2 r1 y2 y1); try done; [congruence|]. intros G. by apply B.
Qed.

(** Two goroutines with slices of their own both find no record and both make one; the second then finds the first one's.  A third call follows. *)
Module Ex65m.
Local Open Scope string_scope.
Definition farm (s : string) : Z := Z.of_nat (String.length s).
Definition attrs : list kv := [("k", VInt 3)].
Definition race : list mact :=
  [MNew attrs; MNew attrs; MKeyValues 7 0; MKeyValues 7 1] ++ repeat (MGo 0 false) 3 ++ repeat (MGo 1 false) 3 ++ [MGo 0 false; MGo 1 false; MGo 0 false; MGo 1 false; MGo 0 false; MGo 1 false; MKeyValues 7 0] ++ repeat (MGo 2 false) 4.
Definition obs (s : mem) : list (place * nat * list kv) * list nat := (map (fun c => (c_place c, c_inst c, asked 0 c)) (m_calls s), m_map s).
Example raced : option_map obs (mrun farm 0 false m_init race) = Some ([(Returned 0, 7, attrs); (Returned 0, 7, attrs); (Returned 0, 7, attrs)], [0]).
Proof. by vm_compute. Qed.
Example both_missed : option_map (fun s => map c_place (m_calls s)) (mrun farm 0 false m_init (take 12 race)) = Some [Put 16165905821875611692 (Kept attrs); Put 16165905821875611692 (Kept attrs)].
Proof. by vm_compute. Qed.
Example no_nans : forall a, a ∈ attrs -> no_nan a.2.
Proof. intros a Ha. apply elem_of_list_singleton in Ha as ->. done. Qed.
(** Not so after a collection has removed the record: the record of the first call is no longer in the map. *)
Example removed : option_map obs (mrun farm 0 false m_init (take 16 race ++ [MDrop 0; MKeyValues 7 1] ++ repeat (MGo 2 false) 6)) =
  Some ([(Returned 0, 7, attrs); (Returned 0, 7, attrs); (Returned 1, 7, attrs)], [1]).
Proof. by vm_compute. Qed.
End Ex65m.

Print Assumptions C65_mapped.
Print Assumptions C65_shared.
