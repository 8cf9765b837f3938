(** Floats against the real numbers: what SFadd, SFsub and the comparisons of the standard library compute. *)
From Coq Require Import ZArith Bool SpecFloat Reals Lra Lia.
From Flocq Require Import Core BinarySingleNaN Plus_error.
From stdpp Require Import base list option.
From Verif Require Import Num Agg AggSpec AggProofs.
Local Open Scope Z_scope.

(** The float64 values: what IEEE 754 binary64 can hold; the real number a finite one stands for. *)
Definition float64 (x : Float64) : Prop := valid_binary 53 1024 x = true.
Definition finite (x : Float64) : Prop := match x with S754_zero _ | S754_finite _ _ _ => True | _ => False end.
Definition value (x : Float64) : R := SF2R radix2 x.
Definition negative (x : Float64) : bool := match x with S754_zero s | S754_infinity s | S754_finite s _ _ => s | S754_nan => false end.
(** The nearest multiple of a power of two with 53 significant bits or less, of at least 2^-1074; of two nearest ones the even one. *)
Definition nearest (r : R) : R := round radix2 (FLT_exp (-1074) 53) ZnearestE r.

#[local] Instance Hprec : Prec_gt_0 53. Proof. done. Qed.
#[local] Instance Hmax : Prec_lt_emax 53 1024. Proof. done. Qed.
Lemma round_aux_equiv s m e l : SpecFloat.binary_round_aux 53 1024 s m e l = binary_round_aux 53 1024 mode_NE s m e l.
Proof.
  unfold SpecFloat.binary_round_aux, binary_round_aux. destruct (shr_fexp 53 1024 m e l) as [mrs e']. cbn.
  assert (E : forall m l, round_nearest_even m l = choice_mode mode_NE s m l). { intros m' [|[]]; [done|cbn; unfold Round.cond_incr; by destruct (Z.even m')|done|done]. }
  by rewrite E.
Qed.
Lemma normalize_equiv m e z : SpecFloat.binary_normalize 53 1024 m e z = B2SF (binary_normalize 53 1024 Hprec Hmax mode_NE m e z).
Proof.
  assert (E : forall s p, SpecFloat.binary_round 53 1024 s p e = binary_round 53 1024 mode_NE s p e).
  { intros s p. unfold SpecFloat.binary_round, binary_round, shl_align_fexp. destruct (shl_align _ _ _). apply round_aux_equiv. }
  destruct m; cbn; [done| |]; rewrite B2SF_SF2B; apply E.
Qed.
Lemma add_equiv (x y : binary_float 53 1024) : SFadd 53 1024 (B2SF x) (B2SF y) = B2SF (Bplus mode_NE x y).
Proof. destruct x as [sx|sx| |sx mx ex Hx], y as [sy|sy| |sy my ey Hy]; try (done || (cbn; by destruct (Bool.eqb _ _))). apply normalize_equiv. Qed.
Lemma sub_equiv (x y : binary_float 53 1024) : SFsub 53 1024 (B2SF x) (B2SF y) = B2SF (Bminus mode_NE x y).
Proof.
  destruct x as [sx|sx| |sx mx ex Hx], y as [sy|sy| |sy my ey Hy]; try (done || (cbn; by destruct (Bool.eqb _ _))).
  cbn -[SpecFloat.binary_normalize binary_normalize]. rewrite <- normalize_equiv. unfold Fplus_naive. f_equal. destruct sy; cbn [negb cond_Zopp]; lia.
Qed.
Lemma as_binary x : float64 x -> exists b : binary_float 53 1024, x = B2SF b.
Proof. intros V. exists (SF2B x V). by rewrite B2SF_SF2B. Qed.
Lemma value_B2SF (b : binary_float 53 1024) : value (B2SF b) = B2R b.
Proof. apply SF2R_B2SF. Qed.
Lemma finite_B2SF (b : binary_float 53 1024) : finite (B2SF b) <-> is_finite b = true.
Proof. by destruct b. Qed.
Lemma negative_B2SF (b : binary_float 53 1024) : negative (B2SF b) = Bsign b.
Proof. by destruct b. Qed.

(** Float additions and subtractions give the real result, rounded; a result that is too large is an infinity. *)
Theorem C13_float_rounds (x y : Float64) : float64 x -> float64 y -> finite x -> finite y ->
  float64 (add x y) /\
  (if Rlt_bool (Rabs (nearest (value x + value y))) (bpow radix2 1024)
   then finite (add x y) /\ value (add x y) = nearest (value x + value y)
   else add x y = S754_infinity (negative x) /\ negative x = negative y) /\
  float64 (sub x y) /\
  (if Rlt_bool (Rabs (nearest (value x - value y))) (bpow radix2 1024)
   then finite (sub x y) /\ value (sub x y) = nearest (value x - value y)
   else sub x y = S754_infinity (negative x) /\ negative x = negb (negative y)).
Proof.
  intros (a & ->)%as_binary (b & ->)%as_binary. rewrite !finite_B2SF. intros Fa Fb. cbn [add sub Float64]. rewrite add_equiv, sub_equiv, !value_B2SF, !negative_B2SF.
  split; [apply valid_binary_B2SF|]. split; [|split; [apply valid_binary_B2SF|]].
  - pose proof (Bplus_correct 53 1024 Hprec Hmax mode_NE a b Fa Fb) as H. change (round radix2 (SpecFloat.fexp 53 1024) (round_mode mode_NE)) with nearest in H.
    destruct (Rlt_bool _ _); [destruct H as (H1 & H2 & _); split; [by apply finite_B2SF|exact H1]|exact H].
  - pose proof (Bminus_correct 53 1024 Hprec Hmax mode_NE a b Fa Fb) as H. change (round radix2 (SpecFloat.fexp 53 1024) (round_mode mode_NE)) with nearest in H.
    destruct (Rlt_bool _ _); [destruct H as (H1 & H2 & _); split; [by apply finite_B2SF|exact H1]|exact H].
Qed.
(** The comparisons are those of the real numbers. *)
Theorem C14_float_compares (x y : Float64) : float64 x -> float64 y -> finite x -> finite y ->
  (ltb x y = true <-> (value x < value y)%R) /\ (eqb x y = true <-> value x = value y).
Proof.
  intros (a & ->)%as_binary (b & ->)%as_binary. rewrite !finite_B2SF. intros Fa Fb. cbn [ltb eqb Float64]. rewrite !value_B2SF.
  pose proof (Bltb_correct 53 1024 a b Fa Fb) as H1. pose proof (Beqb_correct 53 1024 a b Fa Fb) as H2. unfold Bltb, Beqb in *. rewrite H1, H2. split.
  - split; [|by apply Rlt_bool_true]. by destruct (Rlt_bool_spec (B2R a) (B2R b)).
  - split; [|by apply Req_bool_true]. by destruct (Req_bool_spec (B2R a) (B2R b)).
Qed.

(** ** Exact sums *)
Definition grid (e : Z) (x : Float64) (k : Z) : Prop := float64 x /\ finite x /\ value x = (IZR k * bpow radix2 e)%R.
Definition zabs_sum (l : list Z) : Z := foldr (fun k s => Z.abs k + s) 0 l.
Lemma zabs_sum_app l l' : zabs_sum (l ++ l') = zabs_sum l + zabs_sum l'.
Proof. unfold zabs_sum in *. induction l as [|k l IH]; [done|]. cbn. rewrite IH. lia. Qed.
Lemma zabs_sum_pos l : 0 <= zabs_sum l.
Proof. unfold zabs_sum. induction l as [|k l IH]; cbn; lia. Qed.
Lemma zsum_le l : Z.abs (zsum l) <= zabs_sum l.
Proof. unfold zsum, zabs_sum. induction l as [|k l IH]; cbn; lia. Qed.
Lemma zsum_app' l l' : zsum (l ++ l') = zsum l + zsum l'.
Proof. unfold zsum. induction l as [|k l IH]; [done|]. cbn. rewrite IH. lia. Qed.
Lemma grid_add e x y k k' : -1074 <= e -> e + 53 <= 1024 -> Z.abs (k + k') < 2 ^ 53 -> grid e x k -> grid e y k' -> grid e (add x y) (k + k').
Proof.
  intros L U A (Vx & Fx & Ex) (Vy & Fy & Ey). destruct (C13_float_rounds x y Vx Vy Fx Fy) as (V & H & _).
  assert (E : (value x + value y = IZR (k + k') * bpow radix2 e)%R) by (rewrite Ex, Ey, plus_IZR; ring).
  assert (G : nearest (value x + value y) = (IZR (k + k') * bpow radix2 e)%R).
  { unfold nearest. rewrite E. apply round_generic; [apply valid_rnd_N|]. apply generic_format_FLT. exists (Float radix2 (k + k') e); [done|exact A|exact L]. }
  rewrite G in H. rewrite Rlt_bool_true in H; [split; [done|]; split; [tauto|]; exact (proj2 H)|].
  rewrite Rabs_mult, (Rabs_pos_eq (bpow radix2 e)) by apply bpow_ge_0. rewrite <- abs_IZR.
  apply Rlt_le_trans with (bpow radix2 53 * bpow radix2 e)%R; [apply Rmult_lt_compat_r; [apply bpow_gt_0|]; change (bpow radix2 53) with (IZR (2 ^ 53)); by apply IZR_lt|].
  rewrite <- bpow_plus. apply bpow_le. lia.
Qed.
Lemma grid_adds e l s : -1074 <= e -> e + 53 <= 1024 -> adds (N:=Float64) l s -> forall ks, Forall2 (grid e) l ks -> zabs_sum ks < 2 ^ 53 -> grid e s (zsum ks).
Proof.
  intros L U A. induction A as [|x|l l' x y A IHA B IHB|l l' x P A IHA]; intros ks F S.
  - apply Forall2_nil_inv_l in F as ->. split; [done|]. split; [done|]. cbn. by rewrite Rmult_0_l.
  - apply Forall2_cons_inv_l in F as (k & ks' & G & F & ->). apply Forall2_nil_inv_l in F as ->. cbn. by rewrite Z.add_0_r.
  - apply Forall2_app_inv_l in F as (k1 & k2 & F1 & F2 & ->). rewrite zabs_sum_app in S. pose proof (zabs_sum_pos k1). pose proof (zabs_sum_pos k2). rewrite zsum_app'.
    apply grid_add; [done|done| |apply IHA; [done|lia]|apply IHB; [done|lia]]. pose proof (zsum_le k1). pose proof (zsum_le k2). lia.
  - destruct (Permutation_Forall2 (symmetry P) F) as (ks' & Pk & F'). assert (Sz : zabs_sum ks' = zabs_sum ks /\ zsum ks' = zsum ks).
    { clear -Pk. unfold zsum, zabs_sum. induction Pk; cbn; [done| | |]; lia. }
    destruct Sz as [S1 S2]. rewrite <- S2. apply IHA; [done|lia].
Qed.
(** Float measurements that are multiples of one power of two, not too many of it in all, are summed exactly, in whatever order they are combined. *)
Theorem C13_float_exact (os : list (op Float64)) i e ks : -1074 <= e -> e + 53 <= 1024 ->
  (forall x, x ∈ numbers os i -> float64 x /\ finite x) ->
  map value (numbers os i) = map (fun k => (IZR k * bpow radix2 e)%R) ks -> zsum (map Z.abs ks) < 2 ^ 53 ->
  let s := cell (execs (sum_methods Float64) os) i in finite s /\ value s = (IZR (zsum ks) * bpow radix2 e)%R.
Proof.
  intros L U V M S s. destruct (grid_adds e (numbers os i) s L U (sum_adds Float64 os i) ks) as (_ & F & E); [| |done].
  - revert V ks M S. generalize (numbers os i). intros l V. induction l as [|x l IH]; intros [|k ks] M S; try done. injection M as M1 M2. constructor.
    + destruct (V x) as [V1 V2]; [left|]. done.
    + apply IH; [intros y Hy; apply V; by right|done|]. cbn in S. unfold zsum in *. lia.
  - replace (zabs_sum ks) with (zsum (map Z.abs ks)); [done|]. clear. unfold zsum, zabs_sum. induction ks as [|k ks IH]; cbn; [done|by f_equal].
Qed.
(** A sum is never the negative zero. *)
Lemma add_negative_zero (x y : Float64) : float64 x -> float64 y -> add x y = S754_zero true -> x = S754_zero true.
Proof.
  intros (a & ->)%as_binary (b & ->)%as_binary. cbn [add Float64]. intros E. destruct (is_finite a && is_finite b) eqn:F.
  - apply andb_prop in F as [Fa Fb]. rewrite add_equiv in E. pose proof (Bplus_correct 53 1024 Hprec Hmax mode_NE a b Fa Fb) as H. destruct (Rlt_bool _ _); [|destruct H as [H _]; rewrite E in H; done].
    destruct H as (H1 & _ & H3). assert (Z : Bplus mode_NE a b = B754_zero true) by (by destruct (Bplus mode_NE a b); try done; injection E as ->). rewrite Z in H1, H3. cbn [B2R Bsign] in H1, H3.
    assert (S0 : (B2R a + B2R b = 0)%R).
    { destruct (Req_dec (B2R a + B2R b) 0) as [D|D]; [done|]. exfalso. eapply (round_plus_neq_0 radix2 (SpecFloat.fexp 53 1024) (round_mode mode_NE) (B2R a) (B2R b)); [apply generic_format_B2R|apply generic_format_B2R|done|done]. }
    rewrite S0, Rcompare_Eq in H3 by done. symmetry in H3. apply andb_prop in H3 as [Sa Sb].
    destruct a as [sa| | |sa ma ea Ha]; try done; cbn in Sa; subst sa; [done|]. exfalso. destruct b as [sb| | |sb mb eb Hb]; try done; cbn in Sb; subst sb; cbn [B2R cond_Zopp Z.opp] in S0.
    assert (F2R (Float radix2 (- Z.pos ma) ea) < 0)%R by (by apply F2R_lt_0). assert (F2R (Float radix2 (- Z.pos mb) eb) < 0)%R by (by apply F2R_lt_0). lra.
  - destruct a as [sa|sa| |sa ma ea Ha], b as [sb|sb| |sb mb eb Hb]; try done. cbn in E. by destruct (Bool.eqb _ _).
Qed.
Lemma add_float64 (x y : Float64) : float64 x -> float64 y -> float64 (add x y).
Proof. intros (a & ->)%as_binary (b & ->)%as_binary. cbn [add Float64]. rewrite add_equiv. apply valid_binary_B2SF. Qed.
Theorem C13_float_zero (os : list (op Float64)) i : measures float64 os ->
  let s := cell (execs (sum_methods Float64) os) i in float64 s /\ s <> S754_zero true.
Proof.
  intros M s. subst s.
  apply (exec_rel (sum_methods Float64) (fun _ (s : Float64) => float64 s /\ s <> S754_zero true) (measures float64)); try done.
  - intros os' o H j n K. eapply H. apply elem_of_app. left. exact K.
  - intros os' j n l s H _ [V N]. split; [apply add_float64; [done|eapply H; apply elem_of_app; right; by left]|]. intros E. apply N. eapply (add_negative_zero s n); [done| |exact E]. eapply H. apply elem_of_app. right. by left.
  - intros os' a b l s l' s' _ _ _ [V N] [V' N']. split; [by apply add_float64|]. intros E. apply N'. by eapply (add_negative_zero s' s).
Qed.
Module Ex13f.
  (** A half, two quarters and minus three, moved and merged; 0.25 is the unit. *)
  Definition half : Float64 := S754_finite false 4503599627370496 (-53).
  Definition quarter : Float64 := S754_finite false 4503599627370496 (-54).
  Definition minus3 : Float64 := S754_finite true 6755399441055744 (-51).
  Definition os : list (op Float64) := [Update 0 half; Update 0 quarter; Move 0 1; Update 0 minus3; Merge 1 2; Move 0 1; Merge 1 2; Update 2 quarter].
  Example all : numbers os 2 = [half; quarter; minus3; quarter] /\ cell (execs (sum_methods Float64) os) 2%nat = S754_finite true 4503599627370496 (-51).
  Proof. split; vm_compute; reflexivity. Qed.
  Example hypotheses : (forall x, x ∈ numbers os 2 -> float64 x /\ finite x) /\
    map value (numbers os 2) = map (fun k => (IZR k * bpow radix2 (-2))%R) [2; 1; -12; 1] /\ zsum (map Z.abs [2; 1; -12; 1]) < 2 ^ 53 /\ measures float64 os.
  Proof.
    split_and!.
    - intros x H. rewrite (proj1 all) in H. repeat (apply elem_of_cons in H as [->|H]; [by split; vm_compute|]). by apply elem_of_nil in H.
    - rewrite (proj1 all). cbn [map]. unfold value, half, quarter, minus3. cbn. unfold F2R. cbn [Fnum Fexp cond_Zopp bpow Z.pow_pos]. change (Z.pow_pos radix2 53) with 9007199254740992. change (Z.pow_pos radix2 54) with 18014398509481984. change (Z.pow_pos radix2 51) with 2251799813685248. change (2 * (2 * 1)) with 4. change (- (6755399441055744)) with (-6755399441055744). repeat (apply f_equal2; [lra|]). done.
    - vm_compute. reflexivity.
    - intros i n H. repeat (apply elem_of_cons in H as [H|H]; [inversion H; subst; vm_compute; done|]). by apply elem_of_nil in H.
  Qed.
End Ex13f.

Print Assumptions C13_float_rounds.
Print Assumptions C14_float_compares.
Print Assumptions C13_float_exact.
Print Assumptions C13_float_zero.
