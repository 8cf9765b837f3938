(** Proofs about the export of metrics. *)
From Coq Require Import ZArith Bool String SpecFloat Lia.
From stdpp Require Import base list option strings.
From Verif Require Import Num Attr AttrProofs View Data Exp ExpSpec.
Local Open Scope Z_scope.

(** Bits of floats. *)
Lemma digits_bounds m : 2 ^ (Z.pos (digits2_pos m) - 1) <= Z.pos m < 2 ^ Z.pos (digits2_pos m).
Proof.
  induction m as [m IH|m IH|]; cbn [digits2_pos]; [| |cbn; lia].
  - rewrite Pos2Z.inj_succ. replace (Z.succ (Z.pos (digits2_pos m)) - 1) with (Z.succ (Z.pos (digits2_pos m) - 1)) by lia.
    rewrite !Z.pow_succ_r by lia. lia.
  - rewrite Pos2Z.inj_succ. replace (Z.succ (Z.pos (digits2_pos m)) - 1) with (Z.succ (Z.pos (digits2_pos m) - 1)) by lia.
    rewrite !Z.pow_succ_r by lia. lia.
Qed.
Lemma bounded_cases m e : bounded 53 1024 m e = true ->
  (2 ^ 52 <= Z.pos m < 2 ^ 53 /\ -1074 <= e <= 971) \/ (Z.pos m < 2 ^ 52 /\ e = -1074).
Proof.
  intros B. unfold bounded, canonical_mantissa, fexp, emin in B. apply andb_prop in B as [B1 B2]. apply Zeq_bool_eq in B1. apply Z.leb_le in B2.
  pose proof (digits_bounds m) as [D1 D2]. set (d := Z.pos (digits2_pos m)) in *. 
  assert (d = 53 /\ -1074 <= e \/ d < 53 /\ e = -1074) as [[-> He]|[Hd He]] by lia.
  - left. cbn in D1, D2. lia.
  - right. split; [|done]. eapply Z.lt_le_trans; [exact D2|]. apply Z.pow_le_mono_r; lia.
Qed.
Lemma of_to_bits f : valid_binary 53 1024 f = true -> of_bits (to_bits f) = f.
Proof.
  intros V. destruct f as [s|s| |s m e]; try (destruct s; reflexivity); [reflexivity|]. cbn in V. apply bounded_cases in V.
  unfold to_bits, of_bits. set (x := if Z.pos m <? 2 ^ 52 then 0 else e + 1075). set (f := if Z.pos m <? 2 ^ 52 then Z.pos m else Z.pos m - 2 ^ 52).
  assert (E : (if Z.pos m <? 2 ^ 52 then Z.pos m else (e + 1075) * 2 ^ 52 + (Z.pos m - 2 ^ 52)) = x * 2 ^ 52 + f).
  { unfold x, f. destruct (Z.pos m <? 2 ^ 52); lia. }
  rewrite E. assert (X : 0 <= x < 2047 /\ 0 <= f < 2 ^ 52). { unfold x, f. destruct (Z.ltb_spec (Z.pos m) (2 ^ 52)); lia. }
  destruct X as [X F]. set (b := sign_bit s + (x * 2 ^ 52 + f)).
  assert (S : (2 ^ 63 <=? b) = s). { unfold b, sign_bit. destruct s; [apply Z.leb_le|apply Z.leb_gt]; lia. }
  assert (Q : b / 2 ^ 52 = (if s then 2048 else 0) + x).
  { unfold b, sign_bit. symmetry. apply Z.div_unique with f; [lia|]. destruct s; lia. }
  assert (R : b mod 2 ^ 52 = f).
  { unfold b, sign_bit. symmetry. apply Z.mod_unique with ((if s then 2048 else 0) + x); [lia|]. destruct s; lia. }
  assert (Q' : (b / 2 ^ 52) mod 2048 = x).
  { rewrite Q. symmetry. apply Z.mod_unique with (if s then 1 else 0); [lia|]. destruct s; lia. }
  rewrite S, Q', R. destruct (Z.eqb_spec x 2047); [lia|]. destruct V as [[V1 V2]|[V1 V2]].
  - assert (x = e + 1075) as Ex. { unfold x. destruct (Z.ltb_spec (Z.pos m) (2 ^ 52)); lia. }
    assert (f = Z.pos m - 2 ^ 52) as Ef. { unfold f. destruct (Z.ltb_spec (Z.pos m) (2 ^ 52)); lia. }
    destruct (Z.eqb_spec x 0); [lia|]. replace (f + 2 ^ 52) with (Z.pos m) by lia. f_equal. lia.
  - assert (x = 0) as -> . { unfold x. destruct (Z.ltb_spec (Z.pos m) (2 ^ 52)); lia. }
    assert (f = Z.pos m) as ->. { unfold f. destruct (Z.ltb_spec (Z.pos m) (2 ^ 52)); lia. } cbn. by subst e.
Qed.
Lemma to_int_number z : int64 z -> to_int64 (uwrap z) = z.
Proof.
  intros [A B]. unfold to_int64, uwrap, wrap. rewrite Zplus_mod_idemp_l. rewrite Z.mod_small by lia. lia.
Qed.
Lemma uwrap_id z : 0 <= z < 2 ^ 64 -> uwrap z = z.
Proof. intros A. unfold uwrap. apply Z.mod_small. lia. Qed.
Lemma coerce_says n : a_number n -> not_negative n -> float_says n (coerce (nkind_of n) (to_number n)).
Proof.
  destruct n as [z|f]; intros A P; cbn in *.
  - rewrite uwrap_id; [done|]. unfold int64 in A. lia.
  - by apply of_to_bits.
Qed.

(** Attributes. *)
Lemma convert_says v : v <> VInvalid -> exists p, convert_value v = Some p /\ says v p.
Proof.
  destruct v; intros N; try done; eexists; (split; [reflexivity|]); constructor; change (map ?f ?l) with (f <$> l); apply Forall2_fmap_r, Forall_Forall2_diag, Forall_true; done.
Qed.
Lemma pput_new k v d : k ∉ map fst d -> pput k v d = d ++ [(k, v)].
Proof.
  induction d as [|[k' v'] d IH]; intros N; cbn; [done|]. apply not_elem_of_cons in N as [N1 N2]. cbn in N1.
  destruct (String.eqb_spec k' k); [congruence|]. by rewrite IH.
Qed.
Lemma copy_says s : forall d, with_types s -> NoDup (map fst d ++ map fst s) -> exists e, copy_attributes d s = Some (d ++ e) /\ attrs_say s e.
Proof.
  induction s as [|[k v] s IH]; intros d W N; cbn.
  - exists []. rewrite app_nil_r. split; [done|constructor].
  - apply list.Forall_cons in W as [W1 W2]. destruct (convert_says v W1) as (p & -> & S). cbn.
    cbn in N. apply NoDup_app in N as (N1 & N2 & N3). rewrite pput_new.
    + destruct (IH (d ++ [(k, p)]) W2) as (e & -> & Se).
      * rewrite map_app. cbn. rewrite <- app_assoc. apply NoDup_app. split; [done|]. split; [exact N2|exact N3].
      * exists ((k, p) :: e). rewrite <- app_assoc. split; [done|]. by constructor.
    + intros Hin. apply (N2 k Hin). by left.
Qed.
Lemma copy_new s : a_set s -> with_types s -> exists e, copy_attributes [] s = Some e /\ attrs_say s e.
Proof. intros A W. apply (copy_says s [] W). exact A. Qed.

Section proofs.
Context (H : hlib).

Lemma each_spec {A B} (f : A -> option B) (R : A -> B -> Prop) l : (forall a, a ∈ l -> exists b, f a = Some b /\ R a b) ->
  exists bs, each f l = Some bs /\ Forall2 R l bs.
Proof.
  induction l as [|a l IH]; intros Q; [by exists []|]. destruct (Q a) as (b & Eb & Rb); [by left|].
  destruct IH as (bs & Es & Rs); [intros x Hx; apply Q; by right|]. exists (b :: bs). cbn. rewrite Eb. cbn. rewrite Es. split; [done|by constructor].
Qed.
Lemma tempo_to t : t = CumulativeTempo \/ t = DeltaTempo -> tempo_says t (to_tempo t).
Proof. by intros [-> | ->]. Qed.
Lemma extremum_ok c n : a_number n -> extremum_says c n (when_any c (coerce (nkind_of n) (to_number n))).
Proof.
  intros A. unfold extremum_says, when_any. destruct (decide (c = 0)) as [->|N]; [done|]. destruct (Z.eqb_spec c 0); [done|].
  eexists. split; [done|]. by apply coerce_says.
Qed.
Lemma sum_point_says mono n t p : point_ok H p -> dyn <$> pt_agg p = Some (FSum mono n) -> tempo_says (pt_tempo p) t ->
  exists q, sum_point p = Some q /\ sum_says mono t p q.
Proof.
  intros (A & W & S & E & a & Ea & Ok) D T. destruct (copy_new _ A W) as (e & Ee & Se). unfold sum_point. rewrite Ee, Ea. cbn. rewrite Ea in D. cbn in D.
  destruct a as [m v| | |]; try done. injection D as <- <-. eexists. split; [reflexivity|]. unfold sum_says. cbn. unfold stamp. rewrite !uwrap_id by done.
  repeat (split; [done|]). exists v. split; [done|]. cbn in Ok. destruct v as [z|f]; cbn; [by apply to_int_number|by apply of_to_bits].
Qed.
Lemma gauge_point_says n p : point_ok H p -> dyn <$> pt_agg p = Some (FGauge n) -> exists q, gauge_point p = Some q /\ gauge_says p q.
Proof.
  intros (A & W & S & E & a & Ea & Ok) D. destruct (copy_new _ A W) as (e & Ee & Se). unfold gauge_point. rewrite Ee, Ea. cbn. rewrite Ea in D. cbn in D.
  destruct a as [|v q| |]; try done. injection D as <-. eexists. split; [reflexivity|]. unfold gauge_says. cbn. unfold stamp. rewrite !uwrap_id by done.
  repeat (split; [done|]). exists v, q. split; [done|]. unfold gauge_number. destruct (Z.eqb_spec q 0); [rewrite decide_True by done; by destruct v|rewrite decide_False by done]. cbn in Ok.
  destruct v as [z|f]; cbn; [by apply to_int_number|by apply of_to_bits].
Qed.
Lemma mmsc_point_says n t p : point_ok H p -> dyn <$> pt_agg p = Some (FMMSC n) -> tempo_says (pt_tempo p) t -> exists q, mmsc_point p = Some q /\ mmsc_says t p q.
Proof.
  intros (A & W & S & E & a & Ea & Ok) D T. destruct (copy_new _ A W) as (e & Ee & Se). unfold mmsc_point. rewrite Ee, Ea. cbn. rewrite Ea in D. cbn in D.
  destruct a as [| |mn mx sm c|]; try done. injection D as <-. eexists. split; [reflexivity|]. unfold mmsc_says, summary_says. cbn. unfold stamp. rewrite !uwrap_id by done.
  destruct Ok as (O1 & O2 & O3 & K1 & K2). split; [done|]. exists mn, mx, sm, c. split; [done|]. split; [by apply coerce_says|]. split; [done|]. split; [|done].
  intros F. rewrite F in K1, K2. split.
  - pose proof (extremum_ok c mn O1) as X. rewrite K1 in X. exact X.
  - pose proof (extremum_ok c mx O2) as X. rewrite K2 in X. exact X.
Qed.
Lemma exponential_point_says n t p : point_ok H p -> dyn <$> pt_agg p = Some (FHist n) -> tempo_says (pt_tempo p) t ->
  exists q, exponential_point H p = Some q /\ exponential_says H t p q.
Proof.
  intros (A & W & S & E & a & Ea & Ok) D T. destruct (copy_new _ A W) as (e & Ee & Se). unfold exponential_point. rewrite Ee, Ea. cbn [mbind option_bind]. rewrite Ea in D. cbn in D.
  destruct a as [| | |n' mx l]; try done. injection D as ->. eexists. split; [reflexivity|]. unfold exponential_says, summary_says. cbn [pe_attrs pe_start pe_time pe_sum pe_count pe_max pe_min pe_zero pe_scale pe_pos pe_neg].
  unfold stamp. rewrite !uwrap_id by done.
  split; [done|]. exists n, mx, l. split; [done|]. cbv zeta. destruct Ok as (O1 & O2 & O3 & K1 & K2 & K3 & _). set (h := hl_read H n mx l) in *.
  split; [rewrite <- K1; by apply coerce_says|]. split; [done|]. split; [rewrite <- K2; by apply extremum_ok|].
  split; [rewrite <- K3; by apply extremum_ok|]. repeat (split; [done|]).
  unfold exponential_buckets. split; [by destruct (h_pos h).2|]. split; [by destruct (h_neg h).2|]. split; intros N.
  - by destruct (h_pos h).2.
  - by destruct (h_neg h).2.
Qed.
(** The buckets of explicit histograms. *)
Lemma int32_id z : -2147483648 <= z < 2147483648 -> int32 z = z.
Proof. intros A. unfold int32. rewrite Z.mod_small by lia. lia. Qed.
Lemma explicit_from_spec lower left : forall counts index first, -2147483648 <= index -> index + Z.of_nat (length counts) < 2147483648 ->
  counts <> [] ->
  explicit_from lower first left index counts =
  ((if first then [left] else []) ++ map (fun j => lower (index + 1 + Z.of_nat j)) (seq 0 (length counts)),
   (if first then [0] else []) ++ counts).
Proof.
  intros counts. revert left. induction counts as [|c r IH]; intros left index first I1 I2 N; [done|]. cbn [explicit_from length] in *.
  rewrite int32_id by lia. destruct r as [|c' r].
  - cbn. rewrite Z.add_0_r. by destruct first.
  - rewrite (IH _ (index + 1) false) by (try done; lia). cbn [app]. rewrite <- cons_seq, <- seq_shift. cbn [map].
    rewrite map_map. rewrite Z.add_0_r.
    replace (map (fun j => lower (index + 1 + 1 + Z.of_nat j)) (seq 0 (length (c' :: r)))) with
            (map (fun x => lower (index + 1 + Z.of_nat (S x))) (seq 0 (length (c' :: r)))).
    + by destruct first.
    + apply map_ext. intros j. f_equal. lia.
Qed.
Lemma explicit_spec lower off counts z scale : hl_mapping H scale = Some lower -> counts <> [] -> -2147483648 <= off -> off + Z.of_nat (length counts) < 2147483648 ->
  explicit_buckets H (off, counts) z scale =
  Some (S754_zero false :: map (fun j => lower (off + Z.of_nat j)) (seq 0 (S (length counts))), [z; 0] ++ counts ++ [0]).
Proof.
  intros M N I1 I2. unfold explicit_buckets. cbn [fst snd]. destruct counts as [|c r]; [done|]. rewrite M. cbn [mbind option_bind].
  rewrite explicit_from_spec by done. cbn [app]. f_equal. f_equal. f_equal. rewrite <- cons_seq, <- seq_shift. cbn [map]. rewrite map_map. rewrite Z.add_0_r. f_equal.
  apply map_ext. intros j. f_equal. lia.
Qed.
Lemma explicit_total pos z s : indexes_fit pos -> (pos.2 <> [] -> is_Some (hl_mapping H s)) ->
  exists bs cs, explicit_buckets H pos z s = Some (bs, cs) /\ buckets_say H pos z s bs cs.
Proof.
  intros [F1 F2] M. destruct pos as [off [|c r]]; [by eexists _, _|]. destruct M as [lower M]; [done|]. rewrite (explicit_spec lower) by done.
  eexists _, _. split; [reflexivity|]. exists lower. done.
Qed.
Lemma explicit_point_says n t p : point_ok H p -> scale_ok H p -> dyn <$> pt_agg p = Some (FHist n) -> tempo_says (pt_tempo p) t ->
  exists q, explicit_point H p = Some q /\ explicit_says H t p q.
Proof.
  intros (A & W & S & E & a & Ea & Ok) Sc D T. destruct (copy_new _ A W) as (e & Ee & Se). unfold explicit_point. rewrite Ee, Ea. cbn [mbind option_bind]. rewrite Ea in D. cbn in D.
  destruct a as [| | |n' mx l]; try done. injection D as ->. specialize (Sc n mx l Ea). set (h := hl_read H n mx l) in *.
  destruct Ok as (O1 & O2 & O3 & K1 & K2 & K3 & K4). fold h in O1, O2, O3, K1, K2, K3, K4.
  destruct (explicit_total (h_pos h) (h_zero h) (h_scale h) K4 Sc) as (bs & cs & Eb & Sb). rewrite Eb. cbn [mbind option_bind].
  eexists. split; [reflexivity|]. unfold explicit_says, summary_says. cbn [ph_attrs ph_start ph_time ph_sum ph_count ph_max ph_min ph_bounds ph_counts].
  unfold stamp. rewrite !uwrap_id by done.
  split; [done|]. exists n, mx, l. split; [done|]. cbv zeta. fold h.
  split; [rewrite <- K1; by apply coerce_says|]. split; [done|]. split; [rewrite <- K2; by apply extremum_ok|].
  split; [rewrite <- K3; by apply extremum_ok|]. done.
Qed.
Lemma convert_data_says useexp ps : ps <> [] -> uniform ps -> (forall p, p ∈ ps -> point_ok H p /\ (useexp = false -> scale_ok H p)) ->
  exists d f, convert_data H useexp ps = Some d /\ (forall p, p ∈ ps -> dyn <$> pt_agg p = Some f) /\ data_says H useexp f ps d /\ data_points d = length ps.
Proof.
  intros N (f & t & Ht & U) O. destruct ps as [|p0 ps]; [done|]. destruct (U p0) as [D0 T0]; [by left|]. unfold convert_data.
  assert (T : forall p, p ∈ p0 :: ps -> tempo_says (pt_tempo p) (first_tempo (p0 :: ps))).
  { intros p Hp. destruct (U p Hp) as [_ ->]. cbn. rewrite T0. by apply tempo_to. }
  assert (F : forall p, p ∈ p0 :: ps -> dyn <$> pt_agg p = Some f) by (intros p Hp; by destruct (U p Hp)).
  assert (O' : forall p, p ∈ p0 :: ps -> point_ok H p) by (intros p Hp; by destruct (O p Hp)).
  destruct (pt_agg p0) as [a|] eqn:Ea; [|done]. cbn in D0. injection D0 as D0.
  destruct a as [mono v|v q|mn mx sm c|n mx l]; cbn in D0; subst f.
  - destruct (each_spec sum_point (sum_says mono (first_tempo (p0 :: ps))) (p0 :: ps)) as (l & -> & R); [intros p Hp; eapply sum_point_says; eauto|].
    cbn [mbind option_bind]. eexists _, _. split; [reflexivity|]. split; [exact F|]. split; [by eexists _, _|]. symmetry. by eapply Forall2_length.
  - destruct (each_spec gauge_point gauge_says (p0 :: ps)) as (l & -> & R); [intros p Hp; eapply gauge_point_says; eauto|].
    cbn [mbind option_bind]. eexists _, _. split; [reflexivity|]. split; [exact F|]. split; [by eexists _|]. symmetry. by eapply Forall2_length.
  - destruct (each_spec mmsc_point (mmsc_says (first_tempo (p0 :: ps))) (p0 :: ps)) as (l & -> & R); [intros p Hp; eapply mmsc_point_says; eauto|].
    cbn [mbind option_bind]. eexists _, _. split; [reflexivity|]. split; [exact F|]. split; [by eexists _, _|]. symmetry. by eapply Forall2_length.
  - destruct useexp.
    + destruct (each_spec (exponential_point H) (exponential_says H (first_tempo (p0 :: ps))) (p0 :: ps)) as (l' & -> & R); [intros p Hp; eapply exponential_point_says; eauto|].
      cbn [mbind option_bind]. eexists _, _. split; [reflexivity|]. split; [exact F|]. split; [by eexists _, _|]. symmetry. by eapply Forall2_length.
    + destruct (each_spec (explicit_point H) (explicit_says H (first_tempo (p0 :: ps))) (p0 :: ps)) as (l' & -> & R).
      { intros p Hp. destruct (O p Hp) as [_ Sc]. eapply explicit_point_says; eauto. }
      cbn [mbind option_bind]. eexists _, _. split; [reflexivity|]. split; [exact F|]. split; [by eexists _, _|]. symmetry. by eapply Forall2_length.
Qed.
Definition instr_ok (useexp : bool) (i : instr) : Prop :=
  uniform (vis (in_points i)) /\ forall p, p ∈ vis (in_points i) -> point_ok H p /\ (useexp = false -> scale_ok H p).
Lemma convert_instrs_says useexp l : (forall i, i ∈ l -> instr_ok useexp i) ->
  exists ms, convert_instrs H useexp l = Some ms /\ Forall2 (metric_says H useexp) (List.filter has_points l) ms /\
  foldr Nat.add 0%nat (map (fun d => data_points (pm_data d)) ms) = foldr Nat.add 0%nat (map (fun i => length (vis (in_points i))) l).
Proof.
  induction l as [|i l IH]; intros O; [exists []; split; [done|]; split; [constructor|done]|]. destruct IH as (ms & Em & F & C); [intros j Hj; apply O; by right|].
  destruct (O i) as [U P]; [by left|]. cbn [convert_instrs List.filter]. unfold has_points at 1. destruct (vis (in_points i)) as [|p ps] eqn:Ev.
  - exists ms. split; [done|]. split; [done|]. cbn. by rewrite Ev.
  - destruct (convert_data_says useexp (p :: ps)) as (d & f & Ed & Fa & Sa & Le); [done|done|done|]. rewrite Ed. cbn [mbind option_bind]. rewrite Em. cbn [mbind option_bind].
    eexists. split; [reflexivity|]. split.
    + constructor; [|done]. unfold metric_says. cbn. repeat (split; [done|]). exists f. by rewrite Ev.
    + cbn [map foldr pm_data]. rewrite Le, C, Ev. done.
Qed.
Lemma convert_scopes_says useexp l : (forall s i, s ∈ l -> i ∈ vis (os_insts s) -> instr_ok useexp i) ->
  exists ss, each (convert_scope H useexp) l = Some ss /\ Forall2 (scope_says H useexp) l ss /\
  foldr Nat.add 0%nat (map (fun s => foldr Nat.add 0%nat (map (fun d => data_points (pm_data d)) (ps_metrics s))) ss) =
  foldr Nat.add 0%nat (map (fun s => foldr Nat.add 0%nat (map (fun i => length (vis (in_points i))) (vis (os_insts s)))) l).
Proof.
  induction l as [|s l IH]; intros O; [exists []; split; [done|]; split; [constructor|done]|]. destruct IH as (ss & Es & F & C); [intros x i Hx Hi; apply (O x); [by right|done]|].
  destruct (convert_instrs_says useexp (vis (os_insts s))) as (ms & Em & Fm & Cm); [intros i Hi; apply (O s); [by left|done]|].
  assert (Ec : convert_scope H useexp s = Some (PScope (sc_name (os_lib s)) (sc_version (os_lib s)) (sc_schema (os_lib s)) ms)) by (unfold convert_scope; by rewrite Em).
  cbn [each]. rewrite Ec. cbn [mbind option_bind]. rewrite Es. cbn [mbind option_bind]. eexists. split; [reflexivity|]. split.
  - constructor; [|done]. unfold scope_says. cbn. done.
  - cbn [map foldr ps_metrics]. by rewrite Cm, C.
Qed.

End proofs.

(** The cache of resources. *)
Lemma f_eqb_same a b : f_eqb a b = true -> a = b \/ f_zero a = true /\ f_zero b = true.
Proof.
  unfold f_eqb. intros E. apply andb_prop in E as [_ E]. apply orb_prop in E as [E|E]; [left; by apply Z.eqb_eq|right; by apply andb_prop in E].
Qed.

Lemma value_eq_same v w : value_eq v w = true -> same_value v w.
Proof.
  destruct v, w; cbn; intros E; try done.
  - by left.
  - left. f_equal. by apply eqb_prop.
  - left. f_equal. by apply Z.eqb_eq.
  - left. f_equal. by apply Z.eqb_eq.
  - left. f_equal. by apply String.eqb_eq.
  - left. f_equal. apply (slice_eq_eq _ _ _ eqb_prop E).
  - left. f_equal. apply (slice_eq_eq Z.eqb); [intros x y; apply Z.eqb_eq|done].
  - right. eexists _, _. split; [reflexivity|]. split; [reflexivity|]. apply (slice_eq_true f_eqb); [apply f_eqb_same|done].
  - left. f_equal. apply (slice_eq_eq String.eqb); [intros x y; apply String.eqb_eq|done].
Qed.
Lemma equal_same s t : attributes_equal s t = true -> same_set s t.
Proof.
  intros E. refine (slice_eq_true _ _ _ _ _ E). intros x y Exy. apply andb_prop in Exy as [E1 E2]. split; [by apply String.eqb_eq|by apply value_eq_same].
Qed.
Lemma same_set_refl s : same_set s s.
Proof. apply Forall_Forall2_diag, list.Forall_forall. intros a _. split; [done|by left]. Qed.
Definition cache_ok (m : rmap) : Prop :=
  match rm_input m with Some i => rm_disabled m = false /\ copy_attributes [] i = Some (rm_output m) | None => True end.
Lemma rm_get_spec m s : cache_ok m -> a_set s -> with_types s ->
  exists m' o t, rm_get m s = Some (m', o) /\ cache_ok m' /\ same_set t s /\ copy_attributes [] t = Some o.
Proof.
  intros C A W. destruct (copy_new s A W) as (e & Ee & _). destruct m as [dis inp out]. unfold rm_get, rm_fresh. rewrite Ee. cbn [mbind option_bind].
  destruct dis, inp as [i|].
  - by destruct C.
  - eexists _, _, s. split; [reflexivity|]. split; [done|]. split; [apply same_set_refl|done].
  - destruct C as [_ C]. cbn in C. destruct (attributes_equal i s) eqn:Eq.
    + eexists _, _, i. split; [reflexivity|]. split; [done|]. split; [by apply equal_same|done].
    + eexists _, _, s. split; [reflexivity|]. split; [done|]. split; [apply same_set_refl|done].
  - eexists _, _, s. split; [reflexivity|]. split; [done|]. split; [apply same_set_refl|done].
Qed.
(** Telemetry, and histories of exports. *)
Lemma report_says key n e : telemetry_says key n e (report key n e).
Proof.
  split; [done|]. split; cycle 1. { split; [done|]. split; [by destruct e|]. by intros x ->. }
  destruct e as [x|]; cbn.
  - exists (if er_canceled x then "canceled" else if er_deadline x then "timeout" else "error")%string, false. split; [|done].
    destruct (er_canceled x) eqn:C; [by constructor|]. destruct (er_deadline x) eqn:D; by constructor.
  - exists "ok"%string, true. split; [constructor|done].
Qed.
Lemma same_set_ok t s : same_set t s -> a_set s -> with_types s -> a_set t /\ with_types t.
Proof.
  intros S. unfold a_set, with_types. assert (K : map fst t = map fst s) by (induction S as [|a b t s [E _] S IH]; [done|]; cbn; by rewrite E, IH).
  intros A W. split; [by rewrite K|]. clear A K. induction S as [|a b t s [_ E] S IH]; [constructor|]. apply list.Forall_cons in W as [W1 W2].
  constructor; [|by apply IH]. destruct E as [->|(l & l' & -> & _)]; done.
Qed.
Lemma rm_get_says m s : cache_ok m -> a_set s -> with_types s -> exists m' o, rm_get m s = Some (m', o) /\ cache_ok m' /\ resource_says s o.
Proof.
  intros C A W. destruct (rm_get_spec m s C A W) as (m' & o & t & E & C' & S & X). exists m', o. split; [done|]. split; [done|]. exists t. split; [done|].
  destruct (same_set_ok t s S A W) as [A' W']. destruct (copy_new t A' W') as (e & Ee & Se). congruence.
Qed.
Lemma exports_say H rs useexp l : forall rm, cache_ok rm -> Forall (fun i => data_ok H useexp i.1 /\ a_set (rs (mt_res i.1)) /\ with_types (rs (mt_res i.1))) l ->
  exists os, exports H rs rm useexp l = Some os /\ Forall2 (export_says H rs useexp) l os.
Proof.
  induction l as [|[m consume] l IH]; intros rm C F; [by exists []|]. apply list.Forall_cons in F as [(D & A & W) F]. cbn [fst] in D, A, W.
  destruct (rm_get_says rm _ C A W) as (rm' & r & E & C' & R). destruct (IH rm' C' F) as (os & Eo & Fo).
  destruct (convert_scopes_says H useexp (vis (mt_scopes m)) D) as (ss & Es & Fs & Cs).
  cbn [exports]. unfold export_metrics, d2pd. rewrite E. cbn [mbind option_bind]. rewrite Es. cbn [mbind option_bind]. rewrite Eo. cbn [mbind option_bind].
  eexists. split; [reflexivity|]. constructor; [|done]. unfold export_says. cbn [px_resource px_scopes]. split; [done|]. split; [done|]. split; [done|].
  eexists. split; [reflexivity|]. assert (Q : point_count (PMetrics r ss) = points_given m) by exact Cs. rewrite <- Q. apply report_says.
Qed.
Lemma rm_gets_says l : forall m, cache_ok m -> Forall (fun s => a_set s /\ with_types s) l -> exists os, rm_gets m l = Some os /\ Forall2 resource_says l os.
Proof.
  induction l as [|s l IH]; intros m C F; [by exists []|]. apply list.Forall_cons in F as [[A W] F]. destruct (rm_get_says m s C A W) as (m' & o & E & C' & R).
  destruct (IH m' C' F) as (os & Eo & Fo). cbn [rm_gets]. rewrite E. cbn [mbind option_bind]. rewrite Eo. cbn [mbind option_bind].
  eexists. split; [reflexivity|]. by constructor.
Qed.
