(** The synchronous model (SyncModel) with the integer aggregators of the code, a different one for each stream, and the
    entry of an API call into it.  M stands for /repo/lightstep/sdk/metric. *)
From Coq Require Import ZArith Lia Bool.
From stdpp Require Import base list option.
From Verif Require Import Base SyncModel Num Agg Attr.
Local Open Scope Z_scope.

(** int64 values as a type of their own. *)
Definition in64 (z : Z) : bool := (-9223372036854775808 <=? z) && (z <? 9223372036854775808).
Record i64 := I64 { ival : Z; iok : in64 ival = true }.
Lemma i64_eq x y : ival x = ival y -> x = y.
Proof. destruct x as [x Hx], y as [y Hy]. cbn. intros ->. f_equal. apply (Eqdep_dec.UIP_dec bool_dec). Qed.
Lemma in64_wrap z : in64 (wrap z) = true.
Proof.
  unfold in64, wrap. pose proof (Z.mod_pos_bound (z + 9223372036854775808) 18446744073709551616 ltac:(lia)).
  apply andb_true_iff. rewrite Z.leb_le, Z.ltb_lt. lia.
Qed.
Definition mk64 (z : Z) : i64 := I64 (wrap z) (in64_wrap z).
Lemma wrap_in64 z : in64 z = true -> wrap z = z.
Proof. unfold in64, wrap. rewrite andb_true_iff, Z.leb_le, Z.ltb_lt. intros H. rewrite Z.mod_small; lia. Qed.
Lemma wrap_wrap_l x y : wrap (wrap x + y) = wrap (x + y).
Proof.
  unfold wrap. f_equal.
  replace ((x + 9223372036854775808) mod 18446744073709551616 - 9223372036854775808 + y + 9223372036854775808)
    with ((x + 9223372036854775808) mod 18446744073709551616 + y) by lia.
  rewrite Zplus_mod_idemp_l. f_equal. lia.
Qed.

(** Integer sums: Merge is addition (M/aggregator/sum/sum.go:129-132). *)
Definition Sum64mon : cmon.
Proof.
  refine (CMon i64 (mk64 0) (fun x y => mk64 (ival x + ival y)) _ _ _).
  - intros x y z. apply i64_eq. cbn. rewrite (Z.add_comm (ival x)), !wrap_wrap_l. f_equal. lia.
  - intros x y. apply i64_eq. cbn. f_equal. lia.
  - intros x. apply i64_eq. cbn. apply wrap_in64, iok.
Defined.
(** Gauges: the one set later wins (M/aggregator/gauge/gauge.go:150-158).  Two different values never carry one stamp;
    the larger one is taken then, to have a commutative operation. *)
Definition older (p q : nat * Z) : bool := Nat.ltb p.1 q.1 || (Nat.eqb p.1 q.1 && (p.2 <=? q.2)).
Definition last_of (a b : option (nat * Z)) : option (nat * Z) :=
  match a, b with
  | None, x | x, None => x
  | Some p, Some q => if older p q then b else a
  end.
Lemma older_spec p q : reflect ((p.1 < q.1)%nat \/ (p.1 = q.1 /\ p.2 <= q.2)) (older p q).
Proof.
  unfold older. apply iff_reflect. rewrite orb_true_iff, andb_true_iff, Nat.ltb_lt, Nat.eqb_eq, Z.leb_le. done.
Qed.
Definition Lastmon : cmon.
Proof.
  refine (CMon (option (nat * Z)) None last_of _ _ _).
  - intros [p|] [q|] [r|]; cbn; try done; try (by destruct (older p q)); [].
    destruct (older_spec q r), (older_spec p q); cbn; destruct (older_spec p r); cbn; try done; try lia;
      try (destruct (older_spec q r)); try (destruct (older_spec p q)); try done; lia.
  - intros [p|] [q|]; cbn; try done. destruct (older_spec p q), (older_spec q p); try done; [|lia].
    destruct p as [t n], q as [t' n']. cbn in *. repeat f_equal; lia.
  - by intros [p|].
Defined.
(** Minimum and maximum of what there is (M/aggregator/minmaxsumcount/minmaxsumcount.go:128-168). *)
Definition min_of (a b : option Z) : option Z :=
  match a, b with None, x | x, None => x | Some x, Some y => Some (Z.min x y) end.
Definition max_of (a b : option Z) : option Z :=
  match a, b with None, x | x, None => x | Some x, Some y => Some (Z.max x y) end.
Definition Minmon : cmon.
Proof.
  refine (CMon (option Z) None min_of _ _ _).
  - intros [x|] [y|] [z|]; cbn; try done. f_equal. lia.
  - intros [x|] [y|]; cbn; try done. f_equal. lia.
  - by intros [x|].
Defined.
Definition Maxmon : cmon.
Proof.
  refine (CMon (option Z) None max_of _ _ _).
  - intros [x|] [y|] [z|]; cbn; try done. f_equal. lia.
  - intros [x|] [y|]; cbn; try done. f_equal. lia.
  - by intros [x|].
Defined.

(** All of them at once; a stream looks at the part its aggregator computes.  Simplification: the count of a
    minmaxsumcount is a uint64 in the code and unbounded here. *)
Definition Aggmon : cmon := Pmon Sum64mon (Pmon Lastmon (Pmon Minmon (Pmon Maxmon Zmon))).
Definition a_sum (a : Aggmon) : Z := ival (fst a).
Definition a_last (a : Aggmon) : option (nat * Z) := fst (snd a).
Definition a_min (a : Aggmon) : option Z := fst (snd (snd a)).
Definition a_max (a : Aggmon) : option Z := fst (snd (snd (snd a))).
Definition a_count (a : Aggmon) : Z := snd (snd (snd (snd a))).

(** Update of an empty Storage: sum.go:119-122, gauge.go:140-148, minmaxsumcount.go:128-146. *)
Definition one (stamp : nat) (n : Z) : Aggmon := (mk64 n, (Some (stamp, n), (Some n, (Some n, 1)))).

Inductive agg_kind := KSum | KGauge | KMMSC.
(** HasChange: sum.go:115-117, gauge.go:119-121, minmaxsumcount.go:110-112. *)
Definition agg_change (k : agg_kind) (a : Aggmon) : bool :=
  match k with
  | KSum => negb (a_sum a =? 0)
  | KGauge => match a_last a with Some _ => true | None => false end
  | KMMSC => negb (a_count a =? 0)
  end.

(** Any number of integer instruments over any streams. *)
Definition int_config (farm : _ -> Z) (kinds : nat -> agg_kind) (keys : nat -> option (list _)) (views : list view)
    (insts : list (list nat)) (periods ilimit : Z) (ignore : bool) : config :=
  attr_config farm Aggmon Z one (fun v => agg_change (kinds v)) keys views insts periods ilimit ignore.

(** The history of a meter as its callers see it: calls with any number and attributes, collections, and thread steps. *)
Inductive api (N : Type) := ACall (o : nat) (l : list kv) (n : N) | ACollect (rd : nat) | AStep (t ch : nat).
Arguments ACall {_} _ _ _.
Arguments ACollect {_} _.
Arguments AStep {_} _ _.
(** Observe (M/internal/syncstate/sync.go:330-364) up to the lookup of the record: a call on a nil instrument ([o] is not an instrument) or one
    that fails the range test returns at once; [limit] is AttributeSizeLimit, [proc] the MeasurementProcessor of the instrument,
    [kinds o] its kind. *)
Section entry.
Context {N : arith} (c : config) (emb : N -> c_num c) (to_k : list kv -> c_K c).
Context (kinds : nat -> kind) (limit : nat) (proc : nat -> option (list kv -> list kv)).
Definition accepted (a : api N) : bool :=
  match a with ACall o _ n => Nat.ltb o (length (c_insts c)) && range_test n (kinds o) | _ => true end.
Definition api_step (s : state c) (a : api N) : option (state c) :=
  match a with
  | ACall o l n =>
      if Nat.ltb o (length (c_insts c)) then
        if range_test n (kinds o) then step s (LObserve o (to_k (observe_attrs limit (proc o) l)) (emb n)) else Some s
      else Some s
  | ACollect rd => step s (LCollect rd)
  | AStep t ch => step s (LStep t ch)
  end.
Fixpoint api_run (s : state c) (l : list (api N)) : option (state c) :=
  match l with
  | [] => Some s
  | a :: l => match api_step s a with Some s' => api_run s' l | None => None end
  end.
End entry.

(** The operations of [Aggmon] are the methods of Agg: Merge and Update of a Storage, seen through what it stands for. *)
Definition abs_last (g : gauge Int64) : option (nat * Z) := if g_seq g =? 0 then None else Some (Z.to_nat (g_seq g), g_value g).
Definition abs_min (s : mmsc Int64) : option Z := if mm_count s =? 0 then None else Some (mm_min s).
Definition abs_max (s : mmsc Int64) : option Z := if mm_count s =? 0 then None else Some (mm_max s).
Lemma sum_merge_mop (from to : i64) : ival (mop (c:=Sum64mon) to from) = m_merge (sum_methods Int64) (ival from) (ival to).
Proof. done. Qed.
Lemma sum_update_mop seq n (s : i64) : ival (mop (c:=Sum64mon) s (mk64 n)) = m_update (sum_methods Int64) seq n (ival s).
Proof. cbn. by rewrite Z.add_comm, wrap_wrap_l, Z.add_comm. Qed.
Lemma gauge_merge_mop (from to : gauge Int64) : 0 <= g_seq from -> 0 <= g_seq to -> (g_seq from = g_seq to -> g_value from = g_value to) ->
  abs_last (m_merge (gauge_methods Int64) from to) = mop (c:=Lastmon) (abs_last to) (abs_last from).
Proof.
  intros F T E. cbn. unfold abs_last. destruct from as [v q], to as [v' q']. cbn in *.
  destruct (Z.eqb_spec q 0) as [->|]; cbn.
  - destruct (Z.eqb_spec q' 0); done.
  - destruct (Z.ltb_spec q' q); cbn.
    + destruct (Z.eqb_spec q 0); [lia|]. destruct (Z.eqb_spec q' 0); [done|]. cbn.
      destruct (older_spec (Z.to_nat q', v') (Z.to_nat q, v)); [done|]. cbn in *. lia.
    + destruct (Z.eqb_spec q' 0); [lia|]. cbn. destruct (older_spec (Z.to_nat q', v') (Z.to_nat q, v)) as [O|]; [|done]. cbn in O.
      assert (q = q') by lia. subst. by rewrite E.
Qed.
Lemma mmsc_merge_mop (from to : mmsc Int64) : 0 <= mm_count from -> 0 <= mm_count to -> mm_count to + mm_count from < 18446744073709551616 ->
  let m := m_merge (mmsc_methods Int64) from to in
  abs_min m = mop (c:=Minmon) (abs_min to) (abs_min from) /\ abs_max m = mop (c:=Maxmon) (abs_max to) (abs_max from) /\
  mm_count m = mm_count to + mm_count from /\ (mm_sum m : Z) = wrap (mm_sum to + mm_sum from).
Proof.
  destruct from as [a b d n], to as [a' b' d' n']. cbn [mm_count mm_min mm_max mm_sum]. change (num Int64) with Z in *.
  intros F T B. cbn. unfold abs_min, abs_max. cbn. unfold uwrap. rewrite !Z.mod_small by lia.
  destruct (Z.eqb_spec n 0) as [E|]; [rewrite E, Z.add_0_r; destruct (Z.eqb_spec n' 0); done|].
  destruct (Z.eqb_spec (n' + n) 0); [lia|].
  destruct (Z.eqb_spec n' 0) as [E|]; [rewrite E; done|]. cbn.
  destruct (Z.ltb_spec a a'), (Z.ltb_spec b' b); split_and!; try done; f_equal; lia.
Qed.
