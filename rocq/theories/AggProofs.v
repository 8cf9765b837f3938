(** Proofs about numbers and aggregators. *)
From Coq Require Import ZArith Lia Bool SpecFloat.
From stdpp Require Import base list option.
From Verif Require Import Num Agg AggSpec.
Local Open Scope Z_scope.

(** ** Two's complement *)
Lemma wrap_int64 x : int64 (wrap x).
Proof. unfold wrap, int64. pose proof (Z.mod_pos_bound (x + 9223372036854775808) 18446744073709551616 ltac:(lia)). lia. Qed.
Lemma wrap_id x : int64 x -> wrap x = x.
Proof. unfold wrap, int64. intros H. rewrite Z.mod_small; lia. Qed.
Lemma wrap_cong x y : (x - y) mod 18446744073709551616 = 0 <-> wrap x = wrap y.
Proof.
  unfold wrap. split; intros H.
  - f_equal. apply Z.mod_divide in H as [k H]; [|lia]. replace (x + 9223372036854775808) with (y + 9223372036854775808 + k * 18446744073709551616) by lia.
    by rewrite Z.mod_add.
  - assert ((x + 9223372036854775808) mod 18446744073709551616 = (y + 9223372036854775808) mod 18446744073709551616) as E by lia.
    replace (x - y) with ((x + 9223372036854775808) - (y + 9223372036854775808)) by lia. by rewrite Zminus_mod, E, Z.sub_diag.
Qed.
Lemma wrap_mod x : exists k, wrap x = x + k * 18446744073709551616.
Proof.
  unfold wrap. exists (- ((x + 9223372036854775808) / 18446744073709551616)).
  pose proof (Z.div_mod (x + 9223372036854775808) 18446744073709551616 ltac:(lia)). lia.
Qed.
Lemma wrap_add x y : wrap (wrap x + wrap y) = wrap (x + y).
Proof.
  apply wrap_cong. destruct (wrap_mod x) as [k ->]. destruct (wrap_mod y) as [k' ->]. 
  replace (_ - _) with ((k + k') * 18446744073709551616) by lia. apply Z.mod_mul. lia.
Qed.
Lemma wrap_wrap x : wrap (wrap x) = wrap x.
Proof. apply wrap_id, wrap_int64. Qed.
Lemma wrap_add_l x y : wrap (wrap x + y) = wrap (x + y).
Proof. by rewrite <- wrap_add, wrap_wrap, wrap_add. Qed.
Lemma wrap_add_r x y : wrap (x + wrap y) = wrap (x + y).
Proof. by rewrite <- wrap_add, wrap_wrap, wrap_add. Qed.
Lemma wrap_sub x y : wrap (wrap x - wrap y) = wrap (x - y).
Proof.
  apply wrap_cong. destruct (wrap_mod x) as [k ->]. destruct (wrap_mod y) as [k' ->]. 
  replace (_ - _) with ((k - k') * 18446744073709551616) by lia. apply Z.mod_mul. lia.
Qed.
Lemma zsum_app l l' : zsum (l ++ l') = zsum l + zsum l'.
Proof. unfold zsum. induction l as [|x l IH]; cbn [app foldr]; lia. Qed.
Lemma zsum_perm l l' : l ≡ₚ l' -> zsum l = zsum l'.
Proof. unfold zsum. induction 1; cbn [foldr]; lia. Qed.

(** ** The range test *)
Lemma range_int64 (n : Int64) k : range_test n k = false <-> (k = SyncCounter \/ k = SyncHistogram) /\ (n : Z) < 0.
Proof.
  unfold range_test. cbn. destruct k; try (destruct (Z.ltb_spec n 0); naive_solver lia); naive_solver.
Qed.
Lemma range_float64 (n : Float64) k :
  range_test n k = false <->
  n = S754_nan \/ (exists s, n = S754_infinity s) \/ ((k = SyncCounter \/ k = SyncHistogram) /\ exists m e, n = S754_finite true m e).
Proof. unfold range_test. cbn. destruct n as [s|s| |s m e]; destruct k; try destruct s; cbn; naive_solver. Qed.

(** ** Any order of additions *)
Lemma adds_int64 (l : list Int64) (x : Int64) : adds l x -> Forall int64 (l : list Z) -> int64 x /\ (x : Z) = wrap (zsum l).
Proof.
  induction 1 as [|x|l l' x y A IA B IB|l l' x P A IA]; intros F.
  - split; [done|]. vm_compute. done.
  - apply list.Forall_cons in F as [F _]. split; [done|]. cbn. rewrite Z.add_0_r. symmetry. by apply wrap_id.
  - apply Forall_app in F as [F F']. destruct (IA F) as [_ ->]. destruct (IB F') as [_ ->]. cbn. split; [apply wrap_int64|].
    by rewrite wrap_add, zsum_app.
  - rewrite <- P in F. destruct (IA F) as [I ->]. split; [apply wrap_int64|]. by rewrite (zsum_perm _ _ P).
Qed.

(** ** Programs *)
Section prog.
Context {N : Type}.
Lemma flows_app t os os' c : flows t (os ++ os') c = flows (N:=N) (t + length os) os' (flows t os c).
Proof.
  revert t c. induction os as [|o os IH]; intros t c; cbn; [by rewrite Nat.add_0_r|]. rewrite IH. f_equal. lia.
Qed.
Lemma contents_snoc os o : contents (os ++ [o]) = flow (N:=N) (length os) o (contents os).
Proof. unfold contents. rewrite flows_app. done. Qed.
Lemma execs_snoc (m : methods N) os o : execs m (os ++ [o]) = exec m o (execs m os).
Proof. unfold execs. by rewrite fold_left_app. Qed.

(** A relation between contents and Storages that all operations respect holds after every program. *)
Lemma exec_rel (m : methods N) (R : list (nat * N) -> sto m -> Prop) (P : list (op N) -> Prop) :
  (forall os o, P (os ++ [o]) -> P os) ->
  R [] m_new ->
  (forall os i n l s, P (os ++ [Update i n]) -> l = contents os i -> R l s ->
     R (l ++ [(length os, n)]) (m_update m (uwrap (seq_var (execs m os) + 1)) n s)) ->
  (forall l s, R l s -> R [] (m_move m s).1 /\ R l (m_move m s).2) ->
  (forall os a b l s l' s', P (os ++ [Merge a b]) -> l = contents os a -> l' = contents os b -> R l s -> R l' s' -> R (l' ++ l) (m_merge m s s')) ->
  (forall l s, R l s -> R l (m_copy m s)) ->
  forall os, P os -> forall i, R (contents os i) (cell (execs m os) i).
Proof.
  intros P0 R0 RU RM RG RC. induction os as [|o os IH] using rev_ind; [done|]. intros HP i.
  assert (H : forall i, R (contents os i) (cell (execs m os) i)) by (by apply IH; eapply P0).
  rewrite contents_snoc, execs_snoc. destruct o as [j n|a b|a b|a b]; cbn [flow exec cell].
  - unfold putc. destruct (Nat.eqb_spec i j) as [->|]; [|done]. eapply RU; eauto.
  - destruct (m_move m (cell (execs m os) a)) as [fr to] eqn:E. pose proof (RM _ _ (H a)) as [M1 M2]. rewrite E in M1, M2. cbn [cell]. unfold putc.
    destruct (Nat.eqb_spec i b) as [->|]; [done|]. destruct (Nat.eqb_spec i a) as [->|]; done.
  - unfold putc. destruct (Nat.eqb_spec i b) as [->|]; [|done]. eapply RG; eauto.
  - unfold putc. destruct (Nat.eqb_spec i b) as [->|]; [|done]. by apply RC.
Qed.

Lemma contents_times os i t n : (t, n) ∈ contents (N:=N) os i -> (exists j, os !! t = Some (Update j n)).
Proof.
  revert i. induction os as [|o os IH] using rev_ind; intros i H; [by apply elem_of_nil in H|].
  assert (L : forall i, (t, n) ∈ contents os i -> exists j, (os ++ [o]) !! t = Some (Update j n)).
  { intros j Hj. destruct (IH _ Hj) as [j' E]. exists j'. rewrite lookup_app_l; [done|]. by eapply lookup_lt_Some. }
  rewrite contents_snoc in H. destruct o as [j n0|a b|a b|a b]; cbn [flow] in H; unfold putc in H.
  - destruct (Nat.eqb i j); [|eauto]. apply elem_of_app in H as [H|H]; [eauto|]. apply elem_of_list_singleton in H. inversion H; subst.
    exists j. by rewrite lookup_app_r, Nat.sub_diag.
  - destruct (Nat.eqb i b); [eauto|]. destruct (Nat.eqb i a); [by apply elem_of_nil in H|eauto].
  - destruct (Nat.eqb i b); [|eauto]. apply elem_of_app in H as [H|H]; eauto.
  - destruct (Nat.eqb i b); eauto.
Qed.
Lemma numbers_measured (P : N -> Prop) os i : measures P os -> Forall P (numbers os i).
Proof.
  intros H. apply list.Forall_forall. intros n Hn. unfold numbers in Hn. apply elem_of_list_fmap in Hn as ([t n'] & -> & Hn).
  destruct (contents_times _ _ _ _ Hn) as [j E]. cbn. apply (H j). by eapply elem_of_list_lookup_2.
Qed.
Lemma measures_snoc (P : N -> Prop) os o : measures P (os ++ [o]) -> measures P os.
Proof. intros H i n Hi. apply (H i). apply elem_of_app. by left. Qed.
Lemma few_snoc (os : list (op N)) o : few (os ++ [o]) -> few os.
Proof.
  intros H k i. destruct (Nat.le_gt_cases k (length os)) as [L|L].
  - specialize (H k i). by rewrite take_app_le in H.
  - rewrite take_ge by lia. specialize (H (length os) i). by rewrite take_app in H.
Qed.
Lemma few_at (os : list (op N)) i : few os -> Z.of_nat (length (contents os i)) < 18446744073709551616.
Proof. intros H. specialize (H (length os) i). by rewrite firstn_all in H. Qed.
End prog.

(** ** Sums *)
Lemma sum_adds (N : arith) (os : list (op N)) i : adds (numbers os i) (cell (execs (sum_methods N) os) i).
Proof.
  unfold numbers.
  apply (exec_rel (sum_methods N) (fun l (s : N) => adds (map snd l) s) (fun _ => True)); try done.
  - constructor.
  - intros. rewrite map_app. by apply adds_add; [|constructor].
  - intros l s H. split; [constructor|done].
  - intros. rewrite map_app. by constructor.
Qed.
Lemma sum_int64 (os : list (op Int64)) i : measures int64 os ->
  cell (execs (sum_methods Int64) os) i = wrap (zsum (numbers os i)).
Proof. intros H. apply (adds_int64 _ _ (sum_adds Int64 os i)). by apply (numbers_measured int64). Qed.

(** ** Comparisons *)
(** What the aggregators need of the comparison of the numbers in [P]. *)
Definition ordered {N : arith} (P : N -> Prop) : Prop :=
  (forall x, P x -> ltb x x = false) /\
  (forall x y z, P x -> P y -> P z -> ltb x y = false -> ltb y z = false -> ltb x z = false) /\
  (forall x y, P x -> P y -> ltb x y = true -> ltb y x = false).
Lemma ordered_int64 : ordered (N:=Int64) int64.
Proof. repeat split; intros; cbn in *; rewrite ?Z.ltb_ge, ?Z.ltb_lt in *; lia. Qed.
Ltac cmp_all :=
  try done; unfold SFcompare; change (Pos.compare_cont Eq) with Pos.compare;
  repeat (match goal with
          | |- context [Z.compare ?a ?b] => destruct (Z.compare_spec a b)
          | |- context [Pos.compare ?a ?b] => destruct (Pos.compare_spec a b)
          end; cbn [CompOpp]; subst; try done); try lia.
Lemma ordered_float64 : ordered (N:=Float64) (fun x => x <> S754_nan).
Proof.
  split; [|split].
  - intros [s|s| |s m e] H; try done; try (by destruct s). cbn. unfold SFltb, SFcompare. rewrite Z.compare_refl.
    change (Pos.compare_cont Eq) with Pos.compare. rewrite Pos.compare_refl. by destruct s.
  - intros x y z Hx Hy Hz. cbn. unfold SFltb.
    destruct x as [s|s| |s m e]; try done; destruct y as [s'|s'| |s' m' e']; try done; destruct z as [s''|s''| |s'' m'' e'']; try done;
      destruct s, s', s''; cmp_all.
  - intros x y Hx Hy. cbn. unfold SFltb.
    destruct x as [s|s| |s m e]; try done; destruct y as [s'|s'| |s' m' e']; try done; destruct s, s'; cmp_all.
Qed.

Section mm.
Context {N : arith} (P : N -> Prop) (O : ordered P).
Lemma least_one n : P n -> least n [n].
Proof. intros H. split; [by left|]. intros x Hx. apply elem_of_list_singleton in Hx as ->. exact (proj1 O n H). Qed.
Lemma greatest_one n : P n -> greatest n [n].
Proof. intros H. split; [by left|]. intros x Hx. apply elem_of_list_singleton in Hx as ->. exact (proj1 O n H). Qed.
Lemma least_app m m' l l' : Forall P l -> Forall P l' -> least m l -> least m' l' -> least (if ltb m' m then m' else m) (l ++ l').
Proof.
  rewrite !list.Forall_forall. intros F F' [M1 M2] [M1' M2']. destruct O as (O1 & O2 & O3). destruct (ltb m' m) eqn:E.
  - split; [apply elem_of_app; by right|]. intros x Hx. apply elem_of_app in Hx as [Hx|Hx]; [|auto].
    apply (O2 x m m'); auto.
  - split; [apply elem_of_app; by left|]. intros x Hx. apply elem_of_app in Hx as [Hx|Hx]; [auto|].
    apply (O2 x m' m); auto.
Qed.
Lemma greatest_app m m' l l' : Forall P l -> Forall P l' -> greatest m l -> greatest m' l' -> greatest (if ltb m m' then m' else m) (l ++ l').
Proof.
  rewrite !list.Forall_forall. intros F F' [M1 M2] [M1' M2']. destruct O as (O1 & O2 & O3). destruct (ltb m m') eqn:E.
  - split; [apply elem_of_app; by right|]. intros x Hx. apply elem_of_app in Hx as [Hx|Hx]; [|auto].
    apply (O2 m' m x); auto.
  - split; [apply elem_of_app; by left|]. intros x Hx. apply elem_of_app in Hx as [Hx|Hx]; [auto|].
    apply (O2 m m' x); auto.
Qed.

(** ** Min, max, sum, count *)
Definition summary (l : list (nat * N)) (s : mmsc N) : Prop :=
  mm_count s = Z.of_nat (length l) /\ adds (map snd l) (mm_sum s) /\
  (l <> [] -> least (mm_min s) (map snd l) /\ greatest (mm_max s) (map snd l)).
Lemma mmsc_summary (os : list (op N)) i : measures P os -> few os -> summary (contents os i) (cell (execs (mmsc_methods N) os) i).
Proof.
  intros HM HF. revert i.
  apply (exec_rel (mmsc_methods N) summary (fun os => measures P os /\ few os)); [..|done].
  - intros os0 o [A B]. split; [by eapply measures_snoc|by eapply few_snoc].
  - split_and!; [done|constructor|done].
  - intros os0 j n l s [HP F] -> (C & A & M). cbn [m_update mmsc_methods mmsc_update]. unfold summary, mmsc_update. cbn [mm_count mm_sum mm_min mm_max].
    assert (Pn : P n) by (apply (HP j), elem_of_app; right; left).
    assert (FP : Forall P (map snd (contents os0 j))) by (apply (numbers_measured P), (measures_snoc _ _ _ HP)).
    pose proof (few_at _ j F) as L. rewrite contents_snoc in L. cbn [flow] in L. unfold putc in L. rewrite Nat.eqb_refl in L.
    rewrite map_app. split_and!.
    + rewrite C. unfold uwrap. rewrite Z.mod_small; rewrite app_length in *; cbn [length] in *; lia.
    + apply adds_add; [done|constructor].
    + intros _. rewrite C. destruct (contents os0 j) as [|x l] eqn:E.
      * cbn. split; [by apply least_one|by apply greatest_one].
      * destruct (Z.eqb_spec (Z.of_nat (length (x :: l))) 0); [cbn in *; lia|]. destruct (M ltac:(done)) as [M1 M2].
        split; [apply least_app|apply greatest_app]; try done; try (by apply list.Forall_singleton); [by apply least_one|by apply greatest_one].
  - intros l s H. split; [|exact H]. split_and!; [done|constructor|done].
  - intros os0 a b l s l' s' [HP F] -> -> (C & A & M) (C' & A' & M'). cbn [m_merge mmsc_methods]. unfold summary, mmsc_merge. cbn [mm_count mm_sum mm_min mm_max].
    assert (FA : Forall P (map snd (contents os0 a))) by (apply (numbers_measured P), (measures_snoc _ _ _ HP)).
    assert (FB : Forall P (map snd (contents os0 b))) by (apply (numbers_measured P), (measures_snoc _ _ _ HP)).
    pose proof (few_at _ b F) as L. rewrite contents_snoc in L. cbn [flow] in L. unfold putc in L. rewrite Nat.eqb_refl in L. rewrite app_length in L.
    rewrite map_app. split_and!.
    + rewrite C, C'. unfold uwrap. rewrite Z.mod_small; rewrite ?app_length; lia.
    + by apply adds_add.
    + intros NE. rewrite C, C'. destruct (contents os0 a) as [|x l] eqn:E, (contents os0 b) as [|x' l'] eqn:E'; cbn [map] in *.
      * done.
      * rewrite app_nil_r. cbn. by apply M'.
      * destruct (Z.eqb_spec (Z.of_nat (length (x :: l))) 0); [cbn in *; lia|]. cbn. by apply M.
      * destruct (Z.eqb_spec (Z.of_nat (length (x :: l))) 0); [cbn in *; lia|]. destruct (Z.eqb_spec (Z.of_nat (length (x' :: l'))) 0); [cbn in *; lia|].
        destruct (M ltac:(done)) as [M1 M2], (M' ltac:(done)) as [M1' M2']. split; [by apply least_app|by apply greatest_app].
  - done.
Qed.
End mm.

(** ** Gauges *)
Section gauge.
Context {N : arith}.
Definition updates (os : list (op N)) : Z := Z.of_nat (length (List.filter is_update os)).
(** The sequence number of the Update at time [t]. *)
Definition seq_at (os : list (op N)) (t : nat) : Z := 2 + updates (take t os).
Definition late (os : list (op N)) (l : list (nat * N)) (s : gauge N) : Prop :=
  (l = [] /\ g_seq s = 0) \/
  exists t n, (t, n) ∈ l /\ (forall t' n', (t', n') ∈ l -> (t' <= t)%nat) /\ s = Gauge n (seq_at os t).

Lemma updates_app os os' : updates (os ++ os') = updates os + updates os'.
Proof. unfold updates. rewrite List.filter_app, app_length. lia. Qed.
Lemma updates_one o : updates [o] = if is_update o then 1 else 0.
Proof. by destruct o. Qed.
Lemma seq_var_updates os : updates os < 18446744073709551614 -> seq_var (execs (gauge_methods N) os) = 1 + updates os.
Proof.
  induction os as [|o os IH] using rev_ind; intros H; [done|]. rewrite updates_app in H.
  assert (updates [o] >= 0) by (unfold updates; lia).
  rewrite execs_snoc, updates_app. specialize (IH ltac:(lia)). rewrite updates_one in *.
  destruct o; cbn [exec m_move gauge_methods seq_var is_update] in *; rewrite IH; try lia.
   assert (0 <= updates os) by (unfold updates; lia). unfold uwrap. rewrite Z.mod_small; lia.
Qed.
Lemma seq_at_take os os' t : (t <= length os)%nat -> seq_at (os ++ os') t = seq_at os t.
Proof. intros H. unfold seq_at. by rewrite take_app_le. Qed.
Lemma seq_at_mono os t t' : (t <= t')%nat -> seq_at os t <= seq_at os t'.
Proof.
  intros H. unfold seq_at. replace (take t os) with (take t (take t' os)) by (by rewrite take_take, Nat.min_l).
  rewrite <- (take_drop t (take t' os)) at 2. rewrite updates_app. unfold updates. lia.
Qed.
Lemma seq_at_lt os t t' j n : (t < t')%nat -> os !! t = Some (Update j n) -> seq_at os t < seq_at os t'.
Proof.
  intros H E. pose proof (seq_at_mono os (S t) t' H). enough (seq_at os t < seq_at os (S t)) by lia.
  unfold seq_at. rewrite (take_S_r _ _ _ E), updates_app, updates_one. cbn [is_update]. lia.
Qed.
Lemma late_snoc os o l s : (forall t n, (t, n) ∈ l -> (t <= length os)%nat) -> late os l s -> late (os ++ [o]) l s.
Proof.
  intros B [H|(t & n & H1 & H2 & ->)]; [by left|]. right. exists t, n. split_and!; [done|done|]. f_equal. symmetry. apply seq_at_take. eauto.
Qed.
Lemma gauge_late (os : list (op N)) : updates os < 18446744073709551614 -> forall i, late os (contents os i) (cell (execs (gauge_methods N) os) i).
Proof.
  induction os as [|o os IH] using rev_ind; intros H i; [by left|].
  pose proof H as H0. rewrite updates_app in H. assert (UO : updates [o] >= 0) by (unfold updates; lia). specialize (IH ltac:(lia)).
  assert (T : forall i t n, (t, n) ∈ contents os i -> exists j, os !! t = Some (Update j n)) by (intros *; apply contents_times).
  assert (B : forall i t n, (t, n) ∈ contents os i -> (t < length os)%nat) by (intros ? ? ? Ht; destruct (T _ _ _ Ht) as [j E]; by eapply lookup_lt_Some).
  assert (IH' : forall i, late (os ++ [o]) (contents os i) (cell (execs (gauge_methods N) os) i)).
  { intros j. apply late_snoc; [|done]. intros t n Ht. specialize (B _ _ _ Ht). lia. }
  rewrite contents_snoc, execs_snoc. destruct o as [j n|a b|a b|a b]; cbn [flow exec cell gauge_methods m_update m_move m_merge m_copy]; unfold putc.
  - destruct (Nat.eqb_spec i j) as [->|]; [|done]. right. exists (length os), n. split_and!.
    + apply elem_of_app. right. left.
    + intros t' n' Ht. apply elem_of_app in Ht as [Ht|Ht]; [specialize (B _ _ _ Ht); lia|]. apply elem_of_list_singleton in Ht. by inversion Ht.
    + f_equal. rewrite seq_var_updates by lia. unfold seq_at. rewrite take_app. rewrite updates_one in H. cbn [is_update] in H. unfold uwrap. assert (0 <= updates os) by (unfold updates; lia). rewrite Z.mod_small; lia.
  - destruct (Nat.eqb i b); [done|]. destruct (Nat.eqb i a); [by left|done].
  - destruct (Nat.eqb_spec i b) as [->|]; [|done]. specialize (IH' a) as A. specialize (IH' b) as A'.
    destruct A as [[-> E]|(t & n & H1 & H2 & E)].
    { rewrite app_nil_r. rewrite E. cbn. done. }
    destruct (T _ _ _ H1) as [j0 E0].
    assert (P0 : 2 <= seq_at (os ++ [Merge a b]) t) by (unfold seq_at, updates; lia).
    rewrite E. cbn [g_seq]. destruct (Z.eqb_spec (seq_at (os ++ [Merge a b]) t) 0); [lia|]. cbn [negb andb].
    destruct A' as [[-> E']|(t' & n' & H1' & H2' & E')]; rewrite E'; cbn [g_seq app].
    { destruct (Z.ltb_spec 0 (seq_at (os ++ [Merge a b]) t)); [|lia]. right. by exists t, n. }
    destruct (T _ _ _ H1') as [j1 E1].
    assert (E2 : (os ++ [Merge a b]) !! t = Some (Update j0 n)) by (rewrite lookup_app_l by (by eapply lookup_lt_Some); done).
    assert (E2' : (os ++ [Merge a b]) !! t' = Some (Update j1 n')) by (rewrite lookup_app_l by (by eapply lookup_lt_Some); done).
    destruct (Z.ltb_spec (seq_at (os ++ [Merge a b]) t') (seq_at (os ++ [Merge a b]) t)) as [L|L].
    + assert (t' < t)%nat. { destruct (Nat.lt_ge_cases t' t); [done|]. pose proof (seq_at_mono (os ++ [Merge a b]) t t' ltac:(done)). lia. }
      right. exists t, n. split_and!; [apply elem_of_app; by right| |done]. intros t2 n2 Ht. apply elem_of_app in Ht as [Ht|Ht]; [|eauto]. specialize (H2' _ _ Ht). lia.
    + assert (t <= t')%nat. { destruct (Nat.le_gt_cases t t'); [done|]. pose proof (seq_at_lt _ t' t _ _ ltac:(done) E2'). lia. }
      right. exists t', n'. split_and!; [apply elem_of_app; by left| |done]. intros t2 n2 Ht. apply elem_of_app in Ht as [Ht|Ht]; [eauto|]. specialize (H2 _ _ Ht). lia.
  - destruct (Nat.eqb_spec i b) as [->|]; done.
Qed.
Lemma gauge_latest (os : list (op N)) i : updates os < 18446744073709551614 -> contents os i <> [] ->
  latest (gauge_report (cell (execs (gauge_methods N) os) i)) (contents os i) /\
  m_change (gauge_methods N) (cell (execs (gauge_methods N) os) i) = true.
Proof.
  intros H Hc. destruct (gauge_late os H i) as [[E _]|(t & n & H1 & H2 & E)]; [done|]. rewrite E. unfold gauge_report. cbn [g_seq g_value gauge_methods m_change].
  destruct (Z.eqb_spec (seq_at os t) 0) as [Z0|_]; [unfold seq_at, updates in Z0; lia|]. split; [|done]. by exists t.
Qed.
Lemma gauge_unset (os : list (op N)) i : updates os < 18446744073709551614 -> contents os i = [] ->
  m_change (gauge_methods N) (cell (execs (gauge_methods N) os) i) = false /\ gauge_report (cell (execs (gauge_methods N) os) i) = zero.
Proof.
  intros H Hc. destruct (gauge_late os H i) as [[_ E]|(t & n & H1 & _)]; [unfold gauge_report; cbn; by rewrite E|]. rewrite Hc in H1. by apply elem_of_nil in H1.
Qed.
End gauge.
