(** C65: the attributes a caller passes. *)
From Coq Require Import ZArith Bool String Lia.
From stdpp Require Import base list option strings.
From Verif Require Import Base SyncModel Attr AttrSpec AttrProofs Mem MemSpec MemProofs.
Local Open Scope nat_scope.

(** A call that has returned has measured into a record of its instrument, made for the attributes that its slice held when the call began, cut to
    the limit, or for the overflow attributes if it was told that the limit of series was reached.  This holds in every schedule, also if other calls
    were given the same slice, and whatever the caller has written to it since.  If collisions are ignored only the fingerprints agree. *)
Theorem C65_recorded farm n ignore before s1 start s2 after s3 inst l x r :
  mrun farm n ignore m_init before = Some s1 -> mstep farm n ignore s1 start = Some s2 -> mrun farm n ignore s2 after = Some s3 -> begins s1 start inst l ->
  m_calls s3 !! length (m_calls s1) = Some x -> c_place x = Returned r ->
  exists y v w, m_recs s3 !! r = Some y /\ r_inst y = inst /\ r_set y = Some v /\ (w = truncate n l \/ MGo (length (m_calls s1)) true ∈ after /\ w = overflow_attrs) /\
    if ignore then fingerprint farm v = fingerprint farm w else same_series v w.
Proof.
  intros R1 S R2 B Hx P. pose proof (mrun_inv farm n ignore _ _ _ (inv_init farm n ignore) R1) as I1. pose proof (inv_step farm n ignore _ _ _ I1 S) as I2.
  pose proof (mrun_inv farm n ignore _ _ _ I2 R2) as (_ & _ & I3 & I4).
  assert (Q : exists x0, m_calls s2 !! length (m_calls s1) = Some x0 /\ c_inst x0 = inst /\ c_given x0 = l /\ c_over x0 = false).
  { destruct start as [|b i v|i b|i opts|c o|q]; try done; cbn in S, B; destruct B as [-> Hb].
    - destruct (m_user s1 !! b) as [[|]|]; try done. injection S as <-. cbn. eexists. split; [by apply list_lookup_middle|]. cbn. split; [done|]. split; [|done]. unfold array. by rewrite Hb.
    - injection S as <-. cbn. eexists. split; [by apply list_lookup_middle|]. done. }
  destruct Q as (x0 & H0 & Q1 & Q2 & Q3). destruct (run_calls farm n ignore _ _ _ _ _ R2 H0) as (x' & Hx' & A1 & A2 & A3 & A4). assert (x' = x) as -> by congruence.
  destruct (I4 _ _ Hx) as [_ C]. rewrite P in C. destruct C as (y & v & Hy & Hv & G1 & G2). exists y, v, (want n x). split; [done|]. split; [congruence|]. split; [done|]. split.
  - unfold want. destruct (c_over x) eqn:O; [right|left; by rewrite A3, Q2]. split; [|done]. destruct (A4 eq_refl) as [?|M]; [congruence|done].
  - destruct ignore.
    + destruct (I3 _ _ Hy) as [F _]. unfold val in F. rewrite Hv in F. congruence.
    + unfold same_series. rewrite !canon_new_set. by rewrite G2.
Qed.

(** The attributes of a record never change, whatever any goroutine does, and whatever the callers write to their slices. *)
Theorem C65_fixed farm n ignore before s l s' r y v : mrun farm n ignore m_init before = Some s -> mrun farm n ignore s l = Some s' ->
  m_recs s !! r = Some y -> r_set y = Some v -> exists y', m_recs s' !! r = Some y' /\ r_set y' = Some v.
Proof. intros _ R H V. exists y. split; [|done]. by apply (run_recs farm n ignore l s s' r y v). Qed.

(** A slice that no running call was given is not referenced: the caller may reuse it.  Writing to it changes nothing a record holds. *)
Theorem C65_reuse farm n ignore l s a : mrun farm n ignore m_init l = Some s -> ~ running_on s a ->
  (forall r y, m_recs s !! r = Some y -> r_held y <> Lent a) /\
  forall i v s', mstep farm n ignore s (MWrite a i v) = Some s' -> m_recs s' = m_recs s /\ forall r y, m_recs s !! r = Some y -> contents s' (r_held y) = contents s (r_held y).
Proof.
  intros R N. pose proof (mrun_inv farm n ignore _ _ _ (inv_init farm n ignore) R) as (_ & _ & I3 & _).
  assert (K : forall r y, m_recs s !! r = Some y -> r_held y <> Lent a).
  { intros r y Hy E. destruct (I3 r y Hy) as [_ K]. rewrite E in K. destruct (r_set y); [done|]. destruct K as (_ & c & x & Hc & P & A & _). apply N. exists c, x. split; [done|]. split; [done|]. congruence. }
  split; [done|]. intros i v s' E. cbn in E. destruct (m_user s !! a) as [[|]|]; try done. destruct (existsb _ _); [done|]. injection E as <-. split; [done|]. intros r y Hy. specialize (K r y Hy).
  destruct (r_held y) as [k|b|]; try done. cbn. rewrite array_alter. rewrite bool_decide_false; [done|congruence].
Qed.

(** The only thing a call changes in memory is the slice it was given, and there it only shortens keys and values that are too long.  Nothing changes if
    there is no limit or all attributes are within it. *)
Theorem C65_written farm n ignore l s c over s' a : mrun farm n ignore m_init l = Some s -> mstep farm n ignore s (MGo c over) = Some s' ->
  Forall2 (shortened_attr n) (array s a) (array s' a) /\
  (array s' a <> array s a -> n <> 0 /\ (exists x, m_calls s !! c = Some x /\ c_arr x = a) /\ exists b, b ∈ array s a /\ ~ within n b).
Proof.
  intros R E. pose proof (mrun_inv farm n ignore _ _ _ (inv_init farm n ignore) R) as I. cbn in E. destruct (go_heap farm n ignore _ _ _ _ I E) as (H & _ & _ & W). specialize (H a). split.
  - destruct H as [->|[N F]]; [|eapply Forall2_impl; [exact F|intros x y; by apply le_shortened]]. apply Reflexive_instance_0. intros x. split; by left.
  - intros D. split; [by destruct H as [|[N _]]|]. split; [by apply W|]. destruct H as [|[N F]]; [done|].
    destruct (decide (Forall (fun b => t1 n b = b) (array s a))) as [T|T].
    + destruct D. rewrite (lea_settled n (array s a) (array s' a)); [done|by right|]. rewrite truncate_t1 by done. clear -T. induction T as [|b m Hb _ IH]; [done|]. cbn. by rewrite Hb, IH.
    + apply not_Forall_Exists in T; [|intros; apply _]. apply Exists_exists in T as (b & Hb & T). exists b. split; [done|]. intros [Wk Wv]. apply T. unfold t1.
      destruct b as [k v]. cbn in *. rewrite cut_id by done. f_equal. destruct v; cbn; try done; [by rewrite cut_id|]. f_equal.
      clear -Wv. induction l0 as [|x m IH]; [done|]. cbn. rewrite cut_id by (apply Wv; left). f_equal. apply IH. intros z Hz. apply Wv. by right.
Qed.

(** When a call returns, its slice holds the attributes as they were cut. *)
Theorem C65_left farm n ignore l s c over s' x x' r : mrun farm n ignore m_init l = Some s -> mstep farm n ignore s (MGo c over) = Some s' ->
  m_calls s !! c = Some x -> m_calls s' !! c = Some x' -> c_place x' = Returned r -> array s' (c_arr x) = truncate n (c_given x).
Proof.
  intros R E Hc Hc' P'. pose proof (mrun_inv farm n ignore _ _ _ (inv_init farm n ignore) R) as I. pose proof I as (_ & _ & _ & I4). pose proof (I4 c x Hc) as [_ C].
  pose proof (lookup_lt_Some _ _ _ Hc) as Lc. cbn in E. unfold go in E. rewrite Hc in E. cbn [mbind option_bind] in E.
  destruct (c_place x) as [i|i e|i e|i fp|fp|fp|fp k|q|q] eqn:P; cbn beta iota zeta in E.
  - destruct (array s (c_arr x) !! i); injection E as <-; cbn in Hc'; rewrite list_lookup_insert in Hc' by done; injection Hc' as <-; done.
  - injection E as <-; cbn in Hc'; rewrite list_lookup_insert in Hc' by done; injection Hc' as <-; done.
  - injection E as <-; cbn in Hc'; rewrite list_lookup_insert in Hc' by done; injection Hc' as <-; done.
  - destruct (array s (c_arr x) !! i); injection E as <-; cbn in Hc'; rewrite list_lookup_insert in Hc' by done; injection Hc' as <-; done.
  - destruct (find_rec _ _ _ _ _); [|destruct over; [destruct (find_rec _ _ _ _ _)|]]; injection E as <-; cbn in Hc'; rewrite list_lookup_insert in Hc' by done; injection Hc' as <-; done.
  - injection E as <-; cbn in Hc'; rewrite list_lookup_insert in Hc' by done; injection Hc' as <-; done.
  - destruct (find_rec _ _ _ _ _); injection E as <-; cbn in Hc'; rewrite list_lookup_insert in Hc' by done; injection Hc' as <-; done.
  - destruct C as [T _]. destruct (m_recs s !! q) as [y|]; [|done]. cbn [mbind option_bind] in E. destruct (r_set y); by injection E as <-.
  - done.
Qed.

(** A call is never stuck and takes a bounded number of steps, whatever the others do: four for each attribute and six. *)
Theorem C65_returns farm n ignore before s1 start s2 after s3 inst l :
  mrun farm n ignore m_init before = Some s1 -> mstep farm n ignore s1 start = Some s2 -> mrun farm n ignore s2 after = Some s3 -> begins s1 start inst l ->
  steps_of (length (m_calls s1)) after <= 4 * length l + 6 /\
  (forall over x, m_calls s3 !! length (m_calls s1) = Some x -> (forall r, c_place x <> Returned r) -> exists s4, mstep farm n ignore s3 (MGo (length (m_calls s1)) over) = Some s4) /\
  exists more s4 x r, only_calls more /\ mrun farm n ignore s3 more = Some s4 /\ m_calls s4 !! length (m_calls s1) = Some x /\ c_place x = Returned r.
Proof.
  intros R1 S R2 B. pose proof (mrun_inv farm n ignore _ _ _ (inv_init farm n ignore) R1) as I1. pose proof (inv_step farm n ignore _ _ _ I1 S) as I2.
  pose proof (mrun_inv farm n ignore _ _ _ I2 R2) as I3.
  assert (Q : exists x0, m_calls s2 !! length (m_calls s1) = Some x0 /\ left_of s2 x0 <= 4 * length l + 6).
  { assert (G : forall m, 1 <= m -> (match first_place n with Trunc i => 3 * (m - 1 - i) + 1 + (m - 1) + 5 | Print i _ => m - 1 - i + 5 | _ => 0 end) <= 4 * (m - 1) + 6).
    { intros m. unfold first_place. destruct n; lia. } specialize (G (Datatypes.S (length l)) ltac:(lia)). cbn [Nat.sub] in G. rewrite Nat.sub_0_r in G.
    destruct start as [|b i v|i b|i opts|c o|q]; try done; cbn in S, B; destruct B as [-> Hb].
    - destruct (m_user s1 !! b) as [[|]|]; try done. injection S as <-. cbn [m_calls]. eexists. split; [by apply list_lookup_middle|]. unfold left_of. cbn [c_arr c_place].
      assert (El : array (Mem (m_heap s1) (m_user s1) (m_recs s1) (m_map s1) (m_calls s1 ++ [MCall inst b (array s1 b) false (first_place n)])) b = l) by (unfold array; cbn; by rewrite Hb). rewrite El.
      unfold first_place in *. destruct n; exact G.
    - injection S as <-. cbn [m_calls]. eexists. split; [by apply list_lookup_middle|]. unfold left_of. cbn [c_arr c_place]. unfold array. cbn [m_heap]. rewrite list_lookup_middle by done. cbn [default from_option]. rewrite Hb.
      unfold first_place in *. destruct n; exact G. }
  destruct Q as (x0 & H0 & Q). destruct (run_left farm n ignore _ _ _ _ _ I2 H0 R2) as (x & Hx & L). split; [lia|]. split.
  - intros over z Hz F. assert (z = x) as -> by congruence. apply (go_some farm n ignore s3 _ x over I3 Hx). unfold in_flight. destruct (c_place x); try done. by destruct (F r).
  - by apply (finish farm n ignore _ s3 _ x I3 Hx (Nat.le_refl _)).
Qed.

(** Attributes given as options of Add or Record go to the same series as the attributes of all the options, one after the other, given to
    AddWithKeyValues or RecordWithKeyValues, if no key is longer than the limit. *)
Theorem C65_options n opts : n = 0 \/ (forall a, a ∈ all_attrs opts -> String.length a.1 <= n) -> same_series (truncate n (op_config opts)) (truncate n (all_attrs opts)).
Proof.
  intros H. unfold same_series. f_equal. rewrite op_config_spec. apply new_set_ext. intros k. destruct n as [|n]; [apply value_of_new_set|]. destruct H as [|H]; [done|].
  rewrite !value_of_truncate; [by rewrite value_of_new_set|done|]. intros a Ha. apply new_set_elem in Ha as (b & Hb & <-). by apply H.
Qed.
(** Not so if a key is cut and is then the same as another: the options are sorted before the keys are cut. *)
Theorem C65_options_refuted : exists n opts, n <> 0 /\ ~ same_series (truncate n (op_config opts)) (truncate n (all_attrs opts)).
Proof. exists 1, [WithAttributes [("ac"%string, VInt 2); ("ab"%string, VInt 1)]]. split; [done|]. vm_compute. discriminate. Qed.

(** A call does change the slice of its caller. *)
Theorem C65_untouched_refuted : exists farm n ignore l s s' more a, mrun farm n ignore m_init l = Some s /\ only_calls more /\ mrun farm n ignore s more = Some s' /\
  (forall c x, m_calls s' !! c = Some x -> exists r, c_place x = Returned r) /\ array s' a <> array s a.
Proof.
  set (l := [MNew [("k"%string, VString "abc")]; MKeyValues 0 0]). set (m := repeat (MGo 0 false) 10).
  destruct (mrun (fun _ => 0%Z) 2 false m_init l) as [s|] eqn:E; [|by vm_compute in E].
  destruct (mrun (fun _ => 0%Z) 2 false s m) as [s'|] eqn:E'; [|vm_compute in E; injection E as <-; by vm_compute in E'].
  exists (fun _ => 0%Z), 2, false, l, s, s', m, 0. split; [done|]. split; [intros a Ha; apply elem_of_list_In, repeat_spec in Ha as ->; by exists 0, false|]. split; [done|].
  vm_compute in E. injection E as <-. vm_compute in E'. injection E' as <-. split; [|by vm_compute]. intros [|c] x Hx; [|by destruct c]. injection Hx as <-. by exists 0.
Qed.

(** ** Cases that meet the hypotheses *)
Module Ex65.
Local Open Scope string_scope.
(** Two goroutines measure with one slice whose value is too long; then the slice is reused for a third measurement while the first record lives on. *)
Definition attrs : list kv := [("key", VString "abcdef"); ("x", VInt 3)].
Definition before : list mact := [MNew attrs].
Definition start : mact := MKeyValues 7 0.
Definition after : list mact :=
  [MGo 0 false; MKeyValues 7 0; MGo 1 false; MGo 1 false; MGo 0 false; MGo 1 false] ++ repeat (MGo 0 false) 12 ++ repeat (MGo 1 false) 9 ++
  [MWrite 0 1 ("x", VInt 4); MKeyValues 7 0] ++ repeat (MGo 2 false) 14 ++ [MOptions 7 [WithAttributes [("x", VInt 3)]; WithAttributeSet [("key", VString "abcd")]]] ++ repeat (MGo 3 true) 12.
Definition obs (s : mem) : list (place * list kv) * list (option (list kv)) * list (list kv) :=
  (map (fun c => (c_place c, c_given c)) (m_calls s), map r_set (m_recs s), m_heap s).
Definition farm (s : string) : Z := Z.of_nat (String.length s).
Example runs : exists s1 s2, mrun farm 4 false m_init before = Some s1 /\ mstep farm 4 false s1 start = Some s2 /\ begins s1 start 7 attrs /\
  option_map obs (mrun farm 4 false s2 after) = Some
    ([(Returned 0, attrs); (Returned 0, [("key", VString "abcdef"); ("x", VInt 3)]); (Returned 1, [("key", VString "abcd"); ("x", VInt 4)]); (Returned 0, [("key", VString "abcd"); ("x", VInt 3)])],
     [Some [("key", VString "abcd"); ("x", VInt 3)]; Some [("key", VString "abcd"); ("x", VInt 4)]],
     [[("key", VString "abcd"); ("x", VInt 4)]; [("key", VString "abcd"); ("x", VInt 3)]])%Z.
Proof. eexists _, _. split; [reflexivity|]. split; [reflexivity|]. split; [done|]. by vm_compute. Qed.
(** With collisions ignored a record refers to the caller's slice while the call that made it runs, and not later. *)
Definition lent (k : nat) : option (list held) := option_map (fun s => map r_held (m_recs s)) (mrun farm 4 true m_init (before ++ [start] ++ repeat (MGo 0 false) k)).
Example lends : lent 12 = Some [] /\ lent 13 = Some [Lent 0] /\ lent 14 = Some [Dropped].
Proof. by vm_compute. Qed.
Example not_running : forall s, mrun farm 4 true m_init (before ++ [start] ++ repeat (MGo 0 false) 14) = Some s -> ~ running_on s 0.
Proof. intros s E. vm_compute in E. injection E as <-. intros (c & x & Hc & _ & F). destruct c as [|[]]; [|done..]. injection Hc as <-. by apply (F 0). Qed.
(** The limit of series is reached: the call goes to the overflow series. *)
Example overflows : option_map (fun s => map r_set (m_recs s)) (mrun farm 4 false m_init [MNew attrs; MKeyValues 7 0; MGo 0 false; MGo 0 false; MGo 0 false; MGo 0 false; MGo 0 false; MGo 0 false; MGo 0 false; MGo 0 false; MGo 0 false; MGo 0 false; MGo 0 true; MGo 0 true; MGo 0 true; MGo 0 true]) = Some [Some overflow_attrs].
Proof. by vm_compute. Qed.
(** The hypothesis of the theorem about options. *)
Example options : same_series (truncate 4 (op_config [WithAttributes [("b", VInt 1); ("a", VString "long value")]; WithAttributeSet [("b", VInt 2)]]))
  [("a", VString "long"); ("b", VInt 2)] /\ forall a, a ∈ all_attrs [WithAttributes [("b", VInt 1); ("a", VString "long value")]; WithAttributeSet [("b", VInt 2)]] -> (String.length a.1 <= 4)%nat.
Proof. split; [by vm_compute|]. intros a Ha. cbn in Ha. repeat (apply elem_of_cons in Ha as [->|Ha]; [cbn; lia|]). by apply elem_of_nil in Ha. Qed.
End Ex65.

Print Assumptions C65_recorded.
Print Assumptions C65_fixed.
Print Assumptions C65_reuse.
Print Assumptions C65_written.
Print Assumptions C65_left.
Print Assumptions C65_returns.
Print Assumptions C65_options.
Print Assumptions C65_options_refuted.
Print Assumptions C65_untouched_refuted.
