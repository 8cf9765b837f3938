(** C68: from the numbers passed to instruments to the numbers in the OTLP requests.  Words are in SentSpec, FlowSpec, ExpSpec and SyncSpec. *)
From Coq Require Import ZArith Bool String Lia.
From stdpp Require Import base list option strings.
From Verif Require Import Per PerSpec Base SyncModel SyncSpec SyncSafe Num Agg AggSpec AggProofs Attr AggSync AggProps View Data Flow FlowSpec FlowProofs FlowProps
  Exp ExpSpec ExpProofs ExpProps Sent SentSpec SentProofs.
Local Open Scope Z_scope.

Section props.
Context (farm : string -> Z) (kinds : nat -> agg_kind) (keys : nat -> option (list string)) (views : list SyncModel.view).
Context (insts : list (list nat)) (periods ilimit : Z) (ignore : bool).
Notation c := (int_config farm kinds keys views insts periods ilimit ignore).
Context (desc : nat -> descriptor) (mono : nat -> bool) (lib : scope) (res : string).
Context (H : hlib) (rs : string -> list kv) (clock : nat -> sequence) (answer : nat -> pmetrics -> option error) (rd : nat).
Notation sent := (sent farm kinds keys views insts periods ilimit ignore desc mono lib res H rs true clock answer rd).
Notation measurement := (measurement farm kinds keys views insts periods ilimit ignore).
Notation typed_calls := (typed_calls farm kinds keys views insts periods ilimit ignore).
Notation distinct_names := (distinct_names farm kinds keys views insts periods ilimit ignore desc rd).

(** * C68: what was measured before ForceFlush or Shutdown was called is what the OTLP pipeline was handed when it returns *)
(** A delta sum.  Add up the numbers that all requests handed over so far show for the metric [i_name (desc v)] under the attributes [ky]: it is the sum (as an
    int64) of the measurements [X] of that series, which are all different, and [X] contains every measurement made by a call that had returned when
    ForceFlush or Shutdown was called. *)
Theorem C68_delta : forall l1 (f1 : flow c) a l2 f2 m e v ky,
  frun rd (flow_init c) l1 = Some f1 -> frun rd f1 (FReader a :: l2) = Some f2 -> a = AFlush \/ a = AShut ->
  rd_threads (f_reader f2) !! length (rd_threads (f_reader f1)) = Some (CReturned m e) ->
  calm (calls_made rd (l1 ++ FReader a :: l2)) -> typed_calls (calls_made rd (l1 ++ FReader a :: l2)) ->
  (forall n, times_ok (clock n)) -> a_set (rs res) -> with_types (rs res) -> distinct_names ->
  read_by c rd v -> kinds v = KSum -> vdelta c v = true -> no_empty_slices ky ->
  exists os X, sent f2 = Some os /\ NoDup X /\ (forall x, x ∈ X -> in_series (c:=c) (f_sync f2) v ky x) /\
    (forall x u, measured_by_now rd f1 x u -> u_view u = v -> u_key u = ky -> x ∈ X) /\
    wrap (zsum (flat_map (fun o => values (i_name (desc v)) ky o.1.1) os)) = wrap (zsum (map (measurement (f_sync f2)) X)).
Proof. intros. by eapply delta_sums. Qed.
(** The counts of a minmaxsumcount with delta temporality, in all requests handed over so far, add up to the number of the measurements [X]. *)
Theorem C68_delta_count : forall l1 (f1 : flow c) a l2 f2 m e v ky,
  frun rd (flow_init c) l1 = Some f1 -> frun rd f1 (FReader a :: l2) = Some f2 -> a = AFlush \/ a = AShut ->
  rd_threads (f_reader f2) !! length (rd_threads (f_reader f1)) = Some (CReturned m e) ->
  calm (calls_made rd (l1 ++ FReader a :: l2)) -> typed_calls (calls_made rd (l1 ++ FReader a :: l2)) ->
  (forall n, times_ok (clock n)) -> a_set (rs res) -> with_types (rs res) -> distinct_names ->
  read_by c rd v -> kinds v = KMMSC -> vdelta c v = true -> no_empty_slices ky ->
  exists os X, sent f2 = Some os /\ NoDup X /\ (forall x, x ∈ X -> in_series (c:=c) (f_sync f2) v ky x) /\
    (forall x u, measured_by_now rd f1 x u -> u_view u = v -> u_key u = ky -> x ∈ X) /\
    zsum (flat_map (fun o => counts (i_name (desc v)) ky o.1.1) os) = Z.of_nat (length X).
Proof. intros. by eapply delta_counts. Qed.
(** A gauge with delta temporality: all requests handed over so far show numbers set by different calls, each the number of one measurement of the series; and for every
    call that had returned, one of those is of that call or of one that set the gauge after it. *)
Theorem C68_delta_gauge : forall l1 (f1 : flow c) a l2 f2 m e v ky,
  frun rd (flow_init c) l1 = Some f1 -> frun rd f1 (FReader a :: l2) = Some f2 -> a = AFlush \/ a = AShut ->
  rd_threads (f_reader f2) !! length (rd_threads (f_reader f1)) = Some (CReturned m e) ->
  calm (calls_made rd (l1 ++ FReader a :: l2)) -> typed_calls (calls_made rd (l1 ++ FReader a :: l2)) ->
  (forall n, times_ok (clock n)) -> a_set (rs res) -> with_types (rs res) -> distinct_names ->
  read_by c rd v -> kinds v = KGauge -> vdelta c v = true -> no_empty_slices ky ->
  exists os Y, sent f2 = Some os /\ NoDup Y /\ (forall y, y ∈ Y -> in_series (c:=c) (f_sync f2) v ky y) /\
    (forall x u, measured_by_now rd f1 x u -> u_view u = v -> u_key u = ky -> exists y, y ∈ Y /\ (x <= y)%nat) /\
    flat_map (fun o => values (i_name (desc v)) ky o.1.1) os = map (fun y => wrap (measurement (f_sync f2) y)) Y.
Proof. intros. by eapply delta_gauges. Qed.
(** A cumulative sum.  ForceFlush or Shutdown made a request of its own, number [n], whose error it returned.  If anything was measured in the series, that request
    shows one number for it: the sum of measurements of the series that contain every one made by a call that had returned. *)
Theorem C68_cumulative : forall l1 (f1 : flow c) a l2 f2 m e,
  frun rd (flow_init c) l1 = Some f1 -> frun rd f1 (FReader a :: l2) = Some f2 -> a = AFlush \/ a = AShut ->
  rd_threads (f_reader f2) !! length (rd_threads (f_reader f1)) = Some (CReturned m e) ->
  calm (calls_made rd (l1 ++ FReader a :: l2)) -> typed_calls (calls_made rd (l1 ++ FReader a :: l2)) ->
  (forall n, times_ok (clock n)) -> a_set (rs res) -> with_types (rs res) -> distinct_names ->
  exists os n s o, sent f2 = Some os /\ exported f2 n s /\ s_t s = length (rd_threads (f_reader f1)) /\ s_err s = e /\ os !! n = Some o /\
    forall v ky, read_by c rd v -> vdelta c v = false -> kinds v = KSum -> no_empty_slices ky ->
    (exists x u, measured_by_now rd f1 x u /\ u_view u = v /\ u_key u = ky) ->
    exists X, NoDup X /\ (forall x, x ∈ X -> in_series (c:=c) (f_sync f2) v ky x) /\
      (forall x u, measured_by_now rd f1 x u -> u_view u = v -> u_key u = ky -> x ∈ X) /\
      values (i_name (desc v)) ky o.1.1 = [wrap (zsum (map (measurement (f_sync f2)) X))].
Proof.
  intros l1 f1 a l2 f2 m e R1 R2 A T CALM TY CL RS1 RS2 DN.
  destruct (cumulative_points farm kinds keys views insts periods ilimit ignore desc mono lib res H rs clock answer rd values_of (shown kinds) l1 f1 a l2 f2 m e R1 R2 A T CALM TY CL RS1 RS2 DN (values_read _ _ _ _ _ _ _ _ _ _))
    as (os & n & s & o & S1 & S2 & S3 & S4 & S5 & G).
  exists os, n, s, o. split_and!; try done. intros v ky RB VD KD NE M. destruct (G v ky RB VD NE M) as (X & p & X1 & _ & X2 & X3 & (SH & _) & X4).
  exists X. split_and!; try done. unfold values. rewrite X4. unfold shown. rewrite KD. by rewrite SH.
Qed.
(** A gauge with cumulative temporality: that request shows one number, set by a call, and no call that had returned set a later one. *)
Theorem C68_gauge : forall l1 (f1 : flow c) a l2 f2 m e,
  frun rd (flow_init c) l1 = Some f1 -> frun rd f1 (FReader a :: l2) = Some f2 -> a = AFlush \/ a = AShut ->
  rd_threads (f_reader f2) !! length (rd_threads (f_reader f1)) = Some (CReturned m e) ->
  calm (calls_made rd (l1 ++ FReader a :: l2)) -> typed_calls (calls_made rd (l1 ++ FReader a :: l2)) ->
  (forall n, times_ok (clock n)) -> a_set (rs res) -> with_types (rs res) -> distinct_names ->
  exists os n s o, sent f2 = Some os /\ exported f2 n s /\ s_t s = length (rd_threads (f_reader f1)) /\ s_err s = e /\ os !! n = Some o /\
    forall v ky, read_by c rd v -> vdelta c v = false -> kinds v = KGauge -> no_empty_slices ky ->
    (exists x u, measured_by_now rd f1 x u /\ u_view u = v /\ u_key u = ky) ->
    exists x, in_series (c:=c) (f_sync f2) v ky x /\ (forall y u, measured_by_now rd f1 y u -> u_view u = v -> u_key u = ky -> (y <= x)%nat) /\
      values (i_name (desc v)) ky o.1.1 = [wrap (measurement (f_sync f2) x)].
Proof.
  intros l1 f1 a l2 f2 m e R1 R2 A T CALM TY CL RS1 RS2 DN.
  destruct (cumulative_points farm kinds keys views insts periods ilimit ignore desc mono lib res H rs clock answer rd values_of (shown kinds) l1 f1 a l2 f2 m e R1 R2 A T CALM TY CL RS1 RS2 DN (values_read _ _ _ _ _ _ _ _ _ _))
    as (os & n & s & o & S1 & S2 & S3 & S4 & S5 & G).
  exists os, n, s, o. split_and!; try done. intros v ky RB VD KD NE M. destruct (G v ky RB VD NE M) as (X & p & X1 & XN & X2 & X3 & (_ & _ & SH) & X4).
  destruct (SH XN) as (_ & _ & x & Xx & LA & E). exists x. split; [by apply X2|]. split; [intros y u My V K; apply LA; by eapply X3|].
  unfold values. rewrite X4. unfold shown. rewrite KD, E. done.
Qed.
(** The count of a minmaxsumcount with cumulative temporality: that request shows one count, that of such measurements. *)
Theorem C68_count : forall l1 (f1 : flow c) a l2 f2 m e,
  frun rd (flow_init c) l1 = Some f1 -> frun rd f1 (FReader a :: l2) = Some f2 -> a = AFlush \/ a = AShut ->
  rd_threads (f_reader f2) !! length (rd_threads (f_reader f1)) = Some (CReturned m e) ->
  calm (calls_made rd (l1 ++ FReader a :: l2)) -> typed_calls (calls_made rd (l1 ++ FReader a :: l2)) ->
  (forall n, times_ok (clock n)) -> a_set (rs res) -> with_types (rs res) -> distinct_names ->
  exists os n s o, sent f2 = Some os /\ exported f2 n s /\ s_t s = length (rd_threads (f_reader f1)) /\ s_err s = e /\ os !! n = Some o /\
    forall v ky, read_by c rd v -> vdelta c v = false -> kinds v = KMMSC -> no_empty_slices ky ->
    (exists x u, measured_by_now rd f1 x u /\ u_view u = v /\ u_key u = ky) ->
    exists X, NoDup X /\ (forall x, x ∈ X -> in_series (c:=c) (f_sync f2) v ky x) /\
      (forall x u, measured_by_now rd f1 x u -> u_view u = v -> u_key u = ky -> x ∈ X) /\
      counts (i_name (desc v)) ky o.1.1 = [Z.of_nat (length X)].
Proof.
  intros l1 f1 a l2 f2 m e R1 R2 A T CALM TY CL RS1 RS2 DN.
  destruct (cumulative_points farm kinds keys views insts periods ilimit ignore desc mono lib res H rs clock answer rd counts_of (counted kinds) l1 f1 a l2 f2 m e R1 R2 A T CALM TY CL RS1 RS2 DN (counts_read _ _ _ _ _ _ _ _ _ _))
    as (os & n & s & o & S1 & S2 & S3 & S4 & S5 & G).
  exists os, n, s, o. split_and!; try done. intros v ky RB VD KD NE M. destruct (G v ky RB VD NE M) as (X & p & X1 & _ & X2 & X3 & (_ & SH & _) & X4).
  exists X. split_and!; try done. unfold counts. rewrite X4. unfold counted. rewrite KD. by rewrite SH.
Qed.
End props.

(** Different series look different in OTLP, unless slices are empty: *)
Theorem C68_distinct : forall k k' d, no_empty_slices k -> attrs_say k d -> attrs_say k' d -> k = k'.
Proof. exact attrs_say_inj. Qed.
(** an empty slice of bools and an empty slice of ints are different attribute values, and so different series, but the same OTLP value. *)
Theorem C68_distinct_refuted : exists k k' d, key_ok k /\ key_ok k' /\ attributes_equal k k' = false /\ attrs_say k d /\ attrs_say k' d /\
  copy_attributes [] k = Some d /\ copy_attributes [] k' = Some d.
Proof.
  exists [("a"%string, VBools [])], [("a"%string, VInts [])], [("a"%string, PSlice [])].
  assert (N : forall v, v <> VInvalid -> key_ok [("a"%string, v)]).
  { intros v V. split; [|by repeat constructor]. apply NoDup_singleton. }
  split_and!; try (by apply N); try done; repeat constructor.
Qed.

Module Ex68.
  (** Reader 1 has a cumulative and a delta sum of instrument 0, a cumulative and a delta gauge of instrument 1, and a delta and a cumulative minmaxsumcount of instrument 2. *)
  Definition kinds (v : nat) : agg_kind := match v with 0%nat | 1%nat => KSum | 2%nat | 5%nat => KGauge | _ => KMMSC end.
  Definition views := [SyncModel.View false 1 9; SyncModel.View true 1 9; SyncModel.View false 1 9; SyncModel.View true 1 9; SyncModel.View false 1 9; SyncModel.View true 1 9].
  Definition c := int_config (fun _ => 0) kinds (fun _ => None) views [[0; 1]; [2; 5]; [3; 4]]%nat 2 9 false.
  Local Open Scope string_scope.
  Definition names (v : nat) : string := match v with 0%nat => "total" | 1%nat => "new" | 2%nat => "level" | 3%nat => "some" | 4%nat => "all" | _ => "set" end.
  Definition desc (v : nat) : descriptor := Descriptor (names v) SyncCounter IntKind "" "".
  Definition red : list kv := [("color", VString "red")].
  Definition blue : list kv := [("color", VString "blue"); ("ids", VInts [3; 4])].
  (** A call or a collection run to its end; a call begun; Produce run to its end by a goroutine of the reader; a step of the reader. *)
  Inductive what := Call (o : nat) (l : list kv) (n : Z) | Begin (o : nat) (l : list kv) (n : Z) | Finish (t : nat) | P (t : nat) | R (a : pact).
  Fixpoint go (fuel t : nat) (f : flow c) : list (fact c) :=
    match fuel with
    | O => []
    | S fuel => match s_thr (f_sync f) !! t with
                | Some PDone | Some QDone | None => []
                | _ => FCall (LStep t 0) :: go fuel t (default f (fstep 1 f (FCall (LStep t 0))))
                end
    end.
  Definition start (a : fact c) (f : flow c) : list (fact c) := a :: go 500 (length (s_thr (f_sync f))) (default f (fstep 1 f a)).
  Definition facts (w : what) (f : flow c) : list (fact c) :=
    match w with
    | Call o l n => start (FCall (LObserve (c:=c) o l n)) f
    | Begin o l n => [FCall (LObserve (c:=c) o l n)]
    | Finish t => go 500 t f
    | P t => start (FProduce t) f
    | R a => [FReader a]
    end.
  Fixpoint plays (l : list what) (f : flow c) : list (fact c) :=
    match l with
    | [] => []
    | w :: l => let fs := facts w f in fs ++ plays l (default f (frun 1 f fs))
    end.
  Definition ran (f : flow c) (l : list (fact c)) : bool := match frun 1 f l with Some _ => true | None => false end.
  Definition fafter (f : flow c) (l : list (fact c)) : flow c := default f (frun 1 f l).
  Lemma ran_run f l : ran f l = true -> frun 1 f l = Some (fafter f l).
  Proof. unfold ran, fafter. by destruct (frun 1 f l). Qed.
  (** A tick exports the first calls; more calls return while that export, which will fail, is under way; ForceFlush is called; one more call runs while it collects. *)
  Definition l1 := plays [R (ARegister "p"); Call 0 red 5; Call 1 red 8; Call 2 blue 9; R (Tick 0); R (Go 0); P 0; R (Go 0); R (Go 0);
    Call 0 red 7; Call 0 blue 100; Call 1 red (-3); Call 2 blue 1; Call 2 blue 1] (flow_init c).
  Definition f1 := fafter (flow_init c) l1.
  Definition l2 := plays [Begin 0 red 1; R (Exported 0 (Some "down")); R (Go 0); R (Go 1); P 1; Finish 9; R (Go 1); R (Go 1); R (Exported 1 None); R (Go 1)]
    (default f1 (fstep 1 f1 (FReader AFlush))).
  Definition f2 := fafter f1 (FReader AFlush :: l2).
  Example run1 : frun 1 (flow_init c) l1 = Some f1. Proof. apply ran_run. vm_compute. reflexivity. Qed.
  Example run2 : frun 1 f1 (FReader AFlush :: l2) = Some f2. Proof. apply ran_run. vm_compute. reflexivity. Qed.
  Example returned2 : rd_threads (f_reader f2) !! length (rd_threads (f_reader f1)) = Some (CReturned Flush None). Proof. vm_compute. reflexivity. Qed.
  Example calm2 : calm (calls_made 1 (l1 ++ FReader AFlush :: l2)). Proof. apply few_calm. vm_compute. reflexivity. Qed.
  Definition typed (l : label c) : bool :=
    match l with LObserve _ k _ => forallb (fun a : kv => match a.2 with VInvalid => false | _ => true end) (k : list kv) | _ => true end.
  Example typed2 : typed_calls (fun _ => 0) kinds (fun _ => None) views [[0; 1]; [2; 5]; [3; 4]]%nat 2 9 false (calls_made 1 (l1 ++ FReader AFlush :: l2)).
  Proof.
    assert (E : forallb typed (calls_made 1 (l1 ++ FReader AFlush :: l2)) = true) by (vm_compute; reflexivity).
    intros o l n IN. rewrite forallb_forall in E. apply elem_of_list_In in IN. specialize (E _ IN). cbn in E. rewrite forallb_forall in E.
    apply list.Forall_forall. intros a Ha. apply elem_of_list_In in Ha. specialize (E a Ha). by destruct a as [? []].
  Qed.
  Definition clock (n : nat) : sequence := match n with O => Sequence 10 10 15 | _ => Sequence 10 15 20 end.
  Definition rs (r : string) : list kv := [("service.name", VString r)].
  Definition H : hlib := HLib (fun n _ _ => Hist (nzero n) 0 (nzero n) (nzero n) 0 0 (0, []) (0, [])) (fun _ => None).
  Definition out := sent (fun _ => 0) kinds (fun _ => None) views [[0; 1]; [2; 5]; [3; 4]]%nat 2 9 false desc (fun _ => true) (Scope "m" "1" "") "shop"
    H rs true clock (fun _ _ => None) 1 f2.
  Example times n : times_ok (clock n). Proof. destruct n; repeat split; cbn; lia. Qed.
  Example resource : a_set (rs "shop") /\ with_types (rs "shop"). Proof. split; [apply NoDup_singleton|by repeat constructor]. Qed.
  Example different : distinct_names (fun _ => 0) kinds (fun _ => None) views [[0; 1]; [2; 5]; [3; 4]]%nat 2 9 false desc 1.
  Proof.
    intros v v' (w & Hw & _) (w' & Hw' & _). apply lookup_lt_Some in Hw, Hw'. cbn in Hw, Hw'.
    do 6 (destruct v as [|v]; [do 6 (destruct v' as [|v']; [done|]); lia|]). lia.
  Qed.
  Example filled : no_empty_slices red /\ no_empty_slices blue. Proof. split; repeat constructor. Qed.
  (** What the two requests show. *)
  Example requests : (fun os => map (fun o => (values "total" red o.1.1, values "new" red o.1.1, values "total" blue o.1.1, values "level" red o.1.1,
      values "set" red o.1.1, counts "some" blue o.1.1, counts "all" blue o.1.1)) os) <$> out =
    Some [([5], [5], [], [8], [8], [1], [1]); ([12], [7], [100], [-3], [-3], [2], [3])].
  Proof. vm_compute. reflexivity. Qed.
  Example reads v : (v < 6)%nat -> read_by c 1 v.
  Proof. intros L. do 6 (destruct v as [|v]; [by eexists|]). lia. Qed.
  (** The measurements of the first and second call of instrument 0 with the attributes [red], on its two streams. *)
  Example before : map (fun x => match s_log (f_sync f1) !! x with
      | Some u => (u_view u, u_num u, match s_thr (f_sync f1) !! u_tid u with Some PDone => true | _ => false end) | None => (9%nat, 0, false) end) [0; 1; 6; 7]%nat =
    [(0%nat, 5, true); (1%nat, 5, true); (0%nat, 7, true); (1%nat, 7, true)].
  Proof. vm_compute. reflexivity. Qed.
  (** All hypotheses together. *)
  Example delta_case := C68_delta (fun _ => 0) kinds (fun _ => None) views [[0; 1]; [2; 5]; [3; 4]]%nat 2 9 false desc (fun _ => true) (Scope "m" "1" "") "shop"
    H rs clock (fun _ _ => None) 1 l1 f1 AFlush l2 f2 Flush None 1 red run1 run2 (or_introl eq_refl) returned2 calm2 typed2 times (proj1 resource) (proj2 resource)
    different (reads 1 ltac:(lia)) eq_refl eq_refl (proj1 filled).
  Example delta_count_case := C68_delta_count (fun _ => 0) kinds (fun _ => None) views [[0; 1]; [2; 5]; [3; 4]]%nat 2 9 false desc (fun _ => true) (Scope "m" "1" "") "shop"
    H rs clock (fun _ _ => None) 1 l1 f1 AFlush l2 f2 Flush None 3 blue run1 run2 (or_introl eq_refl) returned2 calm2 typed2 times (proj1 resource) (proj2 resource)
    different (reads 3 ltac:(lia)) eq_refl eq_refl (proj2 filled).
  Example delta_gauge_case := C68_delta_gauge (fun _ => 0) kinds (fun _ => None) views [[0; 1]; [2; 5]; [3; 4]]%nat 2 9 false desc (fun _ => true) (Scope "m" "1" "") "shop"
    H rs clock (fun _ _ => None) 1 l1 f1 AFlush l2 f2 Flush None 5 red run1 run2 (or_introl eq_refl) returned2 calm2 typed2 times (proj1 resource) (proj2 resource)
    different (reads 5 ltac:(lia)) eq_refl eq_refl (proj1 filled).
  Example cumulative_case := C68_cumulative (fun _ => 0) kinds (fun _ => None) views [[0; 1]; [2; 5]; [3; 4]]%nat 2 9 false desc (fun _ => true) (Scope "m" "1" "") "shop"
    H rs clock (fun _ _ => None) 1 l1 f1 AFlush l2 f2 Flush None run1 run2 (or_introl eq_refl) returned2 calm2 typed2 times (proj1 resource) (proj2 resource) different.
  Example count_case := C68_count (fun _ => 0) kinds (fun _ => None) views [[0; 1]; [2; 5]; [3; 4]]%nat 2 9 false desc (fun _ => true) (Scope "m" "1" "") "shop"
    H rs clock (fun _ _ => None) 1 l1 f1 AFlush l2 f2 Flush None run1 run2 (or_introl eq_refl) returned2 calm2 typed2 times (proj1 resource) (proj2 resource) different.
  Example gauge_case := C68_gauge (fun _ => 0) kinds (fun _ => None) views [[0; 1]; [2; 5]; [3; 4]]%nat 2 9 false desc (fun _ => true) (Scope "m" "1" "") "shop"
    H rs clock (fun _ _ => None) 1 l1 f1 AFlush l2 f2 Flush None run1 run2 (or_introl eq_refl) returned2 calm2 typed2 times (proj1 resource) (proj2 resource) different.
End Ex68.

Print Assumptions C68_delta.
Print Assumptions C68_delta_count.
Print Assumptions C68_delta_gauge.
Print Assumptions C68_cumulative.
Print Assumptions C68_gauge.
Print Assumptions C68_count.
Print Assumptions C68_distinct.
Print Assumptions C68_distinct_refuted.
