(** C69: what every OTLP request of a reader looks like.  Words are in ShapeSpec, SentSpec, FlowSpec and ExpSpec. *)
From Coq Require Import ZArith Bool String Lia.
From stdpp Require Import base list option strings.
From Verif Require Import Per PerSpec Base SyncModel SyncSpec SyncMore Num Agg AggSpec Attr AggSync View Data Flow FlowSpec FlowProofs
  Exp ExpSpec Sent SentSpec SentProofs SentProps ShapeSpec ShapeProofs.
Local Open Scope Z_scope.

Section props.
Context (farm : string -> Z) (kinds : nat -> agg_kind) (keys : nat -> option (list string)) (views : list SyncModel.view).
Context (insts : list (list nat)) (periods ilimit : Z) (ignore : bool).
Notation c := (int_config farm kinds keys views insts periods ilimit ignore).
Context (desc : nat -> descriptor) (mono : nat -> bool) (lib : scope) (res : string).
Context (H : hlib) (rs : string -> list kv) (clock : nat -> sequence) (answer : nat -> pmetrics -> option error) (rd : nat).
Notation sent := (sent farm kinds keys views insts periods ilimit ignore desc mono lib res H rs true clock answer rd).
Notation typed_calls := (typed_calls farm kinds keys views insts periods ilimit ignore).
Notation distinct_names := (distinct_names farm kinds keys views insts periods ilimit ignore desc rd).

Lemma nth_request l (f : flow c) : frun rd (flow_init c) l = Some f -> typed_calls (calls_made rd l) -> (forall n, times_ok (clock n)) ->
  a_set (rs res) -> with_types (rs res) ->
  exists os, sent f = Some os /\ length os = length (exporter_calls f) /\
    forall n o, os !! n = Some o ->
    export_says H rs true (data_of farm kinds keys views insts periods ilimit ignore desc mono lib res rd (f_sync f) (default 0%nat (f_made f !! n)) (clock n), answer n) o.
Proof.
  intros R T C R1 R2. destruct (sent_says farm kinds keys views insts periods ilimit ignore desc mono lib res H rs clock answer rd l f R T C R1 R2) as (os & E & F).
  exists os. split; [done|]. split; [symmetry; by eapply Forall2_length|]. intros n o Ho. destruct (Forall2_lookup_r _ _ _ _ _ F Ho) as (n' & Hn & S).
  rewrite (calls_numbered _ _ _ _ _ _ _ _ _ _ _ R) in Hn. apply list_numbers.lookup_seq in Hn as [-> _]. exact S.
Qed.

(** * C69: every request says when and how its numbers were collected *)
(** At any moment, whatever was called so far: the requests are as many as the exports begun, and request [n] has the resource of the provider and one scope,
    that of the meter.  Each of its metrics is of one stream of the reader: it has its name, unit and description, its type, monotonicity and temporality; it is
    not empty; each of its points ends at the time of collection [n], and starts at the collection before it (delta) or at the start of the provider (cumulative). *)
Theorem C69_shape : forall l (f : flow c), frun rd (flow_init c) l = Some f -> typed_calls (calls_made rd l) -> (forall n, times_ok (clock n)) ->
  a_set (rs res) -> with_types (rs res) ->
  exists os, sent f = Some os /\ length os = length (exporter_calls f) /\
    forall n o, os !! n = Some o ->
    resource_says (rs res) (px_resource o.1.1) /\ exists q, px_scopes o.1.1 = [q] /\ ps_name q = sc_name lib /\ ps_version q = sc_version lib /\ ps_schema q = sc_schema lib /\
    forall m, m ∈ ps_metrics q -> exists v, read_by c rd v /\
      pm_name m = i_name (desc v) /\ pm_unit m = i_unit (desc v) /\ pm_desc m = i_desc (desc v) /\
      right_type (kinds v) (mono v) (vdelta c v) (pm_data m) /\ points_of (pm_data m) <> [] /\ Forall (right_times (kinds v) (vdelta c v) (clock n)) (points_of (pm_data m)).
Proof.
  intros l f R T C R1 R2. destruct (nth_request l f R T C R1 R2) as (os & E & L & G). exists os. split; [done|]. split; [done|]. intros n o Ho.
  destruct (scopes_say _ _ _ _ _ _ _ _ _ _ _ _ _ _ _ _ _ _ _ _ (G n o Ho)) as (S1 & _ & _ & q & Q1 & Q2 & Q3 & Q4 & F). split; [done|]. exists q. split_and!; try done.
  intros m Hm. apply elem_of_list_lookup in Hm as (i & Hi). destruct (Forall2_lookup_r _ _ _ _ _ F Hi) as (v & Hv & (M1 & M2 & M3 & M4 & M5 & M6)).
  exists v. split; [apply elem_of_list_lookup_2, elem_of_list_In, filter_In in Hv as [Hv%elem_of_list_In _]; by apply views_read|]. split_and!; try done.
  - intros X. rewrite X in M6. inversion M6; congruence.
  - apply list.Forall_forall. intros p Hp. apply elem_of_list_lookup in Hp as (a & Ha). by destruct (Forall2_lookup_r _ _ _ _ _ M6 Ha) as (u & _ & (_ & W)).
Qed.
(** When the clock gives each collection the end of the one before it as its beginning (C30), the delta points of consecutive requests are adjacent in time. *)
Theorem C69_intervals : forall l (f : flow c), frun rd (flow_init c) l = Some f -> typed_calls (calls_made rd l) -> (forall n, times_ok (clock n)) ->
  a_set (rs res) -> with_types (rs res) -> distinct_names -> (forall n, sq_last (clock (S n)) = sq_now (clock n)) ->
  exists os, sent f = Some os /\
    forall n o o' v k k' p p', os !! n = Some o -> os !! S n = Some o' -> read_by c rd v -> vdelta c v = true -> kinds v <> KGauge ->
    points_under (i_name (desc v)) k o.1.1 p -> points_under (i_name (desc v)) k' o'.1.1 p' -> p'.1.2 = p.2.
Proof.
  intros l f R T C R1 R2 DN CH. destruct (C69_shape l f R T C R1 R2) as (os & E & _ & G). exists os. split; [done|].
  assert (P : forall n o v k p, os !! n = Some o -> read_by c rd v -> points_under (i_name (desc v)) k o.1.1 p -> right_times (kinds v) (vdelta c v) (clock n) p).
  { intros n o v k p Ho RB (s & m & Hs & Hm & N & Hp & _). destruct (G n o Ho) as (_ & q & Q & _ & _ & _ & M). rewrite Q in Hs. apply elem_of_list_singleton in Hs as ->.
    destruct (M m Hm) as (v' & RB' & N' & _ & _ & _ & _ & W). rewrite (DN v v'); [|done|done|congruence]. exact (proj1 (list.Forall_forall _ _) W p Hp). }
  intros n o o' v k k' p p' Ho Ho' RB VD KG Hp Hp'. destruct (P _ _ _ _ _ Ho RB Hp) as (E1 & _), (P _ _ _ _ _ Ho' RB Hp') as (_ & E2). rewrite VD in E2.
  rewrite E1, E2, <- CH. by destruct (kinds v).
Qed.
(** A request has at most one point of a series: two places in its metrics that show points with the same name and attributes are the same place. *)
Theorem C69_once : forall l (f : flow c), frun rd (flow_init c) l = Some f -> typed_calls (calls_made rd l) -> (forall n, times_ok (clock n)) ->
  a_set (rs res) -> with_types (rs res) -> distinct_names ->
  exists os, sent f = Some os /\
    forall n o q k i j a b m m' p p', os !! n = Some o -> px_scopes o.1.1 = [q] -> no_empty_slices k ->
    ps_metrics q !! i = Some m -> ps_metrics q !! j = Some m' -> pm_name m = pm_name m' ->
    points_of (pm_data m) !! a = Some p -> points_of (pm_data m') !! b = Some p' -> attrs_say k p.1.1 -> attrs_say k p'.1.1 -> i = j /\ a = b.
Proof.
  intros l f R T C R1 R2 DN. destruct (nth_request l f R T C R1 R2) as (os & E & _ & G). exists os. split; [done|].
  intros n o q k i j a b m m' p p' Ho Q NE Hi Hj N Ha Hb A1 A2.
  destruct (scopes_say _ _ _ _ _ _ _ _ _ _ _ _ _ _ _ _ _ _ _ _ (G n o Ho)) as (_ & _ & _ & q' & Q1 & _ & _ & _ & F). rewrite Q in Q1. injection Q1 as <-.
  destruct (frun_parts _ _ _ _ R) as [PR _]. cbn [f_sync flow_init] in PR.
  by eapply (one_point _ _ _ _ _ _ _ _ _ _ _ _ _ _ _ _ (pm_name m) k PR NE DN F).
Qed.
(** The telemetry of an export: one addition to the counter, of the number of points of the request, with what the pipeline answered to this very request. *)
Theorem C69_telemetry : forall l (f : flow c), frun rd (flow_init c) l = Some f -> typed_calls (calls_made rd l) -> (forall n, times_ok (clock n)) ->
  a_set (rs res) -> with_types (rs res) ->
  exists os, sent f = Some os /\
    forall n o, os !! n = Some o -> o.2 = answer n o.1.1 /\ exists t, o.1.2 = [t] /\ telemetry_says "num_points" (length (all_points o.1.1)) (answer n o.1.1) t.
Proof.
  intros l f R T C R1 R2. destruct (nth_request l f R T C R1 R2) as (os & E & _ & G). exists os. split; [done|]. intros n o Ho.
  destruct (scopes_say _ _ _ _ _ _ _ _ _ _ _ _ _ _ _ _ _ _ _ _ (G n o Ho)) as (_ & S1 & (t & S2 & S3) & q & Q & _ & _ & _ & F). split; [done|]. exists t. split; [done|].
  unfold all_points. rewrite Q. cbn [flat_map]. rewrite app_nil_r, <- S1. by rewrite <- (points_counted farm kinds keys views insts periods ilimit ignore desc mono lib res _ _ _ _ _ F).
Qed.
End props.

(** The run of C68, with two requests; what they show of times, and the hypotheses together. *)
Module Ex69.
  Import Ex68.
  Definition l := l1 ++ FReader AFlush :: l2.
  Example run : frun 1 (flow_init c) l = Some f2. Proof. unfold l. by rewrite frun_app, run1, <- run2. Qed.
  Definition clock (n : nat) : sequence := match n with O => Sequence 10 10 15 | S O => Sequence 10 15 20 | _ => Sequence 10 20 20 end.
  Example chained n : sq_last (clock (S n)) = sq_now (clock n). Proof. by destruct n as [|[|n]]. Qed.
  Example times n : times_ok (clock n). Proof. destruct n as [|[|n]]; repeat split; cbn; lia. Qed.
  Local Open Scope string_scope.
  Definition out := sent (fun _ => 0) kinds (fun _ => None) views [[0; 1]; [2; 5]; [3; 4]]%nat 2 9 false desc (fun _ => true) (Scope "m" "1" "") "shop"
    H rs true clock (fun _ _ => None) 1 f2.
  (** The name, the number of points, and the start and end of the first point of each metric of the two requests. *)
  Example requests : (fun os => map (fun o => flat_map (fun s => map (fun m => (pm_name m, length (points_of (pm_data m)),
      match points_of (pm_data m) with p :: _ => (p.1.2, p.2) | [] => (0, 0) end)) (ps_metrics s)) (px_scopes o.1.1)) os) <$> out =
    Some [[("total", 1%nat, (10, 15)); ("new", 1%nat, (10, 15)); ("level", 1%nat, (0, 15)); ("some", 1%nat, (10, 15)); ("all", 1%nat, (10, 15)); ("set", 1%nat, (0, 15))];
          [("total", 2%nat, (10, 20)); ("new", 2%nat, (15, 20)); ("level", 1%nat, (0, 20)); ("some", 1%nat, (15, 20)); ("all", 1%nat, (10, 20)); ("set", 1%nat, (0, 20))]].
  Proof. vm_compute. reflexivity. Qed.
  Example shape_case := C69_shape (fun _ => 0) kinds (fun _ => None) views [[0; 1]; [2; 5]; [3; 4]]%nat 2 9 false desc (fun _ => true) (Scope "m" "1" "") "shop"
    H rs clock (fun _ _ => None) 1 l f2 run typed2 times (proj1 resource) (proj2 resource).
  Example intervals_case := C69_intervals (fun _ => 0) kinds (fun _ => None) views [[0; 1]; [2; 5]; [3; 4]]%nat 2 9 false desc (fun _ => true) (Scope "m" "1" "") "shop"
    H rs clock (fun _ _ => None) 1 l f2 run typed2 times (proj1 resource) (proj2 resource) different chained.
  Example once_case := C69_once (fun _ => 0) kinds (fun _ => None) views [[0; 1]; [2; 5]; [3; 4]]%nat 2 9 false desc (fun _ => true) (Scope "m" "1" "") "shop"
    H rs clock (fun _ _ => None) 1 l f2 run typed2 times (proj1 resource) (proj2 resource) different.
  Example telemetry_case := C69_telemetry (fun _ => 0) kinds (fun _ => None) views [[0; 1]; [2; 5]; [3; 4]]%nat 2 9 false desc (fun _ => true) (Scope "m" "1" "") "shop"
    H rs clock (fun _ _ => None) 1 l f2 run typed2 times (proj1 resource) (proj2 resource).
End Ex69.

Print Assumptions C69_shape.
Print Assumptions C69_intervals.
Print Assumptions C69_once.
Print Assumptions C69_telemetry.
