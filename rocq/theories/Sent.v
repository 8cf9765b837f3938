(** What a periodic reader hands to the OTLP pipeline: the points that the collections of its synchronous integer instruments output (SyncModel with
    the aggregators of AggSync, run by the reader of Flow), as data.Metrics (Data), converted and exported (Exp).
    M stands for /repo/lightstep/sdk/metric. *)
From Coq Require Import ZArith Bool String.
From stdpp Require Import base list option strings.
From Verif Require Import Per Base SyncModel Num Agg Attr AggSync View Data Flow FlowSpec Exp ExpSpec.
Local Open Scope Z_scope.

(** The Aggregation that a point holds.  A sum is given by the a_sum of AggSync (M/aggregator/sum/sum.go:33-36); a gauge by the number set last and its
    sequence number, 0 when none was set (gauge/gauge.go:39-43); a minmaxsumcount by its fields, zeros when there is none (minmaxsumcount.go:31-42).
    Simplification: the numbers of AggSync are unbounded; [wrap] is the identity on those that Go can pass. *)
Definition storage_of (kd : agg_kind) (mono : bool) (a : Aggmon) : storage :=
  match kd with
  | KSum => StSum mono (NInt (a_sum a))
  | KGauge => match a_last a with Some (x, n) => StGauge (NInt (wrap n)) (Z.of_nat (S x)) | None => StGauge (NInt 0) 0 end
  | KMMSC => StMMSC (NInt (wrap (default 0 (a_min a)))) (NInt (wrap (default 0 (a_max a)))) (NInt (a_sum a)) (a_count a)
  end.

Section sent.
Context (farm : string -> Z) (kinds : nat -> agg_kind) (keys : nat -> option (list string)) (views : list SyncModel.view).
Context (insts : list (list nat)) (periods ilimit : Z) (ignore : bool).
Notation c := (int_config farm kinds keys views insts periods ilimit ignore).
(** The descriptor and the monotonicity of each stream, the name of the meter, the resource of the provider. *)
Context (desc : nat -> descriptor) (mono : nat -> bool) (lib : scope) (res : string).

(** appendPoint (M/internal/viewstate/base_instrument.go:208-251) as called by the Collect methods of synchronous instruments
    (collectors.go:33-44, 51-92): a delta point starts at the last collection, a cumulative one at the start of the provider. *)
Definition data_point (v : nat) (sq : sequence) (p : SyncModel.point c) : Data.point :=
  Data.Point (p_key p) (if vdelta c v then DeltaTempo else CumulativeTempo) (Some (storage_of (kinds v) (mono v) (p_agg p)))
             (if vdelta c v then sq_last sq else sq_start sq) (sq_now sq).
(** appendInstrument (base_instrument.go:196-206): the points of collection [k] for stream [v], in the order in which they were output. *)
Definition data_instr (s : SyncModel.state c) (k : nat) (sq : sequence) (v : nat) : instr :=
  Instr (desc v) (Slice (map (data_point v sq) (List.filter (fun p => Nat.eqb (p_tid p) k && Nat.eqb (p_view p) v) (s_out s))) []).
(** Produce (M/producer.go:46-127): one scope for the meter, with one instrument for each stream of the reader, in the order of their collectors.
    Simplification: one meter; the memory of earlier outputs is C31 and C56, and has no influence on this. *)
Definition data_of (rd : nat) (s : SyncModel.state c) (k : nat) (sq : sequence) : metrics :=
  Metrics res (Slice [OScope lib (Slice (map (data_instr s k sq) (views_of c rd)) [])] []).

(** The exports that the reader has begun (M/periodic.go:155-167; ExportMetrics, ForceFlushMetrics and the beginning of ShutdownMetrics of
    M/exporters/otlp/otelcol/client.go:205-236, which all export the data), in order: [clock n] is
    the Sequence of production n, [answer n] what the pipeline answers.  What comes back are the requests handed over, with the telemetry and the
    error of each; None is a panic. *)
Definition sent (H : hlib) (rs : string -> list kv) (useexp : bool) (clock : nat -> sequence) (answer : nat -> pmetrics -> option error)
    (rd : nat) (f : flow c) : option (list (pmetrics * list telemetry * option error)) :=
  ExpSpec.exports H rs rm_zero useexp
    (map (fun n => (data_of rd (f_sync f) (default 0%nat (f_made f !! n)) (clock n), answer n)) (exporter_calls f)).
End sent.
