(** What a periodic reader hands to the OTLP pipeline of the observations of asynchronous int64 instruments: the points that its collections output (Conc,
    run by the reader of Deliv), as data.Metrics (Data), converted and exported (Exp).  M stands for /repo/lightstep/sdk/metric. *)
From Coq Require Import ZArith Bool String.
From stdpp Require Import base list option strings.
From Verif Require Import Per Num Agg Attr View Data Async Conc Deliv DelivSpec Exp ExpSpec.
Local Open Scope Z_scope.

(** The Aggregation that a point holds: a sum (M/aggregator/sum/sum.go:33-36) or a gauge (gauge/gauge.go:39-43).  Simplifications: [wrap] is the identity on
    the numbers that Go can pass; the sequence number of a gauge is 1, as only whether it is 0 matters and then the number is 0 too. *)
Definition seen_storage (w : aview) (mono : bool) (x : Z) : storage := if av_gauge w then StGauge (NInt (wrap x)) 1 else StSum mono (NInt (wrap x)).

Section seen.
Context (c : acfg).
(** The descriptor and the monotonicity of each stream, the name of the meter, the resource of the provider. *)
Context (desc : nat -> descriptor) (mono : nat -> bool) (lib : scope) (res : string).

(** appendPoint (M/internal/viewstate/base_instrument.go:208-237) as called by lowmemoryAsyncInstrument.Collect and statefulAsyncInstrument.Collect
    (collectors.go:101-114, 132-162). *)
Definition seen_point (v : nat) (w : aview) (sq : sequence) (p : list kv * Z) : Data.point :=
  Data.Point p.1 (if stateful w then DeltaTempo else CumulativeTempo) (Some (seen_storage w (mono v) p.2)) (if stateful w then sq_last sq else sq_start sq) (sq_now sq).
(** appendInstrument (base_instrument.go:196-206) and the points of one view. *)
Definition seen_instr (sq : sequence) (o : nat * list (list kv * Z)) : instr :=
  Instr (desc o.1) (Slice match a_views c !! o.1 with Some w => map (seen_point o.1 w sq) o.2 | None => [] end []).
(** Produce (M/producer.go:46-127): one scope, with the instruments in the order of the collectors.  Simplification: one meter. *)
Definition seen_data (k : coll Int64) (sq : sequence) : metrics := Metrics res (Slice [OScope lib (Slice (map (seen_instr sq) (k_out k)) [])] []).
(** The collection that production [n] is (DelivSpec). *)
Definition coll_of (f : sys Int64) (n : nat) : coll Int64 := default (Coll 0 KDone Free [] []) (q ← d_made f !! n; s_colls (d_conc f) !! q).

(** The exports that the reader has begun, in order (M/periodic.go:155-167): [clock n] is the Sequence of production n, [answer n] what the pipeline
    answers.  What comes back are the requests handed over, with the telemetry and the error of each; None is a panic. *)
Definition seen (H : hlib) (rs : string -> list kv) (clock : nat -> sequence) (answer : nat -> pmetrics -> option error) (f : sys Int64)
  : option (list (pmetrics * list telemetry * option error)) :=
  ExpSpec.exports H rs rm_zero true (map (fun n => (seen_data (coll_of f n) (clock n), answer n)) (given_in_order f)).
End seen.
