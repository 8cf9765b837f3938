(** Export of metrics: conversion of attributes, resources and points to OTLP, and the export calls.
    M stands for /repo/lightstep/sdk/metric. *)
From Coq Require Import ZArith Bool String SpecFloat.
From stdpp Require Import base list option strings.
From Verif Require Import Num Attr View Data.
Local Open Scope Z_scope.

(** math.Float64bits and math.Float64frombits on IEEE 754 binary64.  Simplification: all NaN are one value, with the bits of math.NaN. *)
Definition sign_bit (s : bool) : Z := if s then 2 ^ 63 else 0.
Definition to_bits (f : spec_float) : Z :=
  match f with
  | S754_zero s => sign_bit s
  | S754_infinity s => sign_bit s + 2047 * 2 ^ 52
  | S754_nan => 2047 * 2 ^ 52 + 2 ^ 51 + 1
  | S754_finite s m e => sign_bit s + (if Z.pos m <? 2 ^ 52 then Z.pos m else (e + 1075) * 2 ^ 52 + (Z.pos m - 2 ^ 52))
  end.
Definition of_bits (b : Z) : spec_float :=
  let s := 2 ^ 63 <=? b in
  let x := (b / 2 ^ 52) mod 2048 in
  let f := b mod 2 ^ 52 in
  if x =? 2047 then (if f =? 0 then S754_infinity s else S754_nan)
  else if x =? 0 then (match f with Z.pos m => S754_finite s m (-1074) | _ => S754_zero s end)
  else match f + 2 ^ 52 with Z.pos m => S754_finite s m (x - 1075) | _ => S754_nan end.

(** number.Number, a uint64 (M/number/number.go:33): ToNumber of the traits (traits.go:58-60, 99-101), ToInt64, ToFloat64 and
    CoerceToFloat64, whose float64(n) converts the unsigned number (number.go:40-56). *)
Definition to_number (n : number) : Z := match n with NInt z => uwrap z | NFloat f => to_bits f end.
Definition to_int64 (b : Z) : Z := wrap b.
Definition to_float64 (b : Z) : spec_float := of_bits b.
Definition float_of_Z (z : Z) : spec_float := binary_normalize 53 1024 z 0 false.
Definition coerce (k : nkind) (b : Z) : spec_float := match k with IntKind => float_of_Z b | FloatKind => of_bits b end.

(** pcommon.Value and pcommon.Map, of the collector (not in /repo). *)
Inductive pvalue :=
  | PBool (b : bool)
  | PInt (z : Z)
  | PDouble (bits : Z)
  | PStr (s : string)
  | PSlice (l : list pvalue).
(** Map.Put*: the value of an existing key is replaced, a new key is appended. *)
Fixpoint pput (k : string) (v : pvalue) (m : list (string * pvalue)) : list (string * pvalue) :=
  match m with
  | [] => [(k, v)]
  | (k', v') :: m' => if String.eqb k' k then (k, v) :: m' else (k', v') :: pput k v m'
  end.
(** CopyAttributes (/repo/lightstep/sdk/internal/common.go:71-112).  None: panic("unhandled case"). *)
Definition convert_value (v : value) : option pvalue :=
  match v with
  | VInvalid => None
  | VBool b => Some (PBool b)
  | VInt z => Some (PInt z)
  | VFloat b => Some (PDouble b)
  | VString s => Some (PStr s)
  | VBools l => Some (PSlice (map PBool l))
  | VInts l => Some (PSlice (map PInt l))
  | VFloats l => Some (PSlice (map PDouble l))
  | VStrings l => Some (PSlice (map PStr l))
  end.
Fixpoint copy_attributes (dest : list (string * pvalue)) (src : list kv) : option (list (string * pvalue)) :=
  match src with
  | [] => Some dest
  | (k, v) :: r => p ← convert_value v; copy_attributes (pput k p dest) r
  end.

(** ResourceMap (common.go:34-69).  Get holds the lock from beginning to end, so any number of goroutines make a sequence of calls; the
    returned pcommon.Resource is only read by the callers (CopyTo).  Sets are compared with Go's == (Attr.attributes_equal). *)
Record rmap := RMap { rm_disabled : bool; rm_input : option (list kv); rm_output : list (string * pvalue) }.
Definition rm_zero : rmap := RMap false None [].
Definition rm_fresh (dis : bool) (inp : option (list kv)) (out : list (string * pvalue)) (s : list kv) : option (rmap * list (string * pvalue)) :=
  o ← copy_attributes [] s;
  Some (if dis then RMap dis inp out else RMap dis (Some s) o, o).
Definition rm_get (m : rmap) (s : list kv) : option (rmap * list (string * pvalue)) :=
  let 'RMap dis inp out := m in
  match dis, inp with
  | false, Some i => if attributes_equal i s then Some (m, out) else rm_fresh true None [] s
  | _, _ => rm_fresh dis inp out s
  end.

(** pmetric of the collector (not in /repo), as far as the code below writes it.  A timestamp is a uint64 of nanoseconds. *)
Inductive ptempo := PUnspecified | PDelta | PCumulative.
Inductive pnumber := PNInt (z : Z) | PNDouble (f : spec_float).
Record pnpoint := PNPoint { pn_attrs : list (string * pvalue); pn_start : Z; pn_time : Z; pn_value : pnumber }.
Record pbuckets := PBuckets { pb_offset : Z; pb_counts : list Z }.
Record phpoint := PHPoint { ph_attrs : list (string * pvalue); ph_start : Z; ph_time : Z; ph_sum : spec_float; ph_count : Z;
                            ph_max : option spec_float; ph_min : option spec_float; ph_bounds : list spec_float; ph_counts : list Z }.
Record pepoint := PEPoint { pe_attrs : list (string * pvalue); pe_start : Z; pe_time : Z; pe_sum : spec_float; pe_count : Z;
                            pe_max : option spec_float; pe_min : option spec_float;
                            pe_zero : Z; pe_scale : Z; pe_pos : pbuckets; pe_neg : pbuckets }.
Inductive pdata :=
  | PEmpty
  | PSum (mono : bool) (t : ptempo) (l : list pnpoint)
  | PGauge (l : list pnpoint)
  | PHist (t : ptempo) (l : list phpoint)
  | PExp (t : ptempo) (l : list pepoint).
Record pmetric := PMetric { pm_name : string; pm_unit : string; pm_desc : string; pm_data : pdata }.
Record pscope := PScope { ps_name : string; ps_version : string; ps_schema : string; ps_metrics : list pmetric }.
Record pmetrics := PMetrics { px_resource : list (string * pvalue); px_scopes : list pscope }.

(** What a histogram shows (M/aggregator/histogram/histogram.go:85-121): its structure is in go-expohisto, not in /repo. *)
Record hist := Hist { h_sum : number; h_count : Z; h_min : number; h_max : number; h_zero : Z; h_scale : Z;
                      h_pos : Z * list Z;     (* Offset, and At(i) for i below Len *)
                      h_neg : Z * list Z }.

(** The two libraries: go-expohisto's structure, from its configuration and the recorded numbers; and its logarithm mapping, NewMapping
    (None: a nil Mapping and an error) with LowerBoundary (an error is ignored, what comes with it is used). *)
Record hlib := HLib { hl_read : nkind -> Z -> list number -> hist; hl_mapping : Z -> option (Z -> spec_float) }.

Section export.
Context (H : hlib).

(** toTemporality (M/internal/export/export.go:39-47). *)
Definition to_tempo (t : tempo) : ptempo :=
  match t with CumulativeTempo => PCumulative | DeltaTempo => PDelta | _ => PUnspecified end.
(** pcommon.NewTimestampFromTime. *)
Definition stamp (t : Z) : Z := uwrap t.

(** All points of a slice with one function; None is a panic. *)
Fixpoint each {A B} (f : A -> option B) (l : list A) : option (list B) :=
  match l with
  | [] => Some []
  | a :: r => b ← f a; bs ← each f r; Some (b :: bs)
  end.
(** Points[0].Temporality. *)
Definition first_tempo (l : list point) : ptempo := match l with [] => PUnspecified | p :: _ => to_tempo (pt_tempo p) end.

(** copySumPoints (export.go:49-75). *)
Definition sum_point (p : point) : option pnpoint :=
  a ← copy_attributes [] (pt_attrs p);
  match pt_agg p with
  | Some (StSum _ v) =>
      Some (PNPoint a (stamp (pt_start p)) (stamp (pt_end p))
                    (match nkind_of v with IntKind => PNInt (to_int64 (to_number v)) | FloatKind => PNDouble (to_float64 (to_number v)) end))
  | _ => None
  end.
(** copyGaugePoints (77-97) with Gauge (M/aggregator/gauge/gauge.go:84-98). *)
Definition gauge_number (v : number) (seq : Z) : Z := if seq =? 0 then 0 else to_number v.
Definition gauge_point (p : point) : option pnpoint :=
  a ← copy_attributes [] (pt_attrs p);
  match pt_agg p with
  | Some (StGauge v q) =>
      Some (PNPoint a 0 (stamp (pt_end p))
                    (match nkind_of v with IntKind => PNInt (to_int64 (gauge_number v q)) | FloatKind => PNDouble (to_float64 (gauge_number v q)) end))
  | _ => None
  end.
(** copyExplicitHistogramBuckets (139-176): the boundaries and the counts; the index is an int32. *)
Definition int32 (z : Z) : Z := (z + 2147483648) mod 4294967296 - 2147483648.
Fixpoint explicit_from (lower : Z -> spec_float) (first : bool) (left : spec_float) (index : Z) (counts : list Z) : list spec_float * list Z :=
  match counts with
  | [] => ([], [])
  | c :: r =>
      let right := lower (int32 (index + 1)) in
      let '(bs, cs) := explicit_from lower false right (int32 (index + 1)) r in
      if first then (left :: right :: bs, 0 :: c :: cs) else (right :: bs, c :: cs)
  end.
Definition explicit_buckets (pos : Z * list Z) (zero_count : Z) (scale : Z) : option (list spec_float * list Z) :=
  match pos.2 with
  | [] => Some ([S754_zero false], [zero_count; 0])
  | _ =>
      lower ← hl_mapping H scale;
      let '(bs, cs) := explicit_from lower true (lower pos.1) pos.1 pos.2 in
      Some (S754_zero false :: bs, (zero_count :: cs) ++ [0])
  end.
(** copyExplicitHistogramPoints (99-135). *)
Definition when_any (count : Z) (f : spec_float) : option spec_float := if count =? 0 then None else Some f.
Definition explicit_point (p : point) : option phpoint :=
  a ← copy_attributes [] (pt_attrs p);
  match pt_agg p with
  | Some (StHist n mx l) =>
      let h := hl_read H n mx l in
      '(bs, cs) ← explicit_buckets (h_pos h) (h_zero h) (h_scale h);
      Some (PHPoint a (stamp (pt_start p)) (stamp (pt_end p)) (coerce n (to_number (h_sum h))) (h_count h)
                    (when_any (h_count h) (coerce n (to_number (h_max h)))) (when_any (h_count h) (coerce n (to_number (h_min h)))) bs cs)
  | _ => None
  end.
(** copyExponentialHistogramBuckets (227-236), called when Len is not 0. *)
Definition exponential_buckets (b : Z * list Z) : pbuckets := match b.2 with [] => PBuckets 0 [] | _ => PBuckets b.1 b.2 end.
(** copyExponentialHistogramPoints (178-225). *)
Definition exponential_point (p : point) : option pepoint :=
  a ← copy_attributes [] (pt_attrs p);
  match pt_agg p with
  | Some (StHist n mx l) =>
      let h := hl_read H n mx l in
      Some (PEPoint a (stamp (pt_start p)) (stamp (pt_end p)) (coerce n (to_number (h_sum h))) (h_count h)
                    (when_any (h_count h) (coerce n (to_number (h_max h)))) (when_any (h_count h) (coerce n (to_number (h_min h))))
                    (h_zero h) (h_scale h) (exponential_buckets (h_pos h)) (exponential_buckets (h_neg h)))
  | _ => None
  end.
(** copyMMSCPoints (238-269): min and max are given as ToFloat64 for both kinds. *)
Definition mmsc_point (p : point) : option phpoint :=
  a ← copy_attributes [] (pt_attrs p);
  match pt_agg p with
  | Some (StMMSC mn mx sm c) =>
      Some (PHPoint a (stamp (pt_start p)) (stamp (pt_end p)) (coerce (nkind_of sm) (to_number sm)) c
                    (when_any c (to_float64 (to_number mx))) (when_any c (to_float64 (to_number mn))) [] [])
  | _ => None
  end.

(** d2pd (271-317).  [useexp] is useExponentialHistogram. *)
Definition convert_data (useexp : bool) (ps : list point) : option pdata :=
  match ps with
  | [] => Some PEmpty
  | p :: _ =>
      match pt_agg p with
      | Some (StSum mono _) => l ← each sum_point ps; Some (PSum mono (first_tempo ps) l)
      | Some (StGauge _ _) => l ← each gauge_point ps; Some (PGauge l)
      | Some (StHist _ _ _) =>
          if useexp then l ← each exponential_point ps; Some (PExp (first_tempo ps) l)
          else l ← each explicit_point ps; Some (PHist (first_tempo ps) l)
      | Some (StMMSC _ _ _ _) => l ← each mmsc_point ps; Some (PHist (first_tempo ps) l)
      | None => Some PEmpty
      end
  end.
Fixpoint convert_instrs (useexp : bool) (l : list instr) : option (list pmetric) :=
  match l with
  | [] => Some []
  | i :: r =>
      match vis (in_points i) with
      | [] => convert_instrs useexp r
      | ps => d ← convert_data useexp ps; ms ← convert_instrs useexp r;
              Some (PMetric (i_name (in_desc i)) (i_unit (in_desc i)) (i_desc (in_desc i)) d :: ms)
      end
  end.
Definition convert_scope (useexp : bool) (s : oscope) : option pscope :=
  ms ← convert_instrs useexp (vis (os_insts s));
  Some (PScope (sc_name (os_lib s)) (sc_version (os_lib s)) (sc_schema (os_lib s)) ms).
(** [rs] is the attribute set of each resource. *)
Definition d2pd (rs : string -> list kv) (rm : rmap) (m : metrics) (useexp : bool) : option (rmap * pmetrics) :=
  '(rm', r) ← rm_get rm (rs (mt_res m));
  ss ← each (convert_scope useexp) (vis (mt_scopes m));
  Some (rm', PMetrics r ss).

(** DataPointCount of the collector. *)
Definition data_points (d : pdata) : nat :=
  match d with PEmpty => 0 | PSum _ _ l => length l | PGauge l => length l | PHist _ l => length l | PExp _ l => length l end.
Definition point_count (m : pmetrics) : nat :=
  foldr Nat.add 0%nat (map (fun s => foldr Nat.add 0%nat (map (fun d => data_points (pm_data d)) (ps_metrics s))) (px_scopes m)).

(** An error, as errors.Is sees it. *)
Record error := Error { er_text : string; er_canceled : bool; er_deadline : bool }.
(** The telemetry of one export: the addition to the counter with its attributes, and the attributes and status of the span. *)
Record telemetry := Telemetry { tl_added : Z; tl_attrs : list kv; tl_span : list kv; tl_ok : bool; tl_message : string }.
Local Open Scope string_scope.
Definition state_of (e : option error) : string :=
  match e with
  | None => "ok"
  | Some x => if er_canceled x then "canceled" else if er_deadline x then "timeout" else "error"
  end.
(** The part of ExportMetrics (319-362) and of ExportSpans (/repo/lightstep/sdk/trace/exporters/otlp/otelcol/client.go:84-119) after the
    conversion; [e] is what the consumer returned, [key] the name of the count in the span. *)
Definition report (key : string) (count : nat) (e : option error) : telemetry :=
  let attrs := [("success", VBool (match e with None => true | Some _ => false end)); ("state", VString (state_of e))] in
  Telemetry (Z.of_nat count) attrs (attrs ++ [(key, VInt (Z.of_nat count))])
            (match e with None => true | Some _ => false end) (match e with None => state_of e | Some x => er_text x end).
(** ExportMetrics: what is handed to the consumer, the telemetry, the returned error. *)
Definition export_metrics (rs : string -> list kv) (rm : rmap) (m : metrics) (useexp : bool) (consume : pmetrics -> option error)
  : option (rmap * pmetrics * list telemetry * option error) :=
  '(rm', x) ← d2pd rs rm m useexp;
  let e := consume x in
  Some (rm', x, [report "num_points" (point_count x) e], e).
(** One call whose error, if any, is appended with multierr.Append to those before.  [S] is the state of the world. *)
Definition also {S} (f : S -> S * option error) (acc : S * list error) : S * list error :=
  let '(s, e) := f acc.1 in (s, acc.2 ++ match e with Some x => [x] | None => [] end)%list.
(** ShutdownMetrics of the OTLP exporter (M/exporters/otlp/otelcol/client.go:218-230), and of the Prometheus exporter
    (M/exporters/prom/client.go:157-166); Shutdown of the exporter of spans
    (/repo/lightstep/sdk/trace/exporters/otlp/otelcol/client.go:121-130). *)
Definition shutdown_metrics {S} (export batcher exporter : S -> S * option error) (s : S) : S * list error :=
  also exporter (also batcher (also export (s, []))).
Definition shutdown_prom {S} (export exporter : S -> S * option error) (s : S) : S * list error := also exporter (also export (s, [])).
Definition shutdown_traces {S} (batcher exporter : S -> S * option error) (s : S) : S * list error := also exporter (also batcher (s, [])).
End export.
