(** Words used to state what the requests of a reader look like. *)
From Coq Require Import ZArith Bool String.
From stdpp Require Import base list option strings.
From Verif Require Import SyncModel Attr AggSync View Data Exp ExpSpec.
Local Open Scope Z_scope.

(** The points of a metric, whatever their type: attributes, start and time. *)
Definition points_of (d : pdata) : list (list (string * pvalue) * Z * Z) :=
  match d with
  | PSum _ _ l | PGauge l => map (fun q => (pn_attrs q, pn_start q, pn_time q)) l
  | PHist _ l => map (fun q => (ph_attrs q, ph_start q, ph_time q)) l
  | PExp _ l => map (fun q => (pe_attrs q, pe_start q, pe_time q)) l
  | PEmpty => []
  end.
(** All points of a request; those of one metric and one series. *)
Definition all_points (x : pmetrics) : list (list (string * pvalue) * Z * Z) :=
  flat_map (fun s => flat_map (fun m => points_of (pm_data m)) (ps_metrics s)) (px_scopes x).
Definition points_under (name : string) (k : list kv) (x : pmetrics) (p : list (string * pvalue) * Z * Z) : Prop :=
  exists s m, s ∈ px_scopes x /\ m ∈ ps_metrics s /\ pm_name m = name /\ p ∈ points_of (pm_data m) /\ attrs_say k p.1.1.
(** The data of a metric of this kind of instrument, monotonicity and temporality. *)
Definition right_type (kd : agg_kind) (mono delta : bool) (d : pdata) : Prop :=
  let t := if delta then PDelta else PCumulative in
  match kd, d with
  | KSum, PSum m t' _ => m = mono /\ t' = t
  | KGauge, PGauge _ => True
  | KMMSC, PHist t' _ => t' = t
  | _, _ => False
  end.
(** The times of a point: OTLP gauges have no start, others start at the collection before or at the start of the provider. *)
Definition right_times (kd : agg_kind) (delta : bool) (sq : sequence) (p : list (string * pvalue) * Z * Z) : Prop :=
  p.2 = sq_now sq /\ p.1.2 = match kd with KGauge => 0 | _ => if delta then sq_last sq else sq_start sq end.
