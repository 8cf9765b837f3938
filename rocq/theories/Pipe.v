(** The pipelines package: set-up of metrics and of tracing.  P stands for /repo/pipelines. *)
From Coq Require Import ZArith Bool String Ascii.
From stdpp Require Import base list option strings gmap.
From Verif Require Import Num Attr View.
Local Open Scope Z_scope.
Local Open Scope string_scope.

(** configtls.ClientConfig, as far as it is written here: [tls_other] is the rest of the settings given by the user. *)
Record tls := Tls { tls_insecure : bool; tls_other : string }.
(** PipelineConfig (P/common.go:26-66), without the deprecated fields.  Maps are finite maps; nil and empty are the same to this code. *)
Record pipecfg := PipeCfg {
  pc_endpoint : string; pc_insecure : bool; pc_headers : gmap string string; pc_resource : list kv; pc_period : string;
  pc_propagators : list string; pc_builtins : bool; pc_libraries : list string; pc_tempo : string; pc_tls : option tls }.
(** The configuration of the exporters of metrics and of spans, as far as it is written here
    (lightstep/sdk/metric/exporters/otlp/otelcol/client.go:60-170, lightstep/sdk/trace/exporters/otlp/otelcol/client.go:132-206). *)
Record xcfg := XCfg { xc_endpoint : string; xc_headers : gmap string string; xc_compression : string; xc_tls : tls }.
Definition xc_default : xcfg := XCfg "" ∅ "zstd" (Tls false "").
(** The options. *)
Definition with_endpoint (e : string) (c : xcfg) : xcfg := XCfg e (xc_headers c) (xc_compression c) (xc_tls c).
Definition with_headers (h : gmap string string) (c : xcfg) : xcfg := XCfg (xc_endpoint c) (h ∪ xc_headers c) (xc_compression c) (xc_tls c).
Definition with_compressor (s : string) (c : xcfg) : xcfg := XCfg (xc_endpoint c) (xc_headers c) s (xc_tls c).
Definition with_insecure (c : xcfg) : xcfg := XCfg (xc_endpoint c) (xc_headers c) (xc_compression c) (Tls true (tls_other (xc_tls c))).
Definition with_tls (t : tls) (c : xcfg) : xcfg := XCfg (xc_endpoint c) (xc_headers c) (xc_compression c) t.
(** NewConfig (102-110; 166-174): the options in order. *)
Definition xc_new (opts : list (xcfg -> xcfg)) : xcfg := fold_left (fun c o => o c) opts xc_default.
(** secureMetricOption and secureTraceOption (P/common.go:70-90). *)
Definition secure_option (c : pipecfg) : xcfg -> xcfg :=
  if pc_insecure c then with_insecure
  else match pc_tls c with Some t => with_tls t | None => with_tls (Tls false "") end.
(** The argument of newMetricsExporter (P/metrics.go:149-159) and newTraceExporter (P/trace.go:58-68). *)
Definition exporter_config (c : pipecfg) : xcfg :=
  xc_new [secure_option c; with_endpoint (pc_endpoint c); with_headers (pc_headers c); with_compressor "gzip"].

(** The libraries of instrumentation (P/metrics.go:40-50), and propagators (P/trace.go:72-77). *)
Inductive lib := LHost | LRuntime | LCputime.
Inductive prop := PropB3 | PropBaggage | PropTraceContext | PropOT.
(** What set-up does to the world, in order.  A provider is known by what it was made of. *)
Inductive act :=
  | AMetricExporter (c : xcfg)
  | ATraceExporter (c : xcfg)
  | AStart (l : lib)
  | AHandle (e : string)
  | ASetMeter (resource : list kv) (period : Z) (sel : kind -> tempo)
  | ASetPropagator (l : list prop)
  | ASetTracer (resource : list kv)
  | ASetHandler (custom : bool)
  | AFatal (msg : string)
  | AShutdown (metrics : bool).
(** The rest of the world: time.ParseDuration; the errors of the creation of the exporters; the error of the start of a library, which
    may depend on all that happened; the error of a shutdown. *)
Record world := World {
  wd_duration : string -> option Z; wd_metric_exporter : xcfg -> option string; wd_trace_exporter : xcfg -> option string;
  wd_start : list act -> lib -> option string; wd_shutdown : list act -> bool -> option string }.

(** strings.Cut(lib, ":"). *)
Fixpoint cut_colon (s : string) : string * string :=
  match s with
  | "" => ("", "")
  | String c r => if Ascii.eqb c ":"%char then ("", r) else let '(a, b) := cut_colon r in (String c a, b)
  end.
(** builtinMetricsVersions (P/metrics.go:60-73) with defaultVersion (58). *)
Definition default_version : string := "stable".
Definition builtin_versions (name : string) : option (list (string * list lib)) :=
  if String.eqb name "all" then Some [(default_version, [LHost; LRuntime; LCputime])]
  else if String.eqb name "cputime" then Some [(default_version, [LCputime])]
  else if String.eqb name "host" then Some [(default_version, [LHost])]
  else if String.eqb name "runtime" then Some [(default_version, [LRuntime])]
  else None.
Definition version_of (vm : list (string * list lib)) (v : string) : option (list lib) :=
  match List.find (fun p => String.eqb p.1 v) vm with Some p => Some p.2 | None => None end.

Section pipe.
Context (W : world).
(** The loops of P/metrics.go:116-142.  The texts of errors are shortened to their arguments. *)
Fixpoint start_all (name : string) (fs : list lib) (w : list act) : list act :=
  match fs with
  | [] => w
  | f :: r =>
      let w1 := (w ++ [AStart f])%list in
      start_all name r (match wd_start W w f with Some e => (w1 ++ [AHandle ("failed to start " ++ name ++ ": " ++ e)])%list | None => w1 end)
  end.
Fixpoint start_libraries (libs : list string) (w : list act) : list act :=
  match libs with
  | [] => w
  | l :: r =>
      let '(name, v) := cut_colon l in
      let version := if String.eqb v "" then default_version else v in
      start_libraries r
        (match builtin_versions name with
         | None => (w ++ [AHandle ("unrecognized builtin: " ++ name)])%list
         | Some vm =>
             match version_of vm version with
             | None => (w ++ [AHandle ("unrecognized builtin version: " ++ name ++ ": " ++ version)])%list
             | Some fs => start_all name fs w
             end
         end)
  end.

(** tempoOptions (P/metrics.go:161-191): the selector, or the error.  Simplification: ToLower of ASCII letters only. *)
Definition tempo_options (pref : string) : option (kind -> tempo) :=
  let l := lower pref in
  let sel s a := Some (fun k => match k with
                               | SyncUpDownCounter | AsyncUpDownCounter => CumulativeTempo
                               | SyncCounter | SyncHistogram => s
                               | _ => a
                               end) in
  if String.eqb l "delta" then sel DeltaTempo DeltaTempo
  else if String.eqb l "stateless" || String.eqb l "lowmemory" then sel DeltaTempo CumulativeTempo
  else if String.eqb l "" || String.eqb l "cumulative" then sel CumulativeTempo CumulativeTempo
  else None.

(** The period (P/metrics.go:79-90), in nanoseconds. *)
Definition reporting_period (s : string) : Z + string :=
  if String.eqb s "" then inl 30000000000%Z
  else match wd_duration W s with
       | None => inr "invalid metric reporting period"
       | Some p => if (p <=? 0)%Z then inr "invalid metric reporting period" else inl p
       end.
(** NewMetricsPipeline (76-147): the actions so far and after, and the error.  Without an error the shutdown function returned shuts the
    provider down, and with it the reader and the exporter. *)
Definition new_metrics_pipeline (c : pipecfg) (w : list act) : list act * option string :=
  match reporting_period (pc_period c) with
  | inr e => (w, Some e)
  | inl period =>
      match tempo_options (pc_tempo c) with
      | None => (w, Some "invalid metric view configuration: invalid temporality preference")
      | Some sel =>
          let w1 := (w ++ [AMetricExporter (exporter_config c)])%list in
          match wd_metric_exporter W (exporter_config c) with
          | Some e => (w1, Some ("failed to create metric exporter: " ++ e))
          | None =>
              let w2 := if pc_builtins c then start_libraries (pc_libraries c) w1 else w1 in
              ((w2 ++ [ASetMeter (pc_resource c) period sel])%list, None)
          end
      end
  end.

(** propagatorsMap (P/trace.go:72-77) and configurePropagators (71-92). *)
Definition propagator (s : string) : option prop :=
  if String.eqb s "b3" then Some PropB3
  else if String.eqb s "baggage" then Some PropBaggage
  else if String.eqb s "tracecontext" then Some PropTraceContext
  else if String.eqb s "ottrace" then Some PropOT
  else None.
Definition configure_propagators (names : list string) (w : list act) : list act * option string :=
  match omap propagator names with
  | [] => (w, Some "invalid configuration: unsupported propagators")
  | props => ((w ++ [ASetPropagator props])%list, None)
  end.
(** NewTracePipeline (30-56).  The shutdown function returned shuts the batch processor down, and with it the exporter. *)
Definition new_trace_pipeline (c : pipecfg) (w : list act) : list act * option string :=
  let w1 := (w ++ [ATraceExporter (exporter_config c)])%list in
  match wd_trace_exporter W (exporter_config c) with
  | Some e => (w1, Some ("failed to create span exporter: " ++ e))
  | None =>
      match configure_propagators (pc_propagators c) w1 with
      | (w2, Some e) => (w2, Some e)
      | (w2, None) => ((w2 ++ [ASetTracer (pc_resource c)])%list, None)
      end
  end.
End pipe.
