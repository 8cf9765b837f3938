(** What the options, the environment and the resource of the launcher should come to, and what set-up should do. *)
From Coq Require Import ZArith Bool String Ascii.
From stdpp Require Import base list option strings gmap.
From Verif Require Import Num Attr View ExpSpec TraceSpec Pipe Launch.
From Verif Require Export CaseSpec.
Local Open Scope Z_scope.
Local Open Scope string_scope.

(** ** Settings *)
(** The last option that says something about a setting. *)
Definition by_option {A} (pick : opt -> option A) (opts : list opt) : option A := list.last (omap pick opts).
(** The value of a setting: by the last option; else by the variable, when it is set; else the default.  [parse] reads the text. *)
Definition setting {A} (H : host) (pick : opt -> option A) (opts : list opt) (parse : string -> option A) (var : string) (dflt : option string) (zero v : A) : Prop :=
  match by_option pick opts with
  | Some a => v = a
  | None => match ho_env H var, dflt with
            | Some s, _ => parse s = Some v
            | None, Some s => parse s = Some v
            | None, None => v = zero
            end
  end.
Definition text (s : string) : option string := Some s.
Definition says_name o := match o with WithServiceName n => Some n | _ => None end.
Definition says_version o := match o with WithServiceVersion n => Some n | _ => None end.
Definition says_span_endpoint o := match o with WithSpanExporterEndpoint n => Some n | _ => None end.
Definition says_metric_endpoint o := match o with WithMetricExporterEndpoint n => Some n | _ => None end.
Definition says_span_insecure o := match o with WithSpanExporterInsecure n => Some n | _ => None end.
Definition says_metric_insecure o := match o with WithMetricExporterInsecure n => Some n | _ => None end.
Definition says_tempo o := match o with WithMetricExporterTemporalityPreference n => Some n | _ => None end.
Definition says_metrics o := match o with WithMetricsEnabled n => Some n | _ => None end.
Definition says_builtins o := match o with WithMetricsBuiltinsEnabled n => Some n | _ => None end.
Definition says_libraries o := match o with WithMetricsBuiltinLibraries n => Some n | _ => None end.
Definition says_level o := match o with WithLogLevel n => Some n | _ => None end.
Definition says_propagators o := match o with WithPropagators n => Some n | _ => None end.
Definition says_period o := match o with WithMetricReportingPeriod n => Some n | _ => None end.
Definition says_attributes o := match o with WithResourceAttributes n => Some n | _ => None end.
(** What an option says about one header. *)
Definition says_header (k : string) (o : opt) : option string :=
  match o with WithAccessToken t => if decide (k = "lightstep-access-token") then Some t else None | WithHeaders h => h !! k | _ => None end.
(** The headers of the environment. *)
Definition env_headers (H : host) (m : gmap string string) : Prop :=
  match ho_env H "OTEL_EXPORTER_OTLP_HEADERS" with Some s => ho_map H s = Some m | None => m = ∅ end.
(** A header by options, else by the environment. *)
Definition header (opts : list opt) (env : gmap string string) (k : string) : option string :=
  match by_option (says_header k) opts with Some v => Some v | None => env !! k end.
(** The access token: the header, unless it is missing or empty; else the variable. *)
Definition token (H : host) (opts : list opt) (env : gmap string string) : string :=
  match header opts env "lightstep-access-token" with
  | Some v => if decide (v = "") then default "" (ho_env H "LS_ACCESS_TOKEN") else v
  | None => default "" (ho_env H "LS_ACCESS_TOKEN")
  end.
(** The variables that are set can be read, and the defaults too. *)
Definition env_ok (H : host) : Prop :=
  (forall v, (exists var, var ∈ ["OTEL_EXPORTER_OTLP_SPAN_INSECURE"; "OTEL_EXPORTER_OTLP_METRIC_INSECURE"; "LS_METRICS_ENABLED"; "LS_METRICS_BUILTINS_ENABLED"] /\
                         ho_env H var = Some v) -> ho_bool H v <> None) /\
  (forall v, (exists var, var ∈ ["LS_METRICS_BUILTIN_LIBRARIES"; "OTEL_PROPAGATORS"] /\ ho_env H var = Some v) -> ho_list H v <> None) /\
  (forall v, ho_env H "OTEL_EXPORTER_OTLP_HEADERS" = Some v -> ho_map H v <> None) /\
  ho_bool H "true" = Some true /\ ho_bool H "false" = Some false /\ ho_list H "all:stable" = Some ["all:stable"] /\ ho_list H "b3" = Some ["b3"].
(** The range over a map visits each entry once, in any order; resource.Environment() is a set of strings with keys. *)
Definition host_ok (H : host) : Prop :=
  (forall m, ho_walk H m ≡ₚ map_to_list m) /\ NoDup (map fst (ho_resource H)) /\
  Forall (fun a => a.1 <> "" /\ exists s, a.2 = VString s) (ho_resource H).

(** ** The resource *)
(** The user attributes in force. *)
Definition user_attribute (opts : list opt) (k v : string) : Prop := exists m, by_option says_attributes opts = Some m /\ m !! k = Some v /\ v <> "".
(** What the launcher says of itself. *)
Definition own_attribute (k v : string) : Prop :=
  (k, v) ∈ [("telemetry.sdk.name", "launcher"); ("telemetry.sdk.language", "go"); ("telemetry.sdk.version", "1.35.0");
            ("telemetry.distro.name", "lightstep"); ("telemetry.distro.version", "1.35.0")].
Definition env_attribute (H : host) (k v : string) : Prop := (k, VString v) ∈ ho_resource H.

(** ** What happened *)
Definition acts_of {A} (r : run A) : list act := match r with Ret w _ => w | Exited w => w end.
Definition returned {A} (r : run A) : option A := match r with Ret _ a => Some a | Exited _ => None end.

(** A non-empty service name is configured by option, variable, user attributes or the resource of the environment. *)
Definition name_configured (H : host) (opts : list opt) (name : string) : Prop :=
  name <> "" \/ (exists v, user_attribute opts "service.name" v) \/ (exists v, env_attribute H "service.name" v /\ v <> "").

(** ** Pipelines *)
(** The documented preferences: of what is not an up-down-counter, counters and histograms first, then asynchronous instruments (and gauges). *)
Definition preference (p : string) (sync async : tempo) : Prop :=
  (p, sync, async) ∈ [("delta", DeltaTempo, DeltaTempo); ("stateless", DeltaTempo, CumulativeTempo); ("lowmemory", DeltaTempo, CumulativeTempo);
                      ("cumulative", CumulativeTempo, CumulativeTempo); ("", CumulativeTempo, CumulativeTempo)].
(** The documented entries of the list of libraries. *)
Definition entry (e : string) (ls : list lib) : Prop :=
  (e, ls) ∈ [("all", [LHost; LRuntime; LCputime]); ("all:", [LHost; LRuntime; LCputime]); ("all:stable", [LHost; LRuntime; LCputime]);
             ("host", [LHost]); ("host:", [LHost]); ("host:stable", [LHost]);
             ("runtime", [LRuntime]); ("runtime:", [LRuntime]); ("runtime:stable", [LRuntime]);
             ("cputime", [LCputime]); ("cputime:", [LCputime]); ("cputime:stable", [LCputime])].
Inductive wanted : list string -> list lib -> Prop :=
  | wanted_nil : wanted [] []
  | wanted_known e ls r rs : entry e ls -> wanted r rs -> wanted (e :: r) (ls ++ rs)%list
  | wanted_unknown e r rs : (forall ls, ~ entry e ls) -> wanted r rs -> wanted (e :: r) rs.
(** The entries that are not documented, each as often as it is given. *)
Inductive unknown_entries : list string -> list string -> Prop :=
  | ue_nil : unknown_entries [] []
  | ue_known e ls r us : entry e ls -> unknown_entries r us -> unknown_entries (e :: r) us
  | ue_unknown e r us : (forall ls, ~ entry e ls) -> unknown_entries r us -> unknown_entries (e :: r) (e :: us).
Definition starts (w : list act) : list lib := omap (fun a => match a with AStart l => Some l | _ => None end) w.
Definition handled (w : list act) : list string := omap (fun a => match a with AHandle e => Some e | _ => None end) w.
(** The documented names of propagators. *)
Definition propagator_name (s : string) (p : prop) : Prop :=
  (s, p) ∈ [("b3", PropB3); ("baggage", PropBaggage); ("tracecontext", PropTraceContext); ("ottrace", PropOT)].
Inductive recognised : list string -> list prop -> Prop :=
  | rec_nil : recognised [] []
  | rec_known s p r ps : propagator_name s p -> recognised r ps -> recognised (s :: r) (p :: ps)
  | rec_unknown s r ps : (forall p, ~ propagator_name s p) -> recognised r ps -> recognised (s :: r) ps.
(** Exporters made with the settings of a signal. *)
Definition reaches (endpoint : string) (insecure : bool) (headers : gmap string string) (x : xcfg) : Prop :=
  xc_endpoint x = endpoint /\ tls_insecure (xc_tls x) = insecure /\ xc_headers x = headers /\ xc_compression x = "gzip".
(** What each kind of instrument gets. *)
Definition selects (sel : kind -> tempo) (sync async : tempo) : Prop :=
  sel SyncCounter = sync /\ sel SyncHistogram = sync /\ sel AsyncCounter = async /\ sel AsyncGauge = async /\ sel SyncGauge = async /\
  sel SyncUpDownCounter = CumulativeTempo /\ sel AsyncUpDownCounter = CumulativeTempo.
Definition trace_exporters (w : list act) : list xcfg := omap (fun a => match a with ATraceExporter x => Some x | _ => None end) w.
Definition metric_exporters (w : list act) : list xcfg := omap (fun a => match a with AMetricExporter x => Some x | _ => None end) w.
Definition tracers (w : list act) : list (list kv) := omap (fun a => match a with ASetTracer r => Some r | _ => None end) w.
Definition meters (w : list act) : list (list kv * Z) := omap (fun a => match a with ASetMeter r p _ => Some (r, p) | _ => None end) w.
Definition fatals (w : list act) : list string := omap (fun a => match a with AFatal e => Some e | _ => None end) w.
Definition shutdowns (w : list act) : list bool := omap (fun a => match a with AShutdown b => Some b | _ => None end) w.
Definition handlers (w : list act) : list bool := omap (fun a => match a with ASetHandler b => Some b | _ => None end) w.
Definition propagators_set (w : list act) : list (list prop) := omap (fun a => match a with ASetPropagator l => Some l | _ => None end) w.
Definition selectors (w : list act) : list (kind -> tempo) := omap (fun a => match a with ASetMeter _ _ sel => Some sel | _ => None end) w.
(** The error handler: none (a nil handler was given), or the user's; without an option it is the launcher's own. *)
Definition says_handler o := match o with WithErrorHandler true => Some [] | WithErrorHandler false => Some [true] | _ => None end.
(** The shutdown of the signals in order after [w]; a failure is reported with its error, and the next is shut down. *)
Inductive stopped (W : world) : list bool -> list act -> list act -> Prop :=
  | stopped_nil w : stopped W [] w []
  | stopped_ok f fs w new : wd_shutdown W w f = None -> stopped W fs (w ++ [AShutdown f])%list new -> stopped W (f :: fs) w (AShutdown f :: new)
  | stopped_failed f fs w e m new : wd_shutdown W w f = Some e -> (exists p, m = p ++ e) ->
      stopped W fs (w ++ [AShutdown f; AFatal m])%list new -> stopped W (f :: fs) w (AShutdown f :: AFatal m :: new).
(** A preference is accepted in any case. *)
Definition accepts (p : string) (sync async : tempo) : Prop := exists q, same_but_case p q /\ preference q sync async.
(** The attributes of the exported resource: what the user says; else the service name and version, what the launcher says of itself and
    the name of the host, the last only when the environment names none; else the environment. *)
Definition says_itself (H : host) (name version k v : string) : Prop :=
  (k = "service.name" /\ name <> "" /\ v = name) \/ (k = "service.version" /\ version <> "" /\ v = version) \/ own_attribute k v \/
  (k = "host.name" /\ (forall h, env_attribute H "host.name" h -> h = "") /\ ho_name H = Some v).
Definition describes (H : host) (opts : list opt) (name version k v : string) : Prop :=
  k <> "" /\
  (user_attribute opts k v \/
   (forall u, ~ user_attribute opts k u) /\
   (says_itself H name version k v \/ (forall u, ~ says_itself H name version k u) /\ env_attribute H k v)).
(** The start of libraries, one after the other, after [w]: what is added.  A failure is reported, and the next library is started. *)
Inductive begun (W : world) : list lib -> list act -> list act -> Prop :=
  | begun_nil w : begun W [] w []
  | begun_ok l ls w new : wd_start W w l = None -> begun W ls (w ++ [AStart l])%list new -> begun W (l :: ls) w (AStart l :: new)
  | begun_failed l ls w e m new : wd_start W w l = Some e -> (exists p, m = p ++ e) -> begun W ls (w ++ [AStart l; AHandle m])%list new -> begun W (l :: ls) w (AStart l :: AHandle m :: new).
(** The same for a list of entries: an unknown one is reported and skipped. *)
Inductive ran (W : world) : list string -> list act -> list act -> Prop :=
  | ran_nil w : ran W [] w []
  | ran_unknown e r w m new : (forall ls, ~ entry e ls) -> ran W r (w ++ [AHandle m])%list new -> ran W (e :: r) w (AHandle m :: new)
  | ran_known e ls r w n1 n2 : entry e ls -> begun W ls w n1 -> ran W r (w ++ n1)%list n2 -> ran W (e :: r) w (n1 ++ n2)%list.
