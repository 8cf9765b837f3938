(** The launcher: configuration from the environment and options, the resource, set-up and shutdown.  L stands for /repo/launcher/config.go. *)
From Coq Require Import ZArith Bool String.
From stdpp Require Import base list option strings gmap.
From Verif Require Import Num Attr View Pipe.
Local Open Scope Z_scope.
Local Open Scope string_scope.

(** Config (L:221-240).  [cf_custom]: the logger is one given with WithLogger, whose Fatalf is taken to return; the default logger's Fatalf
    (196-198) ends the process.  [cf_handler]: None is a nil error handler, Some false the default one, Some true one of the user. *)
Record config := Config {
  cf_span_endpoint : string; cf_span_insecure : bool; cf_name : string; cf_version : string; cf_headers : gmap string string;
  cf_metric_endpoint : string; cf_metric_insecure : bool; cf_tempo : string; cf_metrics : bool; cf_builtins : bool; cf_libraries : list string;
  cf_level : string; cf_propagators : list string; cf_period : string; cf_attributes : gmap string string;
  cf_custom : bool; cf_handler : option bool }.
Definition zero_config : config := Config "" false "" "" ∅ "" false "" false false [] "" [] "" ∅ false None.

Definition set_span_endpoint x c := Config x (cf_span_insecure c) (cf_name c) (cf_version c) (cf_headers c) (cf_metric_endpoint c) (cf_metric_insecure c) (cf_tempo c) (cf_metrics c) (cf_builtins c) (cf_libraries c) (cf_level c) (cf_propagators c) (cf_period c) (cf_attributes c) (cf_custom c) (cf_handler c).
Definition set_span_insecure x c := Config (cf_span_endpoint c) x (cf_name c) (cf_version c) (cf_headers c) (cf_metric_endpoint c) (cf_metric_insecure c) (cf_tempo c) (cf_metrics c) (cf_builtins c) (cf_libraries c) (cf_level c) (cf_propagators c) (cf_period c) (cf_attributes c) (cf_custom c) (cf_handler c).
Definition set_name x c := Config (cf_span_endpoint c) (cf_span_insecure c) x (cf_version c) (cf_headers c) (cf_metric_endpoint c) (cf_metric_insecure c) (cf_tempo c) (cf_metrics c) (cf_builtins c) (cf_libraries c) (cf_level c) (cf_propagators c) (cf_period c) (cf_attributes c) (cf_custom c) (cf_handler c).
Definition set_version x c := Config (cf_span_endpoint c) (cf_span_insecure c) (cf_name c) x (cf_headers c) (cf_metric_endpoint c) (cf_metric_insecure c) (cf_tempo c) (cf_metrics c) (cf_builtins c) (cf_libraries c) (cf_level c) (cf_propagators c) (cf_period c) (cf_attributes c) (cf_custom c) (cf_handler c).
Definition set_headers x c := Config (cf_span_endpoint c) (cf_span_insecure c) (cf_name c) (cf_version c) x (cf_metric_endpoint c) (cf_metric_insecure c) (cf_tempo c) (cf_metrics c) (cf_builtins c) (cf_libraries c) (cf_level c) (cf_propagators c) (cf_period c) (cf_attributes c) (cf_custom c) (cf_handler c).
Definition set_metric_endpoint x c := Config (cf_span_endpoint c) (cf_span_insecure c) (cf_name c) (cf_version c) (cf_headers c) x (cf_metric_insecure c) (cf_tempo c) (cf_metrics c) (cf_builtins c) (cf_libraries c) (cf_level c) (cf_propagators c) (cf_period c) (cf_attributes c) (cf_custom c) (cf_handler c).
Definition set_metric_insecure x c := Config (cf_span_endpoint c) (cf_span_insecure c) (cf_name c) (cf_version c) (cf_headers c) (cf_metric_endpoint c) x (cf_tempo c) (cf_metrics c) (cf_builtins c) (cf_libraries c) (cf_level c) (cf_propagators c) (cf_period c) (cf_attributes c) (cf_custom c) (cf_handler c).
Definition set_tempo x c := Config (cf_span_endpoint c) (cf_span_insecure c) (cf_name c) (cf_version c) (cf_headers c) (cf_metric_endpoint c) (cf_metric_insecure c) x (cf_metrics c) (cf_builtins c) (cf_libraries c) (cf_level c) (cf_propagators c) (cf_period c) (cf_attributes c) (cf_custom c) (cf_handler c).
Definition set_metrics x c := Config (cf_span_endpoint c) (cf_span_insecure c) (cf_name c) (cf_version c) (cf_headers c) (cf_metric_endpoint c) (cf_metric_insecure c) (cf_tempo c) x (cf_builtins c) (cf_libraries c) (cf_level c) (cf_propagators c) (cf_period c) (cf_attributes c) (cf_custom c) (cf_handler c).
Definition set_builtins x c := Config (cf_span_endpoint c) (cf_span_insecure c) (cf_name c) (cf_version c) (cf_headers c) (cf_metric_endpoint c) (cf_metric_insecure c) (cf_tempo c) (cf_metrics c) x (cf_libraries c) (cf_level c) (cf_propagators c) (cf_period c) (cf_attributes c) (cf_custom c) (cf_handler c).
Definition set_libraries x c := Config (cf_span_endpoint c) (cf_span_insecure c) (cf_name c) (cf_version c) (cf_headers c) (cf_metric_endpoint c) (cf_metric_insecure c) (cf_tempo c) (cf_metrics c) (cf_builtins c) x (cf_level c) (cf_propagators c) (cf_period c) (cf_attributes c) (cf_custom c) (cf_handler c).
Definition set_level x c := Config (cf_span_endpoint c) (cf_span_insecure c) (cf_name c) (cf_version c) (cf_headers c) (cf_metric_endpoint c) (cf_metric_insecure c) (cf_tempo c) (cf_metrics c) (cf_builtins c) (cf_libraries c) x (cf_propagators c) (cf_period c) (cf_attributes c) (cf_custom c) (cf_handler c).
Definition set_propagators x c := Config (cf_span_endpoint c) (cf_span_insecure c) (cf_name c) (cf_version c) (cf_headers c) (cf_metric_endpoint c) (cf_metric_insecure c) (cf_tempo c) (cf_metrics c) (cf_builtins c) (cf_libraries c) (cf_level c) x (cf_period c) (cf_attributes c) (cf_custom c) (cf_handler c).
Definition set_period x c := Config (cf_span_endpoint c) (cf_span_insecure c) (cf_name c) (cf_version c) (cf_headers c) (cf_metric_endpoint c) (cf_metric_insecure c) (cf_tempo c) (cf_metrics c) (cf_builtins c) (cf_libraries c) (cf_level c) (cf_propagators c) x (cf_attributes c) (cf_custom c) (cf_handler c).
Definition set_attributes x c := Config (cf_span_endpoint c) (cf_span_insecure c) (cf_name c) (cf_version c) (cf_headers c) (cf_metric_endpoint c) (cf_metric_insecure c) (cf_tempo c) (cf_metrics c) (cf_builtins c) (cf_libraries c) (cf_level c) (cf_propagators c) (cf_period c) x (cf_custom c) (cf_handler c).
Definition set_logger x c := Config (cf_span_endpoint c) (cf_span_insecure c) (cf_name c) (cf_version c) (cf_headers c) (cf_metric_endpoint c) (cf_metric_insecure c) (cf_tempo c) (cf_metrics c) (cf_builtins c) (cf_libraries c) (cf_level c) (cf_propagators c) (cf_period c) (cf_attributes c) x (cf_handler c).
Definition set_handler x c := Config (cf_span_endpoint c) (cf_span_insecure c) (cf_name c) (cf_version c) (cf_headers c) (cf_metric_endpoint c) (cf_metric_insecure c) (cf_tempo c) (cf_metrics c) (cf_builtins c) (cf_libraries c) (cf_level c) (cf_propagators c) (cf_period c) (cf_attributes c) (cf_custom c) x.

(** The options (L:40-191).  Maps are finite maps: nil and empty are the same to this code.  WithMetricReportingPeriod is given the text
    that fmt.Sprint makes of the duration. *)
Inductive opt :=
  | WithAccessToken (t : string) | WithMetricExporterEndpoint (u : string) | WithSpanExporterEndpoint (u : string) | WithServiceName (n : string)
  | WithServiceVersion (v : string) | WithHeaders (h : gmap string string) | WithLogLevel (l : string) | WithSpanExporterInsecure (b : bool)
  | WithMetricExporterInsecure (b : bool) | WithResourceAttributes (m : gmap string string) | WithPropagators (l : list string)
  | WithErrorHandler (nil : bool) | WithMetricReportingPeriod (p : string) | WithMetricExporterTemporalityPreference (p : string)
  | WithMetricsEnabled (b : bool) | WithMetricsBuiltinsEnabled (b : bool) | WithMetricsBuiltinLibraries (l : list string)
  | WithLogger | WithLightstepMetricsSDK (b : bool).
Definition token_header : string := "lightstep-access-token".
Definition apply_opt (c : config) (o : opt) : config :=
  match o with
  | WithAccessToken t => set_headers (<[ token_header := t ]> (cf_headers c)) c
  | WithMetricExporterEndpoint u => set_metric_endpoint u c
  | WithSpanExporterEndpoint u => set_span_endpoint u c
  | WithServiceName n => set_name n c
  | WithServiceVersion v => set_version v c
  | WithHeaders h => set_headers (h ∪ cf_headers c) c
  | WithLogLevel l => set_level l c
  | WithSpanExporterInsecure b => set_span_insecure b c
  | WithMetricExporterInsecure b => set_metric_insecure b c
  | WithResourceAttributes m => set_attributes m c
  | WithPropagators l => set_propagators l c
  | WithErrorHandler n => set_handler (if n then None else Some true) c
  | WithMetricReportingPeriod p => set_period p c
  | WithMetricExporterTemporalityPreference p => set_tempo p c
  | WithMetricsEnabled b => set_metrics b c
  | WithMetricsBuiltinsEnabled b => set_builtins b c
  | WithMetricsBuiltinLibraries l => set_libraries l c
  | WithLogger => set_logger true c
  | WithLightstepMetricsSDK _ => c
  end.

(** The surroundings: the environment variables; how envconfig parses booleans, lists and maps; the attributes of resource.Environment(),
    a set; os.Hostname, None for an error; the order in which range visits a map. *)
Record host := Host {
  ho_env : string -> option string; ho_bool : string -> option bool; ho_list : string -> option (list string);
  ho_map : string -> option (gmap string string); ho_resource : list kv; ho_name : option string; ho_walk : gmap string string -> list (string * string) }.

Section launch.
Context (H : host).
(** envconfig.Process on the tags of Config (222-235): fields in order; the value of a variable that is set, else the default of the tag.
    A field that does not parse ends the processing with an error.  The library is not in /repo: this is its documented behaviour. *)
Definition env_field {A} (parse : string -> option A) (set : A -> config -> config) (var : string) (dflt : option string) (r : config * option string)
  : config * option string :=
  match r with
  | (c, Some e) => (c, Some e)
  | (c, None) =>
      match (match ho_env H var with Some v => Some v | None => dflt end) with
      | None => (c, None)
      | Some v => match parse v with Some a => (set a c, None) | None => (c, Some var) end
      end
  end.
Definition env_fields : list (config * option string -> config * option string) :=
  [ env_field Some set_span_endpoint "OTEL_EXPORTER_OTLP_SPAN_ENDPOINT" (Some "ingest.lightstep.com:443")
  ; env_field (ho_bool H) set_span_insecure "OTEL_EXPORTER_OTLP_SPAN_INSECURE" (Some "false")
  ; env_field Some set_name "LS_SERVICE_NAME" None
  ; env_field Some set_version "LS_SERVICE_VERSION" (Some "unknown")
  ; env_field (ho_map H) set_headers "OTEL_EXPORTER_OTLP_HEADERS" None
  ; env_field Some set_metric_endpoint "OTEL_EXPORTER_OTLP_METRIC_ENDPOINT" (Some "ingest.lightstep.com:443")
  ; env_field (ho_bool H) set_metric_insecure "OTEL_EXPORTER_OTLP_METRIC_INSECURE" (Some "false")
  ; env_field Some set_tempo "OTEL_EXPORTER_OTLP_METRIC_TEMPORALITY_PREFERENCE" (Some "cumulative")
  ; env_field (ho_bool H) set_metrics "LS_METRICS_ENABLED" (Some "true")
  ; env_field (ho_bool H) set_builtins "LS_METRICS_BUILTINS_ENABLED" (Some "true")
  ; env_field (ho_list H) set_libraries "LS_METRICS_BUILTIN_LIBRARIES" (Some "all:stable")
  ; env_field Some set_level "OTEL_LOG_LEVEL" (Some "info")
  ; env_field (ho_list H) set_propagators "OTEL_PROPAGATORS" (Some "b3")
  ; env_field Some set_period "OTEL_EXPORTER_OTLP_METRIC_PERIOD" (Some "30s") ].
Definition process_env : config * option string := fold_left (fun r f => f r) env_fields (zero_config, None).

(** version (/repo/launcher/version.go:17) and the keys of semconv v1.4.0. *)
Definition launcher_version : string := "1.35.0".
Definition nonempty (s : string) : bool := negb (String.eqb s "").
(** newResource (314-371).  resource.New drops attributes with an empty key; the last value of a key wins (attribute.NewSet).
    Simplification: the values of resource.Environment() are strings, as the library makes them, so Emit and AsString are the string. *)
Definition as_string (v : value) : string := match v with VString s => s | _ => "" end.
Definition new_resource (c : config) : list kv :=
  let env_host := existsb (fun a : kv => String.eqb a.1 "host.name" && nonempty (as_string a.2)) (ho_resource H) in
  let user := List.filter (fun p : string * string => nonempty p.2) (ho_walk H (cf_attributes c)) in
  let user_host := existsb (fun p : string * string => String.eqb p.1 "host.name") user in
  let attributes :=
    ([("telemetry.sdk.name", VString "launcher"); ("telemetry.sdk.language", VString "go"); ("telemetry.sdk.version", VString launcher_version);
      ("telemetry.distro.name", VString "lightstep"); ("telemetry.distro.version", VString launcher_version)]
     ++ (if nonempty (cf_name c) then [("service.name", VString (cf_name c))] else [])
     ++ (if nonempty (cf_version c) then [("service.version", VString (cf_version c))] else [])
     ++ map (fun p : string * string => (p.1, VString p.2)) user
     ++ (if env_host || user_host then [] else match ho_name H with Some h => [("host.name", VString h)] | None => [] end))%list in
  new_set (List.filter valid_attr (ho_resource H ++ attributes)%list).

(** newConfig (290-307): the configuration before c.Resource, and the error of the environment. *)
Definition new_config (opts : list opt) : config * option string :=
  let '(c, e) := process_env in
  (fold_left apply_opt opts (set_handler (Some false) (set_logger false c)), e).

(** accessToken (253-258), checkEndpointDefault (242-251) and validateConfiguration (260-288). *)
Definition access_token (c : config) : string := match cf_headers c !! token_header with Some t => t | None => "" end.
Definition check_endpoint_default (value dflt : string) : option string :=
  if String.eqb value "" then None else if String.eqb value dflt then Some ("access token missing: " ++ value) else None.
Definition default_endpoint : string := "ingest.lightstep.com:443".
Definition resource_name_set (r : list kv) : bool :=
  match List.find (fun a : kv => String.eqb a.1 "service.name") r with Some a => nonempty (as_string a.2) | None => false end.
Definition validate (c : config) (r : list kv) : option string :=
  if String.eqb (cf_name c) "" && negb (resource_name_set r) then Some "service name missing"
  else if String.eqb (access_token c) "" then
    match check_endpoint_default (cf_span_endpoint c) default_endpoint with
    | Some e => Some e
    | None => check_endpoint_default (cf_metric_endpoint c) default_endpoint
    end
  else None.

(** What a call does: it returns, or Fatalf of the default logger has ended the process. *)
Inductive run (A : Type) := Ret (w : list act) (a : A) | Exited (w : list act).
Arguments Ret {A} _ _.
Arguments Exited {A} _.
Definition bind {A B} (r : run A) (f : list act -> A -> run B) : run B := match r with Ret w a => f w a | Exited w => Exited w end.
Definition fatal (c : config) (msg : string) (w : list act) : run unit :=
  let w' := (w ++ [AFatal msg])%list in if cf_custom c then Ret w' tt else Exited w'.

Context (W : world).
(** setupTracing (373-385) and setupMetrics (389-404): None is no shutdown function. *)
Definition setup_tracing (c : config) (r : list kv) (w : list act) : list act * (option bool + string) :=
  if String.eqb (cf_span_endpoint c) "" then (w, inl None)
  else match new_trace_pipeline W (PipeCfg (cf_span_endpoint c) (cf_span_insecure c) (cf_headers c) r "" (cf_propagators c) false [] "" None) w with
       | (w', Some e) => (w', inr e)
       | (w', None) => (w', inl (Some false))
       end.
Definition setup_metrics (c : config) (r : list kv) (w : list act) : list act * (option bool + string) :=
  if negb (cf_metrics c) then (w, inl None)
  else match new_metrics_pipeline W (PipeCfg (cf_metric_endpoint c) (cf_metric_insecure c) (cf_headers c) r (cf_period c) [] (cf_builtins c) (cf_libraries c) (cf_tempo c) None) w with
       | (w', Some e) => (w', inr e)
       | (w', None) => (w', inl (Some true))
       end.
(** The loop of ConfigureOpentelemetry (438-447): the shutdown functions, false for that of tracing and true for that of metrics. *)
Fixpoint setup_all (c : config) (setups : list (list act -> list act * (option bool + string))) (fs : list bool) (w : list act) : run (list bool) :=
  match setups with
  | [] => Ret w fs
  | f :: r =>
      match f w with
      | (w', inr e) => bind (fatal c ("setup error: " ++ e) w') (fun w'' _ => setup_all c r fs w'')
      | (w', inl None) => setup_all c r fs w'
      | (w', inl (Some b)) => setup_all c r (fs ++ [b])%list w'
      end
  end.
(** Launcher (309-312). *)
Record launcher := Launcher { la_config : config; la_resource : list kv; la_shutdown : list bool }.
(** ConfigureOpentelemetry (406-449).  Simplification: the debug output (409-414) is left out. *)
Definition configure (opts : list opt) : run launcher :=
  let '(c0, env_error) := new_config opts in
  let r := new_resource c0 in
  bind (match env_error with Some e => fatal c0 ("environment error: " ++ e) [] | None => Ret [] tt end) (fun w _ =>
  let token := match ho_env H "LS_ACCESS_TOKEN" with Some t => t | None => "" end in
  let c := if nonempty token && String.eqb (access_token c0) "" then set_headers (<[ token_header := token ]> (cf_headers c0)) c0 else c0 in
  bind (match validate c r with Some e => fatal c ("configuration error: " ++ e) w | None => Ret w tt end) (fun w _ =>
  let w := match cf_handler c with Some h => (w ++ [ASetHandler h])%list | None => w end in
  bind (setup_all c [setup_tracing c r; setup_metrics c r] [] w) (fun w fs => Ret w (Launcher c r fs)))).

(** Launcher.Shutdown (451-457). *)
Fixpoint shutdown_each (c : config) (fs : list bool) (w : list act) : run unit :=
  match fs with
  | [] => Ret w tt
  | f :: r =>
      let w' := (w ++ [AShutdown f])%list in
      match wd_shutdown W w f with
      | Some e => bind (fatal c ("failed to stop exporter: " ++ e) w') (fun w'' _ => shutdown_each c r w'')
      | None => shutdown_each c r w'
      end
  end.
Definition launcher_shutdown (l : launcher) (w : list act) : run unit := shutdown_each (la_config l) (la_shutdown l) w.
End launch.
Arguments Ret {A} _ _.
Arguments Exited {A} _.
