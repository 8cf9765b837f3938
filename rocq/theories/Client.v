(** The exporters: their configuration, creation, use and shutdown, and the telemetry about themselves.  S stands for /repo/lightstep/sdk;
    OM for S/metric/exporters/otlp/otelcol/client.go, OT for S/trace/exporters/otlp/otelcol/client.go, PM for S/metric/exporters/prom/client.go. *)
From Coq Require Import ZArith Bool String Ascii.
From stdpp Require Import base list option strings gmap pretty.
From Verif Require Import Num Attr View Data Exp Trace Pipe.
Local Open Scope Z_scope.
Local Open Scope string_scope.

(** ** Configuration *)
(** Config (OM:49-54, OT:50-55), with all that is written here of concurrentbatchprocessor.Config and otelarrowexporter.Config.  Times in
    nanoseconds.  [oc_client] holds the endpoint, headers, compression and TLS settings of configgrpc.ClientConfig.  [oc_retry] and [oc_queue] are the
    fields Enabled; the other settings for retries and the queue are defaults of the collector. *)
Record oconfig := OConfig {
  oc_metrics : bool; oc_spans : bool; oc_batch_timeout : Z; oc_batch_size : Z; oc_batch_max : Z; oc_timeout : Z; oc_retry : bool; oc_queue : bool;
  oc_client : xcfg; oc_buffer : Z; oc_wait : bool; oc_arrow_disabled : bool; oc_streams : Z; oc_no_downgrade : bool }.
(** NewDefaultConfig for metrics (OM:68-100) and for spans (OT:132-164). *)
Definition default_oconfig (spans : bool) : oconfig :=
  OConfig true true (if spans then 1000000000 else 0) 1000 1500 15000000000 false false xc_default (512 * 1024) true true 1 true.
(** The options (OM:112-142, OT:176-206), or any other function. *)
Inductive oopt := WithEndpoint (a : string) | WithHeaders (h : gmap string string) | WithCompressor (s : string) | WithInsecure
                | WithTLSSetting (t : tls) | OFunction (f : oconfig -> oconfig).
Definition set_client (f : xcfg -> xcfg) (c : oconfig) : oconfig :=
  OConfig (oc_metrics c) (oc_spans c) (oc_batch_timeout c) (oc_batch_size c) (oc_batch_max c) (oc_timeout c) (oc_retry c) (oc_queue c) (f (oc_client c))
    (oc_buffer c) (oc_wait c) (oc_arrow_disabled c) (oc_streams c) (oc_no_downgrade c).
Definition apply_oopt (o : oopt) (c : oconfig) : oconfig :=
  match o with
  | WithEndpoint a => set_client (with_endpoint a) c
  | WithHeaders h => set_client (with_headers h) c
  | WithCompressor s => set_client (with_compressor s) c
  | WithInsecure => set_client with_insecure c
  | WithTLSSetting t => set_client (with_tls t) c
  | OFunction f => f c
  end.
(** NewConfig (OM:102-110, OT:166-174): a nil option is skipped. *)
Definition new_oconfig (spans : bool) (l : list (option oopt)) : oconfig :=
  fold_left (fun c o => match o with Some f => apply_oopt f c | None => c end) l (default_oconfig spans).

(** Config of the Prometheus exporter (PM:41-45), NewDefaultConfig (73-88), WithPort (90-94) and NewConfig (63-71). *)
Record pconfig := PConfig { pc_metrics : bool; pc_spans : bool; pc_listen : string; pc_expiry : Z; pc_resource_labels : bool }.
Definition default_pconfig : pconfig := PConfig true true "0.0.0.0:9090" 3600000000000 true.
Inductive popt := WithPort (n : Z) | PFunction (f : pconfig -> pconfig).
Definition apply_popt (o : popt) (c : pconfig) : pconfig :=
  match o with
  | WithPort n => PConfig (pc_metrics c) (pc_spans c) ("0.0.0.0:" ++ pretty n) (pc_expiry c) (pc_resource_labels c)
  | PFunction f => f c
  end.
Definition new_pconfig (l : list (option popt)) : pconfig :=
  fold_left (fun c o => match o with Some f => apply_popt f c | None => c end) l default_pconfig.

(** ** The world *)
(** A tracer or meter provider: the global one, the one that does nothing, one given as an option. *)
Inductive provider := Global | Noop | Given (n : nat).
(** The telemetry settings a component is given: its tracer provider, and the meter provider that renames. *)
Record tsettings := TSettings { ts_tracer : provider; ts_meter : provider }.
Inductive component := Exporter | Batcher.
Inductive payload := Metrics (x : pmetrics) | Spans (x : list presspans).
(** What a client does, with its number. *)
Inductive cact :=
  | CLogger                                                       (* zap.NewProduction *)
  | CTracer (p : provider) (scope : string)                       (* tp.Tracer(name) *)
  | CInstrument (p : provider) (scope method name : string)       (* a constructor of the meter [scope] of provider [p] *)
  | CCreate (c : component) (s : tsettings) (cfg : oconfig + pconfig)
  | CStart (c : component)
  | CConsume (c : component) (x : payload)
  | CReport (p : provider) (scope : string) (t : telemetry)       (* the counter of [p], and the span of the tracer *)
  | CShutdown (c : component).
Notation log := (list (nat * cact)).

(** fixName (S/internal/common.go:130-135); [name[8:]]. *)
Fixpoint from (n : nat) (s : string) : string := match n, s with S m, String _ r => from m r | _, _ => s end.
Definition fix_name (s : string) : string := if String.prefix "otelcol_" s then "otelsdk_" ++ from 8 s else s.
(** The methods of notelMeter (S/internal/common.go:137-191), and the methods of the meter they call. *)
Definition notel_methods : list (string * string) :=
  [("Int64Counter", "Int64Counter"); ("Int64UpDownCounter", "Int64UpDownCounter"); ("Int64Histogram", "Int64Histogram"); ("Int64Gauge", "Int64Gauge");
   ("Int64ObservableCounter", "Int64ObservableCounter"); ("Int64ObservableUpDownCounter", "Int64ObservableUpDownCounter");
   ("Int64ObservableGauge", "Int64ObservableGauge"); ("Float64Counter", "Float64Counter"); ("Float64UpDownCounter", "Float64UpDownCounter");
   ("Float64Histogram", "Float64Histogram"); ("Float64Gauge", "Float64Gauge"); ("Float64ObservableCounter", "Float64ObservableCounter");
   ("Float64ObservableUpDownCounter", "Float64ObservableUpDownCounter"); ("Float64ObservableGauge", "Float64ObservableGauge")].
(** A call of a constructor of the meter a component gets from its settings. *)
Definition notel (p : provider) (scope method name : string) : option cact :=
  match List.find (fun x => String.eqb x.1 method) notel_methods with
  | Some x => Some (CInstrument p scope x.2 (fix_name name))
  | None => None
  end.

Section client.
(** The error of each action, which may depend on all that happened; the maps of histogram scales; the attributes of each resource. *)
Context (fails : log -> nat * cact -> option error) (H : hlib) (rs : string -> list kv).

Definition act (n : nat) (a : cact) (w : log) : log * option error := ((w ++ [(n, a)])%list, fails w (n, a)).

(** ** Creation *)
(** ConfigureSelfTelemetry (S/internal/common.go:201-225): both errors are joined. *)
Definition self_telemetry (n : nat) (scope : string) (tp mp : provider) (w : log) : log * list error :=
  let '(w1, e1) := act n CLogger w in
  let '(w2, _) := act n (CTracer tp scope) w1 in
  let '(w3, e2) := act n (CInstrument mp scope "Int64Counter" (fix_name "otelsdk.telemetry.items")) w2 in
  (w3, (match e1 with Some e => [e] | None => [] end ++ match e2 with Some e => [e] | None => [] end)%list).

Inductive ckind := OTLPMetrics | OTLPSpans | Prometheus.
(** client (OM:56-66, OT:74-82, PM:47-56): the provider of its counter, and its ResourceMap. *)
Record client := Client { cl_kind : ckind; cl_meter : provider; cl_rm : rmap }.
Definition result : Type := log * (list error + client).
Definition attempt (n : nat) (a : cact) (k : log -> result) (w : log) : result :=
  match act n a w with (w', Some e) => (w', inl [e]) | (w', None) => k w' end.
Definition if_self (b : bool) : provider := if b then Global else Noop.
(** The part of NewExporter after the providers are known, with a batcher (OM:159-197, OT:236-277) and without one (PM:114-135).  The ids of components and GetExtensions
    are left out. *)
Definition scope_of (k : ckind) : string := match k with OTLPSpans => "lightstep-go/sdk/trace" | _ => "lightstep-go/sdk/metric" end.
Definition assemble (n : nat) (k : ckind) (tp mp : provider) (cfg : oconfig + pconfig) (w : log) : result :=
  match self_telemetry n (scope_of k) tp mp w with
  | (w, e :: es) => (w, inl (e :: es))
  | (w, []) =>
      let c := Client k mp rm_zero in
      attempt n (CCreate Exporter (TSettings tp mp) cfg)
        match k with
        | Prometheus => attempt n (CStart Exporter) (fun w => (w, inr c))
        | _ => attempt n (CCreate Batcher (TSettings tp mp) cfg) (attempt n (CStart Exporter) (attempt n (CStart Batcher) (fun w => (w, inr c))))
        end w
  end.
(** NewExporter of the OTLP exporter of metrics (OM:144-198) and of the Prometheus exporter (PM:99-136). *)
Definition new_otlp_metrics (n : nat) (cfg : oconfig) (w : log) : result :=
  assemble n OTLPMetrics (if_self (oc_spans cfg)) (if_self (oc_metrics cfg)) (inl cfg) w.
Definition new_prometheus (n : nat) (cfg : pconfig) (w : log) : result :=
  assemble n Prometheus (if_self (pc_spans cfg)) (if_self (pc_metrics cfg)) (inr cfg) w.
(** NewExporter of spans (OT:208-278), with its options (57-72); a provider may be nil.  An option that is a nil function, which panics, is left out. *)
Inductive sopt := WithTracerProvider (p : option provider) | WithMeterProvider (p : option provider).
Definition apply_sopt (o : sopt) (x : option provider * option provider) : option provider * option provider :=
  match o with WithTracerProvider p => (p, x.2) | WithMeterProvider p => (x.1, p) end.
Definition new_otlp_spans (n : nat) (cfg : oconfig) (l : list sopt) (w : log) : result :=
  let x := fold_left (fun x o => apply_sopt o x) l (None, None) in
  let mp := match x.2 with Some p => p | None => if_self (oc_metrics cfg) end in
  let tp := match x.1 with Some p => p | None => if_self (oc_spans cfg) end in
  assemble n OTLPSpans tp mp (inl cfg) w.

(** ** Use *)
(** The component data are given to: the batcher, or the exporter (OM:205-215, PM:143-154, OT:94). *)
Definition consumer (k : ckind) : component := match k with Prometheus => Exporter | _ => Batcher end.
(** ExportMetrics and ForceFlushMetrics (OM:204-215, 232-235, PM:142-154, 168-171): [None] is a panic of the conversion. *)
Definition export (n : nat) (c : client) (m : metrics) (w : log) : option (log * client * option error) :=
  let useexp := match cl_kind c with Prometheus => false | _ => true end in
  match export_metrics H rs (cl_rm c) m useexp (fun x => fails w (n, CConsume (consumer (cl_kind c)) (Metrics x))) with
  | Some (rm, x, ts, e) =>
      Some ((w ++ [(n, CConsume (consumer (cl_kind c)) (Metrics x))] ++ map (fun t => (n, CReport (cl_meter c) (scope_of (cl_kind c)) t)) ts)%list,
            Client (cl_kind c) (cl_meter c) rm, e)
  | None => None
  end.
(** ExportSpans (OT:84-119). *)
Definition spans (n : nat) (c : client) (l : list span) (w : log) : option (log * client * option error) :=
  match export_spans (cl_rm c) l (fun x => fails w (n, CConsume Batcher (Spans x))) with
  | Some (rm, x, ts, e) =>
      Some ((w ++ [(n, CConsume Batcher (Spans x))] ++ map (fun t => (n, CReport (cl_meter c) (scope_of (cl_kind c)) t)) ts)%list,
            Client (cl_kind c) (cl_meter c) rm, e)
  | None => None
  end.
(** ShutdownMetrics (OM:217-230, PM:156-166) and Shutdown (OT:121-130): data to flush for metrics only. *)
Definition components (k : ckind) : list component := match k with Prometheus => [Exporter] | _ => [Batcher; Exporter] end.
Definition stop (n : nat) (k : ckind) (acc : log * list error) : log * list error :=
  fold_left (fun acc x => also (act n (CShutdown x)) acc) (components k) acc.
Definition shutdown (n : nat) (c : client) (m : metrics) (w : log) : option (log * client * list error) :=
  match cl_kind c with
  | OTLPSpans => let '(w', es) := stop n (cl_kind c) (w, []) in Some (w', c, es)
  | _ =>
      match export n c m w with
      | Some (w1, c1, e) => let '(w', es) := stop n (cl_kind c) (w1, match e with Some x => [x] | None => [] end) in Some (w', c1, es)
      | None => None
      end
  end.

(** ** Programs: any number of clients *)
Inductive call := MakeMetrics (c : oconfig) | MakeSpans (c : oconfig) (l : list sopt) | MakeProm (c : pconfig)
                | Export (n : nat) (m : metrics) | ExportSpans (n : nat) (l : list span) | Shutdown (n : nat) (m : metrics).
Record prog := Prog { pg_log : log; pg_clients : list (option client) }.
Definition p_init : prog := Prog [] [].
(** What a call does, and the errors it returns.  A call on a client that was not made, or of the other signal, cannot be written: [None], as for a panic. *)
Definition done (p : prog) (i : nat) (r : option (log * client * list error)) : option (prog * list error) :=
  match r with Some (w, c, es) => Some (Prog w (<[i := Some c]> (pg_clients p)), es) | None => None end.
Definition listed (r : option (log * client * option error)) : option (log * client * list error) :=
  match r with Some (w, c, e) => Some (w, c, match e with Some x => [x] | None => [] end) | None => None end.
Definition made (p : prog) (r : result) : prog * list error :=
  match r with
  | (w, inr c) => (Prog w (pg_clients p ++ [Some c])%list, [])
  | (w, inl es) => (Prog w (pg_clients p ++ [None])%list, es)
  end.
Definition do (p : prog) (a : call) : option (prog * list error) :=
  let n := length (pg_clients p) in
  match a with
  | MakeMetrics c => Some (made p (new_otlp_metrics n c (pg_log p)))
  | MakeSpans c l => Some (made p (new_otlp_spans n c l (pg_log p)))
  | MakeProm c => Some (made p (new_prometheus n c (pg_log p)))
  | Export i m =>
      match pg_clients p !! i with
      | Some (Some c) => match cl_kind c with OTLPSpans => None | _ => done p i (listed (export i c m (pg_log p))) end
      | _ => None
      end
  | ExportSpans i l =>
      match pg_clients p !! i with
      | Some (Some c) => match cl_kind c with OTLPSpans => done p i (listed (spans i c l (pg_log p))) | _ => None end
      | _ => None
      end
  | Shutdown i m => match pg_clients p !! i with Some (Some c) => done p i (shutdown i c m (pg_log p)) | _ => None end
  end.
Fixpoint run (p : prog) (l : list call) : option prog :=
  match l with [] => Some p | a :: l => match do p a with Some (p', _) => run p' l | None => None end end.
End client.
