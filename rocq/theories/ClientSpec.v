(** Vocabulary for C64.  Nothing in this file models Go code. *)
From Coq Require Import ZArith Bool String.
From stdpp Require Import base list option strings gmap.
From Verif Require Import Num Attr View Data Exp ExpSpec Trace TraceSpec Pipe Client.
Local Open Scope string_scope.

(** What the last option that says something says. *)
Definition latest {O A} (f : O -> option A) (l : list (option O)) : option A := list.last (omap (fun o => match o with Some x => f x | None => None end) l).
Definition says_endpoint (o : oopt) : option string := match o with WithEndpoint a => Some a | _ => None end.
Definition says_compressor (o : oopt) : option string := match o with WithCompressor a => Some a | _ => None end.
Definition says_header (k : string) (o : oopt) : option string := match o with WithHeaders h => h !! k | _ => None end.
Definition no_tls (o : option oopt) : Prop := forall t, o <> Some (WithTLSSetting t).
Definition says_port (o : popt) : option Z := match o with WithPort n => Some n | PFunction _ => None end.
Definition p_plain (o : option popt) : Prop := forall f, o <> Some (PFunction f).
(** No function of the user among the options. *)
Definition plain (o : option oopt) : Prop := forall f, o <> Some (OFunction f).

(** All that the creation of an exporter does when nothing fails, in order. *)
Definition plan (k : ckind) (tp mp : provider) (cfg : oconfig + pconfig) : list cact :=
  let s := TSettings tp mp in
  match k with
  | OTLPMetrics => [CLogger; CTracer tp "lightstep-go/sdk/metric"; CInstrument mp "lightstep-go/sdk/metric" "Int64Counter" "otelsdk.telemetry.items";
                    CCreate Exporter s cfg; CCreate Batcher s cfg; CStart Exporter; CStart Batcher]
  | OTLPSpans => [CLogger; CTracer tp "lightstep-go/sdk/trace"; CInstrument mp "lightstep-go/sdk/trace" "Int64Counter" "otelsdk.telemetry.items";
                  CCreate Exporter s cfg; CCreate Batcher s cfg; CStart Exporter; CStart Batcher]
  | Prometheus => [CLogger; CTracer tp "lightstep-go/sdk/metric"; CInstrument mp "lightstep-go/sdk/metric" "Int64Counter" "otelsdk.telemetry.items";
                   CCreate Exporter s cfg; CStart Exporter]
  end.
Section fails.
Context (fails : log -> nat * cact -> option error).
(** The errors of actions made one after the other.  Tracer and the reports about itself return no error. *)
Definition answer (w : log) (n : nat) (a : cact) : option error := match a with CTracer _ _ | CReport _ _ _ => None | _ => fails w (n, a) end.
Fixpoint errors (n : nat) (w : log) (l : list cact) : list error :=
  match l with
  | [] => []
  | a :: l => match answer w n a with Some e => [e] | None => [] end ++ errors n (w ++ [(n, a)]) l
  end%list.
(** How creation may end.  On failure: the errors of what was done; nothing was done after an error, but that a meter is asked for the counter also when
    there is no logger. *)
Inductive creation (n : nat) (k : ckind) (tp mp : provider) (cfg : oconfig + pconfig) (w : log) : log -> list error + client -> Prop :=
  | created : errors n w (plan k tp mp cfg) = [] ->
      creation n k tp mp cfg w (w ++ map (pair n) (plan k tp mp cfg))%list (inr (Client k mp rm_zero))
  | refused l r : plan k tp mp cfg = (l ++ r)%list -> errors n w l <> [] ->
      (forall l1 a l2, l = (l1 ++ a :: l2)%list -> answer (w ++ map (pair n) l1)%list n a <> None -> l2 = [] \/ a = CLogger /\ length l2 = 2%nat) ->
      creation n k tp mp cfg w (w ++ map (pair n) l)%list (inl (errors n w l)).
End fails.

(** What a call that makes an exporter asks for: the kind, the tracer and meter provider for telemetry about itself, the configuration. *)
Definition own (b : bool) : provider := if b then Global else Noop.
Definition says_tracer (o : sopt) : option (option provider) := match o with WithTracerProvider p => Some p | _ => None end.
Definition says_meter (o : sopt) : option (option provider) := match o with WithMeterProvider p => Some p | _ => None end.
Definition chosen (f : sopt -> option (option provider)) (l : list sopt) (b : bool) : provider :=
  match list.last (omap f l) with Some (Some p) => p | _ => own b end.
Definition asked (a : call) : option (ckind * provider * provider * (oconfig + pconfig)) :=
  match a with
  | MakeMetrics c => Some (OTLPMetrics, own (oc_spans c), own (oc_metrics c), inl c)
  | MakeSpans c l => Some (OTLPSpans, chosen says_tracer l (oc_spans c), chosen says_meter l (oc_metrics c), inl c)
  | MakeProm c => Some (Prometheus, own (pc_spans c), own (pc_metrics c), inr c)
  | _ => None
  end.

(** Data that the exporters do not refuse (C35, C39). *)
Definition good (H : hlib) (rs : string -> list kv) (a : call) : Prop :=
  match a with
  | Export _ m | Shutdown _ m => (forall useexp, data_ok H useexp m) /\ a_set (rs (mt_res m)) /\ with_types (rs (mt_res m))
  | ExportSpans _ b => batch_ok b
  | _ => True
  end.
(** Where data go, whether histograms stay exponential, the name under which a client reports, and what is shut down, in this order. *)
Definition takes (k : ckind) : component := match k with Prometheus => Exporter | OTLPMetrics | OTLPSpans => Batcher end.
Definition exponential (k : ckind) : bool := match k with Prometheus => false | OTLPMetrics | OTLPSpans => true end.
Definition reports_as (k : ckind) : string := match k with OTLPSpans => "lightstep-go/sdk/trace" | OTLPMetrics | Prometheus => "lightstep-go/sdk/metric" end.
Definition stops (k : ckind) : list cact := match k with Prometheus => [CShutdown Exporter] | OTLPMetrics | OTLPSpans => [CShutdown Batcher; CShutdown Exporter] end.
(** What was done with the parts of one client. *)
Definition of_client (n : nat) (w : log) : list cact := omap (fun x => if Nat.eqb x.1 n then Some x.2 else None) w.
(** Use of a client: data to its batcher (the exporter of Prometheus), telemetry about itself at its provider, shutdown. *)
Inductive use (k : ckind) (mp : provider) : cact -> Prop :=
  | use_data x : use k mp (CConsume (takes k) x)
  | use_report t : use k mp (CReport mp (reports_as k) t)
  | use_stop c : (k = Prometheus -> c = Exporter) -> use k mp (CShutdown c).
