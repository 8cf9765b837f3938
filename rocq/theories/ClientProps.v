(** C64: the exporters themselves, from their options to their shutdown. *)
From Coq Require Import ZArith Bool String Lia.
From stdpp Require Import base list option strings gmap pretty.
From Verif Require Import Num Attr View Data DataSpec DataProofs Exp ExpSpec ExpProofs ExpProps Trace TraceSpec TraceProofs TraceProps Pipe Inst Client ClientSpec ClientProofs.
Local Open Scope string_scope.

(** ** Configuration *)
(** With the options of the package, in any order and number and with nil among them: the endpoint and the compression are what the last such option
    says, a header is what the last option that has its key says, and nothing but the settings of the connection differs from the defaults. *)
Theorem C64_options (for_spans : bool) l : Forall plain l ->
  let c := new_oconfig for_spans l in
  c = OConfig true true (if for_spans then 1000000000 else 0) 1000 1500 15000000000 false false (oc_client c) 524288 true true 1 true /\
  xc_endpoint (oc_client c) = default "" (latest says_endpoint l) /\
  xc_compression (oc_client c) = default "zstd" (latest says_compressor l) /\
  forall k, xc_headers (oc_client c) !! k = latest (says_header k) l.
Proof.
  intros P. cbn zeta. split; [destruct (oconfig_rest for_spans l P) as [x ->]; reflexivity|]. split; [by apply oconfig_endpoint|].
  split; [by apply oconfig_compressor|]. intros k. by apply oconfig_headers.
Qed.
(** TLS: the last settings given as a whole, and [WithInsecure] if it comes later, or at all when no settings are given. *)
Theorem C64_tls for_spans l : Forall plain l ->
  (Forall no_tls l -> let x := xc_tls (oc_client (new_oconfig for_spans l)) in tls_other x = "" /\ (tls_insecure x = true <-> Some WithInsecure ∈ l)) /\
  forall l1 t l2, l = (l1 ++ Some (WithTLSSetting t) :: l2)%list -> Forall no_tls l2 ->
    let x := xc_tls (oc_client (new_oconfig for_spans l)) in tls_other x = tls_other t /\ (tls_insecure x = true <-> tls_insecure t = true \/ Some WithInsecure ∈ l2).
Proof. intros P. split; [by apply oconfig_no_tls|]. intros l1 t l2 -> N. by apply oconfig_tls. Qed.
Theorem C64_port l : Forall p_plain l -> new_pconfig l =
  PConfig true true match latest says_port l with Some n => "0.0.0.0:" ++ pretty n | None => "0.0.0.0:9090" end 3600000000000 true.
Proof. apply pconfig_says. Qed.

(** ** Creation *)
(** Whatever fails: an exporter is returned exactly when all that the plan says was done without an error; otherwise the errors are returned of all
    that was done, which is the plan up to the first error. *)
Theorem C64_creation fails H rs p a k tp mp cfg : asked a = Some (k, tp, mp, cfg) ->
  exists w r, creation fails (length (pg_clients p)) k tp mp cfg (pg_log p) w r /\
    do fails H rs p a = Some (match r with inr c => (Prog w (pg_clients p ++ [Some c])%list, []) | inl es => (Prog w (pg_clients p ++ [None])%list, es) end).
Proof.
  intros A. pose proof (assemble_creation fails (length (pg_clients p)) k tp mp cfg (pg_log p)) as C.
  exists (assemble fails (length (pg_clients p)) k tp mp cfg (pg_log p)).1, (assemble fails (length (pg_clients p)) k tp mp cfg (pg_log p)).2. split; [done|]. clear C.
  destruct a as [c|c o|c| | |]; cbn in A; try done; injection A as <- <- <- <-; cbn [do]; f_equal.
  - unfold new_otlp_metrics. change if_self with own. by destruct (assemble fails _ _ _ _ _ _) as [w [es|x]].
  - rewrite spans_asked. by destruct (assemble fails _ _ _ _ _ _) as [w [es|x]].
  - unfold new_prometheus. change if_self with own. by destruct (assemble fails _ _ _ _ _ _) as [w [es|x]].
Qed.

(** ** Use *)
(** In every program, with any number of exporters: the n-th exporter asked for is of the kind asked for; when its creation failed, what was done with
    its parts is a beginning of the plan, and nothing ever happens to them again; otherwise the plan was done and after it only data were handed
    to the part that takes them, telemetry reported at the provider chosen, and parts shut down. *)
Theorem C64_life fails H rs l p : run fails H rs p_init l = Some p ->
  length (pg_clients p) = length (omap asked l) /\
  forall n k tp mp cfg, omap asked l !! n = Some (k, tp, mp, cfg) ->
    (pg_clients p !! n = Some None /\ exists r, plan k tp mp cfg = (of_client n (pg_log p) ++ r)%list) \/
    (exists c u, pg_clients p !! n = Some (Some c) /\ cl_kind c = k /\ cl_meter c = mp /\ of_client n (pg_log p) = (plan k tp mp cfg ++ u)%list /\ Forall (use k mp) u).
Proof.
  intros E. destruct (run_inv _ _ _ _ _ E) as (L & _ & I). split; [done|]. intros n k tp mp cfg Hq. destruct (I _ _ Hq) as (x & Hx & Lx).
  destruct x as [c|]; [right|left]; [|done]. destruct Lx as (K & M & _ & u & U & F). by exists c, u.
Qed.
(** An export hands over what the data say, once, reports it once, returns the error of the part that took the data and touches no other exporter. *)
Theorem C64_export fails H rs l p i m c : run fails H rs p_init l = Some p -> pg_clients p !! i = Some (Some c) -> cl_kind c <> OTLPSpans -> good H rs (Export i m) ->
  let consume x := fails (pg_log p) (i, CConsume (takes (cl_kind c)) (Client.Metrics x)) in
  exists x t rm, export_says H rs (exponential (cl_kind c)) (m, consume) (x, [t], consume x) /\
    do fails H rs p (Export i m) =
      Some (Prog (pg_log p ++ [(i, CConsume (takes (cl_kind c)) (Client.Metrics x)); (i, CReport (cl_meter c) (reports_as (cl_kind c)) t)])%list
                 (<[i := Some (Client (cl_kind c) (cl_meter c) rm)]> (pg_clients p)),
            match consume x with Some e => [e] | None => [] end).
Proof.
  intros E Hc N (D & A & W). cbn zeta. pose proof (run_cache _ _ _ _ _ _ _ E Hc) as C.
  destruct (export_one H rs (exponential (cl_kind c)) m (cl_rm c) (fun x => fails (pg_log p) (i, CConsume (takes (cl_kind c)) (Client.Metrics x))) C (D _) A W) as (rm & x & t & X & S).
  exists x, t, rm. split; [done|]. cbn [do]. rewrite Hc. unfold done, listed, export. destruct (cl_kind c); try done; cbn [takes exponential] in X; cbn [consumer]; rewrite X; done.
Qed.
Theorem C64_spans fails H rs l p i b c : run fails H rs p_init l = Some p -> pg_clients p !! i = Some (Some c) -> cl_kind c = OTLPSpans -> batch_ok b ->
  let consume x := fails (pg_log p) (i, CConsume Batcher (Spans x)) in
  exists x t rm, span_export_says (b, consume) (x, [t], consume x) /\
    do fails H rs p (ExportSpans i b) =
      Some (Prog (pg_log p ++ [(i, CConsume Batcher (Spans x)); (i, CReport (cl_meter c) "lightstep-go/sdk/trace" t)])%list
                 (<[i := Some (Client OTLPSpans (cl_meter c) rm)]> (pg_clients p)),
            match consume x with Some e => [e] | None => [] end).
Proof.
  intros E Hc N B. cbn zeta. pose proof (run_cache _ _ _ _ _ _ _ E Hc) as C.
  destruct (spans_one b (cl_rm c) (fun x => fails (pg_log p) (i, CConsume Batcher (Spans x))) C B) as (rm & x & t & X & S).
  exists x, t, rm. split; [done|]. cbn [do]. rewrite Hc, N. unfold done, listed, spans. rewrite X, N. done.
Qed.
(** Shutdown exports the data it is given, for metrics, then shuts down every part, the batcher before the exporter, whatever failed before, and
    returns every error, in order. *)
Theorem C64_shutdown fails H rs l p i m c : run fails H rs p_init l = Some p -> pg_clients p !! i = Some (Some c) -> good H rs (Shutdown i m) ->
  exists u rm, do fails H rs p (Shutdown i m) =
    Some (Prog (pg_log p ++ map (pair i) (u ++ stops (cl_kind c)))%list (<[i := Some (Client (cl_kind c) (cl_meter c) rm)]> (pg_clients p)),
          errors fails i (pg_log p) (u ++ stops (cl_kind c))%list) /\
    match cl_kind c with
    | OTLPSpans => u = []
    | k => exists x t, u = [CConsume (takes k) (Client.Metrics x); CReport (cl_meter c) (reports_as k) t] /\
        let consume x := fails (pg_log p) (i, CConsume (takes k) (Client.Metrics x)) in export_says H rs (exponential k) (m, consume) (x, [t], consume x)
    end.
Proof.
  intros E Hc (D & A & W). pose proof (run_cache _ _ _ _ _ _ _ E Hc) as C.
  destruct (export_one H rs (exponential (cl_kind c)) m (cl_rm c) (fun x => fails (pg_log p) (i, CConsume (takes (cl_kind c)) (Client.Metrics x))) C (D _) A W) as (rm & x & t & X & S).
  assert (Q : forall k, cl_kind c = k -> k <> OTLPSpans -> export fails H rs i c m (pg_log p) = Some ((pg_log p ++ [(i, CConsume (takes k) (Client.Metrics x)); (i, CReport (cl_meter c) (reports_as k) t)])%list,
    Client k (cl_meter c) rm, fails (pg_log p) (i, CConsume (takes k) (Client.Metrics x)))).
  { intros k Ek Nk. unfold export. rewrite Ek in *. destruct k; try done; cbn [takes exponential] in X; cbn [consumer]; rewrite X; done. }
  cbn [do]. rewrite Hc. unfold done, shutdown. destruct (cl_kind c) eqn:Ek.
  - eexists _, rm. split; [|exists x, t; split; [reflexivity|exact S]]. rewrite (Q _ eq_refl) by done. rewrite stop_says.
    cbn [errors answer app map stops takes]. by rewrite <- !app_assoc.
  - exists [], (cl_rm c). split; [|done]. rewrite stop_says. destruct c as [k0 mp rm0]. cbn in Ek. subst k0. done.
  - eexists _, rm. split; [|exists x, t; split; [reflexivity|exact S]]. rewrite (Q _ eq_refl) by done. rewrite stop_says.
    cbn [errors answer app map stops takes]. by rewrite <- !app_assoc.
Qed.
(** No call that can be written, on data that are accepted, panics. *)
Theorem C64_no_panic fails H rs l : Forall (good H rs) l ->
  (forall l1 a l2 p, l = (l1 ++ a :: l2)%list -> run fails H rs p_init l1 = Some p ->
     match a with
     | Export i _ => exists c, pg_clients p !! i = Some (Some c) /\ cl_kind c <> OTLPSpans
     | ExportSpans i _ => exists c, pg_clients p !! i = Some (Some c) /\ cl_kind c = OTLPSpans
     | Shutdown i _ => exists c, pg_clients p !! i = Some (Some c)
     | _ => True
     end) -> exists p, run fails H rs p_init l = Some p.
Proof.
  assert (R : forall l1 l2 p, run fails H rs p (l1 ++ l2)%list = match run fails H rs p l1 with Some p' => run fails H rs p' l2 | None => None end).
  { intros l1. induction l1 as [|a l1 IH]; intros l2 p; [done|]. cbn. destruct (do fails H rs p a) as [[p' es]|]; [apply IH|done]. }
  induction l as [|a l IH] using rev_ind; intros G V; [by exists p_init|]. apply list.Forall_app in G as [G Ga]. apply list.Forall_cons in Ga as [Ga _].
  destruct IH as (p & E); [done| |].
  { intros l1 b l2 p E. apply (V l1 b (l2 ++ [a])%list p). rewrite E, <- app_assoc. done. }
  rewrite R, E. cbn [run]. specialize (V l a [] p eq_refl E). destruct a as [c|c o|c|i m|i b|i m].
  - cbn [do]. destruct (made _ _). eexists; reflexivity.
  - cbn [do]. destruct (made _ _). eexists; reflexivity.
  - cbn [do]. destruct (made _ _). eexists; reflexivity.
  - destruct V as (c & Hc & K). destruct (C64_export fails H rs l p i m c E Hc K Ga) as (x & t & rm & _ & ->). eexists; reflexivity.
  - destruct V as (c & Hc & K). destruct (C64_spans fails H rs l p i b c E Hc K Ga) as (x & t & rm & _ & ->). eexists; reflexivity.
  - destruct V as (c & Hc). destruct (C64_shutdown fails H rs l p i m c E Hc Ga) as (u & rm & -> & _). eexists; reflexivity.
Qed.

(** ** Names of the telemetry of the parts *)
(** The meter that the parts get has every constructor; each calls the one of the same name; [otelcol_] at the start becomes [otelsdk_], and nothing else
    changes; two names become one only when they differ in that. *)
Theorem C64_names pr scope method what : (method, what) ∈ constructors -> exists f : string -> string,
  (forall name, notel pr scope method name = Some (CInstrument pr scope method (f name))) /\
  (forall r, f ("otelcol_" ++ r) = "otelsdk_" ++ r) /\ (forall s, (forall r, s <> "otelcol_" ++ r) -> f s = s) /\
  (forall s r, f s <> "otelcol_" ++ r) /\
  (forall s s', f s = f s' -> s = s' \/ exists r, s = "otelcol_" ++ r /\ s' = "otelsdk_" ++ r \/ s' = "otelcol_" ++ r /\ s = "otelsdk_" ++ r).
Proof.
  intros M. exists fix_name. split; [|split; [apply fix_old|split; [apply fix_other|split]]].
  - intros name. unfold notel.
    assert (Z : exists x, List.find (fun x => String.eqb x.1 method) notel_methods = Some x /\ x.2 = method) by (repeat (apply elem_of_cons in M as [M|M]; [injection M as -> _; by eexists (_, _)|]); by apply elem_of_nil in M).
    destruct Z as (x & -> & ->). done.
  - intros s r E. destruct (name_cases s) as [[q ->]|N]; [by rewrite fix_old in E|]. rewrite (fix_other _ N) in E. by destruct (N r).
  - intros s s' E. destruct (name_cases s) as [[q ->]|N], (name_cases s') as [[q' ->]|N']; rewrite ?fix_old, ?(fix_other _ N), ?(fix_other _ N') in E.
    + left. f_equal. by apply app_same in E.
    + right. exists q. by left.
    + right. exists q'. by right.
    + by left.
Qed.
(** One would expect that different instruments of the parts stay different, and that a failed creation leaves no part running. *)
Theorem C64_names_refuted : exists pr scope method s s' a, s <> s' /\ notel pr scope method s = Some a /\ notel pr scope method s' = Some a.
Proof. exists Global, "x", "Int64Counter", "otelcol_a", "otelsdk_a", (CInstrument Global "x" "Int64Counter" "otelsdk_a"). by vm_compute. Qed.
Theorem C64_cleanup_refuted : exists fails H rs l p, run fails H rs p_init l = Some p /\ pg_clients p = [None] /\
  CStart Exporter ∈ of_client 0 (pg_log p) /\ CShutdown Exporter ∉ of_client 0 (pg_log p).
Proof.
  exists (fun _ x => match x.2 with CStart Batcher => Some (Error "no" false false) | _ => None end), Ex35.H, Ex35.rs, [MakeMetrics (new_oconfig false [])].
  eexists. split; [reflexivity|]. split; [reflexivity|]. split.
  - apply elem_of_list_lookup. exists 5%nat. reflexivity.
  - intros X. apply elem_of_list_In in X. cbn in X. repeat (destruct X as [X|X]; [discriminate|]). done.
Qed.

Module Ex64.
  Definition opts := [Some (WithHeaders {["a" := "1"; "b" := "2"]}); None; Some (WithTLSSetting (Tls false "ca")); Some WithInsecure; Some (WithEndpoint "x:1");
                      Some (WithHeaders {["b" := "3"]}); Some (WithEndpoint "y:2")].
  Example plain_opts : Forall plain opts.
  Proof. repeat (constructor; [by intros f [=]|]). constructor. Qed.
  Example configured : let c := oc_client (new_oconfig true opts) in
    xc_endpoint c = "y:2" /\ xc_headers c !! "a" = Some "1" /\ xc_headers c !! "b" = Some "3" /\ xc_compression c = "zstd" /\ xc_tls c = Tls true "ca".
  Proof. repeat split. Qed.
  Example insecure_before : xc_tls (oc_client (new_oconfig true [Some WithInsecure; Some (WithTLSSetting (Tls false "ca"))])) = Tls false "ca".
  Proof. reflexivity. Qed.
  Example port : pc_listen (new_pconfig [Some (WithPort 80); None; Some (WithPort 8080)]) = "0.0.0.0:8080".
  Proof. reflexivity. Qed.
  (** Three exporters; the batcher of the first one refuses data, the second cannot be started. *)
  Definition fails (w : log) (x : nat * cact) : option error :=
    match x with (0, CConsume _ _) => Some (Error "late" false true) | (1, CStart Exporter) => Some (Error "port" false false) | (2, CShutdown Batcher) => Some (Error "b" false false)
    | (0, CShutdown Exporter) => Some (Error "e" true false) | _ => None end%nat.
  Definition l := [MakeMetrics (new_oconfig false opts); MakeProm (new_pconfig []); MakeSpans (new_oconfig true []) [WithMeterProvider (Some (Given 7)); WithTracerProvider None];
                   Export 0 Ex35.m; ExportSpans 2 Ex39.l; Export 0 Ex35.m].
  Lemma m_good i : good Ex35.H Ex35.rs (Export i Ex35.m).
  Proof. split; [apply Ex35.ok|]. split; [apply (bool_decide_unpack _); vm_compute; exact I|by repeat constructor]. Qed.
  Lemma l_good : batch_ok Ex39.l.
  Proof. split; [exact Ex39.ok|]. split; [done|]. split; [apply (bool_decide_unpack _); vm_compute; exact I|by repeat constructor]. Qed.
  Definition short (a : cact) : string :=
    match a with CLogger => "logger" | CTracer _ _ => "tracer" | CInstrument p _ _ _ => match p with Given _ => "given counter" | Global => "counter" | Noop => "noop" end
    | CCreate Exporter _ _ => "new exporter" | CCreate Batcher _ _ => "new batcher" | CStart Exporter => "start exporter" | CStart Batcher => "start batcher"
    | CConsume Exporter _ => "data to exporter" | CConsume Batcher _ => "data to batcher" | CReport _ _ t => tl_message t | CShutdown Exporter => "stop exporter" | CShutdown Batcher => "stop batcher" end.
  Definition seen (p : option prog) (n : nat) : option (list string) := option_map (fun p => map short (of_client n (pg_log p))) p.
  Example used : (fun n => seen (run fails Ex35.H Ex35.rs p_init (l ++ [Shutdown 0 Ex35.m; Shutdown 2 Ex35.m])%list) n) <$> [0; 1; 2]%nat =
    [Some ["logger"; "tracer"; "counter"; "new exporter"; "new batcher"; "start exporter"; "start batcher"; "data to batcher"; "late"; "data to batcher"; "late"; "data to batcher"; "late"; "stop batcher"; "stop exporter"];
     Some ["logger"; "tracer"; "counter"; "new exporter"; "start exporter"];
     Some ["logger"; "tracer"; "given counter"; "new exporter"; "new batcher"; "start exporter"; "start batcher"; "data to batcher"; "ok"; "stop batcher"; "stop exporter"]].
  Proof. vm_compute. reflexivity. Qed.
  (** The hypotheses of the theorems on one call hold there. *)
  Example reached : exists p c0 c2, run fails Ex35.H Ex35.rs p_init l = Some p /\ pg_clients p !! 0%nat = Some (Some c0) /\ cl_kind c0 = OTLPMetrics /\
    pg_clients p !! 1%nat = Some None /\ pg_clients p !! 2%nat = Some (Some c2) /\ cl_kind c2 = OTLPSpans /\ cl_meter c2 = Given 7.
  Proof. eexists _, _, _. split; [vm_compute; reflexivity|]. repeat (split; [reflexivity|]). reflexivity. Qed.
  Example errors_all : (fun r => r.2) <$> (run fails Ex35.H Ex35.rs p_init l ≫= fun p => do fails Ex35.H Ex35.rs p (Shutdown 0 Ex35.m)) = Some [Error "late" false true; Error "e" true false].
  Proof. vm_compute. reflexivity. Qed.
  Example refused : (fun r => r.2) <$> do (fun _ x => match x.2 with CLogger => Some (Error "l" false false) | CInstrument _ _ _ _ => Some (Error "i" false false) | _ => None end) Ex35.H Ex35.rs p_init
    (MakeProm (new_pconfig [])) = Some [Error "l" false false; Error "i" false false].
  Proof. vm_compute. reflexivity. Qed.
  Example asked_all : length (omap asked l) = 3%nat.
  Proof. reflexivity. Qed.
  Example renamed : notel Global "s" "Float64Gauge" "otelcol_queue_size" = Some (CInstrument Global "s" "Float64Gauge" "otelsdk_queue_size").
  Proof. reflexivity. Qed.
End Ex64.

Print Assumptions C64_options.
Print Assumptions C64_tls.
Print Assumptions C64_port.
Print Assumptions C64_creation.
Print Assumptions C64_life.
Print Assumptions C64_export.
Print Assumptions C64_spans.
Print Assumptions C64_shutdown.
Print Assumptions C64_no_panic.
Print Assumptions C64_names.
Print Assumptions C64_names_refuted.
Print Assumptions C64_cleanup_refuted.
