(** C41: the settings after a variable that cannot be read. *)
From Coq Require Import ZArith Bool String Ascii Lia.
From stdpp Require Import base list option strings gmap fin_maps.
From Verif Require Import Num Attr View Pipe Launch LaunchSpec LaunchProofs LaunchProps.
Local Open Scope Z_scope.
Local Open Scope string_scope.

(** ** Specification *)
(** The variables in the order of the fields of Config (/repo/launcher/config.go:222-235). *)
Definition variables : list string :=
  ["OTEL_EXPORTER_OTLP_SPAN_ENDPOINT"; "OTEL_EXPORTER_OTLP_SPAN_INSECURE"; "LS_SERVICE_NAME"; "LS_SERVICE_VERSION"; "OTEL_EXPORTER_OTLP_HEADERS";
   "OTEL_EXPORTER_OTLP_METRIC_ENDPOINT"; "OTEL_EXPORTER_OTLP_METRIC_INSECURE"; "OTEL_EXPORTER_OTLP_METRIC_TEMPORALITY_PREFERENCE"; "LS_METRICS_ENABLED";
   "LS_METRICS_BUILTINS_ENABLED"; "LS_METRICS_BUILTIN_LIBRARIES"; "OTEL_LOG_LEVEL"; "OTEL_PROPAGATORS"; "OTEL_EXPORTER_OTLP_METRIC_PERIOD"].
(** A variable is broken when it is set to a text that is no boolean, list or map, whichever it should be. *)
Definition broken (H : host) (var : string) : Prop :=
  exists t, ho_env H var = Some t /\
    ((var ∈ ["OTEL_EXPORTER_OTLP_SPAN_INSECURE"; "OTEL_EXPORTER_OTLP_METRIC_INSECURE"; "LS_METRICS_ENABLED"; "LS_METRICS_BUILTINS_ENABLED"] /\ ho_bool H t = None) \/
     (var ∈ ["LS_METRICS_BUILTIN_LIBRARIES"; "OTEL_PROPAGATORS"] /\ ho_list H t = None) \/
     (var = "OTEL_EXPORTER_OTLP_HEADERS" /\ ho_map H t = None)).
(** Variable n or one before it is broken. *)
Definition lost (H : host) (n : nat) : Prop := exists i var, (i <= n)%nat /\ variables !! i = Some var /\ broken H var.
(** Setting n: as usual up to the first broken variable, and from there on what an option says, else nothing: neither variable nor default. *)
Definition partly {A} (H : host) (pick : opt -> option A) (opts : list opt) (parse : string -> option A) (n : nat) (dflt : option string) (zero v : A) : Prop :=
  exists var, variables !! n = Some var /\
  (~ lost H n -> setting H pick opts parse var dflt zero v) /\
  (lost H n -> v = default zero (by_option pick opts)).

(** ** Proofs *)
Section env.
Context (H : host).
(** A field reads its variable unless it is broken. *)
Definition fits {A} (parse : string -> option A) (var : string) (d : option string) : Prop :=
  (forall t, ho_env H var = Some t -> parse t = None <-> broken H var) /\ (forall s, d = Some s -> parse s <> None).
Lemma broken_set var : broken H var -> exists t, ho_env H var = Some t.
Proof. intros (t & E & _). by exists t. Qed.
Lemma field_err {A} (parse : string -> option A) set var d r : fits parse var d -> (env_field H parse set var d r).2 = None <-> r.2 = None /\ ~ broken H var.
Proof.
  intros [F1 F2]. destruct r as [c [e|]]; cbn; [split; [done|by intros []]|]. destruct (ho_env H var) as [t|] eqn:E.
  - specialize (F1 t eq_refl). destruct (parse t) as [a|]; cbn; split; try done; [intros _; split; [done|]; intros B; by apply F1 in B|].
    intros [_ B]. destruct B. by apply F1.
  - assert (B : ~ broken H var) by (intros B; apply broken_set in B as (t & B); congruence). destruct d as [s|]; [|done]. specialize (F2 s eq_refl). by destruct (parse s).
Qed.
Lemma field_get {A} (get : config -> A) (parse : string -> option A) set var d z r : fits parse var d -> (forall a c, get (set a c) = a) -> get r.1 = z ->
  (r.2 = None -> ~ broken H var -> reads H parse var d z (get (env_field H parse set var d r).1)) /\
  (r.2 <> None \/ broken H var -> get (env_field H parse set var d r).1 = z).
Proof.
  intros [F1 F2] G Z. destruct r as [c [e|]]; cbn in *; [split; [done|by intros _]|]. unfold reads. destruct (ho_env H var) as [t|] eqn:E.
  - specialize (F1 t eq_refl). destruct (parse t) as [a|] eqn:P; cbn; rewrite ?G; (split; [intros _ B|intros [X|B]]); try done; [by apply F1 in B|by destruct B; apply F1].
  - assert (B : ~ broken H var) by (intros B; apply broken_set in B as (t & B); congruence).
    destruct d as [s|]; [|split; [done|by intros [X|X]]]. specialize (F2 s eq_refl). destruct (parse s) as [a|] eqn:P; cbn; rewrite ?G; [|done]. split; [done|by intros [X|X]].
Qed.
Lemma fold_err fs vars r : Forall2 (fun (f : config * option string -> config * option string) var => forall r, (f r).2 = None <-> r.2 = None /\ ~ broken H var) fs vars ->
  (fold_left (fun r f => f r) fs r).2 = None <-> r.2 = None /\ Forall (fun var => ~ broken H var) vars.
Proof.
  intros F. revert r. induction F as [|f var fs vars Q F IH]; intros r; cbn [fold_left]; [rewrite list.Forall_nil; naive_solver|]. rewrite IH, Q, list.Forall_cons. naive_solver.
Qed.
Lemma fold_frame {A} (get : config -> A) fs r : Forall (fun f : config * option string -> config * option string => forall r, get (f r).1 = get r.1) fs ->
  get (fold_left (fun r f => f r) fs r).1 = get r.1.
Proof. intros F. revert r. induction F as [|f fs Q F IH]; intros r; cbn [fold_left]; [done|]. by rewrite IH. Qed.
Lemma field_frame {A B} (get : config -> B) (parse : string -> option A) set var d : (forall a c, get (set a c) = get c) -> forall r, get (env_field H parse set var d r).1 = get r.1.
Proof.
  intros G [c [e|]]; cbn; [done|]. destruct (ho_env H var) as [t|]; [destruct (parse t); cbn; by rewrite ?G|]. destruct d as [s|]; [|done]. destruct (parse s); cbn; by rewrite ?G.
Qed.

(** The value of field n after the environment. *)
Definition field {A} (parse : string -> option A) (n : nat) (dflt : option string) (zero v : A) : Prop :=
  exists var, variables !! n = Some var /\ (~ lost H n -> reads H parse var dflt zero v) /\ (lost H n -> v = zero).
Lemma field_at {A} (get : config -> A) (parse : string -> option A) set var d z pre post vs ws :
  env_fields H = (pre ++ env_field H parse set var d :: post)%list -> variables = (vs ++ var :: ws)%list ->
  Forall2 (fun (f : config * option string -> config * option string) var => forall r, (f r).2 = None <-> r.2 = None /\ ~ broken H var) pre vs ->
  Forall (fun f : config * option string -> config * option string => forall r, get (f r).1 = get r.1) pre ->
  Forall (fun f : config * option string -> config * option string => forall r, get (f r).1 = get r.1) post ->
  fits parse var d -> (forall a c, get (set a c) = a) -> get zero_config = z -> field parse (length vs) d z (get (process_env H).1).
Proof.
  intros E V F G1 G2 Q S Z. exists var. split; [rewrite V; apply list_lookup_middle; done|].
  unfold process_env. rewrite E, fold_left_app. cbn [fold_left]. rewrite (fold_frame get post _ G2).
  pose proof (fold_err pre vs (zero_config, None) F) as Er. pose proof (fold_frame get pre (zero_config, None) G1) as Fr.
  set (r := fold_left _ pre (zero_config, None)) in *. cbn [fst snd] in *. rewrite Z in Fr.
  destruct (field_get get parse set var d z r Q S Fr) as [R1 R2].
  assert (At : forall i v, (i <= length vs)%nat -> variables !! i = Some v -> v ∈ vs \/ v = var).
  { intros i v Li Ev. rewrite V in Ev. destruct (decide (i = length vs)) as [E0|N].
    - subst i. rewrite list_lookup_middle in Ev by done. right. by injection Ev.
    - rewrite lookup_app_l in Ev by lia. left. by apply elem_of_list_lookup_2 in Ev. }
  split.
  - intros L. apply R1.
    + apply Er. split; [done|]. apply list.Forall_forall. intros v Hv B. apply elem_of_list_lookup in Hv as (i & Hi). pose proof (lookup_lt_Some _ _ _ Hi).
      apply L. exists i, v. split; [lia|]. split; [|done]. rewrite V. by apply lookup_app_l_Some.
    + intros B. apply L. exists (length vs), var. split; [lia|]. split; [|done]. rewrite V. by apply list_lookup_middle.
  - intros (i & v & Li & Ev & B). apply R2. destruct (At i v Li Ev) as [X|X]; [left|right; by subst v].
    intros Y. apply Er in Y as [_ Y]. rewrite list.Forall_forall in Y. by apply (Y v).
Qed.
Lemma fits_text var d : var ∉ ["OTEL_EXPORTER_OTLP_SPAN_INSECURE"; "OTEL_EXPORTER_OTLP_METRIC_INSECURE"; "LS_METRICS_ENABLED"; "LS_METRICS_BUILTINS_ENABLED"] ->
  var ∉ ["LS_METRICS_BUILTIN_LIBRARIES"; "OTEL_PROPAGATORS"] -> var <> "OTEL_EXPORTER_OTLP_HEADERS" -> fits Some var d.
Proof. intros N1 N2 N3. split; [|done]. intros t E. split; [done|]. intros (t' & _ & [(X & _)|[(X & _)|(X & _)]]); done. Qed.
Lemma fits_bool var s : var ∈ ["OTEL_EXPORTER_OTLP_SPAN_INSECURE"; "OTEL_EXPORTER_OTLP_METRIC_INSECURE"; "LS_METRICS_ENABLED"; "LS_METRICS_BUILTINS_ENABLED"] ->
  var ∉ ["LS_METRICS_BUILTIN_LIBRARIES"; "OTEL_PROPAGATORS"] -> var <> "OTEL_EXPORTER_OTLP_HEADERS" -> ho_bool H s <> None -> fits (ho_bool H) var (Some s).
Proof.
  intros N1 N2 N3 D. split; [|by intros ? [= <-]]. intros t E. split; [intros P; exists t; by eauto|]. intros (t' & E' & [(_ & X)|[(X & _)|(X & _)]]); [congruence|done|done].
Qed.
Lemma fits_list var s : var ∉ ["OTEL_EXPORTER_OTLP_SPAN_INSECURE"; "OTEL_EXPORTER_OTLP_METRIC_INSECURE"; "LS_METRICS_ENABLED"; "LS_METRICS_BUILTINS_ENABLED"] ->
  var ∈ ["LS_METRICS_BUILTIN_LIBRARIES"; "OTEL_PROPAGATORS"] -> var <> "OTEL_EXPORTER_OTLP_HEADERS" -> ho_list H s <> None -> fits (ho_list H) var (Some s).
Proof.
  intros N1 N2 N3 D. split; [|by intros ? [= <-]]. intros t E. split; [intros P; exists t; by eauto|]. intros (t' & E' & [(X & _)|[(_ & X)|(X & _)]]); [done|congruence|done].
Qed.
Ltac notin X := rewrite ?elem_of_cons, ?elem_of_nil in X; repeat (destruct X as [X|X]; [discriminate X|]); done.
Lemma fits_map : fits (ho_map H) "OTEL_EXPORTER_OTLP_HEADERS" None.
Proof.
  split; [|done]. intros t E. split; [intros P; exists t; by eauto|].
  intros (t' & E' & [(X & _)|[(X & _)|(_ & X)]]); [| |congruence]; notin X.
Qed.
Ltac out := let X := fresh in first [ solve [intros X; notin X] | solve [repeat (first [by left|right])] ].
Ltac fit := first [ apply fits_map | apply fits_text; [out|out|discriminate] | apply fits_bool; [out|out|discriminate|congruence] | apply fits_list; [out|out|discriminate|congruence] ].
Ltac at_ n get := 
  refine (field_at get _ _ _ _ _ (take n (env_fields H)) (drop (S n) (env_fields H)) (take n variables) (drop (S n) variables) eq_refl eq_refl _ _ _ _ _ _);
  [ cbn [take env_fields variables]; repeat (constructor; [intros r; apply field_err; fit|]); constructor
  | cbn [take env_fields]; repeat (constructor; [apply field_frame; by intros|]); constructor
  | cbn [drop env_fields]; repeat (constructor; [apply field_frame; by intros|]); constructor
  | fit | by intros | reflexivity ].
Lemma process_env_fields : defaults_ok H -> let c := (process_env H).1 in
  field text 0 (Some "ingest.lightstep.com:443") "" (cf_span_endpoint c) /\ field (ho_bool H) 1 (Some "false") false (cf_span_insecure c) /\
  field text 2 None "" (cf_name c) /\ field text 3 (Some "unknown") "" (cf_version c) /\ field (ho_map H) 4 None ∅ (cf_headers c) /\
  field text 5 (Some "ingest.lightstep.com:443") "" (cf_metric_endpoint c) /\ field (ho_bool H) 6 (Some "false") false (cf_metric_insecure c) /\
  field text 7 (Some "cumulative") "" (cf_tempo c) /\ field (ho_bool H) 8 (Some "true") false (cf_metrics c) /\ field (ho_bool H) 9 (Some "true") false (cf_builtins c) /\
  field (ho_list H) 10 (Some "all:stable") [] (cf_libraries c) /\ field text 11 (Some "info") "" (cf_level c) /\
  field (ho_list H) 12 (Some "b3") [] (cf_propagators c) /\ field text 13 (Some "30s") "" (cf_period c).
Proof.
  intros (Dt & Df & Da & Db). cbv zeta. repeat match goal with |- _ /\ _ => split end.
  - at_ 0%nat cf_span_endpoint.
  - at_ 1%nat cf_span_insecure.
  - at_ 2%nat cf_name.
  - at_ 3%nat cf_version.
  - at_ 4%nat cf_headers.
  - at_ 5%nat cf_metric_endpoint.
  - at_ 6%nat cf_metric_insecure.
  - at_ 7%nat cf_tempo.
  - at_ 8%nat cf_metrics.
  - at_ 9%nat cf_builtins.
  - at_ 10%nat cf_libraries.
  - at_ 11%nat cf_level.
  - at_ 12%nat cf_propagators.
  - at_ 13%nat cf_period.
Qed.
End env.

Lemma field_setting {A} H (get : config -> A) pick opts c parse n d z : (forall c o, get (apply_opt c o) = match pick o with Some a => a | None => get c end) ->
  field H parse n d z (get c) -> partly H pick opts parse n d z (get (fold_left apply_opt opts c)).
Proof.
  intros P (var & E & F1 & F2). exists var. split; [done|]. rewrite (fold_pick get pick P). unfold setting. split; intros L.
  - destruct (by_option pick opts); [done|]. by apply F1.
  - rewrite (F2 L). by destruct (by_option pick opts).
Qed.
(** ** The theorem: whatever the environment is *)
Theorem C41_broken H opts : defaults_ok H -> let c := (new_config H opts).1 in
  partly H says_span_endpoint opts text 0 (Some "ingest.lightstep.com:443") "" (cf_span_endpoint c) /\
  partly H says_span_insecure opts (ho_bool H) 1 (Some "false") false (cf_span_insecure c) /\
  partly H says_name opts text 2 None "" (cf_name c) /\
  partly H says_version opts text 3 (Some "unknown") "" (cf_version c) /\
  (exists env, (~ lost H 4 -> env_headers H env) /\ (lost H 4 -> env = ∅) /\ forall k, cf_headers c !! k = header opts env k) /\
  partly H says_metric_endpoint opts text 5 (Some "ingest.lightstep.com:443") "" (cf_metric_endpoint c) /\
  partly H says_metric_insecure opts (ho_bool H) 6 (Some "false") false (cf_metric_insecure c) /\
  partly H says_tempo opts text 7 (Some "cumulative") "" (cf_tempo c) /\
  partly H says_metrics opts (ho_bool H) 8 (Some "true") false (cf_metrics c) /\
  partly H says_builtins opts (ho_bool H) 9 (Some "true") false (cf_builtins c) /\
  partly H says_libraries opts (ho_list H) 10 (Some "all:stable") [] (cf_libraries c) /\
  partly H says_level opts text 11 (Some "info") "" (cf_level c) /\
  partly H says_propagators opts (ho_list H) 12 (Some "b3") [] (cf_propagators c) /\
  partly H says_period opts text 13 (Some "30s") "" (cf_period c).
Proof.
  intros D. pose proof (process_env_fields H D) as F. unfold new_config. destruct (process_env H) as [c0 e]. cbv zeta. cbn [fst] in *.
  revert F. change (cf_span_endpoint c0) with (cf_span_endpoint (set_handler (Some false) (set_logger false c0))).
  change (cf_span_insecure c0) with (cf_span_insecure (set_handler (Some false) (set_logger false c0))). change (cf_name c0) with (cf_name (set_handler (Some false) (set_logger false c0))).
  change (cf_version c0) with (cf_version (set_handler (Some false) (set_logger false c0))). change (cf_headers c0) with (cf_headers (set_handler (Some false) (set_logger false c0))).
  change (cf_metric_endpoint c0) with (cf_metric_endpoint (set_handler (Some false) (set_logger false c0))). change (cf_metric_insecure c0) with (cf_metric_insecure (set_handler (Some false) (set_logger false c0))).
  change (cf_tempo c0) with (cf_tempo (set_handler (Some false) (set_logger false c0))). change (cf_metrics c0) with (cf_metrics (set_handler (Some false) (set_logger false c0))).
  change (cf_builtins c0) with (cf_builtins (set_handler (Some false) (set_logger false c0))). change (cf_libraries c0) with (cf_libraries (set_handler (Some false) (set_logger false c0))).
  change (cf_level c0) with (cf_level (set_handler (Some false) (set_logger false c0))). change (cf_propagators c0) with (cf_propagators (set_handler (Some false) (set_logger false c0))).
  change (cf_period c0) with (cf_period (set_handler (Some false) (set_logger false c0))).
  generalize (set_handler (Some false) (set_logger false c0)). intros c F. clear c0 e D.
  destruct F as (F0 & F1 & F2 & F3 & F4 & F5 & F6 & F7 & F8 & F9 & F10 & F11 & F12 & F13).
  repeat match goal with |- _ /\ _ => split end.
  5: { exists (cf_headers c). destruct F4 as (var & [= <-] & Q1 & Q2). split; [|split; [exact Q2|intros k; apply fold_header]].
       intros L. specialize (Q1 L). unfold reads in Q1. unfold env_headers. by destruct (ho_env H "OTEL_EXPORTER_OTLP_HEADERS"). }
  - by apply field_setting; [by intros ? []|].
  - by apply field_setting; [by intros ? []|].
  - by apply field_setting; [by intros ? []|].
  - by apply field_setting; [by intros ? []|].
  - by apply field_setting; [by intros ? []|].
  - by apply field_setting; [by intros ? []|].
  - by apply field_setting; [by intros ? []|].
  - by apply field_setting; [by intros ? []|].
  - by apply field_setting; [by intros ? []|].
  - by apply field_setting; [by intros ? []|].
  - by apply field_setting; [by intros ? []|].
  - by apply field_setting; [by intros ? []|].
  - by apply field_setting; [by intros ? []|].
Qed.
Module Ex41e.
  Import ExLaunch.
  (** Two environments that differ in one variable about metrics. *)
  Definition unset : host := env [("LS_SERVICE_NAME", "svc"); ("LS_ACCESS_TOKEN", "secret")] [].
  Definition maybe : host := env [("LS_SERVICE_NAME", "svc"); ("LS_ACCESS_TOKEN", "secret"); ("LS_METRICS_ENABLED", "maybe")] [].
  Lemma maybe_defaults : defaults_ok maybe.
  Proof. vm_compute. auto. Qed.
  Lemma maybe_broken : broken maybe "LS_METRICS_ENABLED".
  Proof. exists "maybe". split; [done|]. left. split; [repeat (first [by left|right])|done]. Qed.
  Lemma only var : broken maybe var -> var = "LS_METRICS_ENABLED".
  Proof.
    intros (t & E & [(X & P)|[(_ & P)|(_ & P)]]); [|done|done]. rewrite !elem_of_cons, elem_of_nil in X.
    repeat (destruct X as [X|X]; [subst var; vm_compute in E; first [discriminate E|reflexivity]|]). done.
  Qed.
  (** Some settings are read and some are lost; an option still wins. *)
  Example meets : ~ lost maybe 7 /\ lost maybe 8 /\ lost maybe 12 /\ cf_tempo (new_config maybe [WithLogLevel "debug"]).1 = "cumulative" /\
    cf_propagators (new_config maybe [WithLogLevel "debug"]).1 = [] /\ cf_level (new_config maybe [WithLogLevel "debug"]).1 = "debug".
  Proof.
    split; [|split; [|split; [|vm_compute; auto]]].
    - intros (i & var & L & E & B). apply only in B. subst var. do 8 (destruct i as [|i]; [discriminate E|]). lia.
    - exists 8%nat, "LS_METRICS_ENABLED". split; [lia|]. split; [done|]. exact maybe_broken.
    - exists 8%nat, "LS_METRICS_ENABLED". split; [lia|]. split; [done|]. exact maybe_broken.
  Qed.
End Ex41e.
(** Finding.  With a logger whose Fatalf returns, a variable about metrics that cannot be read also keeps spans from being set up: the
    default of the propagators is lost.  Without the variable both are set up. *)
Theorem C41_unrelated_refuted : exists H H' W, defaults_ok H /\ broken H "LS_METRICS_ENABLED" /\ (forall var, broken H var -> var = "LS_METRICS_ENABLED") /\
  (forall var, var <> "LS_METRICS_ENABLED" -> ho_env H var = ho_env H' var) /\
  option_map la_shutdown (returned (configure H W [WithLogger])) = Some [] /\
  option_map la_shutdown (returned (configure H' W [WithLogger])) = Some [false; true].
Proof.
  exists Ex41e.maybe, Ex41e.unset, ExLaunch.fine. split; [exact Ex41e.maybe_defaults|]. split; [exact Ex41e.maybe_broken|]. split; [exact Ex41e.only|]. split.
  - intros var N. unfold Ex41e.maybe, Ex41e.unset, ExLaunch.env. cbn [ho_env]. unfold ExLaunch.lookup_env. cbn [List.find fst snd].
    destruct (String.eqb "LS_SERVICE_NAME" var); [done|]. destruct (String.eqb "LS_ACCESS_TOKEN" var); [done|]. destruct (String.eqb_spec "LS_METRICS_ENABLED" var) as [<-|]; done.
  - split; vm_compute; reflexivity.
Qed.

Print Assumptions C41_broken.
Print Assumptions C41_unrelated_refuted.
