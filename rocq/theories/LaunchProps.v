(** Properties of the launcher and the pipelines: C40 to C45, C48 and C51. *)
From Coq Require Import ZArith Bool String Ascii Lia.
From stdpp Require Import base list option strings gmap fin_maps.
From Verif Require Import Num Attr AttrProofs View ExpSpec TraceSpec TraceProofs Pipe Launch LaunchSpec LaunchProofs.
Local Open Scope Z_scope.
Local Open Scope string_scope.

(** ** C41: options, environment, defaults *)
Theorem C41_settings H opts : env_ok H -> let c := (new_config H opts).1 in (new_config H opts).2 = None /\
  setting H says_span_endpoint opts text "OTEL_EXPORTER_OTLP_SPAN_ENDPOINT" (Some "ingest.lightstep.com:443") "" (cf_span_endpoint c) /\
  setting H says_span_insecure opts (ho_bool H) "OTEL_EXPORTER_OTLP_SPAN_INSECURE" (Some "false") false (cf_span_insecure c) /\
  setting H says_name opts text "LS_SERVICE_NAME" None "" (cf_name c) /\
  setting H says_version opts text "LS_SERVICE_VERSION" (Some "unknown") "" (cf_version c) /\
  setting H says_metric_endpoint opts text "OTEL_EXPORTER_OTLP_METRIC_ENDPOINT" (Some "ingest.lightstep.com:443") "" (cf_metric_endpoint c) /\
  setting H says_metric_insecure opts (ho_bool H) "OTEL_EXPORTER_OTLP_METRIC_INSECURE" (Some "false") false (cf_metric_insecure c) /\
  setting H says_tempo opts text "OTEL_EXPORTER_OTLP_METRIC_TEMPORALITY_PREFERENCE" (Some "cumulative") "" (cf_tempo c) /\
  setting H says_metrics opts (ho_bool H) "LS_METRICS_ENABLED" (Some "true") false (cf_metrics c) /\
  setting H says_builtins opts (ho_bool H) "LS_METRICS_BUILTINS_ENABLED" (Some "true") false (cf_builtins c) /\
  setting H says_libraries opts (ho_list H) "LS_METRICS_BUILTIN_LIBRARIES" (Some "all:stable") [] (cf_libraries c) /\
  setting H says_level opts text "OTEL_LOG_LEVEL" (Some "info") "" (cf_level c) /\
  setting H says_propagators opts (ho_list H) "OTEL_PROPAGATORS" (Some "b3") [] (cf_propagators c) /\
  setting H says_period opts text "OTEL_EXPORTER_OTLP_METRIC_PERIOD" (Some "30s") "" (cf_period c).
Proof.
  intros O. destruct (process_env_ok H O) as (se & si & nm & ve & hd & me & mi & te & en & bu & li & le & pr & pe & E & R1 & R2 & R3 & R4 & R5 & R6 & R7 & R8 & R9 & R10 & R11 & R12 & R13 & R14).
  unfold new_config. rewrite E. cbv zeta. cbn [fst snd]. split; [done|].
  repeat match goal with |- _ /\ _ => split end.
  - by apply (setting_ok H cf_span_endpoint _ _ _ _ _ _ _ se); [by intros ? []| |].
  - by apply (setting_ok H cf_span_insecure _ _ _ _ _ _ _ si); [by intros ? []| |].
  - by apply (setting_ok H cf_name _ _ _ _ _ _ _ nm); [by intros ? []| |].
  - by apply (setting_ok H cf_version _ _ _ _ _ _ _ ve); [by intros ? []| |].
  - by apply (setting_ok H cf_metric_endpoint _ _ _ _ _ _ _ me); [by intros ? []| |].
  - by apply (setting_ok H cf_metric_insecure _ _ _ _ _ _ _ mi); [by intros ? []| |].
  - by apply (setting_ok H cf_tempo _ _ _ _ _ _ _ te); [by intros ? []| |].
  - by apply (setting_ok H cf_metrics _ _ _ _ _ _ _ en); [by intros ? []| |].
  - by apply (setting_ok H cf_builtins _ _ _ _ _ _ _ bu); [by intros ? []| |].
  - by apply (setting_ok H cf_libraries _ _ _ _ _ _ _ li); [by intros ? []| |].
  - by apply (setting_ok H cf_level _ _ _ _ _ _ _ le); [by intros ? []| |].
  - by apply (setting_ok H cf_propagators _ _ _ _ _ _ _ pr); [by intros ? []| |].
  - by apply (setting_ok H cf_period _ _ _ _ _ _ _ pe); [by intros ? []| |].
Qed.
(** Attributes of the resource are those of the last option; headers accumulate. *)
Theorem C41_attributes H opts : cf_attributes (new_config H opts).1 = default ∅ (by_option says_attributes opts).
Proof.
  unfold new_config. destruct (process_env H) as [c e] eqn:E. cbn [fst]. rewrite (fold_pick cf_attributes says_attributes) by (by intros ? []).
  destruct (by_option says_attributes opts); [done|]. cbn. assert (X : cf_attributes (process_env H).1 = ∅); [|by rewrite E in X].
  unfold process_env. assert (Q : forall fs r, Forall (fun f => forall r, cf_attributes (f r).1 = cf_attributes r.1) fs -> cf_attributes (fold_left (fun r f => f r) fs r : config * option string).1 = cf_attributes r.1).
  { induction fs as [|f fs IH]; intros r F; [done|]. apply list.Forall_cons in F as [F1 F2]. cbn. by rewrite IH. }
  rewrite Q; [done|]. unfold env_fields. repeat constructor; intros [c1 [e1|]]; unfold env_field; try done; repeat (match goal with |- context [match ?x with _ => _ end] => destruct x end; try done).
Qed.
Theorem C41_headers H opts : env_ok H -> exists env, env_headers H env /\ forall k, cf_headers (new_config H opts).1 !! k = header opts env k.
Proof.
  intros O. destruct (process_env_ok H O) as (se & si & nm & ve & hd & me & mi & te & en & bu & li & le & pr & pe & E & R1 & R2 & R3 & R4 & R5 & _).
  exists hd. split; [exact R5|]. intros k. unfold new_config. rewrite E. cbn [fst]. by rewrite fold_header.
Qed.
(** What an option says holds even when the environment cannot be read. *)
Theorem C41_options_win H opts : let c := (new_config H opts).1 in
  (forall x, by_option says_name opts = Some x -> cf_name c = x) /\ (forall x, by_option says_version opts = Some x -> cf_version c = x) /\
  (forall x, by_option says_span_endpoint opts = Some x -> cf_span_endpoint c = x) /\ (forall x, by_option says_metric_endpoint opts = Some x -> cf_metric_endpoint c = x) /\
  (forall x, by_option says_span_insecure opts = Some x -> cf_span_insecure c = x) /\ (forall x, by_option says_metric_insecure opts = Some x -> cf_metric_insecure c = x) /\
  (forall x, by_option says_tempo opts = Some x -> cf_tempo c = x) /\ (forall x, by_option says_metrics opts = Some x -> cf_metrics c = x) /\
  (forall x, by_option says_builtins opts = Some x -> cf_builtins c = x) /\ (forall x, by_option says_libraries opts = Some x -> cf_libraries c = x) /\
  (forall x, by_option says_level opts = Some x -> cf_level c = x) /\ (forall x, by_option says_propagators opts = Some x -> cf_propagators c = x) /\
  (forall x, by_option says_period opts = Some x -> cf_period c = x) /\
  (forall k x, by_option (says_header k) opts = Some x -> cf_headers c !! k = Some x).
Proof.
  unfold new_config. destruct (process_env H) as [c e]. cbv zeta. cbn [fst].
  repeat match goal with |- _ /\ _ => split end; intros.
  1-13: match goal with E : by_option ?pick _ = Some _ |- ?get _ = _ => rewrite (fold_pick get pick) by (by intros ? []); by rewrite E end.
  rewrite fold_header. unfold header. by rewrite H0.
Qed.

(** ** The run of ConfigureOpentelemetry *)
Definition with_token (H : host) (c : config) : config :=
  if nonempty (default "" (ho_env H "LS_ACCESS_TOKEN")) && String.eqb (access_token c) ""
  then set_headers (<[ token_header := default "" (ho_env H "LS_ACCESS_TOKEN") ]> (cf_headers c)) c else c.
Lemma with_token_other H c : cf_span_endpoint (with_token H c) = cf_span_endpoint c /\ cf_metric_endpoint (with_token H c) = cf_metric_endpoint c /\
  cf_name (with_token H c) = cf_name c /\ cf_custom (with_token H c) = cf_custom c /\ cf_metrics (with_token H c) = cf_metrics c.
Proof. unfold with_token. by destruct (_ && _). Qed.
Lemma with_token_header H c opts env : (forall k, cf_headers c !! k = header opts env k) -> access_token (with_token H c) = token H opts env.
Proof.
  intros Q. unfold with_token, token. rewrite <- Q. unfold access_token at 2. fold token_header. destruct (cf_headers c !! token_header) as [v|] eqn:E.
  - destruct (decide (v = "")) as [->|N].
    + rewrite String.eqb_refl, andb_true_r. unfold nonempty. destruct (String.eqb_spec (default "" (ho_env H "LS_ACCESS_TOKEN")) "") as [->|Ne]; cbn [negb].
      * unfold access_token. by rewrite E.
      * unfold access_token. cbn. by rewrite lookup_insert.
    + destruct (String.eqb_spec v ""); [done|]. rewrite andb_false_r. unfold access_token. by rewrite E.
  - rewrite String.eqb_refl, andb_true_r. unfold nonempty. destruct (String.eqb_spec (default "" (ho_env H "LS_ACCESS_TOKEN")) "") as [->|Ne]; cbn [negb].
    * unfold access_token. by rewrite E.
    * unfold access_token. cbn. by rewrite lookup_insert.
Qed.
Lemma configure_unfold H W opts : (new_config H opts).2 = None -> let c0 := (new_config H opts).1 in let r := new_resource H c0 in let c := with_token H c0 in
  configure H W opts = bind (match validate c r with Some e => fatal c ("configuration error: " ++ e) [] | None => Ret [] tt end) (fun w _ =>
    bind (setup_all c [setup_tracing W c r; setup_metrics W c r] [] (match cf_handler c with Some h => (w ++ [ASetHandler h])%list | None => w end)) (fun w fs => Ret w (Launcher c r fs))).
Proof. intros E. unfold configure. destruct (new_config H opts) as [c0 e]. cbn [fst snd] in *. subst e. cbn [bind]. unfold with_token. by destruct (ho_env H "LS_ACCESS_TOKEN"). Qed.
(** No set-up reports a configuration error. *)
Definition not_config (a : act) : Prop := forall e, a <> AFatal ("configuration error: " ++ e).
Lemma tracing_not_config W c r w : exists new res, setup_tracing W c r w = ((w ++ new)%list, res) /\ Forall not_config new.
Proof.
  destruct (tracing_shape W c r w) as (new & res & E & S). exists new, res. split; [done|].
  destruct S as [(_ & -> & _)|(_ & x & _ & [(-> & _)|(ps & -> & _)])]; repeat constructor; intros e; done.
Qed.
Lemma metrics_not_config W c r w : exists new res, setup_metrics W c r w = ((w ++ new)%list, res) /\ Forall not_config new.
Proof.
  destruct (metrics_shape W c r w) as (new & res & E & S). exists new, res. split; [done|].
  destruct S as [(_ & -> & _)|[(_ & -> & _)|(_ & x & _ & [(-> & _)|(libs & ls & p & sel & s & a & -> & _ & _ & _ & _ & _ & F & _)])]]; try (repeat constructor; intros e; done).
  constructor; [intros e; done|]. apply Forall_app_2; [|repeat constructor; intros e; done]. eapply list.Forall_impl; [exact F|]. intros y [(l & ->)|(e' & ->)] e; done.
Qed.
Lemma setup_not_config c fs : Forall (fun f => forall w, exists new res, f w = ((w ++ new)%list, res) /\ Forall not_config new) fs ->
  forall l w, exists new, acts_of (setup_all c fs l w) = (w ++ new)%list /\ Forall not_config new.
Proof.
  induction fs as [|f fs IH]; intros F l w; [exists []; rewrite app_nil_r; split; [done|constructor]|]. apply list.Forall_cons in F as [F1 F2]. specialize (IH F2).
  destruct (F1 w) as (new & res & E & N). cbn [setup_all]. rewrite E. destruct res as [[b|]|e].
  - destruct (IH (l ++ [b])%list (w ++ new)%list) as (n2 & E2 & N2). exists (new ++ n2)%list. rewrite E2, app_assoc. split; [done|by apply Forall_app_2].
  - destruct (IH l (w ++ new)%list) as (n2 & E2 & N2). exists (new ++ n2)%list. rewrite E2, app_assoc. split; [done|by apply Forall_app_2].
  - unfold fatal. destruct (cf_custom c); cbn [bind].
    + destruct (IH l ((w ++ new) ++ [AFatal ("setup error: " ++ e)])%list) as (n2 & E2 & N2). exists (new ++ AFatal ("setup error: " ++ e) :: n2)%list. rewrite E2, <- !app_assoc. split; [done|].
      apply Forall_app_2; [done|]. constructor; [intros e'; done|done].
    + exists (new ++ [AFatal ("setup error: " ++ e)])%list. cbn. rewrite app_assoc. split; [done|]. apply Forall_app_2; [done|]. repeat constructor. intros e'; done.
Qed.
Lemma fatals_not_config new : Forall not_config new -> forall e, ("configuration error: " ++ e) ∉ fatals new.
Proof.
  intros F e X. apply elem_of_list_omap in X as (a & Ha & E). destruct a; try done. injection E as E. apply (proj1 (list.Forall_forall _ _) F) in Ha. by destruct (Ha e); rewrite E.
Qed.
Lemma setting_unique {A} H (pick : opt -> option A) opts parse var d z v v' : setting H pick opts parse var d z v -> setting H pick opts parse var d z v' -> v = v'.
Proof. unfold setting. destruct (by_option pick opts); [congruence|]. destruct (ho_env H var); [congruence|]. destruct d; congruence. Qed.
Lemma env_headers_unique H m m' : env_headers H m -> env_headers H m' -> m = m'.
Proof. unfold env_headers. destruct (ho_env H _); congruence. Qed.

(** ** C40: when configuration fails *)
Lemma name_set H opts : host_ok H -> let c := (new_config H opts).1 in
  (cf_name c <> "" \/ resource_name_set (new_resource H c) = true) <-> name_configured H opts (cf_name c).
Proof.
  intros O c. unfold name_configured. destruct (decide (cf_name c = "")) as [E|N]; [|split; intros _; by left].
  assert (Q : resource_name_set (new_resource H c) = true <-> exists s, ("service.name", VString s) ∈ new_resource H c /\ s <> "").
  { unfold resource_name_set. destruct (List.find _ (new_resource H c)) as [[k v]|] eqn:F.
    - apply find_some in F as [F1 F2]. cbn in F2. apply String.eqb_eq in F2. subst k. apply elem_of_list_In in F1. split.
      + intros X. destruct v; try done. cbn in X. exists s. split; [done|]. unfold nonempty in X. by destruct (String.eqb_spec s "").
      + intros (s & Hs & Ns). assert (Ev : v = VString s).
        { pose proof (proj1 (resource_elem H c _ _ O) F1) as [_ A]. pose proof (proj1 (resource_elem H c _ _ O) Hs) as [_ B]. congruence. }
        subst v. cbn. unfold nonempty. by destruct (String.eqb_spec s "").
    - split; [done|]. intros (s & Hs & _). apply elem_of_list_In in Hs. pose proof (find_none _ _ F _ Hs) as X. done. }
  rewrite Q. split.
  - intros [|(s & Hs & Ns)]; [done|]. right. apply resource_elem in Hs as [_ Hs]; [|done]. unfold resource_value in Hs. rewrite decide_False in Hs by (by intros (? & _)).
    cbn [first_some] in Hs. destruct (cf_attributes c !! "service.name") as [v|] eqn:Ea.
    + destruct (decide (v = "")) as [Ev|Nv].
      * cbn [first_some] in Hs. rewrite decide_False in Hs by (by intros (? & _)). rewrite decide_False in Hs by (by intros (_ & ?)). cbn [first_some] in Hs. right. exists s. split; [|done].
        unfold env_attribute. apply value_nodup; [apply O|]. exact Hs.
      * left. exists v. unfold user_attribute. rewrite (C41_attributes H opts : cf_attributes c = _) in Ea. destruct (by_option says_attributes opts) as [m|]; [by exists m|]. cbn in Ea. by rewrite lookup_empty in Ea.
    + cbn [first_some] in Hs. rewrite decide_False in Hs by (by intros (? & _)). rewrite decide_False in Hs by (by intros (_ & ?)). cbn [first_some] in Hs. right. exists s. split; [|done].
      unfold env_attribute. apply value_nodup; [apply O|]. exact Hs.
  - intros [|[(v & m & Em & Ev & Nv)|(v & Ev & Nv)]]; [done| |]; right.
    + exists v. split; [|done]. apply resource_elem; [done|]. split; [done|]. unfold resource_value. rewrite decide_False by (by intros (? & _)). cbn [first_some].
      rewrite (C41_attributes H opts : cf_attributes c = _), Em. cbn. rewrite Ev. by destruct (decide (v = "")).
    + assert (X : exists s, resource_value H c "service.name" = Some (VString s) /\ s <> "").
      { unfold resource_value. rewrite decide_False by (by intros (? & _)). cbn [first_some].
        assert (Y : value_of (ho_resource H) "service.name" = Some (VString v)) by (apply value_nodup; [apply O|done]).
        assert (Z : forall o, o = None -> exists s, first_some o (first_some (if decide ("service.name" = "service.version" /\ cf_version c <> "") then Some (VString (cf_version c)) else None)
          (first_some (if decide ("service.name" = "service.name" /\ cf_name c <> "") then Some (VString (cf_name c)) else None) (first_some (own_value "service.name") (value_of (ho_resource H) "service.name")))) =
          Some (VString s) /\ s <> "").
        { intros o ->. cbn [first_some]. rewrite decide_False by (by intros (? & _)). rewrite decide_False by (by intros (_ & ?)). cbn [first_some]. exists v. split; [exact Y|done]. }
        destruct (cf_attributes c !! "service.name") as [u|]; [|by apply Z]. destruct (decide (u = "")); [by apply Z|]. exists u. done. }
      destruct X as (s & X & Ns). exists s. split; [|done]. apply resource_elem; [done|]. done.
Qed.
Theorem C40_fails H W opts name span metric env : env_ok H -> host_ok H ->
  setting H says_name opts text "LS_SERVICE_NAME" None "" name ->
  setting H says_span_endpoint opts text "OTEL_EXPORTER_OTLP_SPAN_ENDPOINT" (Some "ingest.lightstep.com:443") "" span ->
  setting H says_metric_endpoint opts text "OTEL_EXPORTER_OTLP_METRIC_ENDPOINT" (Some "ingest.lightstep.com:443") "" metric ->
  env_headers H env ->
  (exists e, "configuration error: " ++ e ∈ fatals (acts_of (configure H W opts))) <->
  ~ name_configured H opts name \/ token H opts env = "" /\ (span = "ingest.lightstep.com:443" \/ metric = "ingest.lightstep.com:443").
Proof.
  intros O HO Sn Ss Sm He. destruct (C41_settings H opts O) as (E & S1 & _ & S2 & _ & S3 & _).
  rewrite (setting_unique _ _ _ _ _ _ _ _ _ Sn S2), (setting_unique _ _ _ _ _ _ _ _ _ Ss S1), (setting_unique _ _ _ _ _ _ _ _ _ Sm S3).
  destruct (C41_headers H opts O) as (env' & He' & Q). rewrite (env_headers_unique H env env' He He'). rewrite <- (with_token_header H _ _ _ Q).
  rewrite <- (name_set H opts HO). rewrite (configure_unfold H W opts E). cbv zeta. set (c0 := (new_config H opts).1) in *. destruct (with_token_other H c0) as (W1 & W2 & W3 & W4 & _).
  set (c := with_token H c0) in *. set (r := new_resource H c0). rewrite <- W1, <- W2, <- W3.
  assert (V : validate c r <> None <-> ~ (cf_name c <> "" \/ resource_name_set r = true) \/ access_token c = "" /\ (cf_span_endpoint c = "ingest.lightstep.com:443" \/ cf_metric_endpoint c = "ingest.lightstep.com:443")).
  { assert (CK : forall v, check_endpoint_default v default_endpoint <> None <-> v = default_endpoint).
    { intros v. unfold check_endpoint_default. destruct (String.eqb_spec v "") as [->|]; [done|]. destruct (String.eqb_spec v default_endpoint); done. }
    change "ingest.lightstep.com:443" with default_endpoint. rewrite <- !CK. unfold validate.
    destruct (String.eqb_spec (cf_name c) "") as [En|Nn]; destruct (resource_name_set r) eqn:Er; cbn [andb negb].
    2: { split; [intros _; left; intros [?|?]; done|done]. }
    all: destruct (String.eqb_spec (access_token c) "") as [Et|Nt]; [destruct (check_endpoint_default (cf_span_endpoint c) default_endpoint); [|]|].
    all: split; [intros X; right; tauto || done|intros [X|(X & [Y|Y])]; try done; destruct X; tauto]. }
  rewrite <- V. clear V. destruct (validate c r) as [e|] eqn:Ev.
  - split; [done|]. intros _. exists e. unfold fatal. destruct (cf_custom c); cbn [bind].
    + set (w := match cf_handler c with Some h => _ | None => _ end). assert (X : "configuration error: " ++ e ∈ fatals w) by (unfold w; destruct (cf_handler c); by left).
      destruct (setup_not_config c [setup_tracing W c r; setup_metrics W c r]) with (l := @nil bool) (w := w) as (new & En & _).
      { repeat constructor; intros w'; [apply tracing_not_config|apply metrics_not_config]. }
      replace (acts_of (bind (setup_all c _ [] w) _)) with (w ++ new)%list; [unfold fatals in *; rewrite omap_app; apply elem_of_app; by left|].
      rewrite <- En. by destruct (setup_all c _ [] w).
    + by left.
  - split; [|done]. intros (e & X). exfalso. cbn [bind] in X. set (w := match cf_handler c with Some h => _ | None => _ end) in X. assert (Y : Forall not_config w) by (unfold w; destruct (cf_handler c); repeat constructor; by intros e').
    destruct (setup_not_config c [setup_tracing W c r; setup_metrics W c r]) with (l := @nil bool) (w := w) as (new & En & Nn).
    { repeat constructor; intros w'; [apply tracing_not_config|apply metrics_not_config]. }
    replace (acts_of (bind (setup_all c _ [] w) _)) with (w ++ new)%list in X; [|rewrite <- En; by destruct (setup_all c _ [] w)].
    by apply (fatals_not_config (w ++ new)%list (Forall_app_2 _ _ _ Y Nn) e).
Qed.

(** With the default logger nothing is done but the report. *)
Lemma custom_logger H opts : cf_custom (new_config H opts).1 = true <-> WithLogger ∈ opts.
Proof.
  unfold new_config. destruct (process_env H) as [c e]. cbn [fst]. set (c1 := set_handler _ _). assert (E : cf_custom c1 = false) by done. clearbody c1.
  assert (Q : cf_custom (fold_left apply_opt opts c1) = true <-> WithLogger ∈ opts \/ cf_custom c1 = true); [|rewrite Q, E; split; [by intros [?|?]|by left]].
  clear E. revert c1. induction opts as [|o opts IH]; intros c1; cbn [fold_left]; [split; [by right|intros [X|X]; [by apply elem_of_nil in X|done]]|].
  rewrite IH, elem_of_cons. destruct o; cbn; split; intros X; repeat match type of X with _ \/ _ => destruct X as [X|X] end; try done; auto.
Qed.
Theorem C40_stops H W opts : env_ok H -> WithLogger ∉ opts -> (exists e, "configuration error: " ++ e ∈ fatals (acts_of (configure H W opts))) ->
  exists e, configure H W opts = Exited [AFatal ("configuration error: " ++ e)].
Proof.
  intros O NL (e & X). destruct (C41_settings H opts O) as (E & _). rewrite (configure_unfold H W opts E) in *. cbv zeta in *. set (c0 := (new_config H opts).1) in *.
  destruct (with_token_other H c0) as (_ & _ & _ & W4 & _). set (c := with_token H c0) in *. set (r := new_resource H c0) in *.
  assert (NC : cf_custom c = false). { rewrite W4. apply not_true_iff_false. intros Y. apply NL. by apply (custom_logger H opts). }
  destruct (validate c r) as [e'|] eqn:Ev; [exists e'; unfold fatal; by rewrite NC|]. exfalso. cbn [bind] in X.
  set (w := match cf_handler c with Some h => _ | None => _ end) in X. assert (Y : Forall not_config w) by (unfold w; destruct (cf_handler c); repeat constructor; by intros e').
  destruct (setup_not_config c [setup_tracing W c r; setup_metrics W c r]) with (l := @nil bool) (w := w) as (new & En & Nn).
  { repeat constructor; intros w'; [apply tracing_not_config|apply metrics_not_config]. }
  replace (acts_of (bind (setup_all c _ [] w) _)) with (w ++ new)%list in X; [|rewrite <- En; by destruct (setup_all c _ [] w)].
  by apply (fatals_not_config (w ++ new)%list (Forall_app_2 _ _ _ Y Nn) e).
Qed.

(** The environment is read without error exactly when each variable that is set can be read. *)
Definition defaults_ok (H : host) : Prop := ho_bool H "true" = Some true /\ ho_bool H "false" = Some false /\ ho_list H "all:stable" = Some ["all:stable"] /\ ho_list H "b3" = Some ["b3"].
Lemma field_error {A} H (parse : string -> option A) set var d r : (env_field H parse set var d r).2 = None -> r.2 = None /\
  forall v, ho_env H var = Some v -> parse v <> None.
Proof.
  destruct r as [c [e|]]; cbn; [done|]. destruct (ho_env H var) as [v|]; [|done]. intros X. split; [done|]. intros v' [= <-]. by destruct (parse v).
Qed.
Theorem C41_environment H opts : defaults_ok H -> (new_config H opts).2 = None <-> env_ok H.
Proof.
  intros D. split; [|intros O; by destruct (C41_settings H opts O)]. unfold new_config. destruct (process_env H) as [c e] eqn:E. cbn [snd]. intros ->.
  assert (X : (process_env H).2 = None) by (by rewrite E). clear E. unfold process_env, env_fields in X. cbn [fold_left] in X.
  repeat match type of X with (env_field _ _ _ _ _ ?y).2 = None => apply field_error in X; let Q := fresh "Q" in destruct X as [X Q] end.
  split; [|split; [|split]].
  - intros v (var & Hv & Ev). rewrite !elem_of_cons, elem_of_nil in Hv. repeat match type of Hv with _ \/ _ => destruct Hv as [Hv|Hv] end; try done; subst var; by eauto.
  - intros v (var & Hv & Ev). rewrite !elem_of_cons, elem_of_nil in Hv. repeat match type of Hv with _ \/ _ => destruct Hv as [Hv|Hv] end; try done; subst var; by eauto.
  - done.
  - exact D.
Qed.
(** With the default logger an error of the environment ends the process before anything is set up. *)
Theorem C41_environment_error H W opts : defaults_ok H -> ~ env_ok H -> WithLogger ∉ opts -> exists e, configure H W opts = Exited [AFatal ("environment error: " ++ e)].
Proof.
  intros D N NL. rewrite <- (C41_environment H opts D) in N. assert (NC : cf_custom (new_config H opts).1 = false). { apply not_true_iff_false. intros Y. apply NL. by apply (custom_logger H opts). }
  unfold configure. destruct (new_config H opts) as [c [e|]]; cbn [fst snd] in *; [|done]. exists e. unfold fatal. by rewrite NC.
Qed.
(** The configuration and the resource of a launcher. *)
Lemma configure_returns H W opts w l : env_ok H -> configure H W opts = Ret w l -> let c0 := (new_config H opts).1 in
  la_config l = with_token H c0 /\ la_resource l = new_resource H c0 /\
  exists pre, setup_all (la_config l) [setup_tracing W (la_config l) (la_resource l); setup_metrics W (la_config l) (la_resource l)] [] pre = Ret w (la_shutdown l) /\
    trace_exporters pre = [] /\ metric_exporters pre = [] /\ tracers pre = [] /\ meters pre = [] /\
    (cf_custom (la_config l) = false -> fatals pre = []) /\
    starts pre = [] /\ propagators_set pre = [] /\ selectors pre = [] /\ handlers pre = match cf_handler (la_config l) with Some h => [h] | None => [] end.
Proof.
  intros O. destruct (C41_settings H opts O) as (E & _). rewrite (configure_unfold H W opts E). cbv zeta. set (c0 := (new_config H opts).1). set (c := with_token H c0). set (r := new_resource H c0).
  intros X. assert (Y : exists w0, bind (setup_all c [setup_tracing W c r; setup_metrics W c r] [] (match cf_handler c with Some h => (w0 ++ [ASetHandler h])%list | None => w0 end))
    (fun w fs => Ret w (Launcher c r fs)) = Ret w l /\ (w0 = [] \/ cf_custom c = true /\ exists e, w0 = [AFatal e])).
  { destruct (validate c r) as [e|]; [|exists []; by auto]. unfold fatal in X. destruct (cf_custom c) eqn:K; [|done]. exists [AFatal ("configuration error: " ++ e)]. split; [exact X|]. by eauto. }
  clear X. destruct Y as (w0 & X & S). destruct (setup_all c _ [] _) as [w' fs|] eqn:F; [|done]. cbn [bind] in X. injection X as <- <-. cbn [la_config la_resource la_shutdown].
  split; [done|]. split; [done|]. eexists. split; [exact F|]. destruct S as [->|(K & e & ->)]; destruct (cf_handler c); repeat (split; [first [done|by rewrite K]|]); done.
Qed.
Theorem C41_token H W opts w l : env_ok H -> configure H W opts = Ret w l -> exists env, env_headers H env /\
  default "" (cf_headers (la_config l) !! "lightstep-access-token") = token H opts env /\
  forall k, k <> "lightstep-access-token" -> cf_headers (la_config l) !! k = header opts env k.
Proof.
  intros O E. destruct (configure_returns H W opts w l O E) as (-> & _). destruct (C41_headers H opts O) as (env & He & Q). exists env. split; [done|]. split.
  - rewrite <- (with_token_header H _ _ _ Q). unfold access_token. fold token_header. by destruct (cf_headers _ !! token_header).
  - intros k Nk. rewrite <- Q. unfold with_token. destruct (_ && _); [|done]. cbn. by rewrite lookup_insert_ne by done.
Qed.
(** All other settings of the launcher are those of C41_settings. *)
Theorem C41_launcher H W opts w l : env_ok H -> configure H W opts = Ret w l -> let c0 := (new_config H opts).1 in
  la_config l = set_headers (cf_headers (la_config l)) c0.
Proof.
  intros O E. destruct (configure_returns H W opts w l O E) as (-> & _). unfold with_token. destruct (_ && _); [done|]. by destruct ((new_config H opts).1).
Qed.

(** ** C42: the exported resource *)
Lemma attributes_user H opts k v : cf_attributes (new_config H opts).1 !! k = Some v /\ v <> "" <-> user_attribute opts k v.
Proof.
  rewrite C41_attributes. unfold user_attribute. destruct (by_option says_attributes opts) as [m|]; cbn.
  - split; [intros [A B]; by exists m|]. by intros (m' & [= <-] & A & B).
  - split; [intros [A _]; by rewrite lookup_empty in A|]. by intros (m' & ? & _).
Qed.
Lemma own_not_other k v : own_attribute k v -> k <> "" /\ k <> "host.name" /\ k <> "service.name" /\ k <> "service.version".
Proof.
  unfold own_attribute. rewrite !elem_of_cons, elem_of_nil. intros X. repeat match type of X with _ \/ _ => destruct X as [X|X] end; try done; by injection X as -> ->.
Qed.
Lemma own_some k : match own_value k with Some x => exists v, x = VString v /\ own_attribute k v | None => forall v, ~ own_attribute k v end.
Proof.
  destruct (own_value k) as [x|] eqn:E; [|intros v X; apply own_spec in X; congruence].
  unfold own_value in E. pose proof E as E'. rewrite value_nodup in E' by (apply (bool_decide_unpack _); vm_compute; exact I). rewrite !elem_of_cons, elem_of_nil in E'.
  repeat match type of E' with _ \/ _ => destruct E' as [E'|E'] end; try done; injection E' as -> ->; eexists; (split; [reflexivity|]); by apply own_spec.
Qed.
Lemma itself_value H opts k x : host_ok H -> k <> "" -> let c := (new_config H opts).1 in (forall u, ~ user_attribute opts k u) ->
  first_some (if decide (k = "host.name" /\ env_host H = false /\ user_host H c = false) then VString <$> ho_name H else None)
 (first_some (if decide (k = "service.version" /\ cf_version c <> "") then Some (VString (cf_version c)) else None)
 (first_some (if decide (k = "service.name" /\ cf_name c <> "") then Some (VString (cf_name c)) else None) (own_value k))) = x ->
 match x with Some y => exists v, y = VString v /\ (forall u, says_itself H (cf_name c) (cf_version c) k u <-> u = v) | None => forall u, ~ says_itself H (cf_name c) (cf_version c) k u end.
Proof.
  intros O Nk c NU. assert (EH : env_host H = false <-> (forall h, env_attribute H "host.name" h -> h = "")).
  { rewrite <- not_true_iff_false, (env_host_true H O). split; [intros A h B; destruct (decide (h = "")); [done|destruct A; by eauto]|intros A (h & B & Nh); by apply Nh, A]. }
  pose proof (own_some k) as OW. intros EX.
  assert (SI : forall u, says_itself H (cf_name c) (cf_version c) k u <-> (k = "service.name" /\ cf_name c <> "" /\ u = cf_name c) \/ (k = "service.version" /\ cf_version c <> "" /\ u = cf_version c) \/
    own_attribute k u \/ (k = "host.name" /\ env_host H = false /\ ho_name H = Some u)) by (intros u; unfold says_itself; by rewrite EH).
  assert (GO : forall P : string -> Prop, (forall u, says_itself H (cf_name c) (cf_version c) k u <-> P u) -> match x with Some y => exists v, y = VString v /\ (forall u, P u <-> u = v) | None => forall u, ~ P u end ->
    match x with Some y => exists v, y = VString v /\ (forall u, says_itself H (cf_name c) (cf_version c) k u <-> u = v) | None => forall u, ~ says_itself H (cf_name c) (cf_version c) k u end).
  { intros P Q. destruct x as [y|]; [intros (v & E & A); exists v; split; [done|]; intros u; by rewrite Q|intros A u; by rewrite Q]. }
  apply (GO _ SI). clear GO SI EH. revert EX. intros <-.
  destruct (decide (k = "host.name")) as [->|N1].
  { assert (UH : user_host H c = false). { apply not_true_iff_false. rewrite (user_host_true H c O). intros (v & A). by apply (NU v), (attributes_user H opts). }
    assert (OV : own_value "host.name" = None) by (vm_compute; reflexivity). rewrite OV in *.
    rewrite (decide_False (P := "host.name" = "service.version" /\ _)) by (by intros (? & _)). rewrite (decide_False (P := "host.name" = "service.name" /\ _)) by (by intros (? & _)).
    destruct (env_host H) eqn:EE.
    - rewrite decide_False by (by intros (_ & ? & _)). cbn. intros u [(? & _)|[(? & _)|[X|(_ & X & _)]]]; try done. by apply (OW u).
    - rewrite decide_True by done. destruct (ho_name H) as [h|]; cbn.
      + exists h. split; [done|]. intros u. split; [intros [(? & _)|[(? & _)|[X|(_ & _ & X)]]]; try done; [by destruct (OW u)|by injection X]|intros ->; by auto 10].
      + intros u [(? & _)|[(? & _)|[X|(_ & _ & X)]]]; try done. by apply (OW u). }
  rewrite decide_False by (by intros (? & _)). cbn [first_some]. destruct (decide (k = "service.version")) as [->|N2].
  { assert (OV : own_value "service.version" = None) by (vm_compute; reflexivity). rewrite OV in *. rewrite (decide_False (P := "service.version" = "service.name" /\ _)) by (by intros (? & _)).
    destruct (decide (cf_version c = "")) as [Ev|Nv].
    - rewrite decide_False by (by intros (_ & ?)). cbn. intros u [(? & _)|[(_ & ? & _)|[X|(? & _ & _)]]]; try done. by apply (OW u).
    - rewrite decide_True by done. cbn. exists (cf_version c). split; [done|]. intros u. split; [intros [(? & _)|[(_ & _ & X)|[X|(? & _ & _)]]]; try done; by destruct (OW u)|intros ->; by auto 10]. }
  rewrite (decide_False (P := k = "service.version" /\ _)) by (by intros (? & _)). cbn [first_some]. destruct (decide (k = "service.name")) as [->|N3].
  { assert (OV : own_value "service.name" = None) by (vm_compute; reflexivity). rewrite OV in *. destruct (decide (cf_name c = "")) as [Ev|Nv].
    - rewrite decide_False by (by intros (_ & ?)). cbn. intros u [(_ & ? & _)|[(? & _)|[X|(? & _ & _)]]]; try done. by apply (OW u).
    - rewrite decide_True by done. cbn. exists (cf_name c). split; [done|]. intros u. split; [intros [(_ & _ & X)|[(? & _)|[X|(? & _ & _)]]]; try done; by destruct (OW u)|intros ->; by auto 10]. }
  rewrite (decide_False (P := k = "service.name" /\ _)) by (by intros (? & _)). cbn [first_some]. destruct (own_value k) as [y|] eqn:Ey.
  - destruct OW as (v & -> & Ov). exists v. split; [done|]. intros u. split; [|intros ->; by auto 10]. intros [(? & _)|[(? & _)|[X|(? & _ & _)]]]; try done. apply own_spec in X. congruence.
  - intros u [(? & _)|[(? & _)|[X|(? & _ & _)]]]; try done. by apply (OW u).
Qed.
Lemma first_assoc {A} (a b c : option A) : first_some (first_some a b) c = first_some a (first_some b c).
Proof. by destruct a. Qed.
Lemma resource_describes H opts k x : host_ok H -> let c := (new_config H opts).1 in
  (k, x) ∈ new_resource H c <-> exists v, x = VString v /\ describes H opts (cf_name c) (cf_version c) k v.
Proof.
  intros O c. rewrite (resource_elem H c k x O). unfold describes. destruct (decide (k = "")) as [->|Nk]; [split; [by intros [? _]|by intros (v & _ & ? & _)]|].
  unfold resource_value. destruct (cf_attributes c !! k) as [u|] eqn:Eu.
  - destruct (decide (u = "")) as [->|Nu].
    2: { assert (UA : user_attribute opts k u) by (by apply (attributes_user H opts)). rewrite decide_False.
      2: { intros (-> & _ & B). apply not_true_iff_false in B. apply B. apply (user_host_true H c O). by exists u. }
      cbn [first_some]. split.
      - intros [_ [= <-]]. exists u. split; [done|]. split; [done|by left].
      - intros (v & -> & _ & [X|[X _]]); [|by destruct (X u)]. split; [done|]. destruct UA as (m & E1 & E2 & _), X as (m' & E3 & E4 & _). congruence. }
    assert (NU : forall u, ~ user_attribute opts k u). { intros u X. apply (attributes_user H opts) in X as [X Y]. unfold c in Eu. congruence. }
    cbn [first_some].
    match goal with |- context [first_some ?a (first_some ?b (first_some ?d (first_some (own_value k) ?e)))] =>
      replace (first_some a (first_some b (first_some d (first_some (own_value k) e)))) with (first_some (first_some a (first_some b (first_some d (own_value k)))) e) by (by rewrite !first_assoc) end.
    pose proof (itself_value H opts k _ O Nk NU eq_refl) as I. fold c in I. destruct (first_some (if decide (k = "host.name" /\ _) then _ else _) _) as [y|].
    + destruct I as (v & -> & I). cbn [first_some]. split; [intros [_ [= <-]]; exists v; split; [done|]; split; [done|]; right; split; [done|left; by apply I]|].
      intros (v' & -> & _ & [X|(_ & [X|(X & _)])]); [by destruct (NU v')|apply I in X; by subst|]. destruct (X v). by apply I.
    + cbn [first_some]. rewrite value_nodup by apply O. split.
      * intros (_ & X). destruct (proj1 (list.Forall_forall _ _) (proj2 (proj2 O)) _ X) as (_ & s & Es). cbn in Es. subst x. exists s. split; [done|]. split; [done|]. right. split; [done|]. right. done.
      * intros (v & -> & _ & [X|(_ & [X|(_ & X)])]); [by destruct (NU v)|by destruct (I v)|done].
  - assert (NU : forall u, ~ user_attribute opts k u). { intros u X. apply (attributes_user H opts) in X as [X Y]. unfold c in Eu. congruence. }
    cbn [first_some].
    match goal with |- context [first_some ?a (first_some ?b (first_some ?d (first_some (own_value k) ?e)))] =>
      replace (first_some a (first_some b (first_some d (first_some (own_value k) e)))) with (first_some (first_some a (first_some b (first_some d (own_value k)))) e) by (by rewrite !first_assoc) end.
    pose proof (itself_value H opts k _ O Nk NU eq_refl) as I. fold c in I. destruct (first_some (if decide (k = "host.name" /\ _) then _ else _) _) as [y|].
    + destruct I as (v & -> & I). cbn [first_some]. split; [intros [_ [= <-]]; exists v; split; [done|]; split; [done|]; right; split; [done|left; by apply I]|].
      intros (v' & -> & _ & [X|(_ & [X|(X & _)])]); [by destruct (NU v')|apply I in X; by subst|]. destruct (X v). by apply I.
    + cbn [first_some]. rewrite value_nodup by apply O. split.
      * intros (_ & X). destruct (proj1 (list.Forall_forall _ _) (proj2 (proj2 O)) _ X) as (_ & s & Es). cbn in Es. subst x. exists s. split; [done|]. split; [done|]. right. split; [done|]. right. done.
      * intros (v & -> & _ & [X|(_ & [X|(_ & X)])]); [by destruct (NU v)|by destruct (I v)|done].
Qed.
Theorem C42_resource H W opts w l name version : env_ok H -> host_ok H -> configure H W opts = Ret w l ->
  setting H says_name opts text "LS_SERVICE_NAME" None "" name -> setting H says_version opts text "LS_SERVICE_VERSION" (Some "unknown") "" version ->
  NoDup (map fst (la_resource l)) /\ forall k x, (k, x) ∈ la_resource l <-> exists v, x = VString v /\ describes H opts name version k v.
Proof.
  intros O HO E Sn Sv. destruct (configure_returns H W opts w l O E) as (_ & -> & _). destruct (C41_settings H opts O) as (_ & _ & _ & S1 & S2 & _).
  rewrite (setting_unique _ _ _ _ _ _ _ _ _ Sn S1), (setting_unique _ _ _ _ _ _ _ _ _ Sv S2). split; [apply resource_nodup|]. intros k x. by apply resource_describes.
Qed.

(** ** C43: preferences of temporality *)
Lemma preference_lower q s a : preference q s a -> lower q = q.
Proof. unfold preference. rewrite !elem_of_cons, elem_of_nil. intros X. repeat match type of X with _ \/ _ => destruct X as [X|X] end; try done; by injection X as -> -> ->. Qed.
Lemma accepts_lower p s a : accepts p s a <-> preference (lower p) s a.
Proof.
  split; [|intros X; exists (lower p); split; [apply same_lower|done]]. intros (q & S & P). rewrite (lower_same _ _ S). by rewrite (preference_lower q s a P).
Qed.
Theorem C43_one p s a s' a' : accepts p s a -> accepts p s' a' -> s = s' /\ a = a'.
Proof.
  rewrite !accepts_lower. generalize (lower p). intros q. unfold preference. rewrite !elem_of_cons, elem_of_nil. intros X Y.
  repeat match type of X with _ \/ _ => destruct X as [X|X] end; try done; injection X as -> -> ->;
    repeat match type of Y with _ \/ _ => destruct Y as [Y|Y] end; try done; inversion Y; subst; done.
Qed.
Definition period_ok (W : world) (s : string) (p : Z) : Prop := (s = "" /\ p = 30000000000)%Z \/ (s <> "" /\ wd_duration W s = Some p /\ 0 < p)%Z.
Lemma reporting_spec W s : match reporting_period W s with inl p => period_ok W s p | inr _ => forall p, ~ period_ok W s p end.
Proof.
  unfold reporting_period, period_ok. destruct (String.eqb_spec s "") as [->|N]; [by left|]. destruct (wd_duration W s) as [p|].
  - destruct (Z.leb_spec p 0); [intros q [[? _]|(_ & [= <-] & ?)]; [done|lia]|right; split; [done|]; split; [done|lia]].
  - by intros q [[? _]|(_ & ? & _)].
Qed.
(** A preference that is not accepted, as a bad period, is an error, and nothing is done; else the exporter is created and, when it is, the
    provider set has the temporality of the preference. *)
Theorem C43_rejects W c w : (forall s a, ~ accepts (pc_tempo c) s a) -> exists e, new_metrics_pipeline W c w = (w, Some e).
Proof.
  intros N. unfold new_metrics_pipeline. destruct (reporting_period W (pc_period c)) as [p|e]; [|by exists e]. pose proof (tempo_spec (pc_tempo c)) as T.
  destruct (tempo_options (pc_tempo c)) as [sel|]; [|by eexists]. destruct T as (s & a & T & _). apply accepts_lower in T. by destruct (N s a).
Qed.
Theorem C43_selects W c w s a p : accepts (pc_tempo c) s a -> period_ok W (pc_period c) p -> wd_metric_exporter W (exporter_config c) = None ->
  exists mid sel, new_metrics_pipeline W c w = ((w ++ AMetricExporter (exporter_config c) :: mid ++ [ASetMeter (pc_resource c) p sel])%list, None) /\
    selects sel s a /\ meters mid = [] /\ metric_exporters mid = [].
Proof.
  intros A P X. unfold new_metrics_pipeline. pose proof (reporting_spec W (pc_period c)) as R. destruct (reporting_period W (pc_period c)) as [p'|e]; [|by destruct (R p)].
  assert (p' = p) as ->. { unfold period_ok in *. destruct P as [(E1 & E2)|(E1 & E2 & _)], R as [(F1 & F2)|(F1 & F2 & _)]; congruence. }
  pose proof (tempo_spec (pc_tempo c)) as T. destruct (tempo_options (pc_tempo c)) as [sel|].
  2: { apply accepts_lower in A. by destruct (T s a). }
  destruct T as (s' & a' & T1 & T2). apply accepts_lower in T1. destruct (C43_one _ _ _ _ _ A T1) as [<- <-]. rewrite X. destruct (pc_builtins c).
  - destruct (start_libraries_spec W (pc_libraries c) (w ++ [AMetricExporter (exporter_config c)])%list) as (new & ls & E & _ & _ & F & _). rewrite E. exists new, sel. rewrite <- !app_assoc. split; [done|].
    split; [done|]. clear E. induction F as [|x l [(y & ->)|(y & ->)] F IH]; done.
  - exists [], sel. by rewrite <- !app_assoc.
Qed.

(** ** C44: propagators *)
Theorem C44_recognised l : exists ps, recognised l ps /\ forall ps', recognised l ps' -> ps' = ps.
Proof. exists (omap propagator l). split; [by apply recognised_spec|]. intros ps' X. by apply recognised_spec in X. Qed.
Theorem C44_installs W c w ps : recognised (pc_propagators c) ps -> wd_trace_exporter W (exporter_config c) = None ->
  (ps <> [] -> new_trace_pipeline W c w = ((w ++ [ATraceExporter (exporter_config c); ASetPropagator ps; ASetTracer (pc_resource c)])%list, None)) /\
  (ps = [] -> exists e, new_trace_pipeline W c w = ((w ++ [ATraceExporter (exporter_config c)])%list, Some e)).
Proof.
  intros R X. apply recognised_spec in R. unfold new_trace_pipeline, configure_propagators. rewrite X, R. split; [|intros ->; by eexists]. intros N. destruct ps; [done|]. by rewrite <- !app_assoc.
Qed.
Theorem C44_no_exporter W c w e : wd_trace_exporter W (exporter_config c) = Some e -> exists e', new_trace_pipeline W c w = ((w ++ [ATraceExporter (exporter_config c)])%list, Some e').
Proof. intros X. unfold new_trace_pipeline. rewrite X. by eexists. Qed.

(** ** C45: built-in libraries *)
Lemma text_assoc (a b c : string) : (a ++ b) ++ c = a ++ (b ++ c).
Proof. induction a as [|x a IH]; [done|]. change (String x ((a ++ b) ++ c) = String x (a ++ (b ++ c))). by rewrite IH. Qed.
Lemma start_all_begun W name fs w : exists new, start_all W name fs w = (w ++ new)%list /\ begun W fs w new.
Proof.
  revert w. induction fs as [|f fs IH]; intros w; cbn [start_all]; [exists []; rewrite app_nil_r; split; [done|constructor]|]. destruct (wd_start W w f) as [e|] eqn:E.
  - destruct (IH ((w ++ [AStart f]) ++ [AHandle ("failed to start " ++ name ++ ": " ++ e)])%list) as (new & E2 & B). exists (AStart f :: AHandle ("failed to start " ++ name ++ ": " ++ e) :: new).
    rewrite E2. split; [by rewrite <- !app_assoc|]. apply begun_failed with e; [done|exists ("failed to start " ++ name ++ ": "); by rewrite !text_assoc|]. by rewrite <- app_assoc in B.
  - destruct (IH (w ++ [AStart f])%list) as (new & E2 & B). exists (AStart f :: new). rewrite E2. split; [by rewrite <- !app_assoc|by apply begun_ok].
Qed.
Lemma start_libraries_ran W libs w : exists new, start_libraries W libs w = (w ++ new)%list /\ ran W libs w new.
Proof.
  revert w. induction libs as [|l libs IH]; intros w; cbn [start_libraries]; [exists []; rewrite app_nil_r; split; [done|constructor]|].
  pose proof (entry_cut l) as EC. destruct (cut_colon l) as [name v]. cbn [fst snd] in EC. destruct (builtin_versions name) as [vm|] eqn:B.
  - destruct (version_of vm (if String.eqb v "" then default_version else v)) as [fs|] eqn:V.
    + destruct (start_all_begun W name fs w) as (n1 & E1 & B1). rewrite E1. destruct (IH (w ++ n1)%list) as (n2 & E2 & B2). exists (n1 ++ n2)%list. rewrite E2, app_assoc. split; [done|].
      apply ran_known with fs; [apply EC; by eexists|done|done].
    + set (m := "unrecognized builtin version: " ++ _). destruct (IH (w ++ [AHandle m])%list) as (n2 & E2 & B2). exists (AHandle m :: n2). rewrite E2, <- app_assoc. split; [done|].
      apply ran_unknown; [|done]. intros ls X. apply EC in X as (vm' & [= <-] & X). congruence.
  - set (m := "unrecognized builtin: " ++ _). destruct (IH (w ++ [AHandle m])%list) as (n2 & E2 & B2). exists (AHandle m :: n2). rewrite E2, <- app_assoc. split; [done|].
    apply ran_unknown; [|done]. intros ls X. by apply EC in X as (vm' & ? & X).
Qed.
Theorem C45_libraries W c w s a p : accepts (pc_tempo c) s a -> period_ok W (pc_period c) p -> wd_metric_exporter W (exporter_config c) = None ->
  exists mid sel, new_metrics_pipeline W c w = ((w ++ AMetricExporter (exporter_config c) :: mid ++ [ASetMeter (pc_resource c) p sel])%list, None) /\
    (if pc_builtins c then ran W (pc_libraries c) (w ++ [AMetricExporter (exporter_config c)]) mid else mid = []).
Proof.
  intros A P X. destruct (C43_selects W c w s a p A P X) as (mid & sel & E & _). exists mid, sel. split; [done|]. unfold new_metrics_pipeline in E.
  destruct (reporting_period W (pc_period c)); [|discriminate E]. destruct (tempo_options (pc_tempo c)); [|discriminate E]. rewrite X in E. destruct (pc_builtins c).
  - destruct (start_libraries_ran W (pc_libraries c) (w ++ [AMetricExporter (exporter_config c)])%list) as (new & E2 & R). rewrite E2 in E.
    assert (Q : ((w ++ [AMetricExporter (exporter_config c)]) ++ new ++ [ASetMeter (pc_resource c) z t] = (w ++ [AMetricExporter (exporter_config c)]) ++ mid ++ [ASetMeter (pc_resource c) p sel])%list).
    { apply (f_equal fst) in E. cbn [fst] in E. rewrite <- !app_assoc in *. exact E. }
    apply app_inv_head, app_inj_tail in Q as [-> _]. exact R.
  - apply (f_equal fst) in E. cbn [fst] in E. rewrite <- app_assoc in E. apply app_inv_head in E. injection E as E. destruct mid as [|x mid]; [done|]. exfalso. cbn in E. injection E as _ E. by destruct mid.
Qed.
(** The libraries started are those of the recognised entries, in order; the reports are one for each unknown entry and each failed start. *)
Fixpoint failures (W : world) (h new : list act) : nat :=
  match new with
  | [] => 0
  | AStart l :: r => (if wd_start W h l then 1 else 0) + failures W (h ++ [AStart l])%list r
  | x :: r => failures W (h ++ [x])%list r
  end%nat.
Lemma failures_app W h a b : failures W h (a ++ b)%list = (failures W h a + failures W (h ++ a) b)%nat.
Proof.
  revert h. induction a as [|x a IH]; intros h; cbn; [by rewrite app_nil_r|]. destruct x; rewrite IH, <- app_assoc; cbn; try done. lia.
Qed.
Lemma begun_counts W ls w new : begun W ls w new -> starts new = ls /\ length (handled new) = failures W w new.
Proof.
  intros B. induction B as [|l ls w new E B [IH1 IH2]|l ls w e m new E M B [IH1 IH2]]; [done| |]; cbn.
  - unfold starts, handled in *. rewrite IH1, E. split; [done|]. exact IH2.
  - unfold starts, handled in *. rewrite IH1, E. split; [done|]. rewrite <- app_assoc. cbn. by rewrite IH2.
Qed.
Theorem C45_counts W libs w new : ran W libs w new -> wanted libs (starts new) /\
  exists unknown, unknown_entries libs unknown /\ (length (handled new) = length unknown + failures W w new)%nat.
Proof.
  intros R. induction R as [|e r w m new N R [IH1 (u & IH2 & IH3)]|e ls r w n1 n2 En B R [IH1 (u & IH2 & IH3)]].
  - split; [constructor|]. exists []. split; [constructor|done].
  - split; [by apply wanted_unknown|]. exists (e :: u). split; [by apply ue_unknown|cbn; unfold handled in IH3; rewrite IH3; done].
  - destruct (begun_counts W ls w n1 B) as [S1 S2]. split.
    + unfold starts in *. rewrite omap_app, S1. by apply wanted_known.
    + exists u. split.
      * by eapply ue_known.
      * unfold handled in *. rewrite omap_app, app_length, S2, IH3, failures_app. lia.
Qed.
(** The names of the documentation with other versions are not recognised. *)
Theorem C45_prestable_refuted : exists W libs w, libs = ["all:prestable"; "runtime:v2"] /\ starts (start_libraries W libs w) = [] /\ length (handled (start_libraries W libs w)) = 2%nat.
Proof. exists (World (fun _ => None) (fun _ => None) (fun _ => None) (fun _ _ => None) (fun _ _ => None)), ["all:prestable"; "runtime:v2"], []. vm_compute. auto. Qed.

(** ** C48: shutdown *)
Theorem C48_custom_logger W l w : cf_custom (la_config l) = true -> exists new, launcher_shutdown W l w = Ret (w ++ new)%list tt /\ shutdowns new = la_shutdown l.
Proof.
  intros K. unfold launcher_shutdown. generalize (la_shutdown l). intros fs. revert w. induction fs as [|f fs IH]; intros w; cbn [shutdown_each].
  - exists []. by rewrite app_nil_r.
  - destruct (wd_shutdown W w f) as [e|].
    + unfold fatal. rewrite K. cbn [bind]. destruct (IH ((w ++ [AShutdown f]) ++ [AFatal ("failed to stop exporter: " ++ e)])%list) as (new & E & S).
      exists (AShutdown f :: AFatal ("failed to stop exporter: " ++ e) :: new). rewrite E. split; [by rewrite <- !app_assoc|]. cbn. unfold shutdowns in S. by rewrite S.
    + destruct (IH (w ++ [AShutdown f])%list) as (new & E & S). exists (AShutdown f :: new). rewrite E. split; [by rewrite <- !app_assoc|]. cbn. unfold shutdowns in S. by rewrite S.
Qed.
(** With the default logger: all of them, or those up to the first that fails, and the process ends. *)
Theorem C48_default_logger W l w : cf_custom (la_config l) = false ->
  (launcher_shutdown W l w = Ret (w ++ map AShutdown (la_shutdown l))%list tt) \/
  (exists f1 f f2 e, la_shutdown l = (f1 ++ f :: f2)%list /\ wd_shutdown W (w ++ map AShutdown f1) f = Some e /\
     launcher_shutdown W l w = Exited (w ++ map AShutdown f1 ++ [AShutdown f; AFatal ("failed to stop exporter: " ++ e)])%list).
Proof.
  intros K. unfold launcher_shutdown. generalize (la_shutdown l). intros fs. revert w. induction fs as [|f fs IH]; intros w; cbn [shutdown_each].
  - left. by rewrite app_nil_r.
  - destruct (wd_shutdown W w f) as [e|] eqn:E.
    + right. exists [], f, fs, e. cbn [map]. rewrite app_nil_r. split; [done|]. split; [done|]. unfold fatal. rewrite K. cbn [bind]. by rewrite <- app_assoc.
    + destruct (IH (w ++ [AShutdown f])%list) as [->|(f1 & g & f2 & e & -> & E2 & E3)].
      * left. cbn [map]. by rewrite <- app_assoc.
      * right. exists (f :: f1), g, f2, e. cbn [map]. rewrite <- app_assoc in E2, E3. by rewrite E3.
Qed.
(** All succeed: all are run. *)
Theorem C48_all_succeed W l w : (forall h f, wd_shutdown W h f = None) -> launcher_shutdown W l w = Ret (w ++ map AShutdown (la_shutdown l))%list tt.
Proof.
  intros K. unfold launcher_shutdown. generalize (la_shutdown l). intros fs. revert w. induction fs as [|f fs IH]; intros w; cbn [shutdown_each]; [by rewrite app_nil_r|].
  rewrite K, IH. cbn. by rewrite <- app_assoc.
Qed.
(** The logger of a launcher is the user's exactly when an option said so. *)
Theorem C48_logger H W opts w l : env_ok H -> configure H W opts = Ret w l -> cf_custom (la_config l) = true <-> WithLogger ∈ opts.
Proof. intros O E. destruct (configure_returns H W opts w l O E) as (-> & _). destruct (with_token_other H (new_config H opts).1) as (_ & _ & _ & -> & _). apply custom_logger. Qed.

(** ** C51: set-up of the signals *)
Theorem C51_setup H W opts w l : env_ok H -> configure H W opts = Ret w l -> let c := la_config l in
  (if decide (cf_span_endpoint c = "") then trace_exporters w = [] else exists x, trace_exporters w = [x] /\ reaches (cf_span_endpoint c) (cf_span_insecure c) (cf_headers c) x) /\
  (forall x, x ∈ metric_exporters w -> reaches (cf_metric_endpoint c) (cf_metric_insecure c) (cf_headers c) x) /\ (length (metric_exporters w) <= 1)%nat /\
  (cf_metrics c = false -> metric_exporters w = [] /\ meters w = []) /\
  exists t m : bool, la_shutdown l = ((if t then [false] else []) ++ (if m then [true] else []))%list /\
    (t = true <-> exists x ps, x ∈ trace_exporters w /\ wd_trace_exporter W x = None /\ recognised (cf_propagators c) ps /\ ps <> []) /\
    tracers w = (if t then [la_resource l] else []) /\
    (m = true <-> cf_metrics c = true /\ exists x s a p, x ∈ metric_exporters w /\ wd_metric_exporter W x = None /\ accepts (cf_tempo c) s a /\ period_ok W (cf_period c) p) /\
    (if m then exists p, period_ok W (cf_period c) p /\ meters w = [(la_resource l, p)] else meters w = []).
Proof.
  intros O E. destruct (configure_returns H W opts w l O E) as (_ & _ & pre & S & P1 & P2 & P3 & P4 & _ & _). cbv zeta. set (c := la_config l) in *. set (r := la_resource l) in *.
  destruct (tracing_shape W c r pre) as (n1 & r1 & E1 & C1). cbn [setup_all] in S. rewrite E1 in S.
  assert (X : exists fs w1 f1, setup_all c [setup_metrics W c r] fs ((pre ++ n1) ++ f1)%list = Ret w (la_shutdown l) /\ w1 = ((pre ++ n1) ++ f1)%list /\
    (f1 = [] \/ exists e, f1 = [AFatal e]) /\ fs = match r1 with inl (Some b) => [b] | _ => [] end).
  { destruct r1 as [[b|]|e]; [| |unfold fatal in S; destruct (cf_custom c) eqn:K; [|done]; cbn [bind] in S].
    - exists [b], ((pre ++ n1) ++ [])%list, []. rewrite app_nil_r. by auto.
    - exists [], ((pre ++ n1) ++ [])%list, []. rewrite app_nil_r. by auto.
    - exists [], ((pre ++ n1) ++ [AFatal ("setup error: " ++ e)])%list, [AFatal ("setup error: " ++ e)]. split; [cbn [setup_all]; unfold fatal; rewrite K; exact S|]. by eauto. }
  destruct X as (fs & w1 & f1 & S1 & Ew1 & F1 & Efs). clear S. rewrite <- Ew1 in S1. destruct (metrics_shape W c r w1) as (n2 & r2 & E2 & C2). cbn [setup_all] in S1. rewrite E2 in S1.
  assert (Y : exists f2, w = ((w1 ++ n2) ++ f2)%list /\ (f2 = [] \/ exists e, f2 = [AFatal e]) /\ la_shutdown l = (fs ++ match r2 with inl (Some b) => [b] | _ => [] end)%list).
  { destruct r2 as [[b|]|e]; [| |unfold fatal in S1; destruct (cf_custom c); [|done]; cbn [bind] in S1]; injection S1 as <- <-.
    - exists []. rewrite app_nil_r. by auto.
    - exists []. rewrite !app_nil_r. by auto.
    - exists [AFatal ("setup error: " ++ e)]. rewrite app_nil_r. by eauto. }
  destruct Y as (f2 & Ew & F2 & El). clear S1. subst w1.
  assert (Z : trace_exporters w = (trace_exporters n1 ++ trace_exporters n2)%list /\ metric_exporters w = (metric_exporters n1 ++ metric_exporters n2)%list /\
    tracers w = (tracers n1 ++ tracers n2)%list /\ meters w = (meters n1 ++ meters n2)%list).
  { rewrite Ew. unfold trace_exporters, metric_exporters, tracers, meters in *. rewrite !omap_app, P1, P2, P3, P4.
    destruct F1 as [->|(e1 & ->)], F2 as [->|(e2 & ->)]; cbn; rewrite !app_nil_r; done. }
  destruct Z as (Z1 & Z2 & Z3 & Z4).
  assert (T1 : metric_exporters n1 = [] /\ meters n1 = []) by (destruct C1 as [(_ & -> & _)|(_ & x & _ & [(-> & _)|(ps & -> & _)])]; done).
  assert (T2 : trace_exporters n2 = [] /\ tracers n2 = []).
  { destruct C2 as [(_ & -> & _)|[(_ & -> & _)|(_ & x & _ & [(-> & _)|(libs & ls & p & sel & s & a & -> & _ & _ & _ & _ & _ & F & _)])]]; try done. clear -F.
    cbn. unfold trace_exporters, tracers. rewrite !omap_app. cbn. rewrite !app_nil_r. induction F as [|y k [(z & ->)|(z & ->)] F IH]; done. }
  destruct T1 as [T1 T1'], T2 as [T2 T2']. rewrite T2, app_nil_r in Z1. rewrite T1 in Z2. rewrite T2', app_nil_r in Z3. rewrite T1' in Z4. cbn [app] in Z2, Z4. rewrite Z1, Z2, Z3, Z4, El, Efs. clear Z1 Z2 Z3 Z4 El Efs T1 T1' T2 T2' P1 P2 P3 P4 E1 E2 Ew F1 F2.
  assert (M : forall p1 s1 a1 p2 sel (libs : list act), Forall (fun a => (exists l, a = AStart l) \/ (exists e, a = AHandle e)) libs -> period_ok W (cf_period c) p1 -> accepts (cf_tempo c) s1 a1 ->
    meters (libs ++ [ASetMeter r p2 sel])%list = [(r, p2)] /\ metric_exporters (libs ++ [ASetMeter r p2 sel])%list = []).
  { intros p1 s1 a1 p2 sel libs F _ _. unfold meters, metric_exporters. rewrite !omap_app. cbn. induction F as [|y k [(z & ->)|(z & ->)] F IH]; done. }
  assert (PK : forall p, cf_period c = "" /\ p = 30000000000%Z \/ cf_period c <> "" /\ wd_duration W (cf_period c) = Some p /\ (0 < p)%Z -> exists p', period_ok W (cf_period c) p').
  { intros p X. by exists p. }
  split; [|split; [|split; [|split]]].
  - destruct C1 as [(Es & -> & _)|(Ns & x & Rx & C1)]; [by rewrite decide_True by done|]. rewrite decide_False by done. exists x. split; [|done]. by destruct C1 as [(-> & _)|(ps & -> & _)].
  - intros x Hx. destruct C2 as [(_ & -> & _)|[(_ & -> & _)|(_ & y & Ry & [(-> & _)|(libs & ls & p & sel & s & a & -> & _ & _ & Pr & _ & Pp & F & _)])]].
    + by apply elem_of_nil in Hx.
    + by apply elem_of_nil in Hx.
    + apply elem_of_list_singleton in Hx. by subst.
    + destruct (PK _ Pp) as (p' & Pp'). apply accepts_lower in Pr. destruct (M _ _ _ p sel libs F Pp' Pr) as [_ M2]. change (metric_exporters (AMetricExporter y :: ?z)) with (y :: metric_exporters z) in Hx. rewrite M2 in Hx. apply elem_of_list_singleton in Hx. by subst.
  - destruct C2 as [(_ & -> & _)|[(_ & -> & _)|(_ & y & Ry & [(-> & _)|(libs & ls & p & sel & s & a & -> & _ & _ & Pr & _ & Pp & F & _)])]]; try (cbn; lia).
    destruct (PK _ Pp) as (p' & Pp'). apply accepts_lower in Pr. destruct (M _ _ _ p sel libs F Pp' Pr) as [_ M2]. change (metric_exporters (AMetricExporter y :: ?z)) with (y :: metric_exporters z). rewrite M2. cbn. lia.
  - intros D. by destruct C2 as [(_ & -> & _)|[(? & _)|(? & _)]]; [|congruence|congruence].
  - exists (match r1 with inl (Some _) => true | _ => false end), (match r2 with inl (Some _) => true | _ => false end).
    split; [|split; [|split; [|split]]].
    + f_equal.
      * by destruct C1 as [(_ & _ & ->)|(_ & x & _ & [(_ & (e & ->) & _)|(ps & _ & -> & _)])].
      * by destruct C2 as [(_ & _ & ->)|[(_ & _ & (e & ->) & _)|(_ & x & _ & [(_ & (e & ->) & _)|(libs & ls & p & sel & s & a & _ & -> & _)])]].
    + destruct C1 as [(_ & -> & ->)|(_ & x & _ & [(-> & (e & ->) & C1)|(ps & -> & -> & R1 & R2 & R3)])].
      * split; [done|]. intros (x & ps & X & _). by apply elem_of_nil in X.
      * split; [done|]. intros (y & ps & X & Y & R1 & R2). apply elem_of_list_singleton in X. subst y. destruct C1 as [C1|C1]; [done|]. apply recognised_spec in C1. apply recognised_spec in R1. congruence.
      * split; [|done]. intros _. exists x, ps. by repeat split; [left|..].
    + by destruct C1 as [(_ & -> & ->)|(_ & x & _ & [(-> & (e & ->) & C1)|(ps & -> & -> & R1 & R2 & R3)])].
    + destruct C2 as [(D & -> & ->)|[(_ & -> & (e & ->) & C2)|(D & x & _ & [(-> & (e & ->) & C2)|(libs & ls & p & sel & s & a & -> & -> & X & Pr & _ & Pp & F & _)])]].
      * split; [done|]. intros (? & _). congruence.
      * split; [done|]. intros (_ & x & s & a & p & X & _). by apply elem_of_nil in X.
      * split; [done|]. intros (_ & y & s & a & p & X & Y & _). apply elem_of_list_singleton in X. by subst y.
      * split; [|done]. intros _. split; [done|]. destruct (PK _ Pp) as (p' & Pp'). apply accepts_lower in Pr. exists x, s, a, p'. split; [by left|]. done.
    + destruct C2 as [(D & -> & ->)|[(_ & -> & (e & ->) & C2)|(D & x & _ & [(-> & (e & ->) & C2)|(libs & ls & p & sel & s & a & -> & -> & X & Pr & _ & Pp & F & _)])]]; try done.
      exists p. apply accepts_lower in Pr. destruct (PK _ Pp) as (p' & Pp'). destruct (M _ _ _ p sel libs F Pp' Pr) as [M1 _]. change (meters (AMetricExporter x :: ?z)) with (meters z). split; [|exact M1].
      exact Pp.
Qed.
(** With the default logger a launcher is only returned when all that is enabled was set up. *)
Theorem C51_default_logger H W opts w l : env_ok H -> WithLogger ∉ opts -> configure H W opts = Ret w l -> let c := la_config l in
  (cf_span_endpoint c <> "" -> tracers w = [la_resource l]) /\ (cf_metrics c = true -> exists p, meters w = [(la_resource l, p)]).
Proof.
  intros O NL E. pose proof (C48_logger H W opts w l O E) as K. assert (NC : cf_custom (la_config l) = false) by (apply not_true_iff_false; tauto).
  destruct (C51_setup H W opts w l O E) as (S1 & _ & _ & _ & t & m & El & _ & Et & _ & Em).
  destruct (configure_returns H W opts w l O E) as (_ & _ & pre & S & _). cbv zeta. set (c := la_config l) in *. set (r := la_resource l) in *.
  destruct (tracing_shape W c r pre) as (n1 & r1 & E1 & C1). cbn [setup_all] in S. rewrite E1 in S. destruct r1 as [o1|e]; [|unfold fatal in S; by rewrite NC in S].
  assert (X : exists fs, setup_all c [setup_metrics W c r] fs (pre ++ n1)%list = Ret w (la_shutdown l) /\ fs = match o1 with Some b => [b] | _ => [] end) by (destruct o1 as [b|]; eexists; (split; [exact S|done])).
  destruct X as (fs & S2 & Efs). clear S. destruct (metrics_shape W c r (pre ++ n1)%list) as (n2 & r2 & E2 & C2). cbn [setup_all] in S2. rewrite E2 in S2.
  destruct r2 as [o2|e]; [|unfold fatal in S2; by rewrite NC in S2].
  assert (Y : la_shutdown l = (fs ++ match o2 with Some b => [b] | _ => [] end)%list) by (destruct o2 as [b|]; injection S2 as _ <-; [done|by rewrite app_nil_r]).
  assert (Q1 : cf_span_endpoint c <> "" -> fs = [false]).
  { intros Ns. rewrite Efs. destruct C1 as [(? & _)|(_ & x & _ & [(_ & (e & ?) & _)|(ps & _ & [= ->] & _)])]; done. }
  assert (Q2 : cf_metrics c = true -> o2 = Some true).
  { intros Nm. destruct C2 as [(? & _)|[(_ & _ & (e & ?) & _)|(_ & x & _ & [(_ & (e & ?) & _)|(libs & ls & p & sel & s & a & _ & [= ->] & _)])]]; congruence. }
  assert (Q3 : fs = [] \/ fs = [false]) by (rewrite Efs; destruct C1 as [(_ & _ & [= ->])|(_ & x & _ & [(_ & (e & ?) & _)|(ps & _ & [= ->] & _)])]; auto; done).
  split.
  - intros Ns. rewrite (Q1 Ns), El in Y. rewrite Et. destruct t; [done|]. exfalso. destruct m, o2 as [[]|]; cbn in Y; congruence.
  - intros Nm. specialize (Q2 Nm). subst o2. rewrite El in Y. destruct m; [destruct Em as (p & _ & Em); by exists p|]. rewrite app_nil_r in Y. exfalso. destruct Q3 as [->| ->], t; cbn in Y; congruence.
Qed.

(** ** Concrete cases *)
Module ExLaunch.
  Definition lookup_env (l : list (string * string)) (k : string) : option string := match List.find (fun p => String.eqb p.1 k) l with Some p => Some p.2 | None => None end.
  Definition parse_bool (s : string) : option bool := if String.eqb s "true" then Some true else if String.eqb s "false" then Some false else None.
  Definition env (l : list (string * string)) (res : list kv) : host :=
    Host (lookup_env l) parse_bool (fun s => Some [s]) (fun s => Some {[ "from-env" := s ]}) res (Some "box") map_to_list.
  Definition good : host := env [("LS_SERVICE_NAME", "from-env"); ("LS_ACCESS_TOKEN", "secret"); ("OTEL_EXPORTER_OTLP_HEADERS", "h"); ("LS_METRICS_ENABLED", "true")]
    [("service.name", VString "resource-name"); ("zone", VString "z1"); ("region", VString "r1")].
  Definition bad : host := env [("LS_METRICS_ENABLED", "maybe")] [].
  Definition nameless : host := env [] [].
  Definition fine : world := World (fun s => if String.eqb s "30s" then Some 30000000000%Z else None) (fun _ => None) (fun _ => None) (fun _ l => match l with LRuntime => Some "boom" | _ => None end) (fun _ f => if f then None else Some "late").
  Definition opts : list opt := [WithServiceVersion "v1"; WithHeaders {[ "a" := "1" ]}; WithHeaders {[ "b" := "2" ]}; WithResourceAttributes {[ "region" := "r2" ]};
    WithResourceAttributes {[ "zone" := ""; "owner" := "me" ]}; WithMetricExporterTemporalityPreference "LowMemory"; WithPropagators ["nope"; "tracecontext"; "b3"]].
  Lemma good_ok : env_ok good /\ host_ok good.
  Proof.
    split.
    - split; [|split; [|split]]; [| |done|by vm_compute].
      + intros v (var & Hv & Ev). rewrite !elem_of_cons, elem_of_nil in Hv. repeat match type of Hv with _ \/ _ => destruct Hv as [Hv|Hv] end; try done; subst var; vm_compute in Ev; try done; injection Ev as <-; by vm_compute.
      + intros v _. done.
    - split; [done|]. split; [apply (bool_decide_unpack _); vm_compute; exact I|]. repeat constructor; try done; by eexists.
  Qed.
  Definition result : run launcher := configure good fine opts.
  Definition w : list act := acts_of result.
  Definition l : launcher := default (Launcher zero_config [] []) (returned result).
  Example returns : configure good fine opts = Ret w l.
  Proof. vm_compute. reflexivity. Qed.
  (** C41: token of the environment; headers accumulate; attributes are replaced; the option wins. *)
  Example c41 : (cf_name (la_config l), cf_version (la_config l)) = ("from-env", "v1") /\
    cf_headers (la_config l) !! "a" = Some "1" /\ cf_headers (la_config l) !! "b" = Some "2" /\ cf_headers (la_config l) !! "from-env" = Some "h" /\
    cf_headers (la_config l) !! "lightstep-access-token" = Some "secret" /\ cf_attributes (la_config l) !! "region" = None.
  Proof. vm_compute. auto 10. Qed.
  (** C42. *)
  Example c42 : la_resource l = [("host.name", VString "box"); ("owner", VString "me"); ("region", VString "r1"); ("service.name", VString "from-env"); ("service.version", VString "v1");
    ("telemetry.distro.name", VString "lightstep"); ("telemetry.distro.version", VString "1.35.0"); ("telemetry.sdk.language", VString "go"); ("telemetry.sdk.name", VString "launcher");
    ("telemetry.sdk.version", VString "1.35.0"); ("zone", VString "z1")].
  Proof. vm_compute. reflexivity. Qed.
  (** C44, C45, C51: the propagators in order; the failed start of one library is reported and the next started. *)
  Example c51 : map (fun a => match a with ASetPropagator ps => ("propagators", length ps) | AStart _ => ("start", 0%nat) | AHandle _ => ("report", 0%nat) | ATraceExporter _ => ("spans", 0%nat)
      | AMetricExporter _ => ("metrics", 0%nat) | ASetTracer _ => ("tracer", 0%nat) | ASetMeter _ _ _ => ("meter", 0%nat) | _ => ("other", 0%nat) end) w =
    [("other", 0%nat); ("spans", 0%nat); ("propagators", 2%nat); ("tracer", 0%nat); ("metrics", 0%nat); ("start", 0%nat); ("start", 0%nat); ("report", 0%nat); ("start", 0%nat); ("meter", 0%nat)] /\
    la_shutdown l = [false; true].
  Proof. vm_compute. auto. Qed.
  (** C40: nothing configured; the default logger ends the process. *)
  Example c40 : configure nameless fine [] = Exited [AFatal "configuration error: service name missing"] /\
    configure nameless fine [WithServiceName "a"] = Exited [AFatal "configuration error: access token missing: ingest.lightstep.com:443"] /\
    configure nameless fine [WithServiceName "a"; WithSpanExporterEndpoint "here:1"; WithMetricsEnabled false] = Exited [AFatal "configuration error: access token missing: ingest.lightstep.com:443"].
  Proof. vm_compute. auto. Qed.
  Example c40_ok : env_ok nameless /\ host_ok nameless /\ setting nameless says_name [] text "LS_SERVICE_NAME" None "" "" /\ ~ name_configured nameless [] "".
  Proof.
    split; [|split; [|split; [done|]]].
    - split; [|split; [|split]]; [by intros v (var & _ & ?)|done|done|by vm_compute].
    - split; [done|]. split; constructor.
    - intros [?|[(v & m & ? & _)|(v & X & _)]]; [done|done|by apply elem_of_nil in X].
  Qed.
  Example c41_bad : defaults_ok bad /\ ~ env_ok bad /\ configure bad fine [] = Exited [AFatal "environment error: LS_METRICS_ENABLED"].
  Proof.
    split; [by vm_compute|]. split; [|by vm_compute]. intros (B & _). apply (B "maybe"); [|by vm_compute]. exists "LS_METRICS_ENABLED". split; [repeat (first [by left|right])|by vm_compute].
  Qed.
  (** C43. *)
  Example c43 : accepts "LowMemory" DeltaTempo CumulativeTempo /\ (forall s a, ~ accepts "deltas" s a) /\ period_ok fine "30s" 30000000000.
  Proof.
    split; [apply accepts_lower; vm_compute; repeat (first [by left|right])|]. split; [|right; by vm_compute]. intros s a X. apply accepts_lower in X. change (lower "deltas") with "deltas" in X.
    unfold preference in X. rewrite !elem_of_cons, elem_of_nil in X. repeat match type of X with _ \/ _ => destruct X as [X|X] end; done.
  Qed.
  (** C44. *)
  Example c44 : recognised ["nope"; "tracecontext"; "b3"] [PropTraceContext; PropB3] /\ recognised ["B3"] [].
  Proof. split; by apply recognised_spec. Qed.
  (** C48: the shutdown of tracing fails. *)
  Example c48_default : launcher_shutdown fine l [] = Exited [AShutdown false; AFatal "failed to stop exporter: late"].
  Proof. vm_compute. reflexivity. Qed.
  Definition l2 : launcher := default (Launcher zero_config [] []) (returned (configure good fine (WithLogger :: opts))).
  Example c48_custom : cf_custom (la_config l2) = true /\ launcher_shutdown fine l2 [] = Ret [AShutdown false; AFatal "failed to stop exporter: late"; AShutdown true] tt.
  Proof. vm_compute. auto. Qed.
End ExLaunch.
(** Findings.  With propagators that are not supported, the exporter of spans is created and nothing will shut it down. *)
Theorem C51_leak_refuted : exists H W opts w l, env_ok H /\ configure H W opts = Ret w l /\ length (trace_exporters w) = 1%nat /\ (forall x, wd_trace_exporter W x = None) /\ false ∉ la_shutdown l.
Proof.
  exists ExLaunch.good, ExLaunch.fine, [WithLogger; WithPropagators ["jaeger"]], (acts_of (configure ExLaunch.good ExLaunch.fine [WithLogger; WithPropagators ["jaeger"]])),
    (default (Launcher zero_config [] []) (returned (configure ExLaunch.good ExLaunch.fine [WithLogger; WithPropagators ["jaeger"]]))).
  split; [apply ExLaunch.good_ok|]. split; [vm_compute; reflexivity|]. split; [vm_compute; reflexivity|]. split; [done|].
  replace (la_shutdown _) with [true] by (vm_compute; reflexivity). intros X. by apply elem_of_list_singleton in X.
Qed.
(** An empty span endpoint disables spans; an empty metric endpoint does not disable metrics. *)
Theorem C51_empty_endpoint_refuted : exists H W opts w l, env_ok H /\ configure H W opts = Ret w l /\ cf_span_endpoint (la_config l) = "" /\ cf_metric_endpoint (la_config l) = "" /\
  trace_exporters w = [] /\ length (metric_exporters w) = 1%nat.
Proof.
  exists ExLaunch.good, ExLaunch.fine, [WithSpanExporterEndpoint ""; WithMetricExporterEndpoint ""], (acts_of (configure ExLaunch.good ExLaunch.fine [WithSpanExporterEndpoint ""; WithMetricExporterEndpoint ""])),
    (default (Launcher zero_config [] []) (returned (configure ExLaunch.good ExLaunch.fine [WithSpanExporterEndpoint ""; WithMetricExporterEndpoint ""]))).
  split; [apply ExLaunch.good_ok|]. split; [vm_compute; reflexivity|]. vm_compute. auto.
Qed.

Print Assumptions C41_settings.
Print Assumptions C41_attributes.
Print Assumptions C41_headers.
Print Assumptions C41_options_win.
Print Assumptions C40_fails.
Print Assumptions C40_stops.
Print Assumptions C41_environment.
Print Assumptions C41_environment_error.
Print Assumptions C41_token.
Print Assumptions C41_launcher.
Print Assumptions C42_resource.
Print Assumptions C43_one.
Print Assumptions C43_rejects.
Print Assumptions C43_selects.
Print Assumptions C44_recognised.
Print Assumptions C44_installs.
Print Assumptions C44_no_exporter.
Print Assumptions C45_libraries.
Print Assumptions C45_counts.
Print Assumptions C45_prestable_refuted.
Print Assumptions C48_custom_logger.
Print Assumptions C48_default_logger.
Print Assumptions C48_all_succeed.
Print Assumptions C48_logger.
Print Assumptions C51_setup.
Print Assumptions C51_default_logger.
Print Assumptions C51_leak_refuted.
Print Assumptions C51_empty_endpoint_refuted.
