(** Proofs about the pipelines and the launcher. *)
From Coq Require Import ZArith Bool String Ascii Lia.
From stdpp Require Import base list option strings gmap fin_maps.
From Verif Require Import Num Attr AttrProofs View Exp ExpSpec ExpProofs Trace TraceSpec TraceProofs Pipe Launch LaunchSpec.
Local Open Scope Z_scope.
Local Open Scope string_scope.

(** ** Settings *)
Lemma by_option_snoc {A} (pick : opt -> option A) opts o : by_option pick (opts ++ [o])%list = match pick o with Some a => Some a | None => by_option pick opts end.
Proof.
  unfold by_option. rewrite omap_app. cbn. destruct (pick o); [by rewrite last_snoc|by rewrite app_nil_r].
Qed.
Lemma fold_pick {A} (get : config -> A) pick : (forall c o, get (apply_opt c o) = match pick o with Some a => a | None => get c end) ->
  forall opts c, get (fold_left apply_opt opts c) = match by_option pick opts with Some a => a | None => get c end.
Proof.
  intros P opts c. induction opts as [|o opts IH] using rev_ind; [done|]. rewrite fold_left_app, by_option_snoc. cbn. rewrite P, IH. by destruct (pick o).
Qed.
Lemma fold_header opts c k : cf_headers (fold_left apply_opt opts c) !! k = header opts (cf_headers c) k.
Proof.
  unfold header. induction opts as [|o opts IH] using rev_ind; [done|]. rewrite fold_left_app, by_option_snoc. cbn [fold_left]. destruct o; cbn [apply_opt says_header]; try exact IH.
  - cbn. unfold token_header. destruct (decide (k = "lightstep-access-token")) as [->|N]; [by rewrite lookup_insert|]. rewrite lookup_insert_ne by done. exact IH.
  - cbn. destruct (h !! k) as [v|] eqn:E; [by apply lookup_union_Some_l|]. rewrite lookup_union_r by done. exact IH.
Qed.

Ltac settle := cbv [cf_span_endpoint cf_span_insecure cf_name cf_version cf_headers cf_metric_endpoint cf_metric_insecure cf_tempo cf_metrics cf_builtins cf_libraries cf_level cf_propagators cf_period cf_attributes cf_custom cf_handler set_span_endpoint set_span_insecure set_name set_version set_headers set_metric_endpoint set_metric_insecure set_tempo set_metrics set_builtins set_libraries set_level set_propagators set_period set_attributes set_handler set_logger zero_config].
Section launch.
Context (H : host).
Definition reads {A} (parse : string -> option A) (var : string) (dflt : option string) (zero v : A) : Prop :=
  match ho_env H var, dflt with
  | Some s, _ => parse s = Some v
  | None, Some s => parse s = Some v
  | None, None => v = zero
  end.
Lemma env_step {A} (parse : string -> option A) set var d z a c : reads parse var d z a -> (d = None -> set z c = c) ->
  env_field H parse set var d (c, None) = (set a c, None).
Proof.
  unfold reads, env_field. destruct (ho_env H var) as [s|]; [intros -> _; done|]. destruct d as [s|]; [intros -> _; done|]. intros -> E. by rewrite E.
Qed.
Lemma field_step (f : config * option string -> config * option string) fs r r1 x : f r = r1 -> fold_left (fun r f => f r) fs r1 = x -> fold_left (fun r f => f r) (f :: fs) r = x.
Proof. by intros <-. Qed.
Lemma reads_text var d : exists v, reads Some var d "" v.
Proof. unfold reads. destruct (ho_env H var); [by eexists|]. destruct d; by eexists. Qed.
Lemma reads_bool var s z : env_ok H -> var ∈ ["OTEL_EXPORTER_OTLP_SPAN_INSECURE"; "OTEL_EXPORTER_OTLP_METRIC_INSECURE"; "LS_METRICS_ENABLED"; "LS_METRICS_BUILTINS_ENABLED"] ->
  s = "true" \/ s = "false" -> exists v, reads (ho_bool H) var (Some s) z v.
Proof.
  intros (B & _ & _ & T & F & _) V S. unfold reads. destruct (ho_env H var) as [t|] eqn:E.
  - destruct (ho_bool H t) as [b|] eqn:Eb; [by exists b|]. destruct (B t); [by exists var|done].
  - destruct S as [->| ->]; by eexists.
Qed.
Lemma reads_list var s z : env_ok H -> var ∈ ["LS_METRICS_BUILTIN_LIBRARIES"; "OTEL_PROPAGATORS"] -> s = "all:stable" \/ s = "b3" -> exists v, reads (ho_list H) var (Some s) z v.
Proof.
  intros (_ & B & _ & _ & _ & T & F) V S. unfold reads. destruct (ho_env H var) as [t|] eqn:E.
  - destruct (ho_list H t) as [b|] eqn:Eb; [by exists b|]. destruct (B t); [by exists var|done].
  - destruct S as [->| ->]; by eexists.
Qed.
Lemma reads_map z : env_ok H -> exists v, reads (ho_map H) "OTEL_EXPORTER_OTLP_HEADERS" None z v.
Proof.
  intros (_ & _ & M & _). unfold reads. destruct (ho_env H "OTEL_EXPORTER_OTLP_HEADERS") as [t|] eqn:E; [|by eexists].
  destruct (ho_map H t) as [b|] eqn:Eb; [by exists b|]. by destruct (M t).
Qed.
Lemma process_env_ok : env_ok H -> exists se si nm ve hd me mi te en bu li le pr pe,
  process_env H = (Config se si nm ve hd me mi te en bu li le pr pe ∅ false None, None) /\
  reads text "OTEL_EXPORTER_OTLP_SPAN_ENDPOINT" (Some "ingest.lightstep.com:443") "" se /\
  reads (ho_bool H) "OTEL_EXPORTER_OTLP_SPAN_INSECURE" (Some "false") false si /\
  reads text "LS_SERVICE_NAME" None "" nm /\ reads text "LS_SERVICE_VERSION" (Some "unknown") "" ve /\
  reads (ho_map H) "OTEL_EXPORTER_OTLP_HEADERS" None ∅ hd /\
  reads text "OTEL_EXPORTER_OTLP_METRIC_ENDPOINT" (Some "ingest.lightstep.com:443") "" me /\
  reads (ho_bool H) "OTEL_EXPORTER_OTLP_METRIC_INSECURE" (Some "false") false mi /\
  reads text "OTEL_EXPORTER_OTLP_METRIC_TEMPORALITY_PREFERENCE" (Some "cumulative") "" te /\
  reads (ho_bool H) "LS_METRICS_ENABLED" (Some "true") false en /\ reads (ho_bool H) "LS_METRICS_BUILTINS_ENABLED" (Some "true") false bu /\
  reads (ho_list H) "LS_METRICS_BUILTIN_LIBRARIES" (Some "all:stable") [] li /\ reads text "OTEL_LOG_LEVEL" (Some "info") "" le /\
  reads (ho_list H) "OTEL_PROPAGATORS" (Some "b3") [] pr /\ reads text "OTEL_EXPORTER_OTLP_METRIC_PERIOD" (Some "30s") "" pe.
Proof.
  intros O.
  destruct (reads_text "OTEL_EXPORTER_OTLP_SPAN_ENDPOINT" (Some "ingest.lightstep.com:443")) as (se & R1).
  destruct (reads_bool "OTEL_EXPORTER_OTLP_SPAN_INSECURE" "false" false O) as (si & R2); [repeat (first [by left|right])|by right|].
  destruct (reads_text "LS_SERVICE_NAME" None) as (nm & R3). destruct (reads_text "LS_SERVICE_VERSION" (Some "unknown")) as (ve & R4).
  destruct (reads_map ∅ O) as (hd & R5). destruct (reads_text "OTEL_EXPORTER_OTLP_METRIC_ENDPOINT" (Some "ingest.lightstep.com:443")) as (me & R6).
  destruct (reads_bool "OTEL_EXPORTER_OTLP_METRIC_INSECURE" "false" false O) as (mi & R7); [repeat (first [by left|right])|by right|].
  destruct (reads_text "OTEL_EXPORTER_OTLP_METRIC_TEMPORALITY_PREFERENCE" (Some "cumulative")) as (te & R8).
  destruct (reads_bool "LS_METRICS_ENABLED" "true" false O) as (en & R9); [repeat (first [by left|right])|by left|].
  destruct (reads_bool "LS_METRICS_BUILTINS_ENABLED" "true" false O) as (bu & R10); [repeat (first [by left|right])|by left|].
  destruct (reads_list "LS_METRICS_BUILTIN_LIBRARIES" "all:stable" [] O) as (li & R11); [repeat (first [by left|right])|by left|].
  destruct (reads_text "OTEL_LOG_LEVEL" (Some "info")) as (le & R12).
  destruct (reads_list "OTEL_PROPAGATORS" "b3" [] O) as (pr & R13); [repeat (first [by left|right])|by right|].
  destruct (reads_text "OTEL_EXPORTER_OTLP_METRIC_PERIOD" (Some "30s")) as (pe & R14).
  exists se, si, nm, ve, hd, me, mi, te, en, bu, li, le, pr, pe. split; [|exact (conj R1 (conj R2 (conj R3 (conj R4 (conj R5 (conj R6 (conj R7 (conj R8 (conj R9 (conj R10 (conj R11 (conj R12 (conj R13 R14)))))))))))))].
  unfold process_env, env_fields.
  eapply field_step; [apply (env_step _ set_span_endpoint _ _ _ _ _ R1); by intros|]; settle.
  eapply field_step; [apply (env_step _ set_span_insecure _ _ _ _ _ R2); by intros|]; settle.
  eapply field_step; [apply (env_step _ set_name _ _ _ _ _ R3); by intros|]; settle.
  eapply field_step; [apply (env_step _ set_version _ _ _ _ _ R4); by intros|]; settle.
  eapply field_step; [apply (env_step _ set_headers _ _ _ _ _ R5); by intros|]; settle.
  eapply field_step; [apply (env_step _ set_metric_endpoint _ _ _ _ _ R6); by intros|]; settle.
  eapply field_step; [apply (env_step _ set_metric_insecure _ _ _ _ _ R7); by intros|]; settle.
  eapply field_step; [apply (env_step _ set_tempo _ _ _ _ _ R8); by intros|]; settle.
  eapply field_step; [apply (env_step _ set_metrics _ _ _ _ _ R9); by intros|]; settle.
  eapply field_step; [apply (env_step _ set_builtins _ _ _ _ _ R10); by intros|]; settle.
  eapply field_step; [apply (env_step _ set_libraries _ _ _ _ _ R11); by intros|]; settle.
  eapply field_step; [apply (env_step _ set_level _ _ _ _ _ R12); by intros|]; settle.
  eapply field_step; [apply (env_step _ set_propagators _ _ _ _ _ R13); by intros|]; settle.
  eapply field_step; [apply (env_step _ set_period _ _ _ _ _ R14); by intros|]; settle.
  done.
Qed.
Lemma setting_ok {A} (get : config -> A) (pick : opt -> option A) opts c parse var dflt zero v :
  (forall c o, get (apply_opt c o) = match pick o with Some a => a | None => get c end) ->
  reads parse var dflt zero v -> get c = v -> setting H pick opts parse var dflt zero (get (fold_left apply_opt opts c)).
Proof. intros P R E. rewrite (fold_pick get pick P). unfold setting. destruct (by_option pick opts); [done|]. rewrite E. exact R. Qed.
End launch.

(** ** The resource *)
Lemma value_app l1 l2 k : value_of (l1 ++ l2)%list k = match value_of l2 k with Some v => Some v | None => value_of l1 k end.
Proof.
  unfold value_of. rewrite fold_left_app. generalize (fold_left (fun r (a : kv) => if String.eqb a.1 k then Some a.2 else r) l1 None). intros x.
  revert x. induction l2 as [|a l2 IH] using rev_ind; intros x; [done|]. rewrite !fold_left_app. cbn. destruct (String.eqb a.1 k); [done|]. apply IH.
Qed.
Lemma value_cons a l k : value_of (a :: l) k = match value_of l k with Some v => Some v | None => if String.eqb a.1 k then Some a.2 else None end.
Proof. change (a :: l) with ([a] ++ l)%list. by rewrite value_app. Qed.
Lemma value_nodup (l : list kv) k v : NoDup (map fst l) -> value_of l k = Some v <-> (k, v) ∈ l.
Proof.
  intros N. induction l as [|[k' v'] l IH]; [split; [done|intros X; by apply elem_of_nil in X]|]. rewrite value_cons. cbn in N. apply list.NoDup_cons in N as [N1 N2]. specialize (IH N2).
  rewrite elem_of_cons. cbn [fst snd]. destruct (value_of l k) as [w|] eqn:E.
  - split; [intros [= ->]; right; by apply IH|]. intros [[= -> ->]|X]; [|by apply IH]. apply value_last in E as (l1 & l2 & -> & _).
    destruct N1. rewrite map_app. apply elem_of_app. right. by left.
  - destruct (String.eqb_spec k' k) as [->|Ne]; (split; [|intros [X|X]]); try done; try (by apply IH in X).
    + intros [= ->]. by left.
    + by injection X as ->.
    + by injection X as -> ->.
Qed.
Lemma value_filter l k : k <> "" -> value_of (List.filter valid_attr l) k = value_of l k.
Proof.
  intros N. induction l as [|a l IH]; [done|]. cbn [List.filter]. unfold valid_attr at 1. rewrite value_cons. destruct (String.eqb_spec a.1 "") as [E|Ne]; cbn [negb].
  - rewrite IH. destruct (value_of l k); [done|]. destruct (String.eqb_spec a.1 k); [congruence|done].
  - by rewrite value_cons, IH.
Qed.
Lemma value_filter_empty l : value_of (List.filter valid_attr l) "" = None.
Proof.
  induction l as [|a l IH]; [done|]. cbn [List.filter]. unfold valid_attr at 1. destruct (String.eqb a.1 "") eqn:E; cbn [negb]; [done|]. rewrite value_cons, IH, E. done.
Qed.
(** The user attributes that count. *)
Definition users (H : host) (c : config) : list (string * string) := List.filter (fun p : string * string => nonempty p.2) (ho_walk H (cf_attributes c)).
Lemma users_elem H c k v : host_ok H -> (k, v) ∈ users H c <-> cf_attributes c !! k = Some v /\ v <> "".
Proof.
  intros (P & _). unfold users. rewrite elem_of_list_In, filter_In, <- elem_of_list_In, (P (cf_attributes c)), elem_of_map_to_list. cbn. unfold nonempty.
  destruct (String.eqb_spec v ""); cbn; split; intros [A B]; done.
Qed.
Lemma filter_nodup (f : string * string -> bool) l : NoDup (map fst l) -> NoDup (map fst (List.filter f l)).
Proof.
  induction l as [|a l IH]; intros N; [done|]. cbn in N. apply list.NoDup_cons in N as [N1 N2]. cbn. destruct (f a); [|by apply IH]. cbn. constructor; [|by apply IH].
  intros X. apply N1. change (map fst ?l) with (fst <$> l) in *. apply elem_of_list_fmap in X as (b & E & Hb). apply elem_of_list_fmap. exists b. split; [done|].
  apply elem_of_list_In, filter_In in Hb as [Hb _]. by apply elem_of_list_In.
Qed.
Lemma users_nodup H c : host_ok H -> NoDup (map fst (users H c)).
Proof.
  intros (P & _). apply filter_nodup. change (map fst ?l) with (fst <$> l). rewrite (P (cf_attributes c)). apply NoDup_fst_map_to_list.
Qed.
Lemma users_value H c k : host_ok H -> value_of (map (fun p : string * string => (p.1, VString p.2)) (users H c)) k =
  match cf_attributes c !! k with Some v => if decide (v = "") then None else Some (VString v) | None => None end.
Proof.
  intros O. assert (N : NoDup (map fst (map (fun p : string * string => (p.1, VString p.2)) (users H c)))) by (rewrite map_map; cbn; by apply users_nodup).
  assert (Q : forall w, value_of (map (fun p : string * string => (p.1, VString p.2)) (users H c)) k = Some w <-> exists v, w = VString v /\ cf_attributes c !! k = Some v /\ v <> "").
  { intros w. rewrite value_nodup by done. change (map ?f ?l) with (f <$> l). rewrite elem_of_list_fmap. split.
    - intros ([k' v] & [= -> ->] & X). apply users_elem in X; [|done]. by exists v.
    - intros (v & -> & A & B). exists (k, v). split; [done|]. by apply users_elem. }
  destruct (value_of (map _ _) k) as [w|] eqn:E.
  - destruct (proj1 (Q w) eq_refl) as (v & -> & -> & B). by destruct (decide (v = "")).
  - destruct (cf_attributes c !! k) as [v|] eqn:Ev; [|done]. destruct (decide (v = "")) as [|Ne]; [done|]. assert (X : None = Some (VString v)); [|done]. apply Q. by exists v.
Qed.
Definition user_host (H : host) (c : config) : bool := existsb (fun p : string * string => String.eqb p.1 "host.name") (users H c).
Definition env_host (H : host) : bool := existsb (fun a : kv => String.eqb a.1 "host.name" && nonempty (as_string a.2)) (ho_resource H).
Lemma user_host_true H c : host_ok H -> user_host H c = true <-> exists v, cf_attributes c !! "host.name" = Some v /\ v <> "".
Proof.
  intros O. unfold user_host. rewrite existsb_exists. split.
  - intros ([k v] & X & E). apply String.eqb_eq in E. cbn in E. subst k. exists v. apply (users_elem H c "host.name" v O). by apply elem_of_list_In.
  - intros (v & A). exists ("host.name", v). split; [|done]. apply elem_of_list_In. by apply users_elem.
Qed.
Lemma env_host_true H : host_ok H -> env_host H = true <-> exists v, env_attribute H "host.name" v /\ v <> "".
Proof.
  intros (_ & N & F). unfold env_host. rewrite existsb_exists. split.
  - intros ([k w] & X & E). apply andb_true_iff in E as [E1 E2]. apply String.eqb_eq in E1. cbn in E1, E2. subst k. apply elem_of_list_In in X.
    destruct (proj1 (list.Forall_forall _ _) F _ X) as (_ & s & Es). cbn in Es. subst w. exists s. split; [done|]. cbn in E2. unfold nonempty in E2. by destruct (String.eqb_spec s "").
  - intros (v & A & B). exists ("host.name", VString v). split; [by apply elem_of_list_In|]. cbn. unfold nonempty. by destruct (String.eqb_spec v "").
Qed.
(** The value of each key. *)
Definition own_value (k : string) : option value :=
  value_of [("telemetry.sdk.name", VString "launcher"); ("telemetry.sdk.language", VString "go"); ("telemetry.sdk.version", VString "1.35.0");
            ("telemetry.distro.name", VString "lightstep"); ("telemetry.distro.version", VString "1.35.0")] k.
Definition first_some {A} (a b : option A) : option A := match a with Some x => Some x | None => b end.
Definition resource_value (H : host) (c : config) (k : string) : option value :=
  first_some (if decide (k = "host.name" /\ env_host H = false /\ user_host H c = false) then VString <$> ho_name H else None)
 (first_some (match cf_attributes c !! k with Some v => if decide (v = "") then None else Some (VString v) | None => None end)
 (first_some (if decide (k = "service.version" /\ cf_version c <> "") then Some (VString (cf_version c)) else None)
 (first_some (if decide (k = "service.name" /\ cf_name c <> "") then Some (VString (cf_name c)) else None)
 (first_some (own_value k) (value_of (ho_resource H) k))))).
Lemma resource_elem H c k v : host_ok H -> (k, v) ∈ new_resource H c <-> k <> "" /\ resource_value H c k = Some v.
Proof.
  intros O. unfold new_resource. rewrite new_set_elem, <- value_last. destruct (decide (k = "")) as [->|Nk]; [rewrite value_filter_empty; split; [done|by intros [? _]]|].
  rewrite value_filter by done. assert (Q : forall (o : option value), (o = Some v <-> k <> "" /\ o = Some v)) by (intros o; tauto). rewrite <- Q. clear Q.
  fold (users H c). fold (user_host H c). fold (env_host H). rewrite !value_app. rewrite users_value by done.
  fold launcher_version. change (value_of [_; _; _; _; _] k) with (own_value k).
  assert (E1 : value_of (if env_host H || user_host H c then [] else match ho_name H with Some h => [("host.name", VString h)] | None => [] end) k =
    (if decide (k = "host.name" /\ env_host H = false /\ user_host H c = false) then VString <$> ho_name H else None)).
  { destruct (env_host H), (user_host H c); cbn [orb]; try (rewrite decide_False by (by intros (_ & ? & ?)); done).
    destruct (String.eqb_spec "host.name" k) as [<-|Ne].
    - rewrite decide_True by done. by destruct (ho_name H).
    - rewrite decide_False by (by intros (-> & _)). destruct (ho_name H); [|done]. unfold value_of. cbn [fold_left fst snd]. by destruct (String.eqb_spec "host.name" k). }
  assert (E2 : value_of (if nonempty (cf_version c) then [("service.version", VString (cf_version c))] else []) k =
    (if decide (k = "service.version" /\ cf_version c <> "") then Some (VString (cf_version c)) else None)).
  { unfold nonempty. destruct (String.eqb_spec (cf_version c) "") as [E|Ne]; cbn [negb].
    - rewrite decide_False; [done|]. by intros [_ ?].
    - unfold value_of. cbn [fold_left fst snd]. destruct (String.eqb_spec "service.version" k) as [<-|N2]; [by rewrite decide_True|]. rewrite decide_False; [done|]. by intros [-> _]. }
  assert (E3 : value_of (if nonempty (cf_name c) then [("service.name", VString (cf_name c))] else []) k =
    (if decide (k = "service.name" /\ cf_name c <> "") then Some (VString (cf_name c)) else None)).
  { unfold nonempty. destruct (String.eqb_spec (cf_name c) "") as [E|Ne]; cbn [negb].
    - rewrite decide_False; [done|]. by intros [_ ?].
    - unfold value_of. cbn [fold_left fst snd]. destruct (String.eqb_spec "service.name" k) as [<-|N2]; [by rewrite decide_True|]. rewrite decide_False; [done|]. by intros [-> _]. }
  rewrite E1, E2, E3. unfold resource_value, first_some. clear E1 E2 E3.
  set (a := if decide (k = "host.name" /\ _) then _ else None). set (b := match cf_attributes c !! k with Some _ => _ | None => None end).
  set (d := if decide (k = "service.version" /\ _) then _ else None). set (e := if decide (k = "service.name" /\ _) then _ else None).
  set (f := own_value k). set (g := value_of (ho_resource H) k). clearbody a b d e f g. destruct a, b, d, e, f; done.
Qed.
Lemma resource_nodup H c : NoDup (map fst (new_resource H c)).
Proof. apply sorted_nodup, new_set_sorted. Qed.
Lemma own_spec k v : own_value k = Some (VString v) <-> own_attribute k v.
Proof.
  unfold own_value, own_attribute. rewrite value_nodup by (apply (bool_decide_unpack _); vm_compute; exact I). rewrite !elem_of_cons, !elem_of_nil. split.
  - intros X. repeat match type of X with _ \/ _ => destruct X as [X|X] end; try done; injection X as -> ->; auto 10.
  - intros X. repeat match type of X with _ \/ _ => destruct X as [X|X] end; try done; injection X as -> ->; auto 10.
Qed.

(** ** Pipelines *)
Lemma cut_colon_spec s : (exists r, s = (cut_colon s).1 ++ String ":" r /\ (cut_colon s).2 = r) \/ (s = (cut_colon s).1 /\ (cut_colon s).2 = "").
Proof.
  induction s as [|c s IH]; [by right|]. cbn [cut_colon]. destruct (Ascii.eqb_spec c ":"%char) as [->|Ne]; [left; by exists s|].
  destruct (cut_colon s) as [a b]. cbn [fst snd] in *. destruct IH as [(r & E & Eb)|[E Eb]]; [left; exists r; split; [by rewrite E at 1|done]|right; split; [by rewrite E at 1|done]].
Qed.
Lemma entry_cut e ls : entry e ls <-> exists vm, builtin_versions (cut_colon e).1 = Some vm /\
  version_of vm (if String.eqb (cut_colon e).2 "" then default_version else (cut_colon e).2) = Some ls.
Proof.
  split.
  - unfold entry. rewrite !elem_of_cons, elem_of_nil. intros X. repeat match type of X with _ \/ _ => destruct X as [X|X] end; try done; injection X as -> ->; eexists; split; vm_compute; reflexivity.
  - intros (vm & B & V). unfold builtin_versions in B.
    assert (Q : forall n l, vm = [(default_version, l)] -> (cut_colon e).1 = n -> ls = l /\ (e = n \/ e = n ++ ":" \/ e = n ++ ":stable")).
    { intros n l -> En. unfold version_of in V. cbn [List.find fst snd] in V. destruct (String.eqb_spec (cut_colon e).2 "") as [E2|N2].
      - rewrite String.eqb_refl in V. injection V as <-. split; [done|]. destruct (cut_colon_spec e) as [(r & E & Er)|[E _]]; rewrite En in E; [|by left].
        rewrite E2 in Er. subst r. right. left. exact E.
      - destruct (String.eqb_spec default_version (cut_colon e).2) as [E3|]; [|done]. injection V as <-. split; [done|].
        destruct (cut_colon_spec e) as [(r & E & Er)|[E Er]]; rewrite En in E; [|done]. right. right. rewrite E. f_equal. rewrite Er in E3. by rewrite <- E3. }
    unfold entry. rewrite !elem_of_cons.
    destruct (String.eqb_spec (cut_colon e).1 "all") as [E|_]; [|destruct (String.eqb_spec (cut_colon e).1 "cputime") as [E|_]; [|destruct (String.eqb_spec (cut_colon e).1 "host") as [E|_];
      [|destruct (String.eqb_spec (cut_colon e).1 "runtime") as [E|_]; [|done]]]]; injection B as <-; destruct (Q _ _ eq_refl E) as (-> & [->|[->| ->]]); cbn [append]; repeat (first [by left|right]).
Qed.
Section world.
Context (W : world).
Lemma start_all_spec name fs w : exists new, start_all W name fs w = (w ++ new)%list /\ starts new = fs /\ Forall (fun a => (exists l, a = AStart l) \/ (exists e, a = AHandle e)) new /\
  ((forall w l, wd_start W w l = None) -> handled new = []).
Proof.
  revert w. induction fs as [|f fs IH]; intros w; cbn [start_all].
  - exists []. rewrite app_nil_r. split; [done|]. split; [done|]. split; [constructor|done].
  - destruct (wd_start W w f) as [e|] eqn:E.
    + destruct (IH ((w ++ [AStart f]) ++ [AHandle ("failed to start " ++ name ++ ": " ++ e)])%list) as (new & -> & S & F & N).
      exists (AStart f :: AHandle ("failed to start " ++ name ++ ": " ++ e) :: new). rewrite <- !app_assoc. split; [done|]. split; [by rewrite <- S|].
      split; [constructor; [left; by eexists|]; constructor; [right; by eexists|done]|]. intros X. by rewrite X in E.
    + destruct (IH (w ++ [AStart f])%list) as (new & -> & S & F & N). exists (AStart f :: new). rewrite <- !app_assoc. split; [done|]. split; [by rewrite <- S|].
      split; [constructor; [left; by eexists|done]|]. intros X. by apply N.
Qed.
Lemma start_libraries_spec libs w : exists new ls, start_libraries W libs w = (w ++ new)%list /\ wanted libs ls /\ starts new = ls /\
  Forall (fun a => (exists l, a = AStart l) \/ (exists e, a = AHandle e)) new /\
  ((forall w l, wd_start W w l = None) -> length (handled new) = length (List.filter (fun e => match builtin_versions (cut_colon e).1 with
     Some vm => match version_of vm (if String.eqb (cut_colon e).2 "" then default_version else (cut_colon e).2) with Some _ => false | None => true end | None => true end) libs)).
Proof.
  revert w. induction libs as [|e libs IH]; intros w; cbn [start_libraries].
  - exists [], []. rewrite app_nil_r. split; [done|]. split; [constructor|]. split; [done|]. split; [constructor|done].
  - pose proof (entry_cut e) as EC. cbn [List.filter]. destruct (cut_colon e) as [name v]. cbn [fst snd] in *.
    destruct (builtin_versions name) as [vm|] eqn:B; [destruct (version_of vm (if String.eqb v "" then default_version else v)) as [fs|] eqn:V|].
    + destruct (start_all_spec name fs w) as (n1 & -> & S1 & F1 & N1). destruct (IH (w ++ n1)%list) as (n2 & ls & -> & Wd & S2 & F2 & N2).
      exists (n1 ++ n2)%list, (fs ++ ls)%list. rewrite <- app_assoc. split; [done|]. split; [apply wanted_known; [apply EC; by exists vm|done]|].
      split; [unfold starts in *; rewrite omap_app; congruence|]. split; [by apply Forall_app_2|]. intros X. unfold handled in *. rewrite omap_app, app_length, (N1 X), (N2 X). done.
    + destruct (IH (w ++ [AHandle ("unrecognized builtin version: " ++ name ++ ": " ++ (if String.eqb v "" then default_version else v))])%list) as (n2 & ls & -> & Wd & S2 & F2 & N2).
      eexists (_ :: n2), ls. rewrite <- app_assoc. split; [reflexivity|]. split; [apply wanted_unknown; [|done]; intros x X; apply EC in X as (vm' & [= <-] & V'); congruence|].
      split; [done|]. split; [constructor; [right; by eexists|done]|]. intros X. cbn. f_equal. by apply N2.
    + destruct (IH (w ++ [AHandle ("unrecognized builtin: " ++ name)])%list) as (n2 & ls & -> & Wd & S2 & F2 & N2).
      eexists (_ :: n2), ls. rewrite <- app_assoc. split; [reflexivity|]. split; [apply wanted_unknown; [|done]; intros x X; apply EC in X as (vm' & ? & V'); congruence|].
      split; [done|]. split; [constructor; [right; by eexists|done]|]. intros X. cbn. f_equal. by apply N2.
Qed.
Lemma propagator_spec s p : propagator s = Some p <-> propagator_name s p.
Proof.
  unfold propagator, propagator_name. rewrite !elem_of_cons, elem_of_nil. split.
  - destruct (String.eqb_spec s "b3") as [->|]; [intros [= <-]; auto|]. destruct (String.eqb_spec s "baggage") as [->|]; [intros [= <-]; auto|].
    destruct (String.eqb_spec s "tracecontext") as [->|]; [intros [= <-]; auto|]. destruct (String.eqb_spec s "ottrace") as [->|]; [intros [= <-]; auto 10|done].
  - intros X. repeat match type of X with _ \/ _ => destruct X as [X|X] end; try done; by injection X as -> ->.
Qed.
Lemma recognised_spec l ps : recognised l ps <-> omap propagator l = ps.
Proof.
  split.
  - intros R. induction R as [|s p r ps P R IH|s r ps N R IH]; [done| |]; cbn.
    + apply propagator_spec in P. rewrite P. by rewrite IH.
    + destruct (propagator s) as [p|] eqn:E; [apply propagator_spec in E; by destruct (N p)|done].
  - intros <-. induction l as [|s l IH]; [constructor|]. cbn. destruct (propagator s) as [p|] eqn:E; [apply rec_known; [by apply propagator_spec|done]|].
    apply rec_unknown; [|done]. intros p X. apply propagator_spec in X. congruence.
Qed.
Lemma exporter_reaches c : pc_tls c = None -> reaches (pc_endpoint c) (pc_insecure c) (pc_headers c) (exporter_config c).
Proof.
  intros T. unfold reaches, exporter_config, xc_new, secure_option. rewrite T. destruct (pc_insecure c); cbn; by rewrite (right_id_L ∅ (∪)).
Qed.
Lemma tempo_spec p : match tempo_options p with
  | Some sel => exists s a, preference (lower p) s a /\ selects sel s a
  | None => forall s a, ~ preference (lower p) s a
  end.
Proof.
  unfold tempo_options. cbv zeta. set (l := lower p). clearbody l. unfold preference.
  destruct (String.eqb_spec l "delta") as [->|N1]; [exists DeltaTempo, DeltaTempo; split; [repeat (first [by left|right])|done]|].
  destruct (String.eqb_spec l "stateless") as [->|N2]; [exists DeltaTempo, CumulativeTempo; split; [repeat (first [by left|right])|done]|].
  destruct (String.eqb_spec l "lowmemory") as [->|N3]; [exists DeltaTempo, CumulativeTempo; split; [repeat (first [by left|right])|done]|]. cbn [orb].
  destruct (String.eqb_spec l "") as [->|N4]; [exists CumulativeTempo, CumulativeTempo; split; [repeat (first [by left|right])|done]|].
  destruct (String.eqb_spec l "cumulative") as [->|N5]; [exists CumulativeTempo, CumulativeTempo; split; [repeat (first [by left|right])|done]|]. cbn [orb].
  intros s a. rewrite !elem_of_cons, elem_of_nil. intros X. repeat match type of X with _ \/ _ => destruct X as [X|X] end; try done; by injection X as ->.
Qed.
End world.
(** ** The launcher *)
Section launcher.
Context (H : host) (W : world).
Lemma tracing_shape c r w : exists new res, setup_tracing W c r w = ((w ++ new)%list, res) /\
  ((cf_span_endpoint c = "" /\ new = [] /\ res = inl None) \/
   (cf_span_endpoint c <> "" /\ exists x, reaches (cf_span_endpoint c) (cf_span_insecure c) (cf_headers c) x /\
      ((new = [ATraceExporter x] /\ (exists e, res = inr e) /\ (wd_trace_exporter W x <> None \/ recognised (cf_propagators c) [])) \/
       (exists ps, new = [ATraceExporter x; ASetPropagator ps; ASetTracer r] /\ res = inl (Some false) /\ recognised (cf_propagators c) ps /\ ps <> [] /\ wd_trace_exporter W x = None)))).
Proof.
  unfold setup_tracing. destruct (String.eqb_spec (cf_span_endpoint c) "") as [E|N]; [exists [], (inl None); rewrite app_nil_r; split; [done|by left]|].
  set (pc := PipeCfg _ _ _ _ _ _ _ _ _ _). unfold new_trace_pipeline. assert (R : reaches (cf_span_endpoint c) (cf_span_insecure c) (cf_headers c) (exporter_config pc)) by (by apply (exporter_reaches pc)).
  destruct (wd_trace_exporter W (exporter_config pc)) as [e|] eqn:X.
  - eexists _, _. split; [reflexivity|]. right. split; [done|]. exists (exporter_config pc). split; [done|]. left. split; [done|]. split; [by eexists|]. left. by rewrite X.
  - unfold configure_propagators. cbn [pc_propagators pc]. unfold pc at 1. cbn [pc_propagators]. destruct (omap propagator (cf_propagators c)) as [|p ps] eqn:O.
    + eexists _, _. split; [reflexivity|]. right. split; [done|]. exists (exporter_config pc). split; [done|]. left. split; [done|]. split; [by eexists|]. right. by apply recognised_spec.
    + eexists [_; _; _], _. split; [rewrite <- !app_assoc; reflexivity|]. right. split; [done|]. exists (exporter_config pc). split; [done|]. right. exists (p :: ps). split; [done|].
      split; [done|]. split; [by apply recognised_spec|]. done.
Qed.
Lemma metrics_shape c r w : exists new res, setup_metrics W c r w = ((w ++ new)%list, res) /\
  ((cf_metrics c = false /\ new = [] /\ res = inl None) \/
   (cf_metrics c = true /\ new = [] /\ (exists e, res = inr e) /\
      (cf_period c <> "" /\ (forall p, wd_duration W (cf_period c) = Some p -> p <= 0) \/ forall s a, ~ preference (lower (cf_tempo c)) s a)) \/
   (cf_metrics c = true /\ exists x, reaches (cf_metric_endpoint c) (cf_metric_insecure c) (cf_headers c) x /\
      ((new = [AMetricExporter x] /\ (exists e, res = inr e) /\ wd_metric_exporter W x <> None) \/
       (exists libs ls p sel s a, new = AMetricExporter x :: libs ++ [ASetMeter r p sel] /\ res = inl (Some true) /\ wd_metric_exporter W x = None /\
          preference (lower (cf_tempo c)) s a /\ selects sel s a /\ (cf_period c = "" /\ p = 30000000000 \/ cf_period c <> "" /\ wd_duration W (cf_period c) = Some p /\ 0 < p) /\
          Forall (fun a => (exists l, a = AStart l) \/ (exists e, a = AHandle e)) libs /\ starts libs = ls /\
          (if cf_builtins c then wanted (cf_libraries c) ls else ls = [] /\ libs = [])))))%list.
Proof.
  unfold setup_metrics. destruct (cf_metrics c) eqn:M; [cbn [negb]|exists [], (inl None); rewrite app_nil_r; split; [done|by left]].
  set (pc := PipeCfg _ _ _ _ _ _ _ _ _ _). unfold new_metrics_pipeline. assert (R : reaches (cf_metric_endpoint c) (cf_metric_insecure c) (cf_headers c) (exporter_config pc)) by (by apply (exporter_reaches pc)).
  change (pc_period pc) with (cf_period c). change (pc_tempo pc) with (cf_tempo c). change (pc_builtins pc) with (cf_builtins c). change (pc_libraries pc) with (cf_libraries c).
  change (pc_resource pc) with r.
  assert (P : match reporting_period W (cf_period c) with inr _ => cf_period c <> "" /\ (forall p, wd_duration W (cf_period c) = Some p -> p <= 0)
              | inl p => cf_period c = "" /\ p = 30000000000 \/ cf_period c <> "" /\ wd_duration W (cf_period c) = Some p /\ 0 < p end).
  { unfold reporting_period. destruct (String.eqb_spec (cf_period c) "") as [->|Np]; [by left|]. destruct (wd_duration W (cf_period c)) as [p|]; [|done].
    destruct (Z.leb_spec p 0); [split; [done|by intros q [= <-]]|right; split; [done|]; split; [done|lia]]. }
  destruct (reporting_period W (cf_period c)) as [p|e]; [|exists [], (inr e); rewrite app_nil_r; split; [done|]; right; left; split; [done|]; split; [done|]; split; [by eexists|by left]].
  pose proof (tempo_spec (cf_tempo c)) as T. destruct (tempo_options (cf_tempo c)) as [sel|].
  2: { eexists [], _. rewrite app_nil_r. split; [reflexivity|]. right; left. split; [done|]. split; [done|]. split; [by eexists|by right]. }
  destruct T as (s & a & T1 & T2). destruct (wd_metric_exporter W (exporter_config pc)) as [e|] eqn:X.
  - eexists _, _. split; [reflexivity|]. right; right. split; [done|]. exists (exporter_config pc). split; [done|]. left. split; [done|]. split; [by eexists|]. by rewrite X.
  - destruct (cf_builtins c) eqn:B.
    + destruct (start_libraries_spec W (cf_libraries c) (w ++ [AMetricExporter (exporter_config pc)])%list) as (new & ls & E & Wd & S & F & _). rewrite E.
      eexists (AMetricExporter (exporter_config pc) :: new ++ [ASetMeter r p sel])%list, _. split; [rewrite <- !app_assoc; reflexivity|]. right; right. split; [done|]. exists (exporter_config pc).
      split; [done|]. right. exists new, ls, p, sel, s, a. by auto 10.
    + eexists (AMetricExporter (exporter_config pc) :: [] ++ [ASetMeter r p sel])%list, _. split; [rewrite <- !app_assoc; reflexivity|]. right; right. split; [done|]. exists (exporter_config pc).
      split; [done|]. right. exists [], [], p, sel, s, a. repeat (split; [first [done|constructor]|]). done.
Qed.
End launcher.
