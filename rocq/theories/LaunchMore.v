(** More about what a launcher sets up: the whole of the actions, in terms of the settings. *)
From Coq Require Import ZArith Bool String Ascii Lia.
From stdpp Require Import base list option strings gmap fin_maps.
From Verif Require Import Num Attr AttrProofs View ExpSpec TraceSpec TraceProofs Pipe Launch LaunchSpec LaunchProofs LaunchProps.
Local Open Scope Z_scope.
Local Open Scope string_scope.

Lemma fold_handler opts c : cf_handler (fold_left apply_opt opts c) =
  match by_option says_handler opts with Some [] => None | Some (b :: _) => Some b | None => cf_handler c end.
Proof.
  induction opts as [|o opts IH] using rev_ind; [done|]. rewrite fold_left_app, by_option_snoc. cbn [fold_left]. destruct o; cbn [apply_opt says_handler]; try exact IH.
  by destruct nil.
Qed.
Lemma handler_of H opts : (match cf_handler (with_token H (new_config H opts).1) with Some h => [h] | None => [] end) = default [false] (by_option says_handler opts).
Proof.
  assert (E : cf_handler (with_token H (new_config H opts).1) = cf_handler (new_config H opts).1) by (unfold with_token; by destruct (_ && _)). rewrite E. unfold new_config.
  destruct (process_env H) as [c e]. cbn [fst]. rewrite fold_handler.
  assert (S : forall b l, by_option says_handler opts = Some (b :: l) -> l = []).
  { intros b l X. unfold by_option in X. apply last_Some_elem_of in X. apply elem_of_list_omap in X as (o & _ & X). destruct o; try done. destruct nil; try done. by injection X as _ <-. }
  destruct (by_option says_handler opts) as [[|b l]|]; try done. by rewrite (S _ _ eq_refl).
Qed.
(** The parts of a run that returns a launcher. *)
Definition only_fatal (w : list act) : Prop := w = [] \/ exists e, w = [AFatal e].
Lemma configure_parts H W opts w l : env_ok H -> configure H W opts = Ret w l -> let c := la_config l in let r := la_resource l in
  exists pre n1 f1 n2 f2 r1 r2, w = (((pre ++ n1) ++ f1) ++ n2 ++ f2)%list /\ only_fatal f1 /\ only_fatal f2 /\
    starts pre = [] /\ propagators_set pre = [] /\ selectors pre = [] /\ meters pre = [] /\ tracers pre = [] /\ handlers pre = default [false] (by_option says_handler opts) /\
    setup_tracing W c r pre = ((pre ++ n1)%list, r1) /\ setup_metrics W c r ((pre ++ n1) ++ f1)%list = ((((pre ++ n1) ++ f1) ++ n2)%list, r2).
Proof.
  intros O E. destruct (configure_returns H W opts w l O E) as (Ec & _ & pre & S & P1 & P2 & P3 & P4 & _ & P5 & P6 & P7 & P8). rewrite Ec, handler_of in P8. clear Ec.
  cbv zeta. set (c := la_config l) in *. set (r := la_resource l) in *.
  destruct (tracing_shape W c r pre) as (n1 & r1 & E1 & _). cbn [setup_all] in S. rewrite E1 in S.
  assert (X : exists fs f1, setup_all c [setup_metrics W c r] fs ((pre ++ n1) ++ f1)%list = Ret w (la_shutdown l) /\ only_fatal f1).
  { destruct r1 as [[b|]|e]; [| |unfold fatal in S; destruct (cf_custom c) eqn:K; [|done]; cbn [bind] in S].
    - exists [b], []. rewrite app_nil_r. split; [done|by left].
    - exists [], []. rewrite app_nil_r. split; [done|by left].
    - exists [], [AFatal ("setup error: " ++ e)]. split; [cbn [setup_all]; unfold fatal; rewrite K; exact S|]. right. by eexists. }
  destruct X as (fs & f1 & S1 & F1). clear S. destruct (metrics_shape W c r ((pre ++ n1) ++ f1)%list) as (n2 & r2 & E2 & _). cbn [setup_all] in S1. rewrite E2 in S1.
  assert (Y : exists f2, w = (((pre ++ n1) ++ f1) ++ n2 ++ f2)%list /\ only_fatal f2).
  { destruct r2 as [[b|]|e]; [| |unfold fatal in S1; destruct (cf_custom c); [|done]; cbn [bind] in S1]; injection S1 as <- _.
    - exists []. rewrite app_nil_r. split; [done|by left].
    - exists []. rewrite !app_nil_r. split; [done|by left].
    - exists [AFatal ("setup error: " ++ e)]. split; [by rewrite !app_assoc|]. right. by eexists. }
  destruct Y as (f2 & -> & F2). exists pre, n1, f1, n2, f2, r1, r2. by repeat split.
Qed.

(** C51: the error handler of the process is set once, as the last option says, before anything is set up. *)
Theorem C51_handler H W opts w l : env_ok H -> configure H W opts = Ret w l -> handlers w = default [false] (by_option says_handler opts).
Proof.
  intros O E. destruct (configure_parts H W opts w l O E) as (pre & n1 & f1 & n2 & f2 & r1 & r2 & -> & F1 & F2 & _ & _ & _ & _ & _ & P & E1 & E2).
  unfold handlers in *. rewrite !omap_app, P.
  assert (Q1 : omap (fun a => match a with ASetHandler b => Some b | _ => None end) f1 = []) by (destruct F1 as [->|(e & ->)]; done).
  assert (Q2 : omap (fun a => match a with ASetHandler b => Some b | _ => None end) f2 = []) by (destruct F2 as [->|(e & ->)]; done). rewrite Q1, Q2.
  destruct (tracing_shape W (la_config l) (la_resource l) pre) as (m1 & s1 & X1 & C1). rewrite E1 in X1. injection X1 as X1 _. apply app_inv_head in X1. subst m1.
  destruct (metrics_shape W (la_config l) (la_resource l) ((pre ++ n1) ++ f1)%list) as (m2 & s2 & X2 & C2). rewrite E2 in X2. injection X2 as X2 _. apply app_inv_head in X2. subst m2.
  assert (Q3 : omap (fun a => match a with ASetHandler b => Some b | _ => None end) n1 = []) by (destruct C1 as [(_ & -> & _)|(_ & x & _ & [(-> & _)|(ps & -> & _)])]; done).
  assert (Q4 : omap (fun a => match a with ASetHandler b => Some b | _ => None end) n2 = []).
  { destruct C2 as [(_ & -> & _)|[(_ & -> & _)|(_ & x & _ & [(-> & _)|(libs & ls & p & sel & s & a & -> & _ & _ & _ & _ & _ & F & _)])]]; try done. clear -F.
    cbn. rewrite omap_app. cbn. rewrite app_nil_r. induction F as [|y k [(z & ->)|(z & ->)] F IH]; done. }
  rewrite Q3, Q4. by rewrite !app_nil_r.
Qed.
(** The propagators that are set are those recognised, if the tracer provider is set. *)
Theorem C51_propagators H W opts w l : env_ok H -> configure H W opts = Ret w l ->
  match tracers w with [] => propagators_set w = [] | _ => exists ps, propagators_set w = [ps] /\ ps <> [] /\ recognised (cf_propagators (la_config l)) ps end.
Proof.
  intros O E. destruct (configure_parts H W opts w l O E) as (pre & n1 & f1 & n2 & f2 & r1 & r2 & -> & F1 & F2 & _ & P & _ & _ & P' & _ & E1 & E2).
  unfold propagators_set, tracers in *. rewrite !omap_app, P, P'.
  destruct (tracing_shape W (la_config l) (la_resource l) pre) as (m1 & s1 & X1 & C1). rewrite E1 in X1. injection X1 as X1 _. apply app_inv_head in X1. subst m1.
  destruct (metrics_shape W (la_config l) (la_resource l) ((pre ++ n1) ++ f1)%list) as (m2 & s2 & X2 & C2). rewrite E2 in X2. injection X2 as X2 _. apply app_inv_head in X2. subst m2.
  assert (Q4 : omap (fun a => match a with ASetPropagator b => Some b | _ => None end) n2 = [] /\ omap (fun a => match a with ASetTracer b => Some b | _ => None end) n2 = []).
  { destruct C2 as [(_ & -> & _)|[(_ & -> & _)|(_ & x & _ & [(-> & _)|(libs & ls & p & sel & s & a & -> & _ & _ & _ & _ & _ & F & _)])]]; try done. clear -F.
    cbn. rewrite !omap_app. cbn. rewrite !app_nil_r. induction F as [|y k [(z & ->)|(z & ->)] F IH]; done. }
  destruct Q4 as [-> ->]. destruct F1 as [->|(e1 & ->)], F2 as [->|(e2 & ->)]; cbn; rewrite !app_nil_r;
    (destruct C1 as [(_ & -> & _)|(_ & x & _ & [(-> & _)|(ps & -> & _ & R1 & R2 & _)])]; [done|done|by exists ps]).
Qed.
(** The meter provider selects the temporality of the preference; the libraries started are those wanted, if it is set. *)
Theorem C51_meter H W opts w l : env_ok H -> configure H W opts = Ret w l ->
  match meters w with
  | [] => selectors w = [] /\ starts w = []
  | _ => exists sel s a, selectors w = [sel] /\ selects sel s a /\ accepts (cf_tempo (la_config l)) s a /\
         (if cf_builtins (la_config l) then wanted (cf_libraries (la_config l)) (starts w) else starts w = [])
  end.
Proof.
  intros O E. destruct (configure_parts H W opts w l O E) as (pre & n1 & f1 & n2 & f2 & r1 & r2 & -> & F1 & F2 & P1 & _ & P2 & P3 & _ & _ & E1 & E2).
  unfold selectors, meters, starts in *. rewrite !omap_app, P1, P2, P3.
  destruct (tracing_shape W (la_config l) (la_resource l) pre) as (m1 & s1 & X1 & C1). rewrite E1 in X1. injection X1 as X1 _. apply app_inv_head in X1. subst m1.
  destruct (metrics_shape W (la_config l) (la_resource l) ((pre ++ n1) ++ f1)%list) as (m2 & s2 & X2 & C2). rewrite E2 in X2. injection X2 as X2 _. apply app_inv_head in X2. subst m2.
  assert (Q : omap (fun a => match a with AStart b => Some b | _ => None end) n1 = [] /\ omap (fun a => match a with ASetMeter _ _ b => Some b | _ => None end) n1 = [] /\
              omap (fun a => match a with ASetMeter r p _ => Some (r, p) | _ => None end) n1 = []) by (destruct C1 as [(_ & -> & _)|(_ & x & _ & [(-> & _)|(ps & -> & _)])]; done).
  destruct Q as (-> & -> & ->).
  assert (Q : omap (fun a => match a with AStart b => Some b | _ => None end) f1 = [] /\ omap (fun a => match a with ASetMeter _ _ b => Some b | _ => None end) f1 = [] /\
              omap (fun a => match a with ASetMeter r p _ => Some (r, p) | _ => None end) f1 = []) by (destruct F1 as [->|(e1 & ->)]; done).
  destruct Q as (-> & -> & ->).
  assert (Q : omap (fun a => match a with AStart b => Some b | _ => None end) f2 = [] /\ omap (fun a => match a with ASetMeter _ _ b => Some b | _ => None end) f2 = [] /\
              omap (fun a => match a with ASetMeter r p _ => Some (r, p) | _ => None end) f2 = []) by (destruct F2 as [->|(e1 & ->)]; done).
  destruct Q as (-> & -> & ->). cbn [app]. rewrite !app_nil_r.
  destruct C2 as [(_ & -> & _)|[(_ & -> & _)|(_ & x & _ & [(-> & _)|(libs & ls & p & sel & s & a & -> & _ & _ & Pr & Sl & _ & F & Es & Wd)])]]; try done.
  cbn [omap list_omap]. rewrite !omap_app. cbn [omap list_omap].
  assert (Q : omap (fun a => match a with ASetMeter _ _ b => Some b | _ => None end) libs = [] /\ omap (fun a => match a with ASetMeter r p _ => Some (r, p) | _ => None end) libs = []).
  { clear -F. induction F as [|y k [(z & ->)|(z & ->)] F IH]; done. }
  destruct Q as (-> & ->). cbn [app]. exists sel, s, a. split; [done|]. split; [done|]. split; [by apply accepts_lower|]. rewrite app_nil_r. unfold starts in Es. rewrite Es.
  by destruct (cf_builtins (la_config l)); [|destruct Wd].
Qed.
(** What the exporter of a pipeline is given: also the TLS settings of the user, when the connection is not insecure. *)
Theorem C51_exporter c : let x := exporter_config c in
  xc_endpoint x = pc_endpoint c /\ xc_headers x = pc_headers c /\ xc_compression x = "gzip" /\
  (pc_insecure c = true -> tls_insecure (xc_tls x) = true) /\
  (pc_insecure c = false -> forall t, pc_tls c = Some t -> xc_tls x = t) /\
  (pc_insecure c = false -> pc_tls c = None -> tls_insecure (xc_tls x) = false /\ tls_other (xc_tls x) = "").
Proof.
  cbv zeta. unfold exporter_config, xc_new, secure_option. destruct (pc_insecure c), (pc_tls c) as [t|]; cbn; rewrite (right_id_L ∅ (∪)); repeat (split; [done|]); try done; try (split; [|done]); by intros _ ? [= <-].
Qed.
Example Ex51x : let c := PipeCfg "h:1" false {[ "k" := "v" ]} [] "" [] false [] "" (Some (Tls true "ca")) in xc_tls (exporter_config c) = Tls true "ca".
Proof. reflexivity. Qed.

(** C48: with a logger of the user every signal is shut down in order, each once, and each failure is reported. *)
Theorem C48_reports W l w : cf_custom (la_config l) = true -> exists new, launcher_shutdown W l w = Ret (w ++ new)%list tt /\ stopped W (la_shutdown l) w new.
Proof.
  intros K. unfold launcher_shutdown. generalize (la_shutdown l). intros fs. revert w. induction fs as [|f fs IH]; intros w; cbn [shutdown_each].
  - exists []. rewrite app_nil_r. split; [done|constructor].
  - destruct (wd_shutdown W w f) as [e|] eqn:X.
    + unfold fatal. rewrite K. cbn [bind]. destruct (IH (w ++ [AShutdown f; AFatal ("failed to stop exporter: " ++ e)])%list) as (new & E & S).
      exists (AShutdown f :: AFatal ("failed to stop exporter: " ++ e) :: new). rewrite <- !app_assoc. cbn [app]. rewrite E. split; [by rewrite <- !app_assoc|].
      eapply stopped_failed; [done|by eexists|done].
    + destruct (IH (w ++ [AShutdown f])%list) as (new & E & S). exists (AShutdown f :: new). rewrite E. split; [by rewrite <- !app_assoc|]. by constructor.
Qed.
Example Ex48r : stopped ExLaunch.fine [false; true] [] [AShutdown false; AFatal "failed to stop exporter: late"; AShutdown true].
Proof. eapply stopped_failed; [reflexivity|by exists "failed to stop exporter: "|]. apply stopped_ok; [reflexivity|constructor]. Qed.
Example Ex51w : let w := ExLaunch.w in handlers w = [false] /\ propagators_set w = [[PropTraceContext; PropB3]] /\ starts w = [LHost; LRuntime; LCputime] /\ length (meters w) = 1%nat.
Proof. vm_compute. auto. Qed.

Print Assumptions C51_handler.
Print Assumptions C51_propagators.
Print Assumptions C51_meter.
Print Assumptions C51_exporter.
Print Assumptions C48_reports.
