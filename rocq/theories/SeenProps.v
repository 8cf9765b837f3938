(** C70: what OTLP requests show of the numbers that callbacks observed. *)
From Coq Require Import ZArith Bool String Lia.
From stdpp Require Import base list list_numbers option strings.
From Verif Require Import Per PerSpec Num Agg AggSpec AggProofs Attr View Data AggSync Exp ExpSpec SentSpec ShapeSpec
  Async AsyncSpec Conc ConcSpec ConcProps Deliv DelivSpec DelivProofs DelivProps Seen SeenSpec SeenProofs.
Local Open Scope Z_scope.
Notation values := SentSpec.values.
Notation data_of := DelivSpec.data_of.

Section props.
(** Any provider: instruments and views, the reader of each view, the callbacks' declarations, descriptors with different names; any times and answers. *)
Context (c : acfg) (vr : nat -> nat) (decl : list (list nat)) (desc : nat -> descriptor) (mono : nat -> bool) (lib : scope) (res : string).
Context (H : hlib) (rs : string -> list kv) (clock : nat -> sequence) (answer : nat -> pmetrics -> option error) (rd : nat).
Notation seen := (seen c desc mono lib res H rs clock answer).
Notation run := (drun (N:=Int64) c vr decl rd).
Notation callbacks_wait l := (forall tr1 tr2 s, conc_steps rd l = tr1 ++ tr2 -> reached c vr decl tr1 s -> waited rd s).
Notation usable l := (sound c /\ callbacks_wait l /\ typed_observations (conc_steps rd l) /\ distinct_streams c vr desc rd /\
  (forall n, times_ok (clock n)) /\ a_set (rs res) /\ with_types (rs res)).

(** At any moment: as many requests as exports begun; request [n] has the resource of the provider and one scope, that of the meter.  Each of its metrics is of
    one stream of the reader: its name, unit and description, its type, monotonicity and temporality; it is not empty; each of its points ends at the time of
    collection [n], and starts at the collection before it (delta) or at the start of the provider (cumulative), or nowhere (gauge).  The telemetry counts
    the points of the request and reports what the pipeline answered to it. *)
Theorem C70_shape : forall l (f : sys Int64), run (sys_init c) l = Some f -> typed_observations (conc_steps rd l) ->
  (forall n, times_ok (clock n)) -> a_set (rs res) -> with_types (rs res) ->
  exists os, seen f = Some os /\ length os = length (given_in_order f) /\
  forall n o, os !! n = Some o ->
  resource_says (rs res) (px_resource o.1.1) /\ o.2 = answer n o.1.1 /\
  (exists t, o.1.2 = [t] /\ telemetry_says "num_points" (length (all_points o.1.1)) o.2 t) /\
  exists q, px_scopes o.1.1 = [q] /\ ps_name q = sc_name lib /\ ps_version q = sc_version lib /\ ps_schema q = sc_schema lib /\
  forall m, m ∈ ps_metrics q -> exists v w, a_views c !! v = Some w /\ vr v = rd /\
    pm_name m = i_name (desc v) /\ pm_unit m = i_unit (desc v) /\ pm_desc m = i_desc (desc v) /\
    let kd := if av_gauge w then KGauge else KSum in
    right_type kd (mono v) (stateful w) (pm_data m) /\ points_of (pm_data m) <> [] /\ Forall (right_times kd (stateful w) (clock n)) (points_of (pm_data m)).
Proof.
  intros l f R T C R1 R2. destruct (seen_says c vr decl desc mono lib res H rs clock answer rd l f R T C R1 R2) as (os & E & F).
  exists os. split; [done|]. split; [by rewrite (Forall2_length _ _ _ F)|]. intros n o O.
  destruct (request_of _ _ _ _ _ _ _ _ _ _ _ _ _ _ _ _ _ R F O) as (q & k & DT & Rk & OK & X).
  destruct o as [[x ts] e]. destruct X as (Q1 & Q2 & Q3 & Q4). cbn [fst snd] in *. split; [done|]. split; [done|].
  cbn [Seen.seen_data mt_scopes vis] in Q2. inversion Q2 as [|? p ? ps (S1 & S2 & S3 & M) F' E1 E2]; subst. inversion F'; subst. symmetry in E2.
  cbn [os_insts vis os_lib] in *. destruct (metrics_shape c desc mono H (clock n) _ _ (fun o Ho => proj1 (OK o Ho)) M) as [A B]. split.
  - destruct Q4 as (t & T1 & T2). exists t. split; [done|]. replace (length (all_points x)) with (points_given (Seen.seen_data c desc mono lib res k (clock n))); [done|].
    unfold points_given, all_points. rewrite E2. cbn [Seen.seen_data mt_scopes vis map foldr os_insts flat_map]. rewrite app_nil_r, Nat.add_0_r. exact B.
  - exists p. split_and!; try done. intros m Hm. destruct (A m Hm) as (o & w & Ho & W & MF). exists o.1, w. destruct (OK o Ho) as (_ & V & _). split; [done|]. split; [done|]. exact MF.
Qed.
(** When the clock gives each collection the end of the one before it as its beginning (C30), the delta points of consecutive requests are adjacent in time. *)
Theorem C70_intervals : forall l (f : sys Int64), run (sys_init c) l = Some f -> typed_observations (conc_steps rd l) ->
  (forall n, times_ok (clock n)) -> a_set (rs res) -> with_types (rs res) -> distinct_streams c vr desc rd -> (forall n, sq_last (clock (S n)) = sq_now (clock n)) ->
  exists os, seen f = Some os /\
  forall n o o' v w k k' p p', os !! n = Some o -> os !! S n = Some o' -> a_views c !! v = Some w -> vr v = rd -> stateful w = true -> av_gauge w = false ->
  points_under (i_name (desc v)) k o.1.1 p -> points_under (i_name (desc v)) k' o'.1.1 p' -> p'.1.2 = p.2.
Proof.
  intros l f R T C R1 R2 D CH. destruct (C70_shape l f R T C R1 R2) as (os & E & _ & G). exists os. split; [done|].
  assert (P : forall n o v w k p, os !! n = Some o -> a_views c !! v = Some w -> vr v = rd -> points_under (i_name (desc v)) k o.1.1 p ->
    right_times (if av_gauge w then KGauge else KSum) (stateful w) (clock n) p).
  { intros n o v w k p Ho Hw Hv (s & m & Hs & Hm & N & Hp & _). destruct (G n o Ho) as (_ & _ & _ & q & Q & _ & _ & _ & M). rewrite Q in Hs. apply elem_of_list_singleton in Hs as ->.
    destruct (M m Hm) as (v' & w' & Hw' & Hv' & N' & _ & _ & _ & _ & X).
    assert (v' = v) as -> by (apply D; [by eapply lookup_lt_Some|by eapply lookup_lt_Some|done|done|congruence]).
    assert (w' = w) as -> by congruence. exact (proj1 (list.Forall_forall _ _) X p Hp). }
  intros n o o' v w k k' p p' Ho Ho' Hw Hv Hst Hg Hp Hp'. destruct (P _ _ _ _ _ _ Ho Hw Hv Hp) as (E1 & _), (P _ _ _ _ _ _ Ho' Hw Hv Hp') as (_ & E2).
  rewrite Hst, Hg in E2. by rewrite E1, E2, CH.
Qed.
(** There is one request for each production given to the exporter, in order, and no panic.  Request number [n] shows, of each cumulative stream, what its
    instruments were told in one whole collection: with room for all attribute sets, exactly one number for each attribute set with observations -
    the sum of the last numbers observed of the series that the view merges or, for a gauge, one of them - and none for others. *)
Theorem C70_cumulative : forall l (f : sys Int64), usable l -> run (sys_init c) l = Some f ->
  exists os, seen f = Some os /\ length os = length (given_in_order f) /\
  forall n o, os !! n = Some o -> exists q k, data_of f n q k /\
  forall v w, a_views c !! v = Some w -> vr v = rd -> stateful w = false -> (1 <= av_limit w)%nat ->
  exists obs, told c vr decl (conc_steps rd l) (d_conc f) q v obs /\
    let ins := inputs c v w obs in
    ((distinct ins < av_limit w)%nat -> forall ky, no_empty_slices ky -> one_number (av_gauge w) (at_key ky ins) (values (i_name (desc v)) ky o.1.1)) /\
    (** Also without room, the numbers that a sum shows under all its attribute sets add up to all that was observed. *)
    (av_gauge w = false -> wrap (zsum (all_values (i_name (desc v)) values_of o.1.1)) = wrap (zsum (map snd ins))).
Proof.
  intros l f (SD & W & T & D & C & R1 & R2) R. destruct (seen_says c vr decl desc mono lib res H rs clock answer rd l f R T C R1 R2) as (os & E & F).
  exists os. split; [done|]. split; [by rewrite (Forall2_length _ _ _ F)|]. intros n o O.
  destruct (request_of _ _ _ _ _ _ _ _ _ _ _ _ _ _ _ _ _ R F O) as (q & k & DT & Rk & OK & X). exists q, k. split; [done|]. intros v w Hw Hv Hst Hl.
  destruct (C67_told _ c vr decl rd l f v w n q k SD R W Hw Hv Hst Hl DT) as (obs & pts & TO & RP & SH). exists obs. split; [done|]. cbn zeta.
  assert (V : (v < length (a_views c))%nat) by (by eapply lookup_lt_Some). rewrite <- Rk in D. split.
  - intros L ky N. unfold SentSpec.values, in_request.
    rewrite (request_seen c vr desc mono lib res H rs _ _ k (clock n) (answer n) v pts o (values_reads mono H ky N) D OK V ltac:(congruence) RP X). by apply one_number_of.
  - intros G. unfold all_values.
    rewrite (request_seen c vr desc mono lib res H rs _ _ k (clock n) (answer n) v pts o (numbers_reads mono H) D OK V ltac:(congruence) RP X). by apply (total_of w).
Qed.
(** Whatever is observed, a request has at most one number of a series, and of one cumulative stream no more numbers than the limit of the view. *)
Theorem C70_limit : forall l (f : sys Int64), usable l -> run (sys_init c) l = Some f ->
  exists os, seen f = Some os /\ length os = length (given_in_order f) /\
  forall n o v w, os !! n = Some o -> a_views c !! v = Some w -> vr v = rd -> stateful w = false -> (1 <= av_limit w)%nat ->
  (length (all_values (i_name (desc v)) values_of o.1.1) <= av_limit w)%nat /\
  forall ky, no_empty_slices ky -> (length (values (i_name (desc v)) ky o.1.1) <= 1)%nat.
Proof.
  intros l f (SD & W & T & D & C & R1 & R2) R. destruct (seen_says c vr decl desc mono lib res H rs clock answer rd l f R T C R1 R2) as (os & E & F).
  exists os. split; [done|]. split; [by rewrite (Forall2_length _ _ _ F)|]. intros n o v w O Hw Hv Hst Hl.
  destruct (request_of _ _ _ _ _ _ _ _ _ _ _ _ _ _ _ _ _ R F O) as (q & k & DT & Rk & OK & X).
  destruct (C67_told _ c vr decl rd l f v w n q k SD R W Hw Hv Hst Hl DT) as (obs & pts & TO & RP & (_ & place & _ & LE & ND & _)).
  assert (V : (v < length (a_views c))%nat) by (by eapply lookup_lt_Some). rewrite <- Rk in D. split.
  - unfold all_values.
    rewrite (request_seen c vr desc mono lib res H rs _ _ k (clock n) (answer n) v pts o (numbers_reads mono H) D OK V ltac:(congruence) RP X). by rewrite map_length.
  - intros ky N. unfold SentSpec.values, in_request.
    rewrite (request_seen c vr desc mono lib res H rs _ _ k (clock n) (answer n) v pts o (values_reads mono H ky N) D OK V ltac:(congruence) RP X). rewrite map_length. by apply at_most_one.
Qed.
(** When ForceFlush or Shutdown has returned, there is such a request of its own, whose error it returned; all callbacks that were registered when its
    collection began were run for it, and what it shows was observed after the call began. *)
Theorem C70_flush : forall l1 (f1 : sys Int64) a l2 f2 m e, let l := l1 ++ DReader a :: l2 in usable l ->
  run (sys_init c) l1 = Some f1 -> run f1 (DReader a :: l2) = Some f2 -> a = AFlush \/ a = AShut ->
  rd_threads (d_reader f2) !! length (rd_threads (d_reader f1)) = Some (CReturned m e) ->
  exists os n s o q k cbs, seen f2 = Some os /\ os !! n = Some o /\ given f2 n s /\ s_t s = length (rd_threads (d_reader f1)) /\ s_err s = e /\
  data_of f2 n q k /\ begun (conc_steps rd l) !! q = Some (rd, cbs) /\ ran (d_conc f2) q = cbs /\
  forall v w, a_views c !! v = Some w -> vr v = rd -> stateful w = false -> (1 <= av_limit w)%nat ->
  exists obs, told c vr decl (conc_steps rd l) (d_conc f2) q v obs /\
    (forall t, recorded_in c (d_conc f2) q v t -> (length (s_thr (d_conc f1)) <= t)%nat) /\
    let ins := inputs c v w obs in
    ((distinct ins < av_limit w)%nat -> forall ky, no_empty_slices ky -> one_number (av_gauge w) (at_key ky ins) (values (i_name (desc v)) ky o.1.1)).
Proof.
  intros l1 f1 a l2 f2 m e l U Q1 Q2 A T. assert (R : run (sys_init c) l = Some f2) by (unfold l; by rewrite drun_app, Q1).
  destruct (C70_cumulative l f2 U R) as (os & E & L & F). destruct U as (SD & W & TY & D & C & R1 & R2).
  destruct (C67_delivered _ c vr decl rd l1 f1 a l2 f2 m e Q1 Q2 A T) as (_ & n & s & q & k & cbs & G & S1 & _ & S3 & DT & _ & LE & B & RN).
  destruct (C67_once _ c vr decl rd l f2 R) as (SQ & _ & _).
  assert (N : (n < length os)%nat).
  { pose proof (given_call _ _ _ G) as IN. rewrite SQ in IN. apply elem_of_seq in IN. lia. }
  destruct (lookup_lt_is_Some_2 _ _ N) as [o O]. exists os, n, s, o, q, k, cbs. split_and!; try done. intros v w Hw Hv Hst Hl.
  destruct (F n o O) as (q' & k' & [M' K'] & X). destruct DT as [M K]. assert (q' = q) as -> by congruence.
  destruct (X v w Hw Hv Hst Hl) as (obs & TO & ON & _). exists obs. split; [done|]. split; [|done].
  intros t RT. exact (C67_fresh _ c vr decl rd l1 f1 _ f2 q v t Q1 Q2 LE RT).
Qed.
(** Of each delta stream, when there is room in every collection, request number [n] shows by how much each series changed since request number [n-1]: the
    whole sum if it had no observations then, and nothing if it has none now or is unchanged. *)
Theorem C70_delta : forall l (f : sys Int64) v w, usable l -> run (sys_init c) l = Some f ->
  a_views c !! v = Some w -> vr v = rd -> stateful w = true -> (1 <= av_limit w)%nat ->
  (forall q k o, s_colls (d_conc f) !! q = Some k -> k_reader k = rd -> k_phase k = KDone -> told c vr decl (conc_steps rd l) (d_conc f) q v o -> roomy w (inputs c v w o)) ->
  exists os (obs_in : nat -> list (obs (N:=Int64))), seen f = Some os /\ length os = length (given_in_order f) /\
  forall n o, os !! n = Some o ->
  (exists q k, data_of f n q k /\ told c vr decl (conc_steps rd l) (d_conc f) q v (obs_in n)) /\
  let ins := inputs c v w (obs_in n) in
  let prev := match n with O => [] | S n0 => inputs c v w (obs_in n0) end in
  forall ky, no_empty_slices ky -> one_change (at_key ky ins) (at_key ky prev) (values (i_name (desc v)) ky o.1.1).
Proof.
  intros l f v w (SD & W & T & D & C & R1 & R2) R Hw Hv Hst Hl Room. destruct (seen_says c vr decl desc mono lib res H rs clock answer rd l f R T C R1 R2) as (os & E & F).
  destruct (C67_delta _ c vr decl rd l f v w SD R W Hw Hv Hst Hl Room) as (fl & X).
  exists os, (fun n => fl (default 0%nat (d_made f !! n))). split; [done|]. split; [by rewrite (Forall2_length _ _ _ F)|]. intros n o O.
  destruct (request_of _ _ _ _ _ _ _ _ _ _ _ _ _ _ _ _ _ R F O) as (q & k & DT & Rk & OK & EX). destruct (X n q k DT) as (TO & pts & RP & CH). destruct DT as [M K].
  split; [exists q, k; rewrite M; done|]. cbn zeta. intros ky N. assert (V : (v < length (a_views c))%nat) by (by eapply lookup_lt_Some).
  unfold SentSpec.values, in_request. rewrite <- Rk in D.
  rewrite (request_seen c vr desc mono lib res H rs _ _ k (clock n) (answer n) v pts o (values_reads mono H ky N) D OK V ltac:(congruence) RP EX).
  rewrite M. cbn [default from_option id].
  assert (P : n = 0%nat /\ (match n with O => [] | S n0 => inputs c v w (fl (default 0%nat (d_made f !! n0))) end) = [] \/
    exists n0 q0, n = S n0 /\ d_made f !! n0 = Some q0 /\ (match n with O => [] | S n0 => inputs c v w (fl (default 0%nat (d_made f !! n0))) end) = inputs c v w (fl q0)).
  { destruct n as [|n0]; [by left|right]. destruct (lookup_lt_is_Some_2 (d_made f) n0) as [q0 M0]; [apply lookup_lt_Some in M; lia|]. exists n0, q0. by rewrite M0. }
  destruct (CH _ P ky) as (A1 & A2 & A3). by apply one_change_of.
Qed.
(** So the numbers that requests 0 to [n] show of a series add up, as an int64, to what was observed of it in the collection of request [n], provided that the
    series is observed in every collection from the first one in which it is. *)
Theorem C70_delta_total : forall l (f : sys Int64) v w, usable l -> run (sys_init c) l = Some f ->
  a_views c !! v = Some w -> vr v = rd -> stateful w = true -> (1 <= av_limit w)%nat ->
  (forall q k o, s_colls (d_conc f) !! q = Some k -> k_reader k = rd -> k_phase k = KDone -> told c vr decl (conc_steps rd l) (d_conc f) q v o -> roomy w (inputs c v w o)) ->
  exists os (obs_in : nat -> list (obs (N:=Int64))), seen f = Some os /\ length os = length (given_in_order f) /\
  (forall n, (n < length os)%nat -> exists q k, data_of f n q k /\ told c vr decl (conc_steps rd l) (d_conc f) q v (obs_in n)) /\
  forall ky n, no_empty_slices ky -> (n < length os)%nat ->
  (forall i j, (i <= j <= n)%nat -> at_key ky (inputs c v w (obs_in i)) <> [] -> at_key ky (inputs c v w (obs_in j)) <> []) ->
  wrap (zsum (flat_map (fun o => values (i_name (desc v)) ky o.1.1) (take (S n) os))) = wrap (zsum (at_key ky (inputs c v w (obs_in n)))).
Proof.
  intros l f v w U R Hw Hv Hst Hl Room. destruct (C70_delta l f v w U R Hw Hv Hst Hl Room) as (os & obs_in & E & L & G). exists os, obs_in. split; [done|]. split; [done|]. split.
  - intros n Hn. destruct (lookup_lt_is_Some_2 _ _ Hn) as [o O]. by destruct (G n o O) as [X _].
  - intros ky n NE. induction n as [|n IH]; intros Hn Stay; destruct (lookup_lt_is_Some_2 _ _ Hn) as [o O]; destruct (G _ _ O) as [_ X]; specialize (X ky NE); cbn zeta iota in X;
      rewrite (take_S_r _ _ _ O), flat_map_app, zsum_app; cbn [flat_map]; rewrite app_nil_r; unfold one_change in X.
    + cbn [take flat_map]. change (at_key (N:=Int64) ky []) with (@nil Z) in X. destruct (at_key ky (inputs c v w (obs_in 0%nat))) as [|a r]; rewrite X; [done|].
      change (zsum []) with 0. change (zsum [wrap (zsum (a :: r))]) with (wrap (zsum (a :: r)) + 0). by rewrite Z.add_0_r, Z.add_0_l, wrap_wrap.
    + rewrite <- wrap_add, IH by (lia || (intros i j Hij; apply Stay; lia)). specialize (Stay n (S n) ltac:(lia)).
      destruct (at_key ky (inputs c v w (obs_in (S n)))) as [|a r].
      * destruct (at_key ky (inputs c v w (obs_in n))) as [|a' r']; [by rewrite X|]. exfalso. by apply Stay.
      * destruct (at_key ky (inputs c v w (obs_in n))) as [|a' r'].
        -- rewrite X. change (zsum [wrap (zsum (a :: r))]) with (wrap (zsum (a :: r)) + 0). change (zsum []) with 0. by rewrite Z.add_0_r, wrap_wrap, wrap_add, Z.add_0_l.
        -- cbn zeta in X. assert (D : zsum (values (i_name (desc v)) ky o.1.1) = wrap (zsum (a :: r) - zsum (a' :: r'))).
           { rewrite X. destruct (Z.eqb_spec (wrap (zsum (a :: r) - zsum (a' :: r'))) 0) as [->|_]; [done|]. apply Z.add_0_r. }
           rewrite D, wrap_wrap, wrap_add. f_equal. lia.
Qed.
End props.

(** The hypotheses can be met: the history of [Ex67]. *)
Module Ex70.
  Import Ex63 Ex67.
  Local Open Scope string_scope.
  Definition names (v : nat) : string := match v with 0%nat => "zero" | 1%nat => "one" | 2%nat => "two" | _ => "three" end.
  Definition desc (v : nat) : descriptor := Descriptor (names v) AsyncCounter IntKind "" "".
  Definition clock (n : nat) : sequence := match n with O => Sequence 10 10 15 | 1%nat => Sequence 10 15 20 | _ => Sequence 10 20 20 end.
  Definition rs (r : string) : list kv := [("service.name", VString r)].
  Definition H : hlib := HLib (fun n _ _ => Hist (nzero n) 0 (nzero n) (nzero n) 0 0 (0, []) (0, [])) (fun _ => None).
  Definition answer (n : nat) (_ : pmetrics) : option Exp.error := match n with O => Some (Error "down" false false) | _ => None end.
  Notation l := (l1 ++ DReader AFlush :: l2)%list.
  (** The states of [Ex67]. *)
  Definition g1 : sys Int64 := default (sys_init c) (drun c vr decl 0 (sys_init c) l1).
  Definition g2 : sys Int64 := default g1 (drun c vr decl 0 g1 (DReader AFlush :: l2)).
  Definition made {A} (o : option A) : bool := match o with Some _ => true | None => false end.
  Lemma of_made {A} (o : option A) d : made o = true -> o = Some (default d o).
  Proof. by destruct o. Qed.
  Example first_run : drun c vr decl 0 (sys_init c) l1 = Some g1. Proof. unfold g1. apply of_made. vm_compute. reflexivity. Qed.
  Example second_run : drun c vr decl 0 g1 (DReader AFlush :: l2) = Some g2. Proof. unfold g2. apply of_made. vm_compute. reflexivity. Qed.
  Example whole : drun c vr decl 0 (sys_init c) l = Some g2.
  Proof. exact (two_runs c vr decl 0 (sys_init c) g1 g2 l1 (DReader AFlush :: l2) first_run second_run). Qed.
  Example returned : rd_threads (d_reader g2) !! length (rd_threads (d_reader g1)) = Some (CReturned Flush None). Proof. vm_compute. reflexivity. Qed.
  Example room : forall q k o, s_colls (d_conc g2) !! q = Some k -> k_reader k = 0%nat -> k_phase k = KDone ->
    told c vr decl (conc_steps 0 l) (d_conc g2) q 2 o -> roomy (AView true false None 3) (inputs c 2 (AView true false None 3) o).
  Proof.
    intros q k o _ _ _ Ht. refine (few (conc_steps 0 l) (d_conc g2) (AView true false None 3) q 2 o _ eq_refl Ht).
    apply list.Forall_forall. apply (bool_decide_unpack _). vm_compute. exact I.
  Qed.
  Definition typed (a : Conc.label (N:=Int64)) : bool :=
    match a with LObserve _ _ _ k => forallb (fun a : kv => match a.2 with VInvalid => false | _ => true end) k | _ => true end.
  Example typed2 : typed_observations (conc_steps 0 l).
  Proof.
    assert (E : forallb typed (conc_steps 0 l) = true) by (vm_compute; reflexivity).
    intros o x n k IN. rewrite forallb_forall in E. apply elem_of_list_In in IN. specialize (E _ IN). cbn in E. rewrite forallb_forall in E.
    apply list.Forall_forall. intros a Ha. apply elem_of_list_In in Ha. specialize (E a Ha). by destruct a as [? []].
  Qed.
  Example times n : times_ok (clock n). Proof. destruct n as [|[|n]]; repeat split; cbn; lia. Qed.
  Example different : distinct_streams c vr desc 0.
  Proof. intros v v' Hv Hv'. cbn in Hv, Hv'. do 4 (destruct v as [|v]; [do 4 (destruct v' as [|v']; [done|]); lia|]). lia. Qed.
  Example fine : sound c /\ (forall tr1 tr2 s, conc_steps 0 l = (tr1 ++ tr2)%list -> reached c vr decl tr1 s -> waited 0 s) /\ typed_observations (conc_steps 0 l) /\
    distinct_streams c vr desc 0 /\ (forall n, times_ok (clock n)) /\ a_set (rs "shop") /\ with_types (rs "shop").
  Proof.
    split_and!; [apply soundb_ok; vm_compute; reflexivity|exact waits|exact typed2|exact different|exact times|apply NoDup_singleton|by repeat constructor].
  Qed.
  (** What the two requests show of the attribute sets A and B: cumulative totals in stream 0, changes in stream 2.  The concurrent
      observations 5 and 7 of A in the first collection reach the two streams in different orders (Ex63). *)
  Example requests : (fun os => map (fun o : pmetrics * list telemetry * option Exp.error => (values "zero" A o.1.1, values "zero" B o.1.1, values "two" A o.1.1, values "two" B o.1.1, all_values "zero" values_of o.1.1)) os) <$>
    seen c desc (fun _ => true) (Scope "m" "1" "") "shop" H rs clock answer g2 = Some [([5], [2], [7], [2], [5; 2]); ([9], [2], [2], [], [9; 2])].
  Proof. vm_compute. reflexivity. Qed.
  Example cumulative_case := C70_cumulative c vr decl desc (fun _ => true) (Scope "m" "1" "") "shop" H rs clock answer 0 l g2 fine whole.
  Example limit_case := C70_limit c vr decl desc (fun _ => true) (Scope "m" "1" "") "shop" H rs clock answer 0 l g2 fine whole.
  Example shape_case := C70_shape c vr decl desc (fun _ => true) (Scope "m" "1" "") "shop" H rs clock answer 0 l g2 whole typed2 times (NoDup_singleton _) ltac:(by repeat constructor).
  Example adjacent n : sq_last (clock (S n)) = sq_now (clock n). Proof. by destruct n as [|[|n]]. Qed.
  Example intervals_case := C70_intervals c vr decl desc (fun _ => true) (Scope "m" "1" "") "shop" H rs clock answer 0 l g2 whole typed2 times (NoDup_singleton _)
    ltac:(by repeat constructor) different adjacent.
  Example flush_case := C70_flush c vr decl desc (fun _ => true) (Scope "m" "1" "") "shop" H rs clock answer 0 l1 g1 AFlush l2 g2 Flush None fine first_run second_run (or_introl eq_refl) returned.
  Example delta_hyps : a_views c !! 2%nat = Some (AView true false None 3) /\ vr 2%nat = 0%nat /\ stateful (AView true false None 3) = true /\ (1 <= 3)%nat.
  Proof. split_and!; [reflexivity|reflexivity|reflexivity|lia]. Qed.
  Example delta_case := C70_delta c vr decl desc (fun _ => true) (Scope "m" "1" "") "shop" H rs clock answer 0%nat l g2 2%nat (AView true false None 3) fine whole
    (proj1 delta_hyps) (proj1 (proj2 delta_hyps)) (proj1 (proj2 (proj2 delta_hyps))) (proj2 (proj2 (proj2 delta_hyps))) room.
  Example total_case := C70_delta_total c vr decl desc (fun _ => true) (Scope "m" "1" "") "shop" H rs clock answer 0%nat l g2 2%nat (AView true false None 3) fine whole
    (proj1 delta_hyps) (proj1 (proj2 delta_hyps)) (proj1 (proj2 (proj2 delta_hyps))) (proj2 (proj2 (proj2 delta_hyps))) room.
End Ex70.

Print Assumptions C70_shape.
Print Assumptions C70_cumulative.
Print Assumptions C70_flush.
Print Assumptions C70_delta.
Print Assumptions C70_delta_total.
Print Assumptions C70_limit.
Print Assumptions C70_intervals.
