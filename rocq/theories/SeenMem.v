(** C71, of OTLP requests: limits of all streams, whatever callbacks do. *)
From Coq Require Import ZArith Bool String Lia.
From stdpp Require Import base list list_numbers option strings.
From Verif Require Import Per PerSpec Num Agg AggSpec AggProofs Attr View Data AggSync Exp ExpSpec SentSpec ShapeSpec
  Async AsyncSpec Conc ConcSpec ConcProps ConcMemProps Deliv DelivSpec DelivProofs DelivProps Seen SeenSpec SeenProofs SeenProps.
Local Open Scope Z_scope.

(** No request has more numbers of a stream than the limit of its view, nor two numbers of one series: for every temporality, and also when callbacks do not
    wait for their goroutines. *)
Theorem C71_requests : forall c vr decl desc mono lib res H rs clock answer rd l (f : sys Int64),
  drun (N:=Int64) c vr decl rd (sys_init c) l = Some f -> typed_observations (conc_steps rd l) -> distinct_streams c vr desc rd ->
  (forall n, times_ok (clock n)) -> a_set (rs res) -> with_types (rs res) ->
  exists os, seen c desc mono lib res H rs clock answer f = Some os /\ length os = length (given_in_order f) /\
  forall n o v w, os !! n = Some o -> a_views c !! v = Some w -> vr v = rd -> (1 <= av_limit w)%nat ->
  (length (all_values (i_name (desc v)) values_of o.1.1) <= av_limit w)%nat /\
  forall ky, no_empty_slices ky -> (length (SentSpec.values (i_name (desc v)) ky o.1.1) <= 1)%nat.
Proof.
  intros c vr decl desc mono lib res H rs clock answer rd l f R T D C R1 R2. destruct (seen_says c vr decl desc mono lib res H rs clock answer rd l f R T C R1 R2) as (os & E & F).
  exists os. split; [done|]. split; [by rewrite (Forall2_length _ _ _ F)|]. intros n o v w O Hw Hv Hl.
  destruct (request_of _ _ _ _ _ _ _ _ _ _ _ _ _ _ _ _ _ R F O) as (q & k & [M K] & Rk & OK & X).
  destruct (d_done _ _ (dinv_run _ _ _ _ _ _ R) q (elem_of_list_lookup_2 _ _ _ M)) as (k0 & K0 & _ & DN). assert (k0 = k) as -> by congruence.
  destruct (proj1 (C71_whole Int64 c vr decl (conc_steps rd l) (d_conc f) q k (reached_conc _ _ _ _ _ _ R) K DN) v w Hw ltac:(congruence)) as (pts & RP & LE).
  destruct (LE Hl) as [LE1 ND]. assert (V : (v < length (a_views c))%nat) by (by eapply lookup_lt_Some). rewrite <- Rk in D. split.
  - unfold all_values.
    rewrite (request_seen c vr desc mono lib res H rs _ _ k (clock n) (answer n) v pts o (numbers_reads mono H) D OK V ltac:(congruence) RP X). by rewrite map_length.
  - intros ky N. unfold SentSpec.values, in_request.
    rewrite (request_seen c vr desc mono lib res H rs _ _ k (clock n) (answer n) v pts o (values_reads mono H ky N) D OK V ltac:(congruence) RP X). rewrite map_length. by apply at_most_one.
Qed.
Module Ex71r.
  Import Ex63 Ex67 Ex70.
  Local Open Scope string_scope.
  Example requests_case := C71_requests c vr decl desc (fun _ => true) (Scope "m" "1" "") "shop" H rs clock answer 0%nat (l1 ++ DReader AFlush :: l2)%list g2 whole typed2 different times
    (NoDup_singleton _) ltac:(by repeat constructor).
End Ex71r.
Print Assumptions C71_requests.
