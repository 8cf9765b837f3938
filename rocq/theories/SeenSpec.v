(** Words used to state what a user sees of observations in the OTLP requests of a reader.  Nothing in this file models Go code. *)
From Coq Require Import ZArith Bool String.
From stdpp Require Import base list option strings.
From Verif Require Import Num Agg AggSpec Attr View Data Async AsyncSpec Conc Deliv Exp ExpSpec.
Local Open Scope Z_scope.

(** Every attribute of every observation has a type. *)
Definition typed_observations (tr : list (label (N:=Int64))) : Prop := forall j x n l, LObserve j x n l ∈ tr -> with_types l.
(** The streams of a reader have different names. *)
Definition distinct_streams (c : acfg) (vr : nat -> nat) (desc : nat -> descriptor) (rd : nat) : Prop :=
  forall v v', (v < length (a_views c))%nat -> (v' < length (a_views c))%nat -> vr v = rd -> vr v' = rd -> i_name (desc v) = i_name (desc v') -> v = v'.
(** What a request shows of a series whose inputs are [ins]: nothing if there are none, else one number, their sum or, for a gauge, one of them. *)
Definition one_number (gauge : bool) (ins vals : list Z) : Prop :=
  match ins with
  | [] => vals = []
  | _ => if gauge then exists x, x ∈ ins /\ vals = [wrap x] else vals = [wrap (zsum ins)]
  end.
(** What a request shows of a series whose total is [x] and was [prev], if anything was observed, at the collection before. *)
Definition one_change (ins : list Z) (prev : list Z) (vals : list Z) : Prop :=
  match ins, prev with
  | [], _ => vals = []
  | _, [] => vals = [wrap (zsum ins)]
  | _, _ => let d := wrap (zsum ins - zsum prev) in vals = if d =? 0 then [] else [d]
  end.
(** All numbers that a request shows under a name. *)
Definition all_values (name : string) (shown : pdata -> list (list (string * pvalue) * Z)) (x : pmetrics) : list Z :=
  flat_map (fun s => flat_map (fun m => if String.eqb (pm_name m) name then map snd (shown (pm_data m)) else []) (ps_metrics s)) (px_scopes x).
