(** What a temporality preference means for each kind of instrument, as documented. *)
From Coq Require Import ZArith Bool String.
From stdpp Require Import base list option strings.
From Verif Require Import Num View CaseSpec.
Local Open Scope string_scope.

(** The texts that are accepted, in any case. *)
Definition pref_delta (p : string) : Prop := same_but_case p "delta".
Definition pref_low (p : string) : Prop := same_but_case p "stateless" \/ same_but_case p "lowmemory".
Definition pref_cumulative (p : string) : Prop := p = "" \/ same_but_case p "cumulative".
(** The kinds whose data are deltas.  Up-down counters never are, and an asynchronous gauge has no delta form. *)
Definition is_delta (p : string) (k : kind) : Prop :=
  pref_delta p /\ (k = SyncCounter \/ k = SyncHistogram \/ k = SyncGauge \/ k = AsyncCounter) \/
  pref_low p /\ (k = SyncCounter \/ k = SyncHistogram).
(** The stream measures the instrument: they have the same name, kind, number and unit. *)
Definition measures (d : descriptor) (s : stream) : Prop :=
  i_name (s_desc s) = i_name d /\ i_kind (s_desc s) = i_kind d /\ i_num (s_desc s) = i_num d /\ i_unit (s_desc s) = i_unit d.
