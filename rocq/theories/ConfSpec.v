(** What the error of creating an instrument should say.  Nothing here calls the functions of Conf. *)
From Coq Require Import ZArith Bool String.
From stdpp Require Import base list option strings pretty.
From Verif Require Import Num View ViewSpec.
Local Open Scope string_scope.

(** The words for kinds, numbers and aggregations. *)
Definition kind_word (k : kind) : string :=
  match k with
  | SyncCounter => "SyncCounter" | SyncUpDownCounter => "SyncUpDownCounter" | SyncGauge => "SyncGauge" | SyncHistogram => "SyncHistogram"
  | AsyncCounter => "AsyncCounter" | AsyncUpDownCounter => "AsyncUpDownCounter" | AsyncGauge => "AsyncGauge"
  end.
Definition number_word (n : nkind) : string := match n with IntKind => "Int64" | FloatKind => "Float64" end.
Definition agg_word (a : aggk) : string :=
  match a with
  | UndefinedAgg => "Undefined" | DropAgg => "Drop" | AnySumAgg => "AnySum" | MonotonicAgg => "MonotonicSum" | NonMonotonicAgg => "NonMonotonicSum"
  | GaugeAgg => "Gauge" | HistogramAgg => "Histogram" | MMSCAgg => "MinMaxSumCount" | BadAgg => "Kind()"
  end.
(** What a summary of a stream tells about it. *)
Definition facts (s : stream) : kind * nkind * aggk * string := (i_kind (s_desc s), i_num (s_desc s), s_agg s, i_unit (s_desc s)).
Definition summary (s : stream) : string :=
  kind_word (i_kind (s_desc s)) ++ "-" ++ number_word (i_num (s_desc s)) ++ "-" ++ agg_word (s_agg s) ++
  (if decide (i_unit (s_desc s) = "") then "" else "-" ++ i_unit (s_desc s)).

Section quote.
Context (quote : string -> string).
(** The original name is mentioned when a view renamed the instrument. *)
Definition original (s : stream) : string := if decide (s_from s = i_name (s_desc s)) then "" else " (original " ++ quote (s_from s) ++ ")".
(** A true text about streams [ss] of one name: it is about the first and the last one, names them, and says in which way they differ. *)
Definition tells_difference (ss : list stream) (text : string) : Prop :=
  exists s t how, head ss = Some s /\ last ss = Some t /\ 2 <= length ss /\
  text = "name " ++ quote (i_name (s_desc s)) ++ original s ++ how ++ (if decide (length ss = 2) then "" else " and " ++ pretty (length ss - 2) ++ " more") /\
  (how = " conflicts " ++ summary s ++ ", " ++ summary t ++ original t /\ facts s <> facts t \/
   how = " has conflicts: different aggregator configuration" /\ facts s = facts t /\ s_cfg s <> s_cfg t \/
   how = " has conflicts: different attribute filters" /\ facts s = facts t /\ s_cfg s = s_cfg t /\ ~ keys_alike (s_keys s) (s_keys t)).
Definition tells_incompatible (k : kind) (a : aggk) : string := kind_word k ++ " instrument incompatible with " ++ agg_word a ++ " aggregation".
End quote.

(** The aggregation that the text blames: the one that was asked for, except that a plain "sum" shows as undefined. *)
Definition blamed (a : aggk) : aggk := if decide (a = AnySumAgg) then UndefinedAgg else a.
