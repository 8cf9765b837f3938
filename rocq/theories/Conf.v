(** The errors of creating an instrument: their texts, and how those of several readers are put together.
    M stands for /repo/lightstep/sdk/metric. *)
From Coq Require Import ZArith Bool String Ascii.
From stdpp Require Import base list option strings pretty gmap.
From Verif Require Import Num Attr View Data Prov.
Local Open Scope string_scope.

(** The names of the kinds (M/sdkinstrument/kind_string.go:21-30, M/number/kind_string.go:15-24, M/aggregator/aggregation/category_string.go:42-51).
    An integer outside the constants is "Kind(n)"; BadAgg does not say which, so its number is left out (simplified). *)
Definition kind_string (k : kind) : string :=
  match k with
  | SyncCounter => "SyncCounter" | SyncUpDownCounter => "SyncUpDownCounter" | SyncGauge => "SyncGauge" | SyncHistogram => "SyncHistogram"
  | AsyncCounter => "AsyncCounter" | AsyncUpDownCounter => "AsyncUpDownCounter" | AsyncGauge => "AsyncGauge"
  end.
Definition number_string (n : nkind) : string := match n with IntKind => "Int64Kind" | FloatKind => "Float64Kind" end.
Definition agg_string (a : aggk) : string :=
  match a with
  | UndefinedAgg => "UndefinedKind" | DropAgg => "DropKind" | AnySumAgg => "AnySumKind" | MonotonicAgg => "MonotonicSumKind"
  | NonMonotonicAgg => "NonMonotonicSumKind" | GaugeAgg => "GaugeKind" | HistogramAgg => "HistogramKind" | MMSCAgg => "MinMaxSumCountKind"
  | BadAgg => "Kind()"
  end.
(** strings.TrimSuffix of the standard library. *)
Fixpoint trim_suffix (suf s : string) : string :=
  if String.eqb s suf then "" else match s with EmptyString => "" | String c r => String c (trim_suffix suf r) end.
Definition trim_kind (s : string) : string := trim_suffix "Kind" s.

Section quote.
Context (quote : string -> string). (** %q of fmt *)

(** renameString and fullNameString (M/internal/viewstate/errors.go:207-220). *)
Definition rename_string (s : stream) : string :=
  if String.eqb (s_from s) (i_name (s_desc s)) then "" else " (original " ++ quote (s_from s) ++ ")".
Definition full_name (s : stream) : string := "name " ++ quote (i_name (s_desc s)) ++ rename_string s.
(** shortString (errors.go:222-235). *)
Definition short_string (s : stream) : string :=
  let r := trim_kind (kind_string (i_kind (s_desc s))) ++ "-" ++ trim_kind (number_string (i_num (s_desc s))) ++ "-" ++ trim_kind (agg_string (s_agg s)) in
  if String.eqb (i_unit (s_desc s)) "" then r else r ++ "-" ++ i_unit (s_desc s).
(** Conflict.duplicateError (errors.go:155-184).  The duplicates are given as streams. *)
Definition duplicate_error (ss : list stream) : string :=
  match ss with
  | [] | [_] => ""
  | s :: r =>
      let t := default s (last r) in
      full_name s ++
      (if negb (String.eqb (short_string s) (short_string t)) then " conflicts " ++ short_string s ++ ", " ++ short_string t ++ rename_string t
       else if negb (bool_decide (s_cfg s = s_cfg t)) then " has conflicts: different aggregator configuration"
       else " has conflicts: different attribute filters") ++
      (if Nat.ltb 2 (length ss) then " and " ++ pretty (length ss - 2)%nat ++ " more" else "")
  end.
(** SemanticError.Error and Conflict.semanticError (errors.go:148-153, 195-200): [k] is the kind of the instrument. *)
Definition semantic_error (k : kind) (a : option aggk) : string :=
  match a with
  | None => ""
  | Some a => trim_kind (kind_string k) ++ " instrument incompatible with " ++ trim_kind (agg_string a) ++ " aggregation"
  end.
(** Conflict.Error (errors.go:136-146).  [l] are the streams of the compiler, where the duplicates are found. *)
Definition conflict_error (l : list stream) (k : kind) (c : conflict) : string :=
  let se := semantic_error k (cf_semantic c) in
  let de := duplicate_error (omap (fun i => l !! i) (cf_duplicates c)) in
  if String.eqb se "" then de else if String.eqb de "" then se else se ++ "; " ++ de.

(** ViewConflictsBuilder (errors.go:38-39, 74-99): nil is None.  A conflict is represented by its text: what Error reads of a stream (everything
    but its description) never changes. *)
Definition builder := option (gmap string (list string)).
Definition add (name : string) (c : string) (b : builder) : builder :=
  let m := default ∅ b in Some (<[name := (default [] (m !! name) ++ [c])%list]> m).
Definition combine (b other : builder) : builder :=
  match b, other with
  | None, None => None
  | None, Some o => if Nat.eqb (size o) 0 then None else Some o
  | Some m, None => Some m
  | Some m, Some o => Some (o ∪ m)
  end.
(** ViewConflictsError.Error (errors.go:48-67): [first] is the key that the loop over the map comes to first. *)
Definition error_string (first : string) (m : gmap string (list string)) : string :=
  let total := sum_list (map (fun p => length p.2) (map_to_list m)) in
  match m !! first with
  | Some (c :: l) =>
      if Nat.eqb (size m) 1 then
        if Nat.eqb (length (c :: l)) 1 then first ++ ": " ++ c
        else pretty total ++ " conflicts, e.g. " ++ first ++ ": " ++ c
      else pretty total ++ " conflicts in " ++ pretty (size m) ++ " readers, e.g. " ++ first ++ ": " ++ c
  | _ => "no conflicts"
  end.

Section libs.
Context (L : libs).
(** The conflicts that one Compile adds (M/internal/viewstate/viewstate.go:388-397). *)
Definition compile_conflicts (v : views) (lib : scope) (st : cstate) (d : descriptor) : builder :=
  let '(st', _, cs) := compile L v lib st d in fold_left (fun b c => add (v_name v) (conflict_error (collectors st') (i_kind d) c) b) cs None.
(** The error of configureInstrument (M/meter.go:147-172): the conflicts of the readers, in order. *)
Definition creation_error (vs : list views) (lib : scope) (cs : list cstate) (d : descriptor) : builder :=
  fold_left (fun b p => combine b (compile_conflicts p.1 lib p.2 d)) (zip vs cs) None.
(** Whether the error is given to otel.Handle (meter.go:148-158 and 178-182): only when the descriptor is new on the meter. *)
Definition handled (vs : list views) (m : meter) (d : descriptor) : builder :=
  match find_pair d (mr_desc m) with Some _ => None | None => creation_error vs (mr_lib m) (mr_comp m) d end.
End libs.
End quote.
