(** What the exported data must say about the data given. *)
From Coq Require Import ZArith Bool String SpecFloat.
From stdpp Require Import base list option strings.
From Verif Require Import Num Attr View Data Exp.
Local Open Scope Z_scope.

(** An OTLP value says the same as an attribute value. *)
Inductive says : value -> pvalue -> Prop :=
  | says_bool b : says (VBool b) (PBool b)
  | says_int z : says (VInt z) (PInt z)
  | says_float b : says (VFloat b) (PDouble b)
  | says_string s : says (VString s) (PStr s)
  | says_bools l l' : Forall2 (fun b p => p = PBool b) l l' -> says (VBools l) (PSlice l')
  | says_ints l l' : Forall2 (fun z p => p = PInt z) l l' -> says (VInts l) (PSlice l')
  | says_floats l l' : Forall2 (fun b p => p = PDouble b) l l' -> says (VFloats l) (PSlice l')
  | says_strings l l' : Forall2 (fun s p => p = PStr s) l l' -> says (VStrings l) (PSlice l').
(** The same keys in the same order, with values that say the same. *)
Definition attrs_say (s : list kv) (d : list (string * pvalue)) : Prop := Forall2 (fun a p => p.1 = a.1 /\ says a.2 p.2) s d.
(** An attribute set: keys do not repeat; and every attribute has a type. *)
Definition a_set (s : list kv) : Prop := NoDup (map fst s).
Definition with_types (s : list kv) : Prop := Forall (fun a => a.2 <> VInvalid) s.

(** Numbers that Go can hold. *)
Definition a_number (n : number) : Prop := match n with NInt z => int64 z | NFloat f => valid_binary 53 1024 f = true end.
Definition number_says (n : number) (p : pnumber) : Prop :=
  match n, p with NInt z, PNInt z' => z' = z | NFloat f, PNDouble f' => f' = f | _, _ => False end.
(** The nearest float64. *)
Definition float_says (n : number) (f : spec_float) : Prop :=
  match n with NInt z => f = binary_normalize 53 1024 z 0 false | NFloat g => f = g end.
Definition not_negative (n : number) : Prop := match n with NInt z => 0 <= z | NFloat _ => True end.
Definition tempo_says (t : tempo) (p : ptempo) : Prop :=
  match t, p with CumulativeTempo, PCumulative | DeltaTempo, PDelta => True | _, _ => False end.
(** A time from 1970 on that fits 64 bits. *)
Definition a_time (t : Z) : Prop := 0 <= t < 2 ^ 64.

Section spec.
Context (H : hlib).

(** What each kind of OTLP point must say about a point. *)
Definition sum_says (mono : bool) (t : ptempo) (p : point) (q : pnpoint) : Prop :=
  attrs_say (pt_attrs p) (pn_attrs q) /\ pn_start q = pt_start p /\ pn_time q = pt_end p /\ tempo_says (pt_tempo p) t /\
  exists v, pt_agg p = Some (StSum mono v) /\ number_says v (pn_value q).
(** A gauge point has no start time.  One that was never set shows 0. *)
Definition gauge_says (p : point) (q : pnpoint) : Prop :=
  attrs_say (pt_attrs p) (pn_attrs q) /\ pn_start q = 0 /\ pn_time q = pt_end p /\
  exists v s, pt_agg p = Some (StGauge v s) /\ number_says (if decide (s = 0) then nzero (nkind_of v) else v) (pn_value q).
Definition summary_says (t : ptempo) (p : point) (attrs : list (string * pvalue)) (start time : Z) : Prop :=
  attrs_say (pt_attrs p) attrs /\ start = pt_start p /\ time = pt_end p /\ tempo_says (pt_tempo p) t.
Definition extremum_says (count : Z) (n : number) (f : option spec_float) : Prop :=
  if decide (count = 0) then f = None else exists x, f = Some x /\ (not_negative n -> float_says n x).
Definition mmsc_says (t : ptempo) (p : point) (q : phpoint) : Prop :=
  summary_says t p (ph_attrs q) (ph_start q) (ph_time q) /\ exists mn mx sm c, pt_agg p = Some (StMMSC mn mx sm c) /\
  (not_negative sm -> float_says sm (ph_sum q)) /\ ph_count q = c /\
  (nkind_of sm = FloatKind -> extremum_says c mn (ph_min q) /\ extremum_says c mx (ph_max q)) /\ ph_bounds q = [] /\ ph_counts q = [].
Definition exponential_says (t : ptempo) (p : point) (q : pepoint) : Prop :=
  summary_says t p (pe_attrs q) (pe_start q) (pe_time q) /\ exists n mx l, pt_agg p = Some (StHist n mx l) /\
  let h := hl_read H n mx l in
  (not_negative (h_sum h) -> float_says (h_sum h) (pe_sum q)) /\ pe_count q = h_count h /\
  extremum_says (h_count h) (h_min h) (pe_min q) /\ extremum_says (h_count h) (h_max h) (pe_max q) /\
  pe_zero q = h_zero h /\ pe_scale q = h_scale h /\ pb_counts (pe_pos q) = (h_pos h).2 /\ pb_counts (pe_neg q) = (h_neg h).2 /\
  ((h_pos h).2 <> [] -> pb_offset (pe_pos q) = (h_pos h).1) /\ ((h_neg h).2 <> [] -> pb_offset (pe_neg q) = (h_neg h).1).
(** The buckets of positive numbers ([off] and their counts) with explicit boundaries: 0, which ends the bucket of zeros, and then the lower
    boundaries of the exponential buckets and the upper one of the last; nothing is counted below the first of them and above the last. *)
Definition buckets_say (pos : Z * list Z) (zeros scale : Z) (bounds : list spec_float) (counts : list Z) : Prop :=
  match pos.2 with
  | [] => bounds = [S754_zero false] /\ counts = [zeros; 0]
  | _ => exists lower, hl_mapping H scale = Some lower /\
         bounds = S754_zero false :: map (fun j => lower (pos.1 + Z.of_nat j)) (seq 0 (S (length pos.2))) /\
         counts = ([zeros; 0] ++ pos.2 ++ [0])%list
  end.
Definition explicit_says (t : ptempo) (p : point) (q : phpoint) : Prop :=
  summary_says t p (ph_attrs q) (ph_start q) (ph_time q) /\ exists n mx l, pt_agg p = Some (StHist n mx l) /\
  let h := hl_read H n mx l in
  (not_negative (h_sum h) -> float_says (h_sum h) (ph_sum q)) /\ ph_count q = h_count h /\
  extremum_says (h_count h) (h_min h) (ph_min q) /\ extremum_says (h_count h) (h_max h) (ph_max q) /\
  buckets_say (h_pos h) (h_zero h) (h_scale h) (ph_bounds q) (ph_counts q).
(** The data of a metric: the matching type, and one point for each point in order. *)
Definition data_says (useexp : bool) (f : fam) (ps : list point) (d : pdata) : Prop :=
  match f with
  | FSum mono _ => exists t l, d = PSum mono t l /\ Forall2 (sum_says mono t) ps l
  | FGauge _ => exists l, d = PGauge l /\ Forall2 gauge_says ps l
  | FMMSC _ => exists t l, d = PHist t l /\ Forall2 (mmsc_says t) ps l
  | FHist _ => if useexp then exists t l, d = PExp t l /\ Forall2 (exponential_says t) ps l
               else exists t l, d = PHist t l /\ Forall2 (explicit_says t) ps l
  end.
Definition metric_says (useexp : bool) (i : instr) (m : pmetric) : Prop :=
  pm_name m = i_name (in_desc i) /\ pm_unit m = i_unit (in_desc i) /\ pm_desc m = i_desc (in_desc i) /\
  exists f, (forall p, p ∈ vis (in_points i) -> dyn <$> pt_agg p = Some f) /\ data_says useexp f (vis (in_points i)) (pm_data m).
Definition has_points (i : instr) : bool := match vis (in_points i) with [] => false | _ => true end.
Definition scope_says (useexp : bool) (s : oscope) (q : pscope) : Prop :=
  ps_name q = sc_name (os_lib s) /\ ps_version q = sc_version (os_lib s) /\ ps_schema q = sc_schema (os_lib s) /\
  Forall2 (metric_says useexp) (List.filter has_points (vis (os_insts s))) (ps_metrics q).

(** The points of one instrument are of one type and of one temporality, as collections make them; their numbers are numbers of Go. *)
Definition indexes_fit (b : Z * list Z) : Prop := -2147483648 <= b.1 /\ b.1 + Z.of_nat (length b.2) < 2147483648.
Definition storage_ok (a : storage) : Prop :=
  match a with
  | StSum _ v => a_number v
  | StGauge v _ => a_number v
  | StMMSC mn mx sm _ => a_number mn /\ a_number mx /\ a_number sm /\ nkind_of mn = nkind_of sm /\ nkind_of mx = nkind_of sm
  | StHist n mx l => let h := hl_read H n mx l in a_number (h_sum h) /\ a_number (h_min h) /\ a_number (h_max h) /\
                     nkind_of (h_sum h) = n /\ nkind_of (h_min h) = n /\ nkind_of (h_max h) = n /\ indexes_fit (h_pos h)
  end.
Definition point_ok (p : point) : Prop :=
  a_set (pt_attrs p) /\ with_types (pt_attrs p) /\ a_time (pt_start p) /\ a_time (pt_end p) /\
  exists a, pt_agg p = Some a /\ storage_ok a.
Definition uniform (ps : list point) : Prop :=
  exists f t, (t = CumulativeTempo \/ t = DeltaTempo) /\ forall p, p ∈ ps -> dyn <$> pt_agg p = Some f /\ pt_tempo p = t.
(** The logarithm mapping accepts the scale of every histogram. *)
Definition scale_ok (p : point) : Prop :=
  forall n mx l, pt_agg p = Some (StHist n mx l) -> (h_pos (hl_read H n mx l)).2 <> [] -> is_Some (hl_mapping H (h_scale (hl_read H n mx l))).
Definition data_ok (useexp : bool) (m : metrics) : Prop :=
  forall s i, s ∈ vis (mt_scopes m) -> i ∈ vis (os_insts s) ->
  uniform (vis (in_points i)) /\ forall p, p ∈ vis (in_points i) -> point_ok p /\ (useexp = false -> scale_ok p).
End spec.
(** The number of points given. *)
Definition points_given (m : metrics) : nat :=
  foldr Nat.add 0%nat (map (fun s => foldr Nat.add 0%nat (map (fun i => length (vis (in_points i))) (vis (os_insts s)))) (vis (mt_scopes m))).

(** Calls of the cache of resources by any number of goroutines, in the order in which they get the lock. *)
Fixpoint rm_gets (m : rmap) (l : list (list kv)) : option (list (list (string * pvalue))) :=
  match l with
  | [] => Some []
  | s :: r => '(m', o) ← rm_get m s; os ← rm_gets m' r; Some (o :: os)
  end.
(** Equal but for the sign of zeros inside float slices, which Go's == does not see. *)
Definition same_value (v w : value) : Prop :=
  v = w \/ exists l l', v = VFloats l /\ w = VFloats l' /\ Forall2 (fun a b => a = b \/ f_zero a = true /\ f_zero b = true) l l'.
Definition same_set (s t : list kv) : Prop := Forall2 (fun a b => a.1 = b.1 /\ same_value a.2 b.2) s t.

(** A sequence of calls, each made in the state the one before left, whatever it returned; all errors, in order. *)
Inductive in_order {S} : list (S -> S * option error) -> S -> S -> list error -> Prop :=
  | io_done s : in_order [] s s []
  | io_well f r s s1 s2 es : f s = (s1, None) -> in_order r s1 s2 es -> in_order (f :: r) s s2 es
  | io_fails f r s s1 s2 e es : f s = (s1, Some e) -> in_order r s1 s2 es -> in_order (f :: r) s s2 (e :: es).

(** What the telemetry of an export of [count] points or spans must say when it ended with [e]. *)
Inductive state_says : option error -> string -> Prop :=
  | state_ok : state_says None "ok"
  | state_canceled x : er_canceled x = true -> state_says (Some x) "canceled"
  | state_timeout x : er_canceled x = false -> er_deadline x = true -> state_says (Some x) "timeout"
  | state_error x : er_canceled x = false -> er_deadline x = false -> state_says (Some x) "error".
Definition telemetry_says (key : string) (count : nat) (e : option error) (t : telemetry) : Prop :=
  tl_added t = Z.of_nat count /\
  (exists st ok, state_says e st /\ (ok = true <-> e = None) /\ tl_attrs t = [("success"%string, VBool ok); ("state"%string, VString st)]) /\
  tl_span t = (tl_attrs t ++ [(key, VInt (Z.of_nat count))])%list /\
  (tl_ok t = true <-> e = None) /\ (forall x, e = Some x -> tl_message t = er_text x).
(** A resource of an export says what the attributes of the resource given say, but for the sign of zeros inside float slices. *)
Definition resource_says (s : list kv) (d : list (string * pvalue)) : Prop := exists t, same_set t s /\ attrs_say t d.

(** The exports of one client, one after another: the data given, and the answer of the pipeline to what it is handed. *)
Fixpoint exports (H : hlib) (rs : string -> list kv) (rm : rmap) (useexp : bool) (l : list (metrics * (pmetrics -> option error)))
  : option (list (pmetrics * list telemetry * option error)) :=
  match l with
  | [] => Some []
  | (m, consume) :: r => '(rm', x, ts, e) ← export_metrics H rs rm m useexp consume; os ← exports H rs rm' useexp r; Some ((x, ts, e) :: os)
  end.
Definition export_says (H : hlib) (rs : string -> list kv) (useexp : bool) (i : metrics * (pmetrics -> option error)) (o : pmetrics * list telemetry * option error) : Prop :=
  let '(m, consume) := i in let '(x, ts, e) := o in
  resource_says (rs (mt_res m)) (px_resource x) /\ Forall2 (scope_says H useexp) (vis (mt_scopes m)) (px_scopes x) /\
  e = consume x /\ exists t, ts = [t] /\ telemetry_says "num_points" (points_given m) e t.
