(** Views: clauses, defaults, validation, hints, and the compiler from instruments to output streams.
    M stands for /repo/lightstep/sdk/metric. *)
From Coq Require Import ZArith Bool String Ascii.
From stdpp Require Import base list option strings gmap.
From Verif Require Import Num Attr.
Local Open Scope Z_scope.

(** number.Kind (M/number/number.go:22-30). *)
Inductive nkind := IntKind | FloatKind.
#[global] Instance nkind_eq_dec : EqDecision nkind. Proof. solve_decision. Defined.

(** instrumentation.Scope of the API: Name, Version and SchemaURL. *)
Record scope := Scope { sc_name : string; sc_version : string; sc_schema : string }.
#[global] Instance scope_eq_dec : EqDecision scope. Proof. solve_decision. Defined.

(** sdkinstrument.Descriptor (M/sdkinstrument/descriptor.go:24-52). *)
Record descriptor := Descriptor { i_name : string; i_kind : kind; i_num : nkind; i_desc : string; i_unit : string }.
#[global] Instance descriptor_eq_dec : EqDecision descriptor. Proof. solve_decision. Defined.

(** aggregation.Kind (M/aggregator/aggregation/aggregation.go:106-117).  Every integer that is not one of the constants is BadAgg. *)
Inductive aggk := UndefinedAgg | DropAgg | AnySumAgg | MonotonicAgg | NonMonotonicAgg | GaugeAgg | HistogramAgg | MMSCAgg | BadAgg.
#[global] Instance aggk_eq_dec : EqDecision aggk. Proof. solve_decision. Defined.
(** aggregation.Category (aggregation.go:96-104). *)
Inductive category := UndefinedCat | MonotonicCat | NonMonotonicCat | GaugeCat | HistogramCat.
(** Kind.Category (aggregation.go:119-140). *)
Definition category_of (a : aggk) (k : kind) : category :=
  match a with
  | AnySumAgg => match k with
                 | SyncHistogram | SyncCounter | AsyncCounter => MonotonicCat
                 | SyncUpDownCounter | AsyncUpDownCounter => NonMonotonicCat
                 | _ => UndefinedCat
                 end
  | MonotonicAgg => MonotonicCat
  | NonMonotonicAgg => NonMonotonicCat
  | GaugeAgg => GaugeCat
  | HistogramAgg | MMSCAgg => HistogramCat
  | _ => UndefinedCat
  end.
(** Kind.Valid (aggregation.go:147-155). *)
Definition agg_valid (a : aggk) : bool := match a with BadAgg => false | _ => true end.

(** strings.ToLower, on ASCII letters only: the other letters of Unicode are left alone (simplified). *)
Definition lower_char (c : ascii) : ascii :=
  let n := nat_of_ascii c in if Nat.leb 65 n && Nat.leb n 90 then ascii_of_nat (n + 32) else c.
Fixpoint lower (s : string) : string := match s with EmptyString => EmptyString | String c r => String (lower_char c) (lower r) end.
(** ParseKind (aggregation.go:159-177). *)
Definition parse_agg (s : string) : option aggk :=
  let l := lower s in
  if String.eqb l "drop" then Some DropAgg
  else if String.eqb l "sum" then Some AnySumAgg
  else if String.eqb l "monotonic_sum" then Some MonotonicAgg
  else if String.eqb l "nonmonotonic_sum" then Some NonMonotonicAgg
  else if String.eqb l "gauge" then Some GaugeAgg
  else if String.eqb l "histogram" || String.eqb l "exponential_histogram" then Some HistogramAgg
  else if String.eqb l "minmaxsumcount" then Some MMSCAgg
  else None.

(** aggregation.Temporality (temporality.go:23-36).  Every other byte is BadTempo. *)
Inductive tempo := UndefinedTempo | CumulativeTempo | DeltaTempo | BadTempo.
#[global] Instance tempo_eq_dec : EqDecision tempo. Proof. solve_decision. Defined.
(** Temporality.Valid (temporality.go:55-61). *)
Definition tempo_valid (t : tempo) : bool := match t with BadTempo => false | _ => true end.
(** ParseTemporality (temporality.go:78-86). *)
Definition parse_tempo (s : string) : option tempo :=
  let l := lower s in
  if String.eqb l "cumulative" then Some CumulativeTempo else if String.eqb l "delta" then Some DeltaTempo else None.

(** aggregator.Config (M/aggregator/aggregator.go:83-90).  The histogram configuration of the library is its maximum size. *)
Record acfg := Acfg { c_size : Z; c_limit : Z }.
#[global] Instance acfg_eq_dec : EqDecision acfg. Proof. solve_decision. Defined.
(** view.Hint (M/view/hint.go:24-39) with aggregator.JSONConfig. *)
Record hint := Hint { h_desc : string; h_agg : string; h_tempo : string; h_size : Z; h_limit : Z }.

(** The library functions the code calls: histostruct.Config.Validate, which returns a configuration and whether there was an
    error; and json.Unmarshal of a description into a Hint, which returns nothing on an error. *)
Record libs := Libs { hist_validate : Z -> Z * bool; parse_hint : string -> option hint }.

(** StandardAggregationKind (M/view/standard.go:25-37). *)
Definition standard_agg (k : kind) : aggk :=
  match k with
  | SyncHistogram => HistogramAgg
  | AsyncGauge | SyncGauge => GaugeAgg
  | SyncUpDownCounter | AsyncUpDownCounter => NonMonotonicAgg
  | SyncCounter | AsyncCounter => MonotonicAgg
  end.
(** StandardTemporality (standard.go:41-43) and DeltaPreferredTemporality (standard.go:48-55). *)
Definition standard_tempo (k : kind) : tempo := CumulativeTempo.
Definition delta_preferred (k : kind) : tempo :=
  match k with SyncUpDownCounter | AsyncUpDownCounter => CumulativeTempo | _ => DeltaTempo end.
(** LowMemoryTemporality (temporality.go:88-97). *)
Definition low_memory (k : kind) : tempo :=
  match k with
  | SyncUpDownCounter | AsyncUpDownCounter => CumulativeTempo
  | SyncCounter | SyncHistogram => DeltaTempo
  | _ => CumulativeTempo
  end.

(** view.ClauseConfig (M/view/clause.go:30-44).  A regular expression is the set of names it matches; a kind of -1 is None;
    a nil rename function is None; nil keys are None. *)
Record clause := Clause {
  k_name : string; k_pattern : option (string -> bool); k_kind : option kind; k_num : option nkind; k_lib : scope;
  k_keys : option (list string); k_rename : option (string -> string); k_desc : string; k_agg : aggk; k_cfg : acfg }.
(** ClauseOption and its constructors (clause.go:54-147). *)
Inductive clause_option :=
  | MatchName (s : string) | MatchPattern (p : string -> bool) | MatchKind (k : kind) | MatchNumber (n : nkind) | MatchLibrary (l : scope)
  | WithKeys (ks : option (list string)) | WithName (s : string) | WithRename (f : string -> string) | WithDescription (s : string)
  | WithAggregation (a : aggk) | WithConfig (c : acfg).
Definition apply_clause_option (o : clause_option) (c : clause) : clause :=
  let '(Clause n p k nk l ks r d a cfg) := c in
  match o with
  | MatchName s => Clause s p k nk l ks r d a cfg
  | MatchPattern q => Clause n (Some q) k nk l ks r d a cfg
  | MatchKind k' => Clause n p (Some k') nk l ks r d a cfg
  | MatchNumber nk' => Clause n p k (Some nk') l ks r d a cfg
  | MatchLibrary l' => Clause n p k nk l' ks r d a cfg
  | WithKeys ks' => Clause n p k nk l ks' r d a cfg
  | WithName s => Clause n p k nk l ks (Some (fun _ => s)) d a cfg
  | WithRename f => Clause n p k nk l ks (Some f) d a cfg
  | WithDescription s => Clause n p k nk l ks r s a cfg
  | WithAggregation a' => Clause n p k nk l ks r d a' cfg
  | WithConfig cfg' => Clause n p k nk l ks r d a cfg'
  end.
(** The clause WithClause starts from, and WithClause's loop (M/view/view.go:67-79). *)
Definition empty_clause : clause := Clause "" None None None (Scope "" "" "") None None "" UndefinedAgg (Acfg 0 0).
Definition new_clause (os : list clause_option) : clause := fold_left (fun c o => apply_clause_option o c) os empty_clause.

(** stringMismatch, ikindMismatch, nkindMismatch, regexpMismatch (clause.go:174-188). *)
Definition string_mismatch (test v : string) : bool := negb (String.eqb test "") && negb (String.eqb test v).
Definition kind_mismatch (test : option kind) (v : kind) : bool := match test with None => false | Some k => negb (bool_decide (k = v)) end.
Definition num_mismatch (test : option nkind) (v : nkind) : bool := match test with None => false | Some k => negb (bool_decide (k = v)) end.
Definition pattern_mismatch (test : option (string -> bool)) (v : string) : bool := match test with None => false | Some p => negb (p v) end.
(** libraryMismatch (clause.go:190-201). *)
Definition library_mismatch (test lib : scope) : bool :=
  if String.eqb (sc_name test) "" && String.eqb (sc_version test) "" && String.eqb (sc_schema test) "" then false
  else string_mismatch (sc_name test) (sc_name lib) || string_mismatch (sc_version test) (sc_version lib)
       || string_mismatch (sc_schema test) (sc_schema lib).
(** ClauseConfig.Matches (clause.go:203-210). *)
Definition matches (c : clause) (lib : scope) (d : descriptor) : bool :=
  negb (library_mismatch (k_lib c) lib || string_mismatch (k_name c) (i_name d) || kind_mismatch (k_kind c) (i_kind d)
        || num_mismatch (k_num c) (i_num d) || pattern_mismatch (k_pattern c) (i_name d)).
(** ClauseConfig.Rename (clause.go:151-156). *)
Definition rename (c : clause) (s : string) : string := match k_rename c with None => s | Some f => f s end.

(** DefaultConfig's entry for one instrument kind (view.go:39-46) and Views (M/view/views.go:27-36).  The only performance
    setting the views use is AggregatorCardinalityLimit. *)
Record kdefault := Default { f_agg : aggk; f_tempo : tempo; f_int : acfg; f_float : acfg }.
Record views := Views { v_name : string; v_clauses : list clause; v_defaults : kind -> kdefault; v_limit : Z }.
(** DefaultConfig.AggregationConfig (view.go:59-64). *)
Definition default_cfg (v : views) (k : kind) (n : nkind) : acfg :=
  match n with IntKind => f_int (v_defaults v k) | FloatKind => f_float (v_defaults v k) end.
(** view.Option and its constructors (view.go:67-117). *)
Inductive view_option :=
  | WithClause (os : list clause_option)
  | WithDefaultAgg (f : kind -> aggk)
  | WithDefaultTempo (f : kind -> tempo)
  | WithDefaultConfig (f : kind -> acfg * acfg).
Definition apply_view_option (o : view_option) (v : views) : views :=
  let '(Views n cs ds lim) := v in
  match o with
  | WithClause os => Views n (cs ++ [new_clause os]) ds lim
  | WithDefaultAgg f => Views n cs (fun k => let '(Default _ t i fl) := ds k in Default (f k) t i fl) lim
  | WithDefaultTempo f => Views n cs (fun k => let '(Default a _ i fl) := ds k in Default a (f k) i fl) lim
  | WithDefaultConfig f => Views n cs (fun k => let '(Default a t _ _) := ds k in Default a t (f k).1 (f k).2) lim
  end.
(** sdkinstrument.Performance (M/sdkinstrument/performance.go:42-69) without the measurement processor, and Validate (79-97). *)
Record perf := Perf { p_ignore : bool; p_periods : Z; p_instrument : Z; p_aggregator : Z; p_size : Z }.
Definition or_default (n d : Z) : Z := if n =? 0 then d else n.
Definition perf_validate (p : perf) : perf :=
  Perf (p_ignore p) (or_default (p_periods p) 10) (or_default (p_instrument p) 3000) (or_default (p_aggregator p) 2000) (or_default (p_size p) 8192).
(** NewConfig (view.go:133-144) with the standard options (StandardConfigForPerformance, standard.go:60-69) and view.New (views.go:39-46). *)
Definition new_views (name : string) (p : perf) (os : list view_option) : views :=
  let limit := p_aggregator (perf_validate p) in
  fold_left (fun v o => apply_view_option o v)
    ([WithDefaultAgg standard_agg; WithDefaultTempo standard_tempo;
      WithDefaultConfig (fun _ => (Acfg 0 limit, Acfg 0 limit))] ++ os)
    (Views name [] (fun _ => Default UndefinedAgg UndefinedTempo (Acfg 0 0) (Acfg 0 0)) limit).

(** The errors of Validate. *)
Inductive view_error := InvalidAggregation | InvalidTemporality | InvalidConfig | NameAndPattern | EmptyKey.

Section Lib.
Context (L : libs).

(** Config.Validate (aggregator.go:100-109). *)
Definition cfg_validate (c : acfg) : acfg * bool :=
  let '(h, e) := hist_validate L (c_size c) in (Acfg h (if c_limit c =? 0 then 2000 else c_limit c), e).
(** checkAggregation, checkTemporality, checkAggConfig (views.go:48-77). *)
Definition check_agg (a def : aggk) : aggk * list view_error := if agg_valid a then (a, []) else (def, [InvalidAggregation]).
Definition check_tempo (t def : tempo) : tempo * list view_error := if tempo_valid t then (t, []) else (def, [InvalidTemporality]).
Definition check_cfg (limit : Z) (c : acfg) : acfg * list view_error :=
  let '(c', e) := cfg_validate (if c_limit c =? 0 then Acfg (c_size c) limit else c) in (c', if e then [InvalidConfig] else []).
(** Validate's loop over the defaults (views.go:98-105), for one instrument kind. *)
Definition check_default (limit : Z) (k : kind) (f : kdefault) : kdefault * list view_error :=
  let '(a, e1) := check_agg (f_agg f) (standard_agg k) in
  let '(t, e2) := check_tempo (f_tempo f) (standard_tempo k) in
  let '(i, e3) := check_cfg limit (f_int f) in
  let '(fl, e4) := check_cfg limit (f_float f) in
  (Default a t i fl, e1 ++ e2 ++ e3 ++ e4).
(** Validate's loop over the clauses (views.go:107-123), for one clause. *)
Definition check_clause (limit : Z) (c : clause) : clause * list view_error :=
  let '(Clause n p k nk l ks r d a cfg) := c in
  let '(a', e1) := check_agg a UndefinedAgg in
  let '(cfg', e2) := check_cfg limit cfg in
  let both := negb (String.eqb n "") && match p with None => false | Some _ => true end in
  let empty := filter (fun s => s = "")%string (default [] ks) in
  (Clause n (if both then None else p) k nk l ks r d a' cfg',
   e1 ++ e2 ++ (if both then [NameAndPattern] else []) ++ map (fun _ => EmptyKey) empty).
Definition all_kinds : list kind := [SyncCounter; SyncUpDownCounter; SyncGauge; SyncHistogram; AsyncCounter; AsyncUpDownCounter; AsyncGauge].
(** Validate (views.go:81-126).  The copy it returns has no performance settings: its limit is 0. *)
Definition validate (v : views) : views * list view_error :=
  (Views (v_name v) (map (fun c => (check_clause (v_limit v) c).1) (v_clauses v))
         (fun k => (check_default (v_limit v) k (v_defaults v k)).1) 0,
   concat (map (fun k => (check_default (v_limit v) k (v_defaults v k)).2) all_kinds)
   ++ concat (map (fun c => (check_clause (v_limit v) c).2) (v_clauses v))).

(** singleBehavior (M/internal/viewstate/viewstate.go:145-177).  keysSet and keysFilter are both made from the keys. *)
Record behavior := Behavior {
  b_from : string; b_desc : descriptor; b_agg : aggk; b_tempo : tempo; b_cfg : acfg; b_keys : option (list string); b_hinted : bool }.

(** strings.Contains(s, "{"). *)
Fixpoint has_brace (s : string) : bool :=
  match s with EmptyString => false | String c r => if Ascii.eqb c "{" then true else has_brace r end.
(** tryToApplyHint (viewstate.go:198-258): the descriptor, aggregation, temporality, configuration, default configuration
    and whether there was a hint. *)
Definition apply_hint (v : views) (d : descriptor) : descriptor * aggk * tempo * acfg * acfg * bool :=
  let f := v_defaults v (i_kind d) in
  let cfg := default_cfg v (i_kind d) (i_num d) in
  let plain := (d, f_agg f, f_tempo f, cfg, cfg, false) in
  if has_brace (i_desc d) then
    match parse_hint L (i_desc d) with
    | None => plain
    | Some h =>
        (Descriptor (i_name d) (i_kind d) (i_num d) (h_desc h) (i_unit d),
         (if String.eqb (h_agg h) "" then f_agg f
          else match parse_agg (h_agg h) with None => f_agg f | Some a => a end),
         (if String.eqb (h_tempo h) "" then f_tempo f
          else match parse_tempo (h_tempo h) with None => f_tempo f | Some t => t end),
         Acfg (if h_size h =? 0 then c_size cfg else (hist_validate L (h_size h)).1)
              (if h_limit h =? 0 then c_limit cfg else h_limit h),
         cfg, true)
    end
  else plain.

(** viewDescriptor (viewstate.go:699-709). *)
Definition view_descriptor (d : descriptor) (c : clause) : descriptor :=
  Descriptor (rename c (i_name d)) (i_kind d) (i_num d) (if String.eqb (k_desc c) "" then i_desc d else k_desc c) (i_unit d).
(** pickAggConfig (viewstate.go:624-629). *)
Definition pick_cfg (hinted def view : acfg) : acfg := if bool_decide (view = def) then hinted else view.

(** Compile's loop over the matching clauses (viewstate.go:274-304): the instrument it leaves behind and the behaviors. *)
Fixpoint clause_behaviors (v : views) (d : descriptor) (ms : list clause) : descriptor * list behavior :=
  match ms with
  | [] => (d, [])
  | c :: ms' =>
      if bool_decide (k_agg c = DropAgg) then clause_behaviors v d ms'
      else
        let '(d', ha, t, hcfg, defcfg, hinted) := apply_hint v d in
        let b := Behavior (i_name d') (view_descriptor d' c) (if bool_decide (k_agg c = UndefinedAgg) then ha else k_agg c) t
                          (pick_cfg hcfg defcfg (k_cfg c)) (k_keys c) hinted in
        let '(d'', bs) := clause_behaviors v d' ms' in (d'', b :: bs)
  end.
(** The behaviors of Compile, before the lock is taken (viewstate.go:263-322). *)
Definition behaviors (v : views) (lib : scope) (d : descriptor) : descriptor * list behavior :=
  let ms := filter (fun c => matches c lib d = true) (v_clauses v) in
  match ms with
  | [] => let '(d', a, t, cfg, _, hinted) := apply_hint v d in
          (d', if bool_decide (a = DropAgg) then [] else [Behavior (i_name d') d' a t cfg None hinted])
  | _ => clause_behaviors v d ms
  end.

(** checkSemanticCompatibility (viewstate.go:633-694): the behavior after the call, and the aggregation of the SemanticError. *)
Definition with_agg (b : behavior) (a : aggk) : behavior :=
  Behavior (b_from b) (b_desc b) a (b_tempo b) (b_cfg b) (b_keys b) (b_hinted b).
Definition check_semantic (k : kind) (b : behavior) : behavior * option aggk :=
  if b_hinted b then (b, None)
  else
    let cat := category_of (b_agg b) k in
    let a := match b_agg b with
             | AnySumAgg => match cat with MonotonicCat | HistogramCat => MonotonicAgg | NonMonotonicCat => NonMonotonicAgg | _ => UndefinedAgg end
             | a => a
             end in
    let ok := match k with
              | SyncCounter | SyncHistogram => match cat with MonotonicCat | NonMonotonicCat | HistogramCat => true | _ => false end
              | SyncUpDownCounter | AsyncUpDownCounter => match cat with NonMonotonicCat => true | _ => false end
              | AsyncCounter => match cat with NonMonotonicCat | MonotonicCat => true | _ => false end
              | AsyncGauge | SyncGauge => match cat with GaugeCat => true | _ => false end
              end in
    if ok then (with_agg b a, None) else (with_agg b (standard_agg k), Some a).

(** A leaf instrument (instrumentBase and its wrappers, M/internal/viewstate/base_instrument.go:52-62): the original name, the
    descriptor, the aggregation of its Methods, whether the delta form was built, the configuration and the keys. *)
Record stream := Stream { s_from : string; s_desc : descriptor; s_agg : aggk; s_delta : bool; s_cfg : acfg; s_keys : option (list string) }.
(** compileSync (viewstate.go:450-485) and compileAsync (531-554): the aggregation of the storage that is built. *)
Definition built_agg (b : behavior) : aggk :=
  if synchronous (i_kind (b_desc b)) then
    match b_agg b with HistogramAgg => HistogramAgg | MMSCAgg => MMSCAgg | NonMonotonicAgg => NonMonotonicAgg | GaugeAgg => GaugeAgg | _ => MonotonicAgg end
  else
    match b_agg b with MonotonicAgg => MonotonicAgg | NonMonotonicAgg => NonMonotonicAgg | _ => GaugeAgg end.
(** buildView, newSyncView, newAsyncView (viewstate.go:405-446, 492-527). *)
Definition build (b : behavior) : stream :=
  Stream (b_from b) (b_desc b) (built_agg b)
         (bool_decide (b_tempo b = DeltaTempo) && (synchronous (i_kind (b_desc b)) || negb (bool_decide (built_agg b = GaugeAgg))))
         (b_cfg b) (b_keys b).
(** keysToSet (viewstate.go:588-595). *)
Definition key_set (ks : list string) : list kv := new_set (map (fun k => (k, VInt 0)) ks).
(** The tests of Compile's scan (viewstate.go:345-374). *)
Definition same_keys (a b : option (list string)) : bool :=
  match a, b with
  | None, None => true
  | Some x, Some y => attributes_equal (key_set x) (key_set y)
  | _, _ => false
  end.
Definition shares (s : stream) (b : behavior) : bool :=
  bool_decide (s_agg s = b_agg b)
  && Bool.eqb (synchronous (i_kind (s_desc s))) (synchronous (i_kind (b_desc b)))
  && String.eqb (i_unit (s_desc s)) (i_unit (b_desc b))
  && bool_decide (i_num (s_desc s) = i_num (b_desc b))
  && bool_decide (s_cfg s = b_cfg b)
  && same_keys (s_keys s) (b_keys b).
(** mergeDescription (base_instrument.go:96-102). *)
Definition merge_description (t : string) (s : stream) : stream :=
  let '(Stream f (Descriptor n k nk d u) a dl cfg ks) := s in
  if Nat.ltb (String.length d) (String.length t) then Stream f (Descriptor n k nk t u) a dl cfg ks else s.

(** Compiler (viewstate.go:60-78): a leaf is its position in the list of collectors. *)
Record cstate := CState { collectors : list stream; names : gmap string (list nat) }.
Definition cempty : cstate := CState [] ∅.
(** Conflict (M/internal/viewstate/errors.go:103-109). *)
Record conflict := Conflict { cf_semantic : option aggk; cf_duplicates : list nat }.

(** The first of the leaves that a behavior may share. *)
Fixpoint find_shared (l : list stream) (ids : list nat) (b : behavior) : option nat :=
  match ids with
  | [] => None
  | i :: r => match l !! i with
              | Some s => if shares s b then Some i else find_shared l r b
              | None => find_shared l r b
              end
  end.
(** The body of Compile's loop over the behaviors (viewstate.go:331-399), with the lock held. *)
Definition place (k : kind) (st : cstate) (b0 : behavior) : cstate * nat * list conflict :=
  let '(b, sem) := check_semantic k b0 in
  let existing := default [] (names st !! i_name (b_desc b)) in
  let '(st', existing', leaf) :=
    match find_shared (collectors st) existing b with
    | Some i => (CState (alter (merge_description (i_desc (b_desc b))) i (collectors st)) (names st), existing, i)
    | None => let i := length (collectors st) in
              (CState (collectors st ++ [build b]) (<[i_name (b_desc b) := existing ++ [i]]> (names st)), existing ++ [i], i)
    end in
  (st', leaf, if Nat.ltb 1 (length existing') || match sem with None => false | Some _ => true end then [Conflict sem existing'] else []).
Fixpoint place_all (k : kind) (st : cstate) (bs : list behavior) : cstate * list nat * list conflict :=
  match bs with
  | [] => (st, [], [])
  | b :: bs' => let '(st1, i, c) := place k st b in
                let '(st2, is, cs) := place_all k st1 bs' in (st2, i :: is, c ++ cs)
  end.
(** Compile (viewstate.go:263-401): the leaves of the compiled instrument (nil when there are none, the leaf itself when there is one,
    a multiInstrument otherwise: Combine, viewstate.go:559-570) and the conflicts added under the name of the views. *)
Definition compile (v : views) (lib : scope) (st : cstate) (d : descriptor) : cstate * list nat * list conflict :=
  let '(d', bs) := behaviors v lib d in place_all (i_kind d') st bs.
(** A history of registrations with one compiler: New (viewstate.go:180-187) validates the views. *)
Definition compile_run (v : views) (lib : scope) (ds : list descriptor) : cstate :=
  fold_left (fun st d => (compile v lib st d).1.1) ds cempty.
End Lib.
