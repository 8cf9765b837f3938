(** What users expect of views, in words close to the properties; nothing here calls the functions of View. *)
From Coq Require Import ZArith Bool String Ascii.
From stdpp Require Import base list option strings.
From Verif Require Import Num View CaseSpec.
Local Open Scope Z_scope.

(** C21: the selector that was set last, if any. *)
Definition last_set {A} (f : clause_option -> option A) (os : list clause_option) : option A :=
  fold_left (fun acc o => match f o with Some a => Some a | None => acc end) os None.
Definition name_of (o : clause_option) := match o with MatchName s => Some s | _ => None end.
Definition pattern_of (o : clause_option) := match o with MatchPattern p => Some p | _ => None end.
Definition kind_of (o : clause_option) := match o with MatchKind k => Some k | _ => None end.
Definition number_of (o : clause_option) := match o with MatchNumber n => Some n | _ => None end.
Definition library_of (o : clause_option) := match o with MatchLibrary l => Some l | _ => None end.
(** A string selector accepts a value when it is empty or equal to it. *)
Definition accepts (want have : string) : Prop := want <> ""%string -> want = have.
Definition selected (os : list clause_option) (lib : scope) (d : descriptor) : Prop :=
  (forall s, last_set name_of os = Some s -> accepts s (i_name d)) /\
  (forall p, last_set pattern_of os = Some p -> p (i_name d) = true) /\
  (forall k, last_set kind_of os = Some k -> i_kind d = k) /\
  (forall n, last_set number_of os = Some n -> i_num d = n) /\
  (forall l, last_set library_of os = Some l ->
     accepts (sc_name l) (sc_name lib) /\ accepts (sc_version l) (sc_version lib) /\ accepts (sc_schema l) (sc_schema lib)).

(** The same for a clause as it is stored. *)
Definition selects (c : clause) (lib : scope) (d : descriptor) : Prop :=
  accepts (k_name c) (i_name d) /\
  (forall p, k_pattern c = Some p -> p (i_name d) = true) /\
  (forall k, k_kind c = Some k -> i_kind d = k) /\
  (forall n, k_num c = Some n -> i_num d = n) /\
  accepts (sc_name (k_lib c)) (sc_name lib) /\ accepts (sc_version (k_lib c)) (sc_version lib) /\
  accepts (sc_schema (k_lib c)) (sc_schema lib).

(** C25: which aggregations are allowed for an instrument kind, which one stands in for a forbidden one, and which sum "sum" means. *)
Definition allowed (k : kind) (a : aggk) : bool :=
  match k, a with
  | (SyncCounter | SyncHistogram), (AnySumAgg | MonotonicAgg | NonMonotonicAgg | HistogramAgg | MMSCAgg) => true
  | (SyncUpDownCounter | AsyncUpDownCounter), (AnySumAgg | NonMonotonicAgg) => true
  | AsyncCounter, (AnySumAgg | MonotonicAgg | NonMonotonicAgg) => true
  | (SyncGauge | AsyncGauge), GaugeAgg => true
  | _, _ => false
  end.
Definition natural (k : kind) : aggk :=
  match k with
  | SyncCounter | AsyncCounter => MonotonicAgg
  | SyncUpDownCounter | AsyncUpDownCounter => NonMonotonicAgg
  | SyncHistogram => HistogramAgg
  | SyncGauge | AsyncGauge => GaugeAgg
  end.
Definition sum_for (k : kind) : aggk := match k with SyncUpDownCounter | AsyncUpDownCounter => NonMonotonicAgg | _ => MonotonicAgg end.
Definition granted (k : kind) (a : aggk) : aggk :=
  if allowed k a then (if bool_decide (a = AnySumAgg) then sum_for k else a) else natural k.
(** The aggregations a stream can have. *)
Definition concrete (a : aggk) : Prop := a = MonotonicAgg \/ a = NonMonotonicAgg \/ a = GaugeAgg \/ a = HistogramAgg \/ a = MMSCAgg.

(** C22: the outputs an instrument should have in a reader. *)
Record out := Out { o_name : string; o_desc : string; o_unit : string; o_kind : kind; o_num : nkind; o_agg : aggk; o_cfg : acfg; o_keys : option (list string) }.
(** The clauses that select the instrument, in order. *)
Inductive chosen (lib : scope) (d : descriptor) : list clause -> list clause -> Prop :=
  | chosen_nil : chosen lib d [] []
  | chosen_take c cs ms : selects c lib d -> chosen lib d cs ms -> chosen lib d (c :: cs) (c :: ms)
  | chosen_skip c cs ms : ~ selects c lib d -> chosen lib d cs ms -> chosen lib d (c :: cs) ms.
(** The aggregation a clause asks for. *)
Definition asked (v : views) (d : descriptor) (c : clause) : aggk :=
  match k_agg c with UndefinedAgg => f_agg (v_defaults v (i_kind d)) | a => a end.
Definition clause_out (v : views) (d : descriptor) (c : clause) : out :=
  Out (match k_rename c with Some f => f (i_name d) | None => i_name d end)
      (if decide (k_desc c = "")%string then i_desc d else k_desc c)
      (i_unit d) (i_kind d) (i_num d) (asked v d c) (k_cfg c) (k_keys c).
Definition default_out (v : views) (d : descriptor) : out :=
  Out (i_name d) (i_desc d) (i_unit d) (i_kind d) (i_num d) (f_agg (v_defaults v (i_kind d)))
      (match i_num d with IntKind => f_int (v_defaults v (i_kind d)) | FloatKind => f_float (v_defaults v (i_kind d)) end) None.
Definition wanted (v : views) (lib : scope) (d : descriptor) (os : list out) : Prop :=
  exists ms, chosen lib d (v_clauses v) ms /\
    os = match ms with
         | [] => if decide (f_agg (v_defaults v (i_kind d)) = DropAgg) then [] else [default_out v d]
         | _ => map (clause_out v d) (filter (fun c => k_agg c <> DropAgg) ms)
         end.
(** Two key filters are the same when they keep the same keys. *)
Definition keys_alike (a b : option (list string)) : Prop :=
  match a, b with None, None => True | Some x, Some y => forall k, In k x <-> In k y | _, _ => False end.
(** A stream carries an output: everything but the description and the exact kind agrees, and the aggregation is the one granted. *)
Definition carries (s : stream) (o : out) : Prop :=
  i_name (s_desc s) = o_name o /\ i_unit (s_desc s) = o_unit o /\ i_num (s_desc s) = o_num o /\
  s_agg s = granted (o_kind o) (o_agg o) /\ s_cfg s = o_cfg o /\ keys_alike (s_keys s) (o_keys o) /\
  synchronous (i_kind (s_desc s)) = synchronous (o_kind o) /\
  (String.length (o_desc o) <= String.length (i_desc (s_desc s)))%nat.
(** Two streams under one name that a user could not tell apart. *)
Definition alike (s t : stream) : Prop :=
  s_agg s = s_agg t /\ synchronous (i_kind (s_desc s)) = synchronous (i_kind (s_desc t)) /\ i_unit (s_desc s) = i_unit (s_desc t) /\
  i_num (s_desc s) = i_num (s_desc t) /\ s_cfg s = s_cfg t /\ keys_alike (s_keys s) (s_keys t).

(** No hint in a description: it has no brace, or it is not a hint in JSON. *)
Definition no_hint (L : libs) (d : descriptor) : Prop := ~ In "{"%char (list_ascii_of_string (i_desc d)) \/ parse_hint L (i_desc d) = None.

(** C27: legal settings. *)
Definition cfg_legal (L : libs) (c : acfg) : Prop := hist_validate L (c_size c) = (c_size c, false) /\ c_limit c <> 0.
Definition default_legal (L : libs) (f : kdefault) : Prop :=
  f_agg f <> BadAgg /\ f_tempo f <> BadTempo /\ cfg_legal L (f_int f) /\ cfg_legal L (f_float f).
Definition clause_legal (L : libs) (c : clause) : Prop :=
  k_agg c <> BadAgg /\ cfg_legal L (k_cfg c) /\ (k_name c = ""%string \/ k_pattern c = None).
Definition views_legal (L : libs) (v : views) : Prop :=
  (forall k, default_legal L (v_defaults v k)) /\ (forall c, In c (v_clauses v) -> clause_legal L c).
(** The contract of histostruct.Config.Validate: what it returns is valid. *)
Definition library_ok (L : libs) : Prop := forall z, hist_validate L (hist_validate L z).1 = ((hist_validate L z).1, false).
(** The same views: defaults compared kind by kind, the performance limit left out. *)
Definition views_same (v w : views) : Prop :=
  v_name v = v_name w /\ v_clauses v = v_clauses w /\ forall k, v_defaults v k = v_defaults w k.

(** A history: every instrument registered with one compiler, with the streams it was given. *)
Fixpoint registered (L : libs) (v : views) (lib : scope) (st : cstate) (ds : list descriptor) : list (descriptor * list nat) :=
  match ds with
  | [] => []
  | d :: ds' => let '(st', is, _) := compile L v lib st d in (d, is) :: registered L v lib st' ds'
  end.

(** C22: the results a clause was given last, and the options of a configuration. *)
Definition keys_of (o : clause_option) := match o with WithKeys ks => Some ks | _ => None end.
Definition rename_of (o : clause_option) := match o with WithName s => Some (fun _ => s) | WithRename f => Some f | _ => None end.
Definition description_of (o : clause_option) := match o with WithDescription s => Some s | _ => None end.
Definition aggregation_of (o : clause_option) := match o with WithAggregation a => Some a | _ => None end.
Definition config_of (o : clause_option) := match o with WithConfig c => Some c | _ => None end.
Definition last_option {A} (f : view_option -> option A) (os : list view_option) : option A :=
  fold_left (fun acc o => match f o with Some a => Some a | None => acc end) os None.
Definition clauses_of (os : list view_option) : list (list clause_option) := omap (fun o => match o with WithClause c => Some c | _ => None end) os.
Definition default_agg_of (o : view_option) := match o with WithDefaultAgg f => Some f | _ => None end.
Definition default_tempo_of (o : view_option) := match o with WithDefaultTempo f => Some f | _ => None end.
Definition default_cfg_of (o : view_option) := match o with WithDefaultConfig f => Some f | _ => None end.

(** C27: what is wrong with a default and with a clause. *)
Definition default_fault (L : libs) (f : kdefault) (e : view_error) : Prop :=
  match e with
  | InvalidAggregation => f_agg f = BadAgg
  | InvalidTemporality => f_tempo f = BadTempo
  | InvalidConfig => (hist_validate L (c_size (f_int f))).2 = true \/ (hist_validate L (c_size (f_float f))).2 = true
  | _ => False
  end.
Definition clause_fault (L : libs) (c : clause) (e : view_error) : Prop :=
  match e with
  | InvalidAggregation => k_agg c = BadAgg
  | InvalidTemporality => False
  | InvalidConfig => (hist_validate L (c_size (k_cfg c))).2 = true
  | NameAndPattern => k_name c <> ""%string /\ k_pattern c <> None
  | EmptyKey => exists ks, k_keys c = Some ks /\ In ""%string ks
  end.

(** C54: hints.  The names of aggregations and temporalities, in any case; a text that is none of them leaves the default. *)
Definition agg_names : list (string * aggk) :=
  [("drop", DropAgg); ("sum", AnySumAgg); ("monotonic_sum", MonotonicAgg); ("nonmonotonic_sum", NonMonotonicAgg); ("gauge", GaugeAgg);
   ("histogram", HistogramAgg); ("exponential_histogram", HistogramAgg); ("minmaxsumcount", MMSCAgg)]%string.
Definition tempo_names : list (string * tempo) := [("cumulative", CumulativeTempo); ("delta", DeltaTempo)]%string.
Definition hint_choice {A} (names : list (string * A)) (text : string) (dflt r : A) : Prop :=
  (exists n, (n, r) ∈ names /\ same_but_case text n) \/ ((forall n a, (n, a) ∈ names -> ~ same_but_case text n) /\ r = dflt).
(** The default configuration of the instrument, and that with the numbers of the hint that are not zero. *)
Definition default_config (v : views) (d : descriptor) : acfg :=
  match i_num d with IntKind => f_int (v_defaults v (i_kind d)) | FloatKind => f_float (v_defaults v (i_kind d)) end.
Definition hint_cfg (L : libs) (v : views) (d : descriptor) (h : hint) : acfg :=
  Acfg (if decide (h_size h = 0) then c_size (default_config v d) else (hist_validate L (h_size h)).1)
       (if decide (h_limit h = 0) then c_limit (default_config v d) else h_limit h).
(** The aggregations for which the SDK has a storage. *)
Definition hint_fits (k : kind) (a : aggk) : bool :=
  match a with
  | MonotonicAgg | NonMonotonicAgg | GaugeAgg => true
  | HistogramAgg | MMSCAgg => match k with SyncCounter | SyncUpDownCounter | SyncGauge | SyncHistogram => true | _ => false end
  | _ => false
  end.
Definition hinted_stream (d : descriptor) (h : hint) (t : tempo) (s : stream) : Prop :=
  s_from s = i_name d /\ i_kind (s_desc s) = i_kind d /\ i_num (s_desc s) = i_num d /\ i_unit (s_desc s) = i_unit d /\
  (s_delta s = true <-> t = DeltaTempo /\ (synchronous (i_kind d) = true \/ s_agg s <> GaugeAgg)).
