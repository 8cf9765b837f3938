(** The output of a collection and the re-use of its memory: data.Metrics, Reset, ReallocateFrom, the four Collect methods and Produce.
    M stands for /repo/lightstep/sdk/metric. *)
From Coq Require Import ZArith Bool String.
From stdpp Require Import base list option strings.
From Verif Require Import Num Attr View.
Local Open Scope Z_scope.

(** A slice: the elements within its length, and the elements between its length and its capacity, which keep whatever they held.
    Simplification: a slice owns its backing array, so nobody else keeps the array of an output that was given to Produce. *)
Record slice (T : Type) := Slice { vis : list T; hid : list T }.
Arguments Slice {_} _ _.
Arguments vis {_} _.
Arguments hid {_} _.
(** The nil slice. *)
Definition nil_slice {T} : slice T := Slice [] [].
(** s[0:0:cap(s)]. *)
Definition emptied {T} (s : slice T) : slice T := Slice [] (vis s ++ hid s).

(** A number.Number of either kind (M/number/number.go). *)
Inductive number := NInt (z : num Int64) | NFloat (f : num Float64).
Definition nzero (n : nkind) : number := match n with IntKind => NInt zero | FloatKind => NFloat zero end.
Definition nkind_of (n : number) : nkind := match n with NInt _ => IntKind | NFloat _ => FloatKind end.
Definition nsub (x y : number) : number :=
  match x, y with NInt a, NInt b => NInt (sub a b) | NFloat a, NFloat b => NFloat (sub a b) | _, _ => x end.
Definition nis_zero (x : number) : bool := match x with NInt a => eqb a zero | NFloat a => eqb a zero end.

(** The Go types that implement aggregation.Aggregation: sum.State (two monotonicities), gauge.State, minmaxsumcount.State and
    histogram.Histogram, each for two number kinds. *)
Inductive fam := FSum (mono : bool) (n : nkind) | FGauge (n : nkind) | FMMSC (n : nkind) | FHist (n : nkind).
#[global] Instance fam_eq_dec : EqDecision fam. Proof. solve_decision. Defined.
(** Their values (M/aggregator/sum/sum.go:33-36, gauge/gauge.go:39-43, minmaxsumcount/minmaxsumcount.go:31-42, histogram/histogram.go:30-37).
    Simplification: the histogram, which is in go-expohisto and not in /repo, is its configured maximum size and the numbers it
    holds; its buckets are a function of the two. *)
Inductive storage :=
  | StSum (mono : bool) (v : number)
  | StGauge (v : number) (seq : Z)
  | StMMSC (mn mx sm : number) (count : Z)
  | StHist (n : nkind) (max : Z) (l : list number).
Definition dyn (s : storage) : fam :=
  match s with
  | StSum m v => FSum m (nkind_of v)
  | StGauge v _ => FGauge (nkind_of v)
  | StMMSC _ _ sm _ => FMMSC (nkind_of sm)
  | StHist n _ _ => FHist n
  end.
(** The configuration that a storage carries: MaxSize for histograms, nothing for the others. *)
Definition carried (s : storage) : option Z := match s with StHist _ m _ => Some m | _ => None end.
(** newStorage (M/internal/viewstate/base_instrument.go:190-194) with Init of each aggregator. *)
Definition new_storage (f : fam) (max : Z) : storage :=
  match f with
  | FSum m n => StSum m (nzero n)
  | FGauge n => StGauge (nzero n) 0
  | FMMSC n => StMMSC (nzero n) (nzero n) (nzero n) 0
  | FHist n => StHist n max []
  end.
(** The configuration that new_storage gives. *)
Definition config_of (f : fam) (max : Z) : option Z := match f with FHist _ => Some max | _ => None end.
(** Move(from, to): the new from and the new to (sum.go:111-114, gauge.go:115-123, minmaxsumcount.go:117-122, histogram.go:137-143:
    Clear of [to], then Swap). *)
Definition move (from to : storage) : storage * storage :=
  match from, to with
  | StSum m v, _ => (StSum m (nzero (nkind_of v)), StSum m v)
  | StGauge v q, _ => (StGauge v 0, StGauge v q)
  | StMMSC mn mx sm c, _ => let z := nzero (nkind_of sm) in (StMMSC z z z 0, StMMSC mn mx sm c)
  | StHist n mf l, StHist _ mt _ => (StHist n mt [], StHist n mf l)
  | _, _ => (from, to)
  end.
(** Copy(from, to): the new to (sum.go:125-128, gauge.go:125-130, minmaxsumcount.go:124-129, histogram.go:145-149: CopyInto, which is taken to
    clear [to] and to merge into it under its own MaxSize). *)
Definition copy (from to : storage) : storage :=
  match from, to with
  | StHist n _ l, StHist _ mt _ => StHist n mt l
  | StHist _ _ _, _ => to
  | _, _ => from
  end.
(** HasChange (sum.go:116-118, gauge.go:111-113, minmaxsumcount.go:113-115, histogram.go:127-129). *)
Definition has_change (s : storage) : bool :=
  match s with
  | StSum _ v => negb (nis_zero v)
  | StGauge _ q => negb (q =? 0)
  | StMMSC _ _ _ c => negb (c =? 0)
  | StHist _ _ l => match l with [] => false | _ => true end
  end.
(** SubtractSwap(operand, argument): the new operand (sum.go:143-145; the gauge's and the others' panic and are not called). *)
Definition subtract_swap (operand argument : storage) : storage :=
  match operand, argument with StSum m a, StSum _ b => StSum m (nsub b a) | _, _ => operand end.

(** data.Point, data.Instrument, data.Scope, data.Metrics (M/data/data.go:26-92).  A nil Aggregation is None. *)
Record point := Point { pt_attrs : list kv; pt_tempo : tempo; pt_agg : option storage; pt_start : Z; pt_end : Z }.
Record instr := Instr { in_desc : descriptor; in_points : slice point }.
Record oscope := OScope { os_lib : scope; os_insts : slice instr }.
Record metrics := Metrics { mt_res : string; mt_scopes : slice oscope }.
(** Zero values. *)
Definition zero_point : point := Point [] UndefinedTempo None 0 0.
Definition zero_instr : instr := Instr (Descriptor "" SyncCounter IntKind "" "") nil_slice.
Definition zero_oscope : oscope := OScope (Scope "" "" "") nil_slice.
Definition zero_metrics : metrics := Metrics "" nil_slice.

(** Reset (data.go:95-130). *)
Definition reset_instr (i : instr) : instr := Instr (in_desc i) (emptied (in_points i)).
Definition reset_scope (s : oscope) : oscope :=
  OScope (os_lib s) (emptied (Slice (map reset_instr (vis (os_insts s))) (hid (os_insts s)))).
Definition reset (m : metrics) : metrics :=
  Metrics (mt_res m) (emptied (Slice (map reset_scope (vis (mt_scopes m))) (hid (mt_scopes m)))).

Section produce.
(** How much capacity beyond the new element append allocates for a slice of a given length; that memory is zero. *)
Context (grow : nat -> nat).

(** ReallocateFrom (data.go:132-143), followed by the work [f] that the caller does through the returned pointer, which gives the new
    element and a result. *)
Definition realloc {T R} (z : T) (f : T -> T * R) (s : slice T) : slice T * R :=
  match hid s with
  | x :: h => let '(y, r) := f x in (Slice (vis s ++ [y]) h, r)
  | [] => let '(y, r) := f z in (Slice (vis s ++ [y]) (replicate (grow (length (vis s))) z), r)
  end.

(** storageHolder under its attribute set (base_instrument.go:43-61): the storage and, for synchronous instruments, the number of
    accumulators that refer to it. *)
Record entry := Entry { e_set : list kv; e_sto : storage; e_refs : Z }.
(** Which Collect method: M/internal/viewstate/viewstate.go:425-446, 513-527. *)
Inductive mode := StatefulSync | LowmemSync | LowmemAsync | StatefulAsync.
(** A collector (base_instrument.go:52-61, collectors.go:28-145).  The lists are in the order of the map iteration of this collection. *)
Record collector := Collector {
  k_desc : descriptor; k_fam : fam; k_max : Z; k_mode : mode; k_data : list entry; k_prior : list entry
}.

(** appendPoint with appendOrReusePoint (base_instrument.go:208-251): the point and the new contents of the storage. *)
Definition write_point (k : collector) (set : list kv) (st : storage) (t : tempo) (s e : Z) (rst : bool) (old : point) : point * storage :=
  let out := match pt_agg old with
             | Some a => if decide (dyn a = k_fam k) then a else new_storage (k_fam k) (k_max k)
             | None => new_storage (k_fam k) (k_max k)
             end in
  let '(st', out') := if rst then move st out else (st, copy st out) in
  (Point set t (Some out') s e, st').
Definition append_point k set st t s e rst : slice point -> slice point * storage :=
  realloc zero_point (write_point k set st t s e rst).

(** Sequence (M/data/sequence.go:20-30). *)
Record sequence := Sequence { sq_start : Z; sq_last : Z; sq_now : Z }.

(** The last element of a slice is taken back: ptsArr[0 : len-1 : cap] (collectors.go:90). *)
Definition pop {T} (s : slice T) : slice T :=
  match reverse (vis s) with
  | [] => s
  | x :: r => Slice (reverse r) (x :: hid s)
  end.
Definition last_change (s : slice point) : bool :=
  match last (vis s) with Some p => match pt_agg p with Some a => has_change a | None => false end | None => false end.

(** Collect of statefulSyncInstrument and lowmemoryAsyncInstrument (collectors.go:34-44, 107-119). *)
Fixpoint copy_points (k : collector) (sq : sequence) (es : list entry) (ps : slice point) : slice point :=
  match es with
  | [] => ps
  | e :: r => copy_points k sq r (append_point k (e_set e) (e_sto e) CumulativeTempo (sq_start sq) (sq_now sq) false ps).1
  end.
(** Collect of lowmemorySyncInstrument (collectors.go:52-100). *)
Fixpoint move_points (k : collector) (sq : sequence) (es : list entry) (ps : slice point) : slice point * list entry :=
  match es with
  | [] => (ps, [])
  | e :: r =>
      let '(ps1, st) := append_point k (e_set e) (e_sto e) DeltaTempo (sq_last sq) (sq_now sq) true ps in
      let e' := Entry (e_set e) st (e_refs e) in
      if last_change ps1 then let '(ps2, r') := move_points k sq r ps1 in (ps2, e' :: r')
      else let '(ps2, r') := move_points k sq r (pop ps1) in
           (ps2, if e_refs e =? 0 then r' else e' :: r')
  end.
(** Collect of statefulAsyncInstrument (collectors.go:139-193): what is written. *)
Definition prior_of (set : list kv) (l : list entry) : option entry := find (fun e => bool_decide (e_set e = set)) l.
Fixpoint diff_points (k : collector) (sq : sequence) (es : list entry) (ps : slice point) : slice point :=
  match es with
  | [] => ps
  | e :: r =>
      match prior_of (e_set e) (k_prior k) with
      | Some p =>
          let d := subtract_swap (e_sto p) (e_sto e) in
          if has_change d then diff_points k sq r (append_point k (e_set e) d DeltaTempo (sq_last sq) (sq_now sq) false ps).1
          else diff_points k sq r ps
      | None => diff_points k sq r (append_point k (e_set e) (e_sto e) DeltaTempo (sq_last sq) (sq_now sq) false ps).1
      end
  end.
(** The same method: what is kept for the next collection; the copy of the overflow entry is made by Copy into a zero storage. *)
Definition overflow_set : list kv := new_set overflow_attrs.
Definition kept (k : collector) : list entry :=
  match prior_of overflow_set (k_data k) with Some e => [Entry overflow_set (e_sto e) 0] | None => [] end.
Definition collect_points (k : collector) (sq : sequence) (ps : slice point) : slice point * collector :=
  let 'Collector d f mx md dt pr := k in
  match md with
  | StatefulSync => (copy_points k sq dt ps, k)
  | LowmemSync => let '(ps', dt') := move_points k sq dt ps in (ps', Collector d f mx md dt' pr)
  | LowmemAsync => (copy_points k sq dt ps, Collector d f mx md [] pr)
  | StatefulAsync => (diff_points k sq dt ps, Collector d f mx md (kept k) dt)
  end.
(** Collect: appendInstrument (base_instrument.go:196-206), then the points. *)
Definition collect_one (k : collector) (sq : sequence) (is : slice instr) : slice instr * collector :=
  realloc zero_instr (fun old => let '(ps, k') := collect_points k sq (in_points old) in (Instr (k_desc k) ps, k')) is.
Fixpoint collect_all (ks : list collector) (sq : sequence) (is : slice instr) : slice instr * list collector :=
  match ks with
  | [] => (is, [])
  | k :: r => let '(is1, k') := collect_one k sq is in let '(is2, r') := collect_all r sq is1 in (is2, k' :: r')
  end.
(** A meter as one reader sees it, after callbacks and snapshots. *)
Record pmeter := PMeter { pm_lib : scope; pm_cols : list collector }.
(** The rest of collectFor (M/producer.go:120-127). *)
Definition collect_for (m : pmeter) (sq : sequence) (ss : slice oscope) : slice oscope * pmeter :=
  realloc zero_oscope
    (fun old => let '(is, ks) := collect_all (pm_cols m) sq (os_insts old) in (OScope (pm_lib m) is, PMeter (pm_lib m) ks)) ss.
Fixpoint collect_meters (ms : list pmeter) (sq : sequence) (ss : slice oscope) : slice oscope * list pmeter :=
  match ms with
  | [] => (ss, [])
  | m :: r => let '(ss1, m') := collect_for m sq ss in let '(ss2, r') := collect_meters r sq ss1 in (ss2, m' :: r')
  end.
(** Produce (producer.go:46-88) after its time is taken: [None] is a nil inout. *)
Definition produce (res : string) (ms : list pmeter) (sq : sequence) (inout : option metrics) : metrics * list pmeter :=
  let o := match inout with None => zero_metrics | Some m => reset m end in
  let '(ss, ms') := collect_meters ms sq (mt_scopes o) in (Metrics res ss, ms').
End produce.
