(** What the documentation (/repo/lightstep/instrumentation/runtime/doc.go) says about the metrics of the Go runtime. *)
From Coq Require Import ZArith Bool String Ascii.
From stdpp Require Import base list option strings pretty.
From Verif Require Import Num Attr View Rt.
Local Open Scope Z_scope.
Local Open Scope string_scope.

(** One instrument for one metric: path, unit of the runtime, instrument, its unit and kind. *)
Definition singles : list (string * string * string * string * kind) :=
  [ ("/cgo/go-to-c-calls", "calls", "process.runtime.go.cgo.go-to-c-calls", "{calls}", AsyncCounter)
  ; ("/gc/heap/tiny/allocs", "objects", "process.runtime.go.gc.heap.tiny.allocs", "{objects}", AsyncCounter)
  ; ("/sync/mutex/wait/total", "seconds", "process.runtime.go.sync.mutex.wait.total", "s", AsyncCounter)
  ; ("/gc/gogc", "percent", "process.runtime.go.gc.gogc", "{percent}", AsyncGauge)
  ; ("/gc/gomemlimit", "bytes", "process.runtime.go.gc.gomemlimit", "By", AsyncGauge)
  ; ("/gc/heap/goal", "bytes", "process.runtime.go.gc.heap.goal", "By", AsyncGauge)
  ; ("/gc/heap/live", "bytes", "process.runtime.go.gc.heap.live", "By", AsyncGauge)
  ; ("/gc/limiter/last-enabled", "gc-cycle", "process.runtime.go.gc.limiter.last-enabled", "{gc-cycle}", AsyncGauge)
  ; ("/gc/stack/starting-size", "bytes", "process.runtime.go.gc.stack.starting-size", "By", AsyncGauge)
  ; ("/sched/gomaxprocs", "threads", "process.runtime.go.sched.gomaxprocs", "{threads}", AsyncGauge)
  ; ("/gc/heap/objects", "objects", "process.runtime.go.gc.heap.objects", "{objects}", AsyncUpDownCounter)
  ; ("/sched/goroutines", "goroutines", "process.runtime.go.sched.goroutines", "{goroutines}", AsyncUpDownCounter) ].
(** Metrics that are histograms, ignored. *)
Definition histograms : list string :=
  [ "/gc/heap/allocs-by-size:bytes"; "/gc/heap/frees-by-size:bytes"; "/gc/pauses:seconds"; "/sched/latencies:seconds"; "/sched/pauses/stopping/gc:seconds";
    "/sched/pauses/stopping/other:seconds"; "/sched/pauses/total/gc:seconds"; "/sched/pauses/total/other:seconds" ].
(** Two counters, of bytes and of objects. *)
Definition pairs : list (string * string) := [ ("/gc/heap/allocs", "process.runtime.go.gc.heap.allocs"); ("/gc/heap/frees", "process.runtime.go.gc.heap.frees") ].
(** One instrument for all classes below a path. *)
Definition classes : list (string * string * string * string * kind) :=
  [ ("/cpu/classes", "cpu-seconds", "process.runtime.go.cpu.time", "{cpu-seconds}", AsyncCounter)
  ; ("/gc/cycles", "gc-cycles", "process.runtime.go.gc.cycles", "{gc-cycles}", AsyncCounter)
  ; ("/memory/classes", "bytes", "process.runtime.go.memory.usage", "By", AsyncUpDownCounter)
  ; ("/gc/scan", "bytes", "process.runtime.go.gc.scan", "By", AsyncUpDownCounter) ].
(** Classes that are ignored. *)
Definition ignored : list (string * string) := [ ("/godebug/non-default-behavior", "events") ].

(** The UCUM unit. *)
Definition ucum (u v : string) : Prop :=
  (u = "bytes" /\ v = "By") \/ (u = "seconds" /\ v = "s") \/ (u = "" /\ v = "") \/ (u <> "bytes" /\ u <> "seconds" /\ u <> "" /\ v = "{" ++ u ++ "}").
(** Texts without a byte, and texts joined by a byte. *)
Definition free_of (c : ascii) (s : string) : Prop := forall a b, s <> a ++ String c b.
Fixpoint joined (c : ascii) (l : list string) : string := match l with [] => "" | [x] => x | x :: r => x ++ String c (joined c r) end.
(** class, class2, class3 and so on. *)
Definition class_key (i : nat) : string := match i with O => "class" | S _ => "class" ++ pretty (S i) end.
Definition class_set (cs : list string) : list kv := imap (fun i c => (class_key i, VString c)) cs.

Inductive outcome := OSkipped | OHistogram | OShown (name unit : string) (attrs : list kv) (k : kind).
(** A metric of the runtime and what becomes of it.  A single metric or a histogram is also recognised when its unit is longer than
    documented, and classes and units of pairs have at least two letters: neither is documented. *)
Inductive documented : string -> outcome -> Prop :=
  | doc_single path u name unit k : (path, u, name, unit, k) ∈ singles -> documented (path ++ ":" ++ u) (OShown name unit [] k)
  | doc_single_longer path u name unit k x unit' : (path, u, name, unit, k) ∈ singles -> x <> "" -> ucum (u ++ x) unit' -> documented (path ++ ":" ++ u ++ x) (OShown name unit' [] k)
  | doc_histogram p x : p ∈ histograms -> documented (p ++ x) OHistogram
  | doc_objects path name : (path, name) ∈ pairs -> documented (path ++ ":objects") (OShown (name ++ ".objects") "" [] AsyncCounter)
  | doc_bytes path name u unit : (path, name) ∈ pairs -> u <> "objects" -> (2 <= String.length u)%nat -> ucum u unit -> documented (path ++ ":" ++ u) (OShown name unit [] AsyncCounter)
  | doc_classes path u name unit k cs last : (path, u, name, unit, k) ∈ classes -> list.last cs = Some last -> last <> "total" -> Forall (free_of "/") cs ->
      (2 <= String.length (joined "/" cs))%nat -> documented (path ++ "/" ++ joined "/" cs ++ ":" ++ u) (OShown name unit (class_set cs) k)
  | doc_total path u name unit k cs : (path, u, name, unit, k) ∈ classes -> list.last cs = Some "total" -> Forall (free_of "/") cs ->
      documented (path ++ "/" ++ joined "/" cs ++ ":" ++ u) OSkipped
  | doc_ignored path u mid : (path, u) ∈ ignored -> (2 <= String.length mid)%nat -> documented (path ++ "/" ++ mid ++ ":" ++ u) OSkipped.
(** What the code found. *)
Definition instrument_kind (k : bkind) : option kind := match k with BCounter => Some AsyncCounter | BUpDown => Some AsyncUpDownCounter | BGauge => Some AsyncGauge | _ => None end.
Definition shows (f : found) (o : outcome) : Prop :=
  match o with
  | OSkipped => exists m, f = FOk m /\ m_kind m = BSkip
  | OHistogram => exists m, f = FOk m /\ m_kind m = BHistogram
  | OShown name unit attrs k => exists m, f = FOk m /\ instrument_kind (m_kind m) = Some k /\ m_name m = name /\ m_unit m = unit /\ m_attrs m = attrs
  end.

(** The description: the name of the metric, or the pattern of its classes, which all metrics of an instrument share. *)
Definition describes (name instr : string) (attrs : list kv) (desc : string) : Prop :=
  (attrs = [] /\ desc = name ++ " from runtime/metrics") \/
  (attrs <> [] /\ exists path u unit k, (path, u, instr, unit, k) ∈ classes /\ desc = (path ++ "/*:" ++ u) ++ " from runtime/metrics").
(** What one metric of the runtime adds: the names reported to the error handler and the samples read on every collection. *)
Inductive contributes : rdesc -> list string -> list entry -> Prop :=
  | con_unknown d : (forall o, ~ documented (rd_name d) o) -> contributes d [rd_name d] []
  | con_skipped d : documented (rd_name d) OSkipped -> contributes d [] []
  | con_histogram d : documented (rd_name d) OHistogram -> rd_kind d = RHistogram -> contributes d [] []
  | con_not_histogram d what : documented (rd_name d) OHistogram -> rd_kind d <> RHistogram -> contributes d [what] []
  | con_integer d name unit attrs k desc : documented (rd_name d) (OShown name unit attrs k) -> rd_kind d = RUint64 -> describes (rd_name d) name attrs desc ->
      contributes d [] [Entry (rd_name d) (Descriptor name k IntKind desc unit) attrs]
  | con_float d name unit attrs k desc : documented (rd_name d) (OShown name unit attrs k) -> rd_kind d = RFloat64 -> describes (rd_name d) name attrs desc ->
      contributes d [] [Entry (rd_name d) (Descriptor name k FloatKind desc unit) attrs]
  | con_not_number d name unit attrs k : documented (rd_name d) (OShown name unit attrs k) -> rd_kind d = RHistogram \/ rd_kind d = RBad -> contributes d [name] [].
Inductive contribute : list rdesc -> list string -> list entry -> Prop :=
  | con_none : contribute [] [] []
  | con_more d ds hs es hs' es' : contributes d hs es -> contribute ds hs' es' -> contribute (d :: ds) (hs ++ hs')%list (es ++ es')%list.
(** The number observed for a sample: an unsigned number keeps its value when it is an int64. *)
Inductive observes (read : string -> rvalue) : entry -> obsv -> Prop :=
  | obs_int e z z' : read (en_sample e) = VUint64 z -> (- 2 ^ 63 <= z' < 2 ^ 63)%Z -> (z' mod 2 ^ 64 = z mod 2 ^ 64)%Z -> observes read e (ObsInt (en_inst e) z' (en_attrs e))
  | obs_float e b : read (en_sample e) = VFloat64 b -> observes read e (ObsFloat (en_inst e) b (en_attrs e)).
(** The runtime reports values of the kinds it described. *)
Definition as_described (all : list rdesc) (read : string -> rvalue) : Prop :=
  forall d, d ∈ all -> match rd_kind d with
                       | RUint64 => exists z, read (rd_name d) = VUint64 z
                       | RFloat64 => exists b, read (rd_name d) = VFloat64 b
                       | RHistogram => read (rd_name d) = VHistogram
                       | RBad => read (rd_name d) = VBad
                       end.
