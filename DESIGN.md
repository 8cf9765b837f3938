# Formal model of lightstep/otel-launcher-go

The model is written in Rocq (Coq 8.16.1) under `rocq/theories`.  `properties.jsonl`
lists the properties, `MANIFEST.json` maps each property to theorem names, and
`seeded/LOG.jsonl` records the wrong-program experiments.

Notation: `M/` stands for `/repo/lightstep/sdk/metric/`.

Build: `cd rocq && coq_makefile -f _CoqProject -o Makefile && make -j4`.

## Reading order

Each area has

* `X.v`: the model.  Definitions only; every definition cites the Go lines it models and
  says where it simplifies.
* `XSpec.v`: the words used in the statements.  Nothing in it calls a helper of the model,
  except for the data types and the functions the property is about.
* `XProofs.v`, `XRun.v`, ...: lemmas.  Nothing there needs to be read to understand a claim.
* `XProps.v` (and `XMore.v`): the theorems `Cnn_*`, concrete cases that meet their
  hypotheses (`Module Exnn`), and `Print Assumptions` of every theorem.

A theorem whose name ends in `_refuted` proves that the stronger reading of a claim is
false of the code, with a concrete run or input.  Those are the findings listed below.

| area | Go code | files | properties |
|---|---|---|---|
| attributes, fingerprints, sets, filters, truncation | `M/internal/syncstate/bykeyvalue.go`, `M/internal/fprint`, `M/sdkinstrument/performance.go`, `M/internal/viewstate/base_instrument.go` | `Attr*` | C10, C11, C33, C34 |
| numbers and range test | `M/number`, `M/aggregator/aggregator.go` | `Num` | C12 |
| aggregators | `M/aggregator/{sum,gauge,minmaxsumcount}` | `Agg*` | C12-C15 |
| synchronous instruments, all schedules | `M/internal/syncstate`, `M/internal/viewstate/{accumulators,collectors,base_instrument}.go`, `M/producer.go` | `Base`, `Lib`, `Sync*` | C01-C10, C16 |
| asynchronous instruments | `M/internal/asyncstate`, `M/internal/viewstate/collectors.go` | `Async*` | C17-C20 |
| views, hints, compilation | `M/view`, `M/internal/viewstate/{viewstate,errors}.go` | `View*`, `CaseSpec` | C21-C27, C54 |
| errors of creating an instrument | `M/internal/viewstate/errors.go`, `M/meter.go` | `Conf*` | C58 |
| temporality preference | `pipelines/metrics.go`, `M/view/standard.go` | `Pref*` | C59 |
| provider, meter, producer | `M/provider.go`, `M/meter.go`, `M/producer.go`, `M/config.go` | `Prov*` | C28-C30, C49, C55 |
| output memory | `M/data`, the four `Collect` methods | `Data*` | C30, C31, C56 |
| periodic reader | `M/periodic.go` | `Per*` | C32 |
| calls of the provider on its readers | `M/provider.go`, `M/manual.go`, `M/periodic.go` | `Calls*` | C60 |
| registering and unregistering callbacks, step by step | `M/meter.go`, `M/producer.go` | `Reg*` | C61 |
| constructors, callbacks given at creation | `M/asyncinst.go`, `M/syncinst.go` | `Inst*` | C62 |
| observations of many goroutines, step by step | `M/internal/asyncstate`, `M/internal/viewstate`, `M/producer.go` | `Conc*` | C63 |
| options, creation, use and shutdown of the exporters; names of their own telemetry | `M/exporters`, `/repo/lightstep/sdk/trace/exporters`, `/repo/lightstep/sdk/internal/common.go` | `Client*` | C64 |
| the caller's attribute slices during and after a measurement | `M/syncinst.go`, `M/internal/syncstate`, `M/sdkinstrument/performance.go` | `Mem*` | C65 |
| the methods of the aggregators, one memory access at a time | `M/number/traits.go`, `M/aggregator/{sum,gauge,minmaxsumcount,histogram}` | `Atom*` | C66 |
| measurements to the exporter | `M/periodic.go` with `M/producer.go` and the synchronous path | `Flow*` | C57 |
| observations to the exporter | `M/periodic.go` with `M/producer.go` and the asynchronous path | `Deliv*` | C67 |
| numbers passed to instruments to numbers in OTLP requests | the synchronous path, `M/periodic.go`, `M/internal/viewstate`, `M/internal/export`, the OTLP client | `Sent*`, `SyncKeys`, `Shape*` | C68, C69 |
| numbers observed by callbacks to numbers in OTLP requests | the asynchronous path, `M/periodic.go`, `M/internal/viewstate`, `M/internal/export`, the OTLP client | `Seen*`, `ConcKeys` | C70 |
| memory of asynchronous streams | `M/internal/viewstate/{base_instrument,collectors,accumulators}.go`, `M/internal/asyncstate` | `ConcMem*`, `ConcOut`, `ConcForget`, `SeenMem` | C71 |
| metrics export | `M/internal/export`, `sdk/internal/common.go`, exporter clients | `Exp*` | C35-C38, C50 |
| span export | `sdk/trace/exporters/otlp/otelcol` | `Trace*` | C37, C39, C50 |
| pipelines, launcher | `pipelines`, `launcher/config.go` | `Pipe`, `Launch*` | C40-C45, C48, C51 |
| runtime metrics | `lightstep/instrumentation/runtime` | `Rt*` | C46, C52 |
| limited diagnostics | `M/internal/doevery` | `Every*` | C47 |
| host and process metrics | `lightstep/instrumentation/{host,cputime}` | `Host*` | C53 |

## How each property is modelled and proved

* **C01-C10, C16 (synchronous path).**  A meter with any number of instruments, views and
  readers is a state machine.  Its state has a heap of records, a heap of output entries,
  the locks, and any number of threads.  A thread is one `Observe` call or one collection
  by one reader.  A step is one atomic action of one thread: one atomic instruction, or one
  critical section with a single shared effect.  Map iteration order is a choice in the
  step label.  The aggregate is any commutative monoid; taking multisets of call
  identifiers as the monoid gives exactly-once.  Proof: one inductive invariant (reference
  counts, mapped records, auxiliary counts, conservation) over all steps, then consequences
  by induction over runs.  C07 is proved by a progress lemma and a bound on the steps of
  each call.  C10 is instantiated with the attribute functions of `Attr`.
* **C11, C33, C34 (attributes).**  Functions on lists; induction and permutations.
* **C12 (range test).**  Case analysis over numbers; a rejected call takes no step that
  changes the state.
* **C13-C15 (aggregators).**  Each aggregator is a state with Update, Move, Merge and Copy.
  The theorems range over all trees of merges.  `AggSync` puts the integer aggregators
  into the synchronous model, so the `_reported` theorems are about output points.
  `AggFloat` relates the float operations to the real numbers with Flocq.
* **C17-C20 (asynchronous).**  A state machine over histories of observations, collections,
  registrations and unregistrations.  The specification is written on lists of
  observations.
* **C21-C27, C54 (views, hints).**  Pure functions; the specification is a relation on
  clauses.  Histories of registrations by induction.
* **C58 (creation errors).**  `Conf` renders the texts from the streams and conflicts of `View`
  and puts the readers of `Prov` together.  The specification has its own words for kinds and
  aggregations and says which difference a text may claim; that the difference is really there
  follows from C24_distinct.
* **C59 (preference).**  `Pref` puts the selector that `Pipe.tempo_options` chooses into the options of a `Prov` provider;
  by induction on the creations of a meter every stream of a reader without clauses has the standard form, and
  C24 and C28 carry this to the whole history of the provider.
* **C60 (calls of a provider).**  `Calls` runs any number of providers, with any lists of manual and
  periodic readers that may be shared, and any number of goroutines in ForceFlush and Shutdown.  Each
  periodic reader is the state machine of `Per`; every run of the whole is a run of each reader, so C32
  applies.  What a call did is told by the log of each reader; that calls return is shown by a measure.
* **C61 (registering and unregistering callbacks).**  `Reg` keeps the slice of callbacks as Go does, a
  header and a shared array, and makes every read and write of Unregister a step, since Unregister
  does not take the lock of the meter.  One invariant holds in every schedule (headers point at
  registered callbacks, who holds a registration's lock, what each collection ran so far).  A second
  one, for histories in which no Unregister overlaps another one or a registration, says for each
  point inside Unregister what the array holds.  A measure bounds the steps that are left.
* **C62 (constructors, callbacks given at creation).**  `Inst` puts the constructors on top of the
  meter of `Async`: each callback of a creation is one RegisterCallback whose registration is thrown
  away, and its observer forces the instrument.  The invariant `sim` relates a program to a
  history of `Async`, so that C17, C19 and C20 can be used; the callbacks of creations are exactly
  the registrations no program holds.
* **C63 (observations at the same time).**  `Conc` takes Observe and collections apart: the test of the
  observer, the lock of the store, the creation of the accumulator of each view, the update of each
  accumulator, and for collections each run of a callback, each accumulator of the snapshot and each
  view.  Storage is a heap of cells, because accumulators keep pointers to it while maps are replaced.
  `ginv` holds in every schedule.  `lin` (in `ConcInv`) gives the order in which
  a view was told what, `snapinv` follows the snapshot, `hist` relates every finished collection of a
  reader to the one before.  The result is in terms of `totals_of`, the specification C18 also uses.
* **C64 (exporters).**  `Client` has one log of all that exporters do to loggers, providers and the
  parts of the collector; an oracle that sees the whole log says which actions fail.  `plan` in the
  specification lists what creation does, literally; `creation` says how it may end.  An invariant over
  programs ties the log of each exporter to its plan.  C35 and C39 say what is handed over.  Calls of
  one exporter at the same time are not modelled here, nor contexts.
* **C65 (the caller's slices).**  `Mem` has a heap of arrays.  A call reads and cuts the array it was
  given one key or value at a time, fingerprints it element by element, and makes its record with a
  copy or, if collisions are ignored, with the array itself; all calls and the caller's writes
  interleave.  The invariant ties each array to what it held when each running call began, up to keys
  and values cut since.  Writes of the caller to the slice of a running call are excluded, as they are
  data races.  Two calls that cut the same element at the same time write the same bytes; Go calls that a
  race too, the model gives it the obvious meaning.
* **C66 (aggregators, one access at a time).**  A method body is a tree of accesses: lock, unlock, read or write of a
  field, operation of sync/atomic, sequence number, retry, return.  Any number of goroutines run bodies on
  any number of states.  `pend` says that a body takes effect at one point, when it locks or at one
  atomic operation; the invariant ties a locked state to what its holder will have made of it.  This
  justifies that `SyncModel`, `Agg` and `Conc` take each method as one action.  The argument of Move, Copy
  and Merge that is not synchronised is a value (aggregator.go:116-136 demands it, the callers hold locks).
  Memory is sequentially consistent, as Go promises for programs without data races, which is proved too.
* **C28-C30, C49, C55 (provider).**  A state machine with any number of goroutines;
  invariants over all interleavings.
* **C31, C56 (output).**  Slices are visible elements and the hidden elements kept in their
  capacity.  Reuse is proved by a simulation between a reused and an empty output.
* **C32 (periodic reader).**  A state machine with any number of goroutines at the grain of
  lock, production, exporter call and return.
* **C57 (delivery).**  `Flow` runs `SyncModel` and `Per` together: a production of the reader is
  a whole collection, interleaved with everything else.  Proof: each part of a run of the
  whole is a run of the part; an invariant ties productions to collections; C03's argument
  is taken to later states (`visible_later`).
* **C67 (delivery of observations).**  `Deliv` runs `Conc` and `Per` together in the same way.  The reader's lock
  gives the first half of what C63 asks of a reader (its collections do not overlap); the other half, that
  callbacks wait for the goroutines they start, is a hypothesis, and C63_straggler_refuted says why.
* **C68 (numbers in requests).**  `Sent` puts the points of the collections that `Flow` makes into `Data`, and exports
  them with `Exp`.  The specification reads numbers off OTLP requests (`values`, `counts`) and knows nothing of points.
  Proof: C57 says which measurements are in which production, C13-C15 what a point of them shows, C35 what the request
  says; `SyncKeys` carries the types of attributes from calls to points, so that the conversion cannot panic.
  Simplifications: one meter; int64 instruments; attributes in the canonical form of Attr; unbounded counts.
  The error of an export, in `Flow`, is not tied to what the pipeline answers.
* **C69 (shape of requests).**  On the model of C68, for every run stopped anywhere (no call need have returned):
  `C35_history` relates each request to the data of its collection, the reader's log numbers the exports (C32), and
  no two points of one collection have the same stream and key (`SyncFacts.out_unique`).  `ShapeSpec` reads the points, types and
  times out of the OTLP data.  The clock is a parameter; that consecutive collections share a time is C30.
* **C70 (observations in requests).**  `Seen` puts the output of the collections that `Deliv` makes into `Data`, and exports
  them with `Exp`.  Proof: C67 says what the points of a production are, C35 what the request says; `ConcKeys` is an
  invariant of `Conc` that carries what is true of the attributes of observations to the keys of points, so that the
  conversion cannot panic.  Numbers are compared after `wrap`, the identity on int64.  Simplifications: one meter with
  asynchronous instruments only; int64; the error of an export is not tied to what the pipeline answers.
* **C71 (memory of asynchronous streams).**  An invariant of every reachable state of `Conc`: both maps of a view have no
  key twice, at most as many keys as the limit and, if full, the overflow set among them.  No hypothesis on the schedule:
  collections of one reader may overlap and calls may outlive their callbacks.  The limit is at least one, because the code
  takes a limit of zero for the default.  Not counted: the records that a collection keeps until it ends, of which there are
  as many as series observed in it.  `ConcOut`: a collection that is over has reported each view of its reader once.  With
  C35 this gives the limits of requests (`SeenMem`), of all temporalities and without the hypotheses of C70.  `ConcForget`:
  an invariant of the steps after the last call with an attribute set, by the collections that have passed the view.
* **C35-C38, C50 (metrics export).**  The conversion is compared with a relation between
  given and exported data (`export_says`), over whole histories of exports.
* **C39 (spans).**  The same for batches of spans.
* **C40-C45, C48, C51 (launcher).**  The environment, host name and parsers are parameters;
  the run of the launcher is a list of actions.  Statements say which settings the options
  and variables amount to, and which actions occur.
* **C46, C52 (runtime metrics).**  The documentation's table is an independent relation
  (`documented`) between names and instruments.  The model is proved to agree with it for
  every name.
* **C47 (limited diagnostics).**  A state machine with a clock and any number of
  goroutines.
* **C53 (host, process).**  Functions of what the operating system returns.

Nothing in `properties.jsonl` is left without a theorem.

## Trusted base

* The kernel of Coq 8.16.1, and its `vm_compute` (used in examples, in `_refuted` theorems
  and for checks on the fixed tables).
* `Print Assumptions` is printed for every theorem named in `MANIFEST.json`.  Except for four it says
  "Closed under the global context": no axiom is used.  C13_float_rounds, C13_float_exact,
  C13_float_zero and C14_float_compares speak of real numbers and use the axioms of the standard
  library's reals: `ClassicalDedekindReals.sig_not_dec`, `ClassicalDedekindReals.sig_forall_dec`,
  `FunctionalExtensionality.functional_extensionality_dep` and `Classical_Prop.classic`.  No axiom,
  parameter, section-less variable or admitted proof occurs in the sources.
* Libraries: Coq's standard library, std++, and Flocq in `AggFloat`.  The SSReflect files that std++ loads contain
  the module-level constants of `Coq.ssr.ssrunder`; no theorem depends on them.
* The correspondence of the model with the Go code is by reading.  The comments at the
  definitions say which lines each one models.
* Go itself: mutexes exclude, atomic instructions are sequentially consistent (the Go
  memory model), `sync.Once`, `sync.WaitGroup` and `select` behave as documented.  Memory
  accesses outside locks and atomics that the model folds into one step are argued for in
  the comment at the step.

### Parameters that stand for code outside the repository

| parameter | stands for |
|---|---|
| `cmon`, `c_fp`, `c_keq`, `c_vkey` in `SyncModel` | aggregators and attribute functions; instantiated in `AggSync` and `AttrProps` |
| `libs` in `View` | `histostruct.Config.Validate`, `json.Unmarshal` of a hint |
| `quote` in `Conf` | the `%q` of `fmt` |
| `hlib` in `Exp` | the histogram structure and the logarithm mapping of go-expohisto |
| `consume` in `Exp`, `Trace` | the collector's exporter |
| the host and world records in `Launch`, `Pipe` | environment, `envconfig`, `resource.New`, `os.Hostname`, `time.ParseDuration`, creation and shutdown of exporters, start of libraries |
| `create`, `read` in `Rt` | the meter's answer to the creation of an instrument, `metrics.Read` |
| `fails` in `Client` | zap, the providers, factories, Start, Consume and Shutdown of the collector's parts |
| `floats`, `res` in `Host` | float arithmetic, gopsutil and system calls |

## What the model leaves out or simplifies

* Synchronous: instruments and views exist from the start of a run.  Update, Move, Merge
  and Copy of a storage are single actions, as its lock or atomic instruction makes them (C66).
  `updateCount` is unbounded in the state and compared modulo 2^32; the theorems that need
  it say "calm".
* Floats: IEEE 754 binary64 through Coq's `SpecFloat`, with one NaN; `AggFloat` shows that its
  additions, subtractions and comparisons are the correctly rounded ones.  Sums of floats are
  not a commutative monoid, so exactly-once is about the measurements and C13_float about
  the order of additions.
* Attributes: `attribute.Set` by its documented contract (sorted by key, last value wins).
  NaN inside a float slice is compared as in `AttrSpec`; the hash constants of `fprint` are
  modelled, but no property depends on them.
* Gauges: the sequence number of an update is its position among all updates.
* Minmaxsumcount: the count is unbounded.
* Asynchronous: one reader, one collection at a time.  An overlapping
  observation is shown in C19_in_flight_refuted; overlapping registrations and
  unregistrations are in `Reg`, at the grain of single reads and writes.
* Registering callbacks: reading or writing a slice (three words) is one step; memory is
  sequentially consistent.
* Views: `strings.ToLower` on ASCII; a regular expression is the set of names it matches.
* Creation errors: a conflict is kept as its text; the map's first key is a parameter; an
  aggregation outside the constants has no number in its text.
* Output: every slice has its own array.  A histogram is its maximum size and the numbers
  recorded.
* Provider: Produce is one step; resources are texts.
* Periodic reader: Register is one step; contexts only as deadlines.
* Calls of a provider: a registration is one step; contexts are left out.
* Delivery: synchronous instruments only; the data of a production are the points of its
  collection.
* Export: the returned resource is only read.  Spans: identifiers are numbers, codes and
  kinds are integers.
* Launcher: `envconfig` stops at the first field it cannot parse; nil maps are empty maps;
  the debug output is left out.
* Limited diagnostics: a call site is a number; the clock is monotonic.
* Not modelled: gRPC and TLS themselves, the collector's queue and batch processors, the
  Prometheus HTTP endpoint, `cputime_other.go` (it does not compile), log output, tests,
  examples and generated code.

## Findings

What the code does that a user may not expect.  Each has a `_refuted` theorem, or a theorem
that states the behaviour.

1. A synchronous instrument that the views of every reader drop makes every later collection
   crash (C49_never_crashes_refuted).
2. Hints bypass the compatibility check (C25_hint_refuted), are read once and then erased for
   the second clause (C25_second_clause_refuted), make a new stream at each creation
   (C23_hint_refuted) and are applied although a clause selects the instrument
   (C54_only_unselected_refuted).
3. Two clauses that ask for the same stream count each measurement twice
   (C22_one_stream_each_refuted); a clause without a configuration does not use the default
   one (C22_default_config_refuted); a shared stream keeps the temporality of the first
   (C22_temporality_refuted).
4. Validation forgets the performance settings (C27_settings_kept_refuted).
5. Concurrent calls can exceed the instrument cardinality limit (C09_exact_limit_refuted).
   Ignoring collisions merges series (C10_ignoring_collisions_refuted).  A float slice with a
   NaN opens a new series for each call (C10_nan_slice_refuted).
6. The order of additions matters for float sums (C13_float_order_refuted); overlapping gauge
   updates can report an overwritten value (C15_overlapping_updates_refuted).
7. A gap in the observations of a series, or overflow, breaks the telescoping of asynchronous
   deltas (C18_gap_refuted, C18_overflow_refuted).
8. An observation in flight when its callback returns still counts (C19_in_flight_refuted).
   Unregister during a collection does not stop it (C61_silent_after_refuted).
9. Truncated keys can coincide (C33_keys_stay_distinct_refuted), and a measurement processor
   runs after truncation (C33_processor_refuted).  Truncation is by bytes and writes into the
   caller's slice.
10. An output whose slices were shortened by hand shows stale data (C31_shortened_refuted).
11. A periodic reader that was never registered panics in ForceFlush and Shutdown
    (C32_unregistered_refuted).  After cancellation one more tick may be taken
    (C32_cancel_stops_exports_refuted).
12. Export of integer minmaxsumcounts writes the bits of min and max as floats
    (C35_integer_extremes_refuted); negative integer sums of histograms become large
    positive ones (C35_negative_sums_refuted); an attribute without a type crashes
    (C35_untyped_attribute_refuted).
13. Explicit histograms: a scale the mapping refuses crashes (C36_refused_scale), negative
    buckets are dropped (C36_negative_counts_refuted).
14. The resource cache does not see the sign of a zero in a float slice
    (C38_zero_sign_refuted).
15. Spans: a batch that begins with an unnamed scope crashes (C39_unnamed_scope_refuted); the
    scope version and resource of the first span are used for others
    (C39_version_refuted, C39_resource_refuted).
16. Launcher: an access token is required even if the signal is disabled (C40_fails);
    an empty metric endpoint does not disable metrics (C51_empty_endpoint_refuted); an
    exporter is leaked when no propagator is supported (C51_leak_refuted); with the default
    logger Shutdown stops at the first failure (C48_default_logger); the documented
    "prestable" versions are unknown (C45_prestable_refuted).
17. Runtime metrics: one-letter classes are not recognised (C46_short_class_refuted); exact
    patterns match by prefix (C46_longer_refuted); other tables of patterns can panic
    (C46_other_patterns_refuted); values of 2^63 and more become negative
    (C52_large_refuted); a value of a changed kind panics (C52_kind_refuted).
18. Limited diagnostics can be emitted together, since they run outside the lock
    (C47_together_refuted); a call exactly one period after the last is refused
    (C47_boundary_refuted).
19. Host metrics: a wrong number of network counters observes nothing and reports nothing
    (C53_silent_refuted).
20. Seen while reading, without a theorem: the debug log prints headers with access tokens and
    uses the JSON as a format string; `cputime_other.go` names undeclared variables; the
    documented `process.runtime.go.gc.cpu.time` is not produced.
21. Delta data is lost when an export fails, even if a later ForceFlush returns nil
    (C57_nil_means_received_refuted).
22. Creation errors: readers of one name overwrite each other's conflicts (C58_names_refuted); the
    text need not be about the instrument being created (C58_about_refuted), may blame a
    difference that does not matter (C58_reason_refuted), calls the sum of a gauge "Undefined"
    (C58_sum_refuted) and, with hints, claims different attribute filters where there are none
    (C58_hint_refuted).
23. A collection between the look-up and the first Update of a synchronous gauge exports, with
    cumulative temporality, a gauge that was never set (C15_cumulative_set_refuted), although the
    comment in `gauge.go` says that this cannot happen.  With delta temporality it does not
    (C15_delta_set).
24. A reader given to two providers exports only the data of the first (C60_own_shared_refuted), and
    Shutdown of the second stops the exports of the first (C60_stops_only_its_own_refuted).
    ForceFlush after Shutdown still exports (C60_silent_after_shutdown_refuted), although the comment
    of Shutdown says that nothing measured will be exported.
25. Unregister changes the list of callbacks without the lock of the meter, in place, although
    `collectFor` copies it shallowly because "the slices are only appended to".  A registration
    during an Unregister can be lost (C61_lost_refuted).  Of two concurrent calls of Unregister that
    both return nil one can leave its callback running for ever (C61_unregistered_runs_refuted) or
    make a third callback run twice in every collection (C61_twice_refuted).  A single Unregister
    during a collection can make it run another callback twice (C61_overlap_twice_refuted), or, when
    a registration follows, skip a callback that was registered all the time
    (C61_overlap_skips_refuted), or run the callback after Unregister has returned
    (C61_silent_after_refuted).
26. A nil callback given to the constructor of an observable instrument is accepted, because it is
    wrapped in a function that is not nil; every later collection then panics, and the callback
    cannot be unregistered (C62_panics).  RegisterCallback refuses a nil function.  Creating the
    same instrument again with the same callback makes it run twice in every collection (C62_created,
    C62_once).
27. Collections of one reader that overlap share the accumulated numbers of asynchronous
    instruments: each runs the callbacks, one reports the sum of both and the other reports no point
    (C63_overlap_refuted).  This also happens to cumulative sums.  The interface says that Produce may
    be called concurrently (`M/reader.go:57`).
28. A callback that does not wait for its goroutines makes a collection report 0 although only 7 was
    observed, and the observation is recorded in no report (C63_straggler_refuted).
29. Of two observations of the same attributes at the same time, two views of one reader that are
    configured alike may report different ones (C63_views_refuted).
30. When the batcher of an exporter cannot be started, NewExporter returns the error and never shuts
    down the exporter it has started; the caller has no handle to do so (C64_cleanup_refuted).
31. The meter given to the parts of an exporter makes one name of `otelcol_a` and `otelsdk_a`
    (C64_names_refuted).
32. A measurement shortens keys and values that are too long in the caller's own slice, so the caller
    sees other attributes afterwards, and two goroutines that share a slice race on it
    (C65_untouched_refuted).
33. Attributes given as options are sorted by key before keys are cut.  If two keys become equal, the
    value kept differs from the one kept for the same list of key-values (C65_options_refuted).
34. The counter of updates of a series has 32 bits.  After exactly 2^32 measurements since the last
    collection of the series a collection sees no change and reports none of them; they stay held
    until a later collection (C03_wrap_refuted).  The delay is bounded: with nothing else going on
    they are reported at the latest by the collection that ends the idle periods of the series
    (C03_late).
35. With a logger whose Fatalf returns, a variable about metrics that cannot be read also keeps spans
    from being set up: reading stops there, so the default of the propagators is lost
    (C41_unrelated_refuted; it rests on the documented behaviour of envconfig, which is not in /repo).
36. Attribute sets that differ only in the type of an empty slice are two series of an instrument, but have the
    same attributes in OTLP, so one metric shows two points with equal attributes (C68_distinct_refuted).

## Wrong programs

`seeded/LOG.jsonl` has one line per attempt.  Attempts are of two kinds: edits written by hand
that change one definition as a realistic bug would, and edits drawn by a script (a comparison,
a constant, a branch, a list operation).  Each edit is made in a copy, which is then rebuilt.
`failed` lists the lemmas and theorems that no longer prove (for scripted edits, the first one).
`tightened` lists the theorems that were added or made stronger because the edit got through.
`result` says what became of the attempt:

* `caught`: something no longer proves.  This is weaker than it sounds.  The proofs are scripts, and
  a lemma may break although another proof of it exists, so a caught edit shows that the theorem
  depends on the edited part, not that no proof could be found.  The weakest case are the lemmas
  that list the cases of a step function (`SyncCases.step_cases`, `FlowProofs.fstep_cases`,
  `DelivProofs.dstep_cases`): they break under any edit.  For edits caught only there, attempts
  with "in the list of cases too" in `edit` make the same edit in the list of cases too, take that lemma for
  granted in the scratch copy, and report which proof breaks next.
* `survived`: everything still proves.  Either theorems were added (`tightened`) and the line says whether the attempt, made again, is caught,
  or the line says why the edited program is not wrong.
* `a control`: the edit was expected to leave the claim true when it was made.
* `inconclusive`: a file did not finish in the time given, or a proof broke only where its script names the
  edited term.
