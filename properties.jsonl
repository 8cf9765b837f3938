{"id": "C01", "title": "Exactly-once delta reporting of synchronous measurements", "statement": "Every measurement accepted by a synchronous instrument is reported in exactly one delta point of every delta view of every reader (or is still waiting to be collected); none is lost, none is reported twice. Only a point whose aggregate is unchanged from empty may be suppressed.", "quantifier": "every number of goroutines calling Add/Record, every interleaving of those calls with collections by any number of readers, every attribute list, every map iteration order", "why_tests_cant": "The lookup, update, snapshot, merge, evict and collect steps interleave; a test exercises a handful of schedules and the race windows are a few instructions wide.", "anchors": ["lightstep/sdk/metric/internal/syncstate/sync.go: Observe, SnapshotAndProcess, collect, conditionalCollect", "lightstep/sdk/metric/internal/viewstate/accumulators.go: syncAccumulator", "lightstep/sdk/metric/internal/viewstate/collectors.go: lowmemorySyncInstrument.Collect"]}
{"id": "C02", "title": "Cumulative points account for every measurement", "statement": "A cumulative point of a synchronous view is the aggregate of all measurements of that series moved so far; when no call is in flight at the time of a collection it is the aggregate of every measurement ever made for that series, and every such series has exactly one point.", "quantifier": "every interleaving and every history of measurements and collections", "why_tests_cant": "Needs a conservation invariant over all histories; a test can only compare a few totals.", "anchors": ["lightstep/sdk/metric/internal/viewstate/collectors.go: statefulSyncInstrument.Collect", "lightstep/sdk/metric/internal/syncstate/sync.go: SnapshotAndProcess"]}
{"id": "C03", "title": "A measurement made before a collection is visible to it", "statement": "If the call that made a measurement returned before a reader's collection began, then by the end of that collection the measurement has been reported to that reader (delta) or is part of its point (cumulative), provided fewer than 2^32 measurements are made on the series between two collections. However many are made, once calls stop the measurement is reported at the latest by the collection that ends the configured number of idle collections.", "quantifier": "every reachable state at which a collection starts, and every interleaving of that collection with other calls and collections", "why_tests_cant": "The 'modified since last collection' shortcut compares two 32-bit counters that are updated at different times than the data; only an invariant over all schedules shows the shortcut never hides a completed call.", "anchors": ["lightstep/sdk/metric/internal/syncstate/sync.go: conditionalCollect, Observe"]}
{"id": "C04", "title": "Readers are independent", "statement": "Each reader receives every measurement, whatever the other readers do and however often they collect: the total reported to one reader plus what is pending for it equals the total measured.", "quantifier": "every number of readers and views, every interleaving of their collections", "why_tests_cant": "Readers share one record and one modified-counter per attribute list; the combination of schedules is unbounded.", "anchors": ["lightstep/sdk/metric/internal/viewstate/viewstate.go: Combine", "lightstep/sdk/metric/internal/viewstate/accumulators.go: multiAccumulator", "lightstep/sdk/metric/producer.go: collectFor"]}
{"id": "C05", "title": "Memory reclamation never drops data", "statement": "A series record is removed from memory only when no call holds it and everything recorded in it has been handed to every view; no measurement is ever added to a removed record or to a removed output entry.", "quantifier": "every interleaving of calls, evictions and collections", "why_tests_cant": "The eviction race (lookup versus unmap) cannot be provoked deterministically.", "anchors": ["lightstep/sdk/metric/internal/syncstate/refcount_mapped.go", "lightstep/sdk/metric/internal/syncstate/sync.go: collect", "lightstep/sdk/metric/internal/viewstate/collectors.go: lowmemorySyncInstrument.Collect"]}
{"id": "C06", "title": "Idle series are kept for the configured number of collections", "statement": "A series record is evicted only at a collection that is at least the InactiveCollectionPeriods-th consecutive one without a measurement on that series, and a series without any call in flight is evicted by that collection.", "quantifier": "every history of measurements and collections and every setting of InactiveCollectionPeriods", "why_tests_cant": "Depends on counters over unbounded histories.", "anchors": ["lightstep/sdk/metric/internal/syncstate/sync.go: collect", "lightstep/sdk/metric/sdkinstrument/performance.go"]}
{"id": "C07", "title": "The instrument never blocks itself", "statement": "In every reachable state in which some call or collection is unfinished, some unfinished call or collection can take a step (no deadlock among the locks), a lookup never meets a record that is marked for removal, so the retry loop on insertion is never taken, and a collection never has to initialise a record.", "quantifier": "every reachable state of any number of concurrent calls and collections", "why_tests_cant": "Deadlock freedom is a statement about all schedules.", "anchors": ["lightstep/sdk/metric/internal/syncstate/bykeyvalue.go: acquireNotfoundKV, acquireWriteKV", "lightstep/sdk/metric/internal/syncstate/sync.go: readAccumulator"]}
{"id": "C08", "title": "Per-view cardinality limit", "statement": "The number of output series a view holds (and hence emits in one collection) never exceeds its configured aggregator cardinality limit, and when the limit is reached further attribute sets are folded into the overflow series.", "quantifier": "every sequence of attribute sets, every schedule, every limit of at least 1", "why_tests_cant": "The limit logic has three boundary branches whose combination must hold over all insertion and deletion histories.", "anchors": ["lightstep/sdk/metric/internal/viewstate/base_instrument.go: getOrCreateEntry"]}
{"id": "C09", "title": "Instrument cardinality limit", "statement": "The number of distinct series fingerprints a synchronous instrument holds is at most InstrumentCardinalityLimit - 1 plus the number of calls that ever ran at once; with non-overlapping calls it never exceeds the limit.", "quantifier": "every history, every degree of concurrency, every limit", "why_tests_cant": "The limit is tested under a read lock and the insertion happens later under a write lock.", "anchors": ["lightstep/sdk/metric/internal/syncstate/bykeyvalue.go: acquireReadLockedKV, acquireWriteKV"]}
{"id": "C10", "title": "Measurements land on the right series", "statement": "With collision checking on, a measurement is reported on the series whose attributes are the view's filtering of exactly the attributes passed by the caller, or on the overflow series; measurements with different attributes are never merged because their fingerprints collide.", "quantifier": "every attribute list, every fingerprint function, every interleaving", "why_tests_cant": "Fingerprint collisions are practically impossible to produce in a test.", "anchors": ["lightstep/sdk/metric/internal/syncstate/bykeyvalue.go: attributesEqual, acquireReadLockedKV, acquireWriteKV", "lightstep/sdk/metric/internal/viewstate/base_instrument.go: applyKeysFilter"]}
{"id": "C11", "title": "Attribute order does not matter", "statement": "Attribute lists that are permutations of one another (with distinct keys) have the same fingerprint and are reported on the same output series.", "quantifier": "every attribute list and every permutation", "why_tests_cant": "All permutations of all lists.", "anchors": ["lightstep/sdk/metric/internal/syncstate/bykeyvalue.go: fingerprintAttributes", "lightstep/sdk/metric/internal/viewstate/accumulators.go: findStorage"]}
{"id": "C12", "title": "Rejected measurements have no effect", "statement": "Exactly the NaN and infinite values, and the negative values on counters and histograms, are rejected; a rejected measurement changes no series, no counter and no later output.", "quantifier": "every number, every instrument kind, every state", "why_tests_cant": "All inputs and states.", "anchors": ["lightstep/sdk/metric/aggregator/aggregator.go: RangeTest", "lightstep/sdk/metric/internal/syncstate/sync.go: Observe", "lightstep/sdk/metric/internal/asyncstate/async.go: Observe"]}
{"id": "C13", "title": "Integer sums are exact modulo 2^64, float sums are rounded sums", "statement": "An integer sum equals the mathematical sum of its measurements reduced to a signed 64-bit integer, however the measurements are split over snapshots, merges and copies. A float sum is obtained by correctly rounded additions of its measurements in some order and grouping; it is exact when the measurements are multiples of one power of two and their absolute values add up to less than 2^53 of it, and it is never the negative zero.", "quantifier": "every sequence of measurements and every way to split and merge them", "why_tests_cant": "Wrap-around and arbitrary merge trees.", "anchors": ["lightstep/sdk/metric/aggregator/sum/sum.go"]}
{"id": "C14", "title": "Min/max/sum/count aggregation is a faithful summary", "statement": "The reported count, sum, minimum and maximum are those of the multiset of measurements, however they are split over snapshots and merges.", "quantifier": "every sequence of measurements and every merge tree", "why_tests_cant": "Arbitrary merge trees, including empty parts.", "anchors": ["lightstep/sdk/metric/aggregator/minmaxsumcount/minmaxsumcount.go"]}
{"id": "C15", "title": "Gauge reports the last value", "statement": "A gauge reports the most recently set value: across any number of records merged into one series, the value set last in time wins, in every merge order, for updates that do not overlap in time.", "quantifier": "every history of updates over any number of records, every order of snapshots and merges", "why_tests_cant": "Merge order depends on map iteration and on schedules.", "anchors": ["lightstep/sdk/metric/aggregator/gauge/gauge.go"]}
{"id": "C16", "title": "Delta and cumulative views agree", "statement": "For the same measurements, the running total of a delta view's points equals the cumulative view's point, at every quiescent collection.", "quantifier": "every history, every collection schedule", "why_tests_cant": "Relates two implementations over all histories.", "anchors": ["lightstep/sdk/metric/internal/viewstate/collectors.go"]}
{"id": "C17", "title": "Asynchronous cumulative views report the current observations", "statement": "In each collection an asynchronous cumulative (or gauge) view reports, for each attribute set observed in that collection, the aggregate over input series of the last observation of each series; series not observed in this collection are not reported.", "quantifier": "every sequence of observations and collections", "why_tests_cant": "All histories; aggregation after filtering depends on all inputs.", "anchors": ["lightstep/sdk/metric/internal/asyncstate/async.go", "lightstep/sdk/metric/internal/viewstate/collectors.go: lowmemoryAsyncInstrument.Collect", "lightstep/sdk/metric/internal/viewstate/accumulators.go: asyncAccumulator"]}
{"id": "C18", "title": "Asynchronous delta conversion telescopes", "statement": "For an asynchronous sum with delta temporality, as long as a series is observed in every collection and the series fit the cardinality limit, the deltas reported for it add up to its latest observed total.", "quantifier": "every sequence of totals, every number of collections", "why_tests_cant": "Unbounded histories; also refuted outside its hypotheses (gaps and overflow).", "anchors": ["lightstep/sdk/metric/internal/viewstate/collectors.go: statefulAsyncInstrument.Collect"]}
{"id": "C19", "title": "Observations are accepted only from the running callback", "statement": "An asynchronous observation takes effect only while a callback runs that was registered for that instrument, on an instrument created by this SDK; every other observation is rejected and changes nothing, and after a callback has returned its observer can no longer record.", "quantifier": "every instrument, callback, order of calls and every state", "why_tests_cant": "Quantifies over every observer handle kept by user code and every later use.", "anchors": ["lightstep/sdk/metric/internal/asyncstate/async.go: Observe", "lightstep/sdk/metric/internal/asyncstate/callback.go"]}
{"id": "C20", "title": "Callbacks run once per collection until unregistered", "statement": "A collection by a reader runs every callback registered on the meter exactly once, in any history of registrations and unregistrations that do not overlap a collection; unregistering removes exactly that registration, and a second unregistration reports an error.", "quantifier": "every history of RegisterCallback, Unregister and collections", "why_tests_cant": "The callback list is modified in place by swapping; all histories.", "anchors": ["lightstep/sdk/metric/meter.go: RegisterCallback, Unregister", "lightstep/sdk/metric/producer.go: collectFor"]}
{"id": "C21", "title": "View matching", "statement": "A clause matches an instrument exactly when its name or pattern, kind, number kind and library selectors all match; unset selectors match everything.", "quantifier": "every clause and every instrument and library", "why_tests_cant": "All combinations of selectors.", "anchors": ["lightstep/sdk/metric/view/clause.go: Matches, libraryMismatch"]}
{"id": "C22", "title": "View application", "statement": "For an instrument whose description holds no hint, the output streams in a reader are exactly: one per matching non-drop clause in clause order, carrying that clause's rename, description, attribute keys and aggregation over the defaults for the instrument kind; or, when no clause matches, the single default stream (none if the default aggregation is drop). Clauses that ask for the same stream share it.", "quantifier": "every list of clauses, every instrument, every default configuration (instruments without a hint)", "why_tests_cant": "All view configurations.", "anchors": ["lightstep/sdk/metric/internal/viewstate/viewstate.go: Compile, viewDescriptor, pickAggConfig"]}
{"id": "C23", "title": "Creating an instrument again creates nothing new", "statement": "Registering an identical instrument without a hint again in the same meter and reader reuses the existing output streams: the list of collected streams is unchanged and the same streams are returned.", "quantifier": "every view configuration without hints and every history of earlier registrations", "why_tests_cant": "All histories.", "anchors": ["lightstep/sdk/metric/internal/viewstate/viewstate.go: Compile", "lightstep/sdk/metric/meter.go: configureInstrument"]}
{"id": "C24", "title": "Conflicting streams are reported", "statement": "A registration reports a conflict exactly when one of its output streams has the same output name as another stream that it cannot share, or when its aggregation is not compatible with the instrument kind; compatible duplicates are merged silently.", "quantifier": "every registration history", "why_tests_cant": "All histories.", "anchors": ["lightstep/sdk/metric/internal/viewstate/viewstate.go: Compile", "lightstep/sdk/metric/internal/viewstate/errors.go"]}
{"id": "C25", "title": "Output streams are semantically compatible with the instrument kind", "statement": "Whatever aggregation a view asks for, and unless a hint chose it, the stream that is built has an aggregation allowed for the instrument kind (for example no monotonic sum over an up-down counter, no histogram or sum over incompatible asynchronous instruments); an incompatible request falls back to the kind's default and is reported.", "quantifier": "every clause, every instrument kind (instruments without a hint)", "why_tests_cant": "All combinations.", "anchors": ["lightstep/sdk/metric/internal/viewstate/viewstate.go: checkSemanticCompatibility, compileSync, compileAsync"]}
{"id": "C26", "title": "Merged descriptions do not depend on order", "statement": "When identical instruments with different descriptions are merged, the stream's description has the maximum length among those registered.", "quantifier": "every sequence of registrations", "why_tests_cant": "All sequences.", "anchors": ["lightstep/sdk/metric/internal/viewstate/base_instrument.go: mergeDescription"]}
{"id": "C27", "title": "View configuration validation is total and stable", "statement": "Validating any view configuration yields one in which every setting is legal, does not change legal settings, and validating twice gives the same as once. (Except that the performance settings, which only validation uses, are not copied.)", "quantifier": "every view configuration", "why_tests_cant": "All configurations.", "anchors": ["lightstep/sdk/metric/view/views.go: Validate", "lightstep/sdk/metric/sdkinstrument/performance.go: Validate", "lightstep/sdk/metric/aggregator/aggregator.go: Config.Validate"]}
{"id": "C28", "title": "Meter and instrument identity", "statement": "Asking a provider twice for the same instrumentation scope yields the same meter, and asking a meter twice for the same instrument descriptor yields the same instrument; different scopes and descriptors yield different ones; nothing already registered is ever reordered.", "quantifier": "every history of Meter and instrument creation calls", "why_tests_cant": "All histories.", "anchors": ["lightstep/sdk/metric/provider.go: Meter", "lightstep/sdk/metric/meter.go: configureInstrument"]}
{"id": "C29", "title": "Shutdown happens once", "statement": "The first Shutdown of a provider shuts every reader down exactly once and returns their combined errors; each later call returns the already-shut-down error and touches no reader; meters requested after shutdown are no-ops.", "quantifier": "every sequence of provider calls by any number of goroutines", "why_tests_cant": "All interleavings.", "anchors": ["lightstep/sdk/metric/provider.go: Shutdown, ForceFlush, Meter"]}
{"id": "C30", "title": "Collection intervals are contiguous", "statement": "Per reader, each collection's delta interval starts exactly where the previous one ended, the first starts at the provider's start time, and all cumulative intervals start at the start time; with a monotone clock no interval is negative.", "quantifier": "every sequence of collections and clock readings", "why_tests_cant": "All histories of collections.", "anchors": ["lightstep/sdk/metric/producer.go: Produce", "lightstep/sdk/metric/data/sequence.go"]}
{"id": "C31", "title": "Reusing output memory does not change the output", "statement": "Producing into an output structure that an earlier collection of the same reader returned yields the same data as producing into an empty one, and leaves the instruments in the same state. This holds for a structure as it was returned, not for one whose slices the user shortened by hand.", "quantifier": "every previous content, every state", "why_tests_cant": "All prior contents.", "anchors": ["lightstep/sdk/metric/data/data.go: Reset, ReallocateFrom", "lightstep/sdk/metric/internal/viewstate/base_instrument.go: appendPoint", "lightstep/sdk/metric/producer.go: Produce"]}
{"id": "C32", "title": "Periodic export is serialised and ends with shutdown", "statement": "A periodic reader never runs two exports at the same time; Shutdown stops the timer loop, waits for it, and then performs exactly one final collection handed to the exporter's shutdown; no periodic export happens afterwards.", "quantifier": "every interleaving of the timer loop with ForceFlush and Shutdown calls", "why_tests_cant": "Schedules.", "anchors": ["lightstep/sdk/metric/periodic.go"]}
{"id": "C33", "title": "Attribute truncation", "statement": "With an attribute size limit no key, string value or string-slice element recorded is longer than the limit, everything within the limit is unchanged, and truncating twice equals truncating once. A measurement processor runs after truncation and is not limited by it.", "quantifier": "every attribute list and every limit", "why_tests_cant": "All inputs.", "anchors": ["lightstep/sdk/metric/sdkinstrument/performance.go: TruncateAttributes"]}
{"id": "C34", "title": "Attribute filtering", "statement": "A view with a key list reports only attributes with those keys, all of them that the caller passed and with their values; attributes with an empty key are never reported.", "quantifier": "every attribute set and every key list", "why_tests_cant": "All inputs.", "anchors": ["lightstep/sdk/metric/internal/viewstate/base_instrument.go: applyKeysFilter", "lightstep/sdk/metric/internal/viewstate/viewstate.go: keysToFilter"]}
{"id": "C35", "title": "Export conversion preserves points", "statement": "Conversion to OTLP keeps every scope, and every data point with its attributes, value, timestamps and temporality, in order, in a metric of the matching data type with the instrument's name, unit and description; instruments without points are omitted and nothing else is. Exceptions in the code: negative integer sums of histograms and minmaxsumcounts, the extremes of integer minmaxsumcounts, and attributes without a type.", "quantifier": "every metrics value", "why_tests_cant": "All inputs.", "anchors": ["lightstep/sdk/metric/internal/export/export.go: d2pd, copySumPoints, copyGaugePoints, copyMMSCPoints, copyExponentialHistogramPoints"]}
{"id": "C36", "title": "Explicit histogram buckets are well formed", "statement": "When histograms are exported with explicit boundaries, there is exactly one more count than boundaries, counts add up to the zero and positive counts, each positive count sits between the boundaries of its bucket, and boundaries are increasing when the mapping is. Histograms with a scale the mapping library refuses crash the export, and negative counts are left out.", "quantifier": "every histogram content", "why_tests_cant": "All inputs.", "anchors": ["lightstep/sdk/metric/internal/export/export.go: copyExplicitHistogramBuckets"]}
{"id": "C37", "title": "Export outcomes are classified and counted", "statement": "Each export call adds the number of points to the self-observability counter exactly once, with success true exactly when the export returned no error, and state ok, canceled, timeout or error according to the error; the error is returned unchanged.", "quantifier": "every error value and every payload", "why_tests_cant": "All error chains.", "anchors": ["lightstep/sdk/metric/internal/export/export.go: ExportMetrics", "lightstep/sdk/trace/exporters/otlp/otelcol/client.go: ExportSpans"]}
{"id": "C38", "title": "The resource cache is transparent", "statement": "The exported resource always equals a fresh conversion of the resource given, up to the sign of zeros inside float slices, whatever was converted before and whatever goroutines share the cache.", "quantifier": "every history of lookups, every interleaving", "why_tests_cant": "All histories.", "anchors": ["lightstep/sdk/internal/common.go: ResourceMap.Get, CopyAttributes"]}
{"id": "C39", "title": "Span export preserves spans", "statement": "Conversion of a batch of spans keeps every span exactly once and in order, each under a scope with its instrumentation-scope name (for batches whose spans have non-empty scope names), with status and kind translated one to one.", "quantifier": "every batch of spans", "why_tests_cant": "All inputs.", "anchors": ["lightstep/sdk/trace/exporters/otlp/otelcol/otlp.go: d2pd, translateSpanKind, translateSpanStatusCode"]}
{"id": "C40", "title": "Launcher rejects bad configuration and nothing else", "statement": "Configuration fails exactly when no non-empty service name is configured (by option, environment or resource), or when no access token is configured and the span or the metric endpoint is the default service (even for a disabled signal); otherwise it is accepted.", "quantifier": "every combination of options and environment", "why_tests_cant": "All combinations.", "anchors": ["launcher/config.go: validateConfiguration, checkEndpointDefault"]}
{"id": "C41", "title": "Launcher option precedence", "statement": "Options override environment values, which override defaults; the access token from the environment is used only when no token is configured through headers or options; header options accumulate while resource attributes options replace.", "quantifier": "every sequence of options and every environment", "why_tests_cant": "All sequences.", "anchors": ["launcher/config.go: newConfig, ConfigureOpentelemetry, WithHeaders, WithAccessToken"]}
{"id": "C42", "title": "Launcher resource attributes", "statement": "The exported resource has one value per key: the user's last set of non-empty attributes; otherwise the configured service name and version when non-empty, the SDK's telemetry attributes, and the name of the host only when neither the user nor the environment named one; otherwise the attributes of the environment; and nothing else.", "quantifier": "every configuration, environment and host name", "why_tests_cant": "All combinations.", "anchors": ["launcher/config.go: newResource"]}
{"id": "C43", "title": "Temporality preference", "statement": "Each accepted temporality preference selects the documented temporality for every instrument kind, case-insensitively; any other value is an error and no pipeline is created.", "quantifier": "every string and every instrument kind", "why_tests_cant": "All strings.", "anchors": ["pipelines/metrics.go: tempoOptions", "lightstep/sdk/metric/view/standard.go", "lightstep/sdk/metric/aggregator/aggregation/temporality.go"]}
{"id": "C44", "title": "Propagators", "statement": "The installed propagators are exactly the recognised names, in order; unrecognised names are ignored, and the configuration fails exactly when none is recognised.", "quantifier": "every list of names", "why_tests_cant": "All lists.", "anchors": ["pipelines/trace.go: configurePropagators"]}
{"id": "C45", "title": "Builtin instrumentation selection", "statement": "Exactly the libraries of the recognised entries (with 'all' expanded and the version defaulting to stable) are started, in order; an unknown name or version, and a library that fails to start, is reported once to the error handler and skipped, and the pipeline is set up with the rest. The version 'prestable' that the documentation names is not among the recognised ones.", "quantifier": "every list of names and every pattern of failing starts", "why_tests_cant": "All lists.", "anchors": ["pipelines/metrics.go: NewMetricsPipeline"]}
{"id": "C46", "title": "Runtime metric naming", "statement": "Every runtime metric name is matched by at most one family; the resulting instrument name, unit, kind and class attributes are those the documentation gives for the name, subtotals and histograms are skipped, names without documentation are reported, no two names share an instrument together with its attributes, and the translation never fails on an index.", "quantifier": "every metric name", "why_tests_cant": "All strings.", "anchors": ["lightstep/instrumentation/runtime/descriptor.go: findMatch, findFamily", "lightstep/instrumentation/runtime/defs.go"]}
{"id": "C47", "title": "Rate-limited diagnostics", "statement": "For each call site, two calls are never admitted within one period of each other; a call is refused only when its site was admitted no more than a period ago; every admitted call emits its diagnostic exactly once and not before it is admitted, so the number of diagnostics in any window is bounded by the periods in it; every call returns, and the diagnostic runs outside the lock.", "quantifier": "every sequence of clock readings and every interleaving of callers", "why_tests_cant": "All histories.", "anchors": ["lightstep/sdk/metric/internal/doevery/doevery.go"]}
{"id": "C48", "title": "Launcher shutdown", "statement": "With a logger whose Fatalf returns, Shutdown runs every configured pipeline's shutdown exactly once, in set-up order, even when an earlier one fails; with the default logger the first failure ends the process and later shutdowns are skipped.", "quantifier": "every set of enabled signals and every failure pattern", "why_tests_cant": "All combinations.", "anchors": ["launcher/config.go: Shutdown, setupTracing, setupMetrics"]}
{"id": "C49", "title": "Collection never crashes", "statement": "A collection of a provider that is in use returns its data and does not crash, as long as no synchronous instrument was created that the views of every reader drop; with such an instrument every later collection crashes.", "quantifier": "every history of Meter, instrument creation, collection and Shutdown calls, every configuration of views and readers", "why_tests_cant": "All histories and all view configurations.", "anchors": ["lightstep/sdk/metric/meter.go: configureInstrument", "lightstep/sdk/metric/producer.go: Produce, collectFor", "lightstep/sdk/metric/internal/syncstate/sync.go: New, SnapshotAndProcess"]}
{"id": "C50", "title": "Exporter shutdown reaches every component", "statement": "Shutting an exporter down exports the final data first, shuts every component down in order whatever fails before, and the returned error holds every error in order.", "quantifier": "every combination of failures", "why_tests_cant": "All combinations of failing components.", "anchors": ["lightstep/sdk/metric/exporters/otlp/otelcol/client.go: ShutdownMetrics", "lightstep/sdk/metric/exporters/prom/client.go: ShutdownMetrics", "lightstep/sdk/trace/exporters/otlp/otelcol/client.go: Shutdown"]}
{"id": "C51", "title": "Each enabled signal is set up once, with its own settings", "statement": "When the launcher returns, tracing has created exactly one exporter with the span endpoint, security and headers unless the span endpoint is empty, and metrics at most one with the metric settings and none when disabled; each provider is installed exactly when its exporter could be created and its settings are valid, with the launcher's resource; one signal's failure does not prevent the other with a logger whose Fatalf returns; the pipelines to shut down are those installed, in order.", "quantifier": "every configuration, environment and failure pattern", "why_tests_cant": "All combinations.", "anchors": ["launcher/config.go: setupTracing, setupMetrics, ConfigureOpentelemetry", "pipelines/trace.go: NewTracePipeline", "pipelines/metrics.go: NewMetricsPipeline"]}
{"id": "C52", "title": "Runtime metrics are registered and observed once", "statement": "Starting the runtime instrumentation handles every metric the Go runtime lists exactly as documented for it, in order: an unknown one is reported once and nothing else is affected, a skipped one does nothing, a shown number gets one instrument and one sample, and no two samples share a stream. On every collection each sample is observed exactly once with its own value and attributes; a value that is no number ends the collection with an error after the samples before it. The first instrument the meter refuses ends the start with its error.", "quantifier": "every list of metrics of the runtime, every meter and every reading", "why_tests_cant": "All future runtimes.", "anchors": ["lightstep/instrumentation/runtime/builtin.go: register"]}
{"id": "C53", "title": "Host and process metrics are complete or absent", "statement": "When the host can be read, every documented host stream is observed exactly once per collection with its own number; when any reading fails, none is observed and the first failure is returned. Process uptime is always observed, with the CPU times, or with NaN for them and a report when they cannot be read. Starting either instrumentation returns the first refusal.", "quantifier": "every combination of readings and failures", "why_tests_cant": "All readings; failures of system calls cannot be produced in tests.", "anchors": ["lightstep/instrumentation/host/host.go: register", "lightstep/instrumentation/cputime/cputime.go: register", "lightstep/instrumentation/cputime/cputime_unix.go: getProcessTimes"]}
{"id": "C54", "title": "Hints in descriptions are honoured", "statement": "When the description of an instrument holds a hint, the stream of an instrument that no clause selects has the description, aggregation, temporality, histogram size and cardinality limit of the hint, and the defaults of the reader for what the hint leaves open; a hint to drop removes it. The names are read in any case, and a name that is unknown leaves the default. Where a clause selects the instrument, what the clause says comes before the hint.", "quantifier": "every view configuration, hint, instrument and history of registrations", "why_tests_cant": "All combinations of clauses, defaults and hints.", "anchors": ["lightstep/sdk/metric/view/hint.go: Hint", "lightstep/sdk/metric/internal/viewstate/viewstate.go: tryToApplyHint, Compile, pickAggConfig", "lightstep/sdk/metric/aggregator/aggregation/aggregation.go: ParseKind", "lightstep/sdk/metric/aggregator/aggregation/temporality.go: ParseTemporality"]}
{"id": "C55", "title": "A provider is what its options say", "statement": "A meter provider has the resource and the performance settings that its options gave last, with the documented settings where they are zero, and its readers in the order given, each with its own views; nothing that happens later changes them. The streams of a reader are those that its views make of the instruments created on each meter, in order.", "quantifier": "every list of options and every later history", "why_tests_cant": "All option lists and histories.", "anchors": ["lightstep/sdk/metric/config.go: WithResource, WithReader, WithPerformance", "lightstep/sdk/metric/provider.go: NewMeterProvider", "lightstep/sdk/metric/sdkinstrument/performance.go: Validate"]}
{"id": "C56", "title": "A collection shows what the streams hold", "statement": "The output of a collection has the provider's resource, one scope per meter and one instrument per stream, in order. A cumulative stream shows every attribute set with what its storage holds; a delta stream of synchronous instruments shows the sets that changed, empties them and forgets those that nobody uses; a delta stream of an asynchronous instrument shows the differences that are not zero and remembers what was observed.", "quantifier": "every set of meters and streams with any contents, and any output to re-use", "why_tests_cant": "All contents, orders and re-used memory.", "anchors": ["lightstep/sdk/metric/internal/viewstate/collectors.go: Collect", "lightstep/sdk/metric/internal/viewstate/base_instrument.go: appendPoint, appendOrReusePoint", "lightstep/sdk/metric/producer.go: Produce, collectFor"]}
{"id": "C57", "title": "ForceFlush and Shutdown deliver what was measured before", "statement": "When ForceFlush or Shutdown of a periodic reader has returned, every measurement made by a call that had returned before it was called has been given to the exporter: on a cumulative stream in the data of the export that this call made and whose error it returned, on a delta stream in that one or in an earlier one that has ended. The exporter is called once per production, in order, with data that no longer change; a measurement of a delta stream is in the data of at most one export; and while such a call has not returned, something can still go on. (A nil error does not mean that an earlier export had succeeded.)", "quantifier": "every schedule of measurements, ticks, collections of other readers and calls of ForceFlush and Shutdown, every configuration of instruments, views and readers", "why_tests_cant": "All interleavings of the lock-free measurement path, collections, the timer goroutine and concurrent callers.", "anchors": ["lightstep/sdk/metric/periodic.go: collect, ForceFlush, Shutdown, start", "lightstep/sdk/metric/producer.go: Produce", "lightstep/sdk/metric/internal/syncstate/sync.go: Observe, SnapshotAndProcess"]}
{"id": "C58", "title": "The error of creating an instrument tells the truth", "statement": "Without hints, each conflict in the error of an instrument creation is about the stream that the instrument writes to together with every other stream of that name: if the aggregation asked for is not allowed the text names the kind and the aggregation, and if there are other streams it names the first and the last one, how many more there are, and a difference between the two that is really there (kind, number, aggregation or unit; else configuration; else attribute filter). When the readers have different names the error holds exactly the conflicts of each reader, its text counts readers and conflicts right and shows one of them, and it is never empty. The error handler is given the error when the instrument is new, and only then.", "quantifier": "every configuration of views and readers, every history of instrument creations, every order of map iteration", "why_tests_cant": "All histories of creations and all views; whether a claimed difference is real depends on the whole history.", "anchors": ["lightstep/sdk/metric/internal/viewstate/errors.go: ViewConflictsBuilder, ViewConflictsError, Conflict, SemanticError", "lightstep/sdk/metric/meter.go: configureInstrument", "lightstep/sdk/metric/internal/viewstate/viewstate.go: Compile"]}
{"id": "C59", "title": "The temporality preference decides the temporality of every stream", "statement": "The preferences \"cumulative\" (or empty), \"delta\" and \"stateless\" or \"lowmemory\" are accepted in any letter case and no others. With the reader that a preference configures, and without hints, each instrument of each meter has exactly one stream, of its own name, kind, number and unit, with the aggregation natural to its kind and all attributes; its data are deltas exactly when the preference is delta and the instrument is a synchronous counter, a histogram, a synchronous gauge or an asynchronous counter, or the preference is stateless and it is a synchronous counter or a histogram. Up-down counters are always cumulative.", "quantifier": "every text of the preference, every history of meters, instruments, collections and shutdowns, every kind of instrument", "why_tests_cant": "All texts and all histories of creations; the temporality could depend on which instruments were created before.", "anchors": ["pipelines/metrics.go: NewMetricsPipeline, tempoOptions", "lightstep/sdk/metric/view/standard.go: DeltaPreferredTemporality, StandardTemporality", "lightstep/sdk/metric/aggregator/aggregation/temporality.go: LowMemoryTemporality", "lightstep/sdk/metric/internal/viewstate/viewstate.go: Compile"]}
{"id": "C60", "title": "ForceFlush and Shutdown of a provider reach every reader and return", "statement": "When a call of ForceFlush or Shutdown of a meter provider has returned, every periodic reader of the provider has made one whole collection for it since the call began - it produced data, gave them to the exporter's ForceFlush or Shutdown method and waited for its return - and no collection serves two calls; manual readers do nothing. The error is made of the errors of the exporters, in the order of the readers; none of them is lost and one failing exporter keeps no other from being called. At most one call of Shutdown does this; another one returns ErrAlreadyShutdown and does nothing. After Shutdown has returned no periodic export begins or ends. While a call has not returned something inside can go on, and only so many such steps can follow one another, so every call returns if the exporters do. A reader that was given to one provider, once, exports the data of that provider. A manual reader given more than once keeps the producer it was given first and reports each further one as one error. Nothing panics.", "quantifier": "every number of providers, every list of manual and periodic readers, shared or not, every schedule of goroutines calling ForceFlush and Shutdown of providers and readers, timers and exporter results", "why_tests_cant": "Any number of readers, providers and concurrent calls in any interleaving with the timers and with failing exporters.", "anchors": ["lightstep/sdk/metric/provider.go: NewMeterProvider, ForceFlush, Shutdown", "lightstep/sdk/metric/manual.go: Register, ForceFlush, Shutdown", "lightstep/sdk/metric/periodic.go: Register, ForceFlush, Shutdown, collect"]}
{"id": "C61", "title": "Callbacks are registered and unregistered while collections run", "statement": "A callback runs only after it was registered; nothing crashes, and every call of Unregister and every collection returns, however registrations, calls of Unregister and collections interleave. Of the calls of Unregister of one registration at most one returns nil, and any other one that returns gives ErrAlreadyUnregistered after that. A collection runs at most as many callbacks as were registered when it began. When no Unregister overlaps another one or a registration, a collection during which no Unregister is under way runs exactly the callbacks that were registered and not unregistered when it began, each once, whatever registrations and collections overlap it. (Unregister does not take the lock of the meter: without these conditions a callback can be lost, go on running, run twice, be skipped, or run after its Unregister returned.)", "quantifier": "every number of registrations, of goroutines in Unregister and of collections, every interleaving of their reads and writes of the list of callbacks, every growth of its array", "why_tests_cant": "The list is shared without a common lock, so the outcome depends on the interleaving of single reads and writes of slices and array elements.", "anchors": ["lightstep/sdk/metric/meter.go: RegisterCallback, Unregister, metricRegistration, ErrAlreadyUnregistered", "lightstep/sdk/metric/producer.go: collectFor"]}
{"id": "C62", "title": "Instruments are what their constructor says, and callbacks given at creation run", "statement": "Each of the fourteen constructors of a meter makes an instrument of the number type and sort its name says. Every callback given as an option when an observable instrument is created runs exactly once in every later collection, whatever is unregistered, also when the instrument existed already; a collection runs these and the callbacks of RegisterCallback that were not unregistered, and no other. What such a callback observes with the observer it is given counts for the instrument it was created with and no other, and is recorded for every number in range; through an observer of an earlier run, or outside collections, nothing is recorded. The points of a cumulative view or gauge are made of what the callbacks said in that collection. A collection panics exactly when some creation was given a nil callback: RegisterCallback refuses nil, creation does not.", "quantifier": "every sequence of creations (with any number of callbacks, again and again for the same instrument), registrations, calls of Unregister, collections and late observations, everything the callbacks may observe", "why_tests_cant": "The callbacks that run in a collection depend on the whole history of creations, registrations and calls of Unregister.", "anchors": ["lightstep/sdk/metric/asyncinst.go: registerIntCallbacks, registerFloatCallbacks, intObserver, floatObserver, Int64ObservableCounter and the other constructors", "lightstep/sdk/metric/syncinst.go: Int64Counter and the other constructors", "lightstep/sdk/metric/meter.go: RegisterCallback", "lightstep/sdk/metric/internal/asyncstate/callback.go: NewCallback, Run"]}
{"id": "C63", "title": "Observations of many goroutines at the same time", "statement": "Callbacks may start goroutines that observe at the same time, and readers may collect at the same time. If collections of a reader do not overlap and its callbacks wait for the goroutines they start, a collection of that reader reports, for each cumulative view or gauge, exactly the observations answered as recorded in it, as if they had been made one after the other in an order that agrees with calls that did not overlap: nothing lost, nothing of another collection or reader, nothing twice. A delta view reports the change of these totals since the previous collection of the same reader, and one order for each collection explains all reports. A call made after its callback returned is never recorded, whatever runs. No interleaving deadlocks: a collection or call that is not over can always go on, or a call of the same collection can. (Without the conditions it is false: overlapping collections of one reader double a number in one report and lose it in the other, a goroutine that outlives its callback makes 0 appear. Two views configured alike may keep different ones of two racing observations.)", "quantifier": "every number of readers, collections, callbacks, goroutines and views, every interleaving of the steps of Observe and of collections, every attribute set and number", "why_tests_cant": "The outcome depends on the interleaving of map look-ups, creation of accumulators view by view, updates and snapshots; a test runs a few schedules.", "anchors": ["lightstep/sdk/metric/internal/asyncstate/async.go: Observe, State, Observer.SnapshotAndProcess", "lightstep/sdk/metric/internal/asyncstate/callback.go: Run, callbackState", "lightstep/sdk/metric/internal/viewstate/accumulators.go: asyncAccumulator, multiAccumulator", "lightstep/sdk/metric/internal/viewstate/base_instrument.go: getOrCreateEntry", "lightstep/sdk/metric/internal/viewstate/collectors.go: statelessAsyncInstrument, statefulAsyncInstrument", "lightstep/sdk/metric/producer.go: collectFor"]}
{"id": "C64", "title": "The exporters from their options to their shutdown", "statement": "With the options of the exporter packages, in any order, repeated, with nil among them, the endpoint, compression and port are what the last option says, each header is what the last option that has its key says, the TLS settings are the last ones given as a whole with WithInsecure if it comes later, and every other setting is the default. Creating an exporter returns one exactly when every step of a fixed plan succeeded: a logger, a tracer and a counter from the chosen providers (the global ones, none when self telemetry is off, or those given), then its parts are created and started. Otherwise it returns the errors of the steps that were taken, and no step follows a failed one except that the counter is still asked for without a logger. In every program with any number of exporters, an exporter that could not be created is never used; of the others, data go to the batcher (for Prometheus to the exporter), once per export, as the data say, with one report at the chosen provider; the error of the part is returned and no other exporter changes. Shutdown first exports the data it is given, then shuts down the batcher and the exporter whatever failed, and returns every error in order. The parts' own instruments are made by the constructor of the same name, with otelcol_ at the start of a name replaced by otelsdk_ and nothing else changed. (A failed creation does not shut down parts that were started; names that differ only in that prefix become one.)", "quantifier": "every list of options, every program of any number of exporters and calls, every choice of which actions fail with which errors depending on all that happened before, every data that the conversion accepts, every instrument name", "why_tests_cant": "Which step fails is the environment's choice; tests do not make loggers, meters, factories, starts and shutdowns fail in every combination, nor try every order of options.", "anchors": ["lightstep/sdk/metric/exporters/otlp/otelcol/client.go: NewConfig, NewDefaultConfig, WithEndpoint, WithHeaders, WithCompressor, WithInsecure, WithTLSSetting, NewExporter, ExportMetrics, ShutdownMetrics", "lightstep/sdk/trace/exporters/otlp/otelcol/client.go: NewConfig, NewExporter, WithTracerProvider, WithMeterProvider, ExportSpans, Shutdown", "lightstep/sdk/metric/exporters/prom/client.go: NewConfig, WithPort, NewExporter, ExportMetrics, ShutdownMetrics", "lightstep/sdk/internal/common.go: ConfigureSelfTelemetry, NOTelColMeterProvider, fixName"]}
{"id": "C65", "title": "The attributes a caller passes are read once, may be reused, and only ever shortened", "statement": "A measurement is recorded for the attributes that the caller's slice held when the call began, cut to the size limit, or for the overflow attributes when the limit of series is reached. This holds in every interleaving of any number of measurements on any instruments, also when calls share a slice, and whatever the caller writes to the slice after the call has returned. The attributes of a series never change. Once no running call was given a slice, nothing in the SDK refers to it. A call writes to no memory of the caller but the slice it was given, there it only shortens keys and values longer than the limit, and it writes nothing if all are within the limit. Every call returns after at most four steps per attribute and six more, whatever other calls do. Attributes given as options go to the same series as the list of the attributes of all the options, if no key is longer than the limit. (A call does shorten the caller's slice. If cut keys coincide, options and key-values differ. If collisions are ignored, attributes with the same fingerprint share a series.) Calls of one instrument with equal attributes, at the same time or one after the other, share one series record as long as no collection removes it.", "quantifier": "every attribute list, size limit and hash function, every interleaving of any number of measurements, slices, writes by callers between calls, removals of series by collections, and answers whether the limit of series is reached", "why_tests_cant": "Whether a reference to the caller's memory survives, or a shared slice is read half cut, depends on the interleaving and on what the caller writes later.", "anchors": ["lightstep/sdk/metric/syncinst.go: AddWithKeyValues, RecordWithKeyValues, Add, Record, addToOpConfig, recordToOpConfig", "lightstep/sdk/metric/sdkinstrument/performance.go: TruncateAttributes", "lightstep/sdk/metric/internal/syncstate/sync.go: Observe, computeAttrsUnderLock, initialize, readAccumulator", "lightstep/sdk/metric/internal/syncstate/bykeyvalue.go: fingerprintAttributes, acquireReadKV, acquireNotfoundKV, acquireWriteKV"]}
{"id": "C66", "title": "Calls of an aggregator's methods at the same time act as if they came one after the other", "statement": "However the locks, reads, writes and atomic instructions of any number of Update, Move, Copy and Merge calls on any number of aggregator states interleave, there is an order of the calls, consistent with which calls had returned before others began, in which one call after the other would return what the calls returned and leave the contents the states have. This holds for int64 and float64 sums, gauges, minmaxsumcounts and histograms. No two goroutines access a state at the same time other than by atomic instructions, no mutex is unlocked by a goroutine that does not hold it, while a call has not returned some goroutine can go on, and the number of steps of all calls is bounded by the number of calls whatever the schedule, also with the compare-and-swap loop of float64 sums. When all calls have returned an int64 sum holds what was added less what was moved out, modulo 2^64, and so does the count of a minmaxsumcount. Each update of a gauge gets a sequence number of its own, greater than those of the updates that returned before it began; a gauge read after an update reports that update if every other call that could change it returned before the update began or began after the read returned.", "quantifier": "every schedule of any number of calls on any number of states, every number and every state merged; histograms for any structure of the library whose methods run under the lock", "why_tests_cant": "Lost updates, torn reads and endless retries depend on the interleaving of single instructions; tests run a few schedules, and the race detector sees only the accesses they make.", "anchors": ["lightstep/sdk/metric/number/traits.go: AddAtomic, SwapAtomic, GetAtomic", "lightstep/sdk/metric/aggregator/sum/sum.go: Methods.Update, Move, Copy, Merge", "lightstep/sdk/metric/aggregator/gauge/gauge.go: Methods.Update, Move, Copy, Merge, sequenceVar", "lightstep/sdk/metric/aggregator/minmaxsumcount/minmaxsumcount.go: Methods.Update, Move, Copy, Merge", "lightstep/sdk/metric/aggregator/histogram/histogram.go: Methods.Update, Move, Copy, Merge", "lightstep/sdk/metric/aggregator/aggregator.go: Methods"]}
{"id": "C67", "title": "ForceFlush and Shutdown run the callbacks and give the exporter what they observed", "statement": "When ForceFlush or Shutdown of a periodic reader returns, it has made one export of its own whose error it returned. The data of that export are the whole output of a collection that began after the call did, in which every callback registered at its start was run once and in order, so every observation in it was made after the call; and each cumulative or gauge stream of it is what the callbacks of that collection were told was recorded, each attribute set once. Productions of a delta stream follow one another without a gap: each says by how much every series changed since the one before. Whatever goroutines observe, other readers collect and other calls of ForceFlush, Shutdown and the timer do at the same time, the reader's own collections never overlap, the exporter is called once for each production in order, with data that no longer change, and some goroutine can go on until the call returns. The callbacks must wait for the goroutines they start.", "quantifier": "every history of a periodic reader with any number of calls of ForceFlush, Shutdown and ticks; every schedule of any number of observing goroutines and of other readers; every configuration of views and instruments, int64 and float64", "why_tests_cant": "Whether an observation reaches the exporter before ForceFlush returns depends on how callbacks, goroutines, the timer, other readers and concurrent flushes interleave; tests run a few schedules with one reader.", "anchors": ["lightstep/sdk/metric/periodic.go: PeriodicReader.collect, ForceFlush, Shutdown, start", "lightstep/sdk/metric/producer.go: providerProducer.Produce, collectFor", "lightstep/sdk/metric/internal/asyncstate/async.go: State, Observe, SnapshotAndProcess", "lightstep/sdk/metric/internal/asyncstate/callback.go: Callback.Run"]}
{"id": "C68", "title": "The numbers in the OTLP requests are the numbers that were measured", "statement": "When ForceFlush or Shutdown of a periodic reader returns, look at all requests that the OTLP pipeline was handed so far, whether it accepted them or not, for one stream of an int64 instrument and one attribute set. With delta temporality, the values of the sum points of that name with those attributes add up, as an int64, to the sum of a set of different measurements of that series that contains every one made by a call that had returned before; the counts of a minmaxsumcount add up to their number; the numbers shown for a gauge were set by different calls, and for every call that had returned one of them was set by it or after it. With cumulative temporality, the request that the call itself made shows exactly one point for a series that was measured before: the sum of such a set, the size of such a set as the count, or for a gauge a number than which no call that had returned set a later one. Different attribute sets are different in OTLP, except that empty slices of different types are not.", "quantifier": "every schedule of any number of calls of any number of synchronous int64 instruments, ticks, exports that succeed or fail, other readers' collections and other calls of ForceFlush and Shutdown; every configuration of views, filters and limits; every attribute set whose slices are not empty; every resource", "why_tests_cant": "A number passes records, entries, points, the conversion and the request, each with its own races and boundaries; tests compare one part at a time, on a few schedules and numbers.", "anchors": ["lightstep/sdk/metric/periodic.go: PeriodicReader.collect, ForceFlush, Shutdown", "lightstep/sdk/metric/producer.go: providerProducer.Produce", "lightstep/sdk/metric/internal/viewstate/collectors.go: statefulSyncInstrument.Collect, lowmemorySyncInstrument.Collect", "lightstep/sdk/metric/internal/viewstate/base_instrument.go: appendInstrument, appendPoint", "lightstep/sdk/metric/internal/export/export.go: d2pd, copySumPoints, copyGaugePoints, copyMMSCPoints, ExportMetrics", "lightstep/sdk/internal/common.go: CopyAttributes", "lightstep/sdk/metric/exporters/otlp/otelcol/client.go: ExportMetrics, ShutdownMetrics, ForceFlushMetrics"]}
{"id": "C69", "title": "Every OTLP request says when and how its numbers were collected, and shows a series once", "statement": "At any moment, the requests that a periodic reader has handed to the OTLP pipeline are as many as the exports it has begun, in the order of its collections. Request n has the resource of the provider and one scope with the name, version and schema of the meter. Each metric in it is of one stream of the reader: it has the name, unit and description of the stream, the OTLP type of its aggregation, its monotonicity and its temporality, and at least one point. Every point ends at the time of collection n; it starts at the collection before if the stream is delta, at the start of the provider if it is cumulative, and has no start if it is a gauge; so the delta points of consecutive requests are adjacent in time. No two points of a request have the same metric name and the same attributes (empty slices aside). The telemetry of an export counts exactly the points of its request, and reports what the pipeline answered to that request.", "quantifier": "every schedule of any number of calls of any number of synchronous int64 instruments, ticks, exports, other readers' collections and calls of ForceFlush and Shutdown, stopped at any point; every configuration of views, filters and limits, every resource, clock and answer of the pipeline", "why_tests_cant": "Tests look at the requests of one schedule with one or two instruments; that no schedule makes a request with a wrong interval, a repeated series or a wrong count needs all schedules and all configurations.", "anchors": ["lightstep/sdk/metric/periodic.go: PeriodicReader.collect", "lightstep/sdk/metric/producer.go: providerProducer.Produce", "lightstep/sdk/metric/internal/viewstate/collectors.go: statefulSyncInstrument.Collect, lowmemorySyncInstrument.Collect", "lightstep/sdk/metric/internal/viewstate/base_instrument.go: appendInstrument, appendPoint", "lightstep/sdk/metric/internal/export/export.go: d2pd, copySumPoints, copyGaugePoints, copyMMSCPoints, ExportMetrics"]}
{"id": "C70", "title": "The numbers in the OTLP requests are the numbers that callbacks observed", "statement": "The requests that a periodic reader has handed to the OTLP pipeline are as many as the exports it has begun, in order. Request n shows, of each cumulative stream of an asynchronous int64 instrument, what callbacks observed in one whole collection: with room for all attribute sets, exactly one number for each attribute set that the view makes of observations, namely the sum of the last numbers observed of the series it merges or, for a gauge, one of them, and no number for other attribute sets; without room, the numbers of a sum still add up to all that was observed. There is never more than one number of a series in a request, nor more numbers of such a stream than the view's limit. Of each delta stream it shows by how much each series changed since request n-1: the whole sum if nothing was observed of it then, nothing if it is unchanged or not observed; so as long as a series stays observed, the numbers of requests 0 to n add up to what was observed for request n. When ForceFlush or Shutdown has returned there is such a request of its own, with the error it returned, for which every registered callback was run, and what it shows was observed after the call began. Every request has the resource of the provider, the scope of the meter, and metrics with the name, unit, description, type, monotonicity, temporality and times of their streams, delta points of consecutive requests being adjacent in time; its telemetry counts its points and reports the pipeline's answer to it.", "quantifier": "every history of a periodic reader with any number of ticks, calls of ForceFlush and Shutdown and exports that succeed or fail; every schedule of observing goroutines and other readers; every configuration of int64 views, filters, limits and truncation; every attribute set whose slices are not empty; every resource, clock and answer of the pipeline", "why_tests_cant": "An observation passes callbacks, records, views, cells, points and OTLP data while other goroutines, readers and flushes run; no finite number of runs shows that no schedule loses, doubles, mixes up or mislabels a number on the way.", "anchors": ["lightstep/sdk/metric/producer.go: Produce, collectFor", "lightstep/sdk/metric/periodic.go: collect, ForceFlush, Shutdown", "lightstep/sdk/metric/internal/asyncstate/async.go: Observe, SnapshotAndProcess", "lightstep/sdk/metric/internal/viewstate/collectors.go: lowmemoryAsyncInstrument, statefulAsyncInstrument", "lightstep/sdk/metric/internal/viewstate/base_instrument.go: appendInstrument, appendPoint", "lightstep/sdk/metric/internal/export/export.go", "lightstep/sdk/metric/exporters/otlp/otelcol/client.go: ExportMetrics"]}
{"id": "C71", "title": "The memory of asynchronous streams stays within the limit", "statement": "Whatever callbacks observe, and however collections, readers and observing goroutines interleave, the number of attribute sets that a stream of an asynchronous instrument keeps in memory is never more than its cardinality limit, whatever its temporality, and no attribute set is kept twice. The last place is kept for the overflow attribute set: other attribute sets never fill the map, and the \"limit passed\" error is never reported. What a collection reports of such a stream has no attribute set twice and no more points than the limit. A collection that is over has reported each stream of its reader exactly once, and an OTLP request of a periodic reader has no more numbers of an asynchronous int64 stream than its limit and never two of one series. An attribute set other than the overflow set that is no longer observed is released: once two collections have begun and ended since the last call with it (one for cumulative temporality), the stream holds no memory of it. The overflow set of a delta stream, once there, stays.", "quantifier": "every configuration of views with a limit of at least one (the code replaces zero by its default), every number of readers, every schedule of collections that may overlap, of callbacks, and of calls that go on after their callback has returned, at every step", "why_tests_cant": "The bound must hold after any number of collections with ever new attribute sets and for every interleaving of goroutines that add entries while others empty the maps.", "anchors": ["lightstep/sdk/metric/internal/viewstate/base_instrument.go: InMemorySize, getOrCreateEntry", "lightstep/sdk/metric/internal/viewstate/collectors.go: statefulAsyncInstrument, lowmemoryAsyncInstrument", "lightstep/sdk/metric/internal/asyncstate/async.go: Observe, SnapshotAndProcess"]}
