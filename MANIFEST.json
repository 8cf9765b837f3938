{
 "claims": [
  {
   "property": "C01",
   "status": "proved",
   "theorems": [
    "C01_exactly_once",
    "C01_call_recorded",
    "C01_call_unfinished",
    "C01_nothing_else",
    "C01_no_empty_points"
   ],
   "note": "Every schedule of the synchronous model; the aggregator is any commutative monoid, so the statement about which measurements are in which point does not depend on arithmetic."
  },
  {
   "property": "C02",
   "status": "proved",
   "theorems": [
    "C02_complete",
    "C02_one_point",
    "C02_all_calls",
    "C02_at_most_one_point"
   ],
   "note": ""
  },
  {
   "property": "C03",
   "status": "proved",
   "theorems": [
    "C03_visible",
    "C03_calm",
    "C03_wrap_refuted",
    "C03_late"
   ],
   "note": "calm is the 2^32 proviso of the property; C03_calm gives a sufficient condition.  C03_late needs no such proviso."
  },
  {
   "property": "C04",
   "status": "proved",
   "theorems": [
    "C04_each_stream_complete",
    "C01_call_recorded",
    "C04_own_reader"
   ],
   "note": ""
  },
  {
   "property": "C05",
   "status": "proved",
   "theorems": [
    "C05_removed_record",
    "C05_removed_entry",
    "C05_used_live"
   ],
   "note": ""
  },
  {
   "property": "C06",
   "status": "proved",
   "theorems": [
    "C06_kept",
    "C06_evicted",
    "C06_entry"
   ],
   "note": ""
  },
  {
   "property": "C07",
   "status": "proved",
   "theorems": [
    "C07_no_deadlock",
    "C07_lookup_usable",
    "C07_no_retry",
    "C07_never_bad",
    "C07_call_steps",
    "C07_collection_steps"
   ],
   "note": ""
  },
  {
   "property": "C08",
   "status": "proved",
   "theorems": [
    "C08_limit",
    "C08_points",
    "C08_overflow_present",
    "C08_overflow_used"
   ],
   "note": ""
  },
  {
   "property": "C09",
   "status": "proved",
   "theorems": [
    "C09_limit",
    "C09_sequential",
    "C09_records",
    "C09_exact_limit_refuted"
   ],
   "note": "The configured limit itself can be exceeded by concurrent calls: C09_exact_limit_refuted."
  },
  {
   "property": "C10",
   "status": "proved",
   "theorems": [
    "C10_right_series",
    "C10_no_overflow",
    "C10_ignoring_collisions_refuted",
    "C10_attributes",
    "C10_attributes_fit",
    "C10_equal_same_series",
    "C10_overflow_visible_refuted",
    "C10_nan_slice_refuted",
    "C10_compared",
    "C10_same_list"
   ],
   "note": "C10_attributes instantiates the general theorem with the attribute lists, equality, fingerprints and filters of the code."
  },
  {
   "property": "C11",
   "status": "proved",
   "theorems": [
    "C11_order",
    "C11_fingerprint",
    "C11_repeated_keys_refuted"
   ],
   "note": ""
  },
  {
   "property": "C12",
   "status": "proved",
   "theorems": [
    "C12_exactly_int",
    "C12_exactly_float",
    "C12_no_effect"
   ],
   "note": "The synchronous entry point; asynchronous observations are covered by C19."
  },
  {
   "property": "C13",
   "status": "proved",
   "theorems": [
    "C13_exact",
    "C13_wrap",
    "C13_reported",
    "C13_float",
    "C13_float_order_refuted",
    "C13_float_exact",
    "C13_float_rounds",
    "C13_float_zero",
    "C13_change",
    "C13_float_change"
   ],
   "note": "Float sums are the sum of the measurements in some order of the additions (C13_float); the order can matter (C13_float_order_refuted)."
  },
  {
   "property": "C14",
   "status": "proved",
   "theorems": [
    "C14_int",
    "C14_float",
    "C14_reported",
    "C14_float_compares",
    "C14_float_change",
    "C14_int_change"
   ],
   "note": ""
  },
  {
   "property": "C15",
   "status": "proved",
   "theorems": [
    "C15_last",
    "C15_unset",
    "C15_times",
    "C15_reported",
    "C15_overlapping_updates_refuted",
    "C15_cumulative_set_refuted",
    "C15_delta_set"
   ],
   "note": "For updates that do not overlap. With overlapping updates an overwritten value can be reported (C15_overlapping_updates_refuted)."
  },
  {
   "property": "C16",
   "status": "proved",
   "theorems": [
    "C16_agree"
   ],
   "note": ""
  },
  {
   "property": "C17",
   "status": "proved",
   "theorems": [
    "C17_cumulative",
    "C17_int",
    "C17_overflow"
   ],
   "note": "Cumulative and gauge views over all histories of one meter; overflow placement is C17_overflow."
  },
  {
   "property": "C18",
   "status": "proved",
   "theorems": [
    "C18_step",
    "C18_changes",
    "C18_telescopes",
    "C18_gap_refuted",
    "C18_overflow_refuted"
   ],
   "note": "Proved when the series is observed in every collection from some time on and the attribute sets fit the limit. The two cases where the code does not telescope are refuted."
  },
  {
   "property": "C19",
   "status": "proved",
   "theorems": [
    "C19_exactly",
    "C19_late",
    "C19_no_effect",
    "C19_in_flight_refuted"
   ],
   "note": "Sequential grain: one observation is one step. The check/act race of an observation in flight when the callback returns is refuted separately."
  },
  {
   "property": "C20",
   "status": "proved",
   "theorems": [
    "C20_once",
    "C20_register",
    "C20_unregister"
   ],
   "note": "Unregister that overlaps a collection is refuted separately."
  },
  {
   "property": "C21",
   "status": "proved",
   "theorems": [
    "C21_matching",
    "C21_unset"
   ],
   "note": ""
  },
  {
   "property": "C22",
   "status": "proved",
   "theorems": [
    "C22_streams",
    "C22_new_streams",
    "C22_own_stream",
    "C22_one_stream_each_refuted",
    "C22_default_config_refuted",
    "C22_temporality_refuted",
    "C22_options",
    "C22_settings"
   ],
   "note": "Instruments without a hint. The refuted theorems are findings: one stream fed twice, a clause's missing configuration, shared temporality."
  },
  {
   "property": "C23",
   "status": "proved",
   "theorems": [
    "C23_again",
    "C23_hint_refuted"
   ],
   "note": "Without a hint; the refuted theorem shows the hint 'sum' creating a new stream each time."
  },
  {
   "property": "C24",
   "status": "proved",
   "theorems": [
    "C24_reported",
    "C24_distinct",
    "C24_silent",
    "C24_contents"
   ],
   "note": ""
  },
  {
   "property": "C25",
   "status": "proved",
   "theorems": [
    "C25_allowed",
    "C25_granted",
    "C25_reported",
    "C25_hint_refuted",
    "C25_second_clause_refuted"
   ],
   "note": "Without a hint; hints bypass the check (refuted theorems)."
  },
  {
   "property": "C26",
   "status": "proved",
   "theorems": [
    "C26_longest"
   ],
   "note": ""
  },
  {
   "property": "C27",
   "status": "proved",
   "theorems": [
    "C27_legal",
    "C27_fixed",
    "C27_idempotent",
    "C27_clause",
    "C27_performance",
    "C27_defaults",
    "C27_reported",
    "C27_same_shape",
    "C27_settings_kept_refuted",
    "C27_limit"
   ],
   "note": "For every histogram library whose Validate returns valid sizes."
  },
  {
   "property": "C28",
   "status": "proved",
   "theorems": [
    "C28_meters",
    "C28_instruments",
    "C28_nothing",
    "C28_order",
    "C28_error"
   ],
   "note": "Every history of the provider under any interleaving; layout and order are only extended."
  },
  {
   "property": "C29",
   "status": "proved",
   "theorems": [
    "C29_once",
    "C29_first",
    "C29_later",
    "C29_proceeds",
    "C29_noop"
   ],
   "note": "Every interleaving of Shutdown calls at the grain of critical sections and reader calls."
  },
  {
   "property": "C30",
   "status": "proved",
   "theorems": [
    "C30_chain",
    "C30_forward",
    "C30_points",
    "C30_streams"
   ],
   "note": "Intervals of each reader form a chain; points carry them."
  },
  {
   "property": "C31",
   "status": "proved",
   "theorems": [
    "C31_reuse",
    "C31_history",
    "C31_typed",
    "C31_shortened_refuted"
   ],
   "note": "Outputs returned by earlier collections; refuted for slices shortened by hand."
  },
  {
   "property": "C32",
   "status": "proved",
   "theorems": [
    "C32_one_at_a_time",
    "C32_exactly_once",
    "C32_nothing_after",
    "C32_waits",
    "C32_errors",
    "C32_registered",
    "C32_returns",
    "C32_periods",
    "C32_unregistered_refuted",
    "C32_cancel_stops_exports_refuted",
    "C32_methods",
    "C32_ticks",
    "C32_refused",
    "C32_runs"
   ],
   "note": "Every interleaving of the timer loop, registrations, ForceFlush and Shutdown at the grain of lock, production, exporter call and return."
  },
  {
   "property": "C33",
   "status": "proved",
   "theorems": [
    "C33_bounded",
    "C33_unchanged",
    "C33_idempotent",
    "C33_observe",
    "C33_processor_refuted",
    "C33_keys_stay_distinct_refuted",
    "C33_exact",
    "C33_count",
    "C33_off"
   ],
   "note": "Byte truncation; a MeasurementProcessor runs after it (C33_processor_refuted) and truncated keys can coincide (C33_keys_stay_distinct_refuted)."
  },
  {
   "property": "C34",
   "status": "proved",
   "theorems": [
    "C34_reported_attributes",
    "C34_sorted",
    "C34_idempotent",
    "C34_values"
   ],
   "note": ""
  },
  {
   "property": "C35",
   "status": "proved",
   "theorems": [
    "C35_keeps",
    "C35_uniform",
    "C35_integer_extremes_refuted",
    "C35_negative_sums_refuted",
    "C35_untyped_attribute_refuted",
    "C35_history"
   ],
   "note": "Exceptions are the _refuted theorems"
  },
  {
   "property": "C36",
   "status": "proved",
   "theorems": [
    "C36_shape",
    "C36_places",
    "C36_increasing",
    "C36_refused_scale",
    "C36_negative_counts_refuted"
   ],
   "note": "Refused scales crash; negative buckets are left out"
  },
  {
   "property": "C37",
   "status": "proved",
   "theorems": [
    "C37_counted",
    "C37_outcome",
    "C37_spans_counted",
    "C37_spans_outcome",
    "C37_spans_told",
    "C37_told"
   ],
   "note": ""
  },
  {
   "property": "C38",
   "status": "proved",
   "theorems": [
    "C38_fresh",
    "C38_exact",
    "C38_zero_sign_refuted"
   ],
   "note": ""
  },
  {
   "property": "C39",
   "status": "proved",
   "theorems": [
    "C39_runs",
    "C39_keeps",
    "C39_none",
    "C39_one_to_one",
    "C39_unnamed_scope_refuted",
    "C39_version_refuted",
    "C39_resource_refuted",
    "C39_history"
   ],
   "note": "Batches that begin with an unnamed scope crash; versions and resources are those of the first span: the _refuted theorems"
  },
  {
   "property": "C40",
   "status": "proved",
   "theorems": [
    "C40_fails",
    "C40_stops"
   ],
   "note": "Exactly when; with the default logger nothing but the report happens. Example cases in ExLaunch."
  },
  {
   "property": "C41",
   "status": "proved",
   "theorems": [
    "C41_settings",
    "C41_attributes",
    "C41_headers",
    "C41_options_win",
    "C41_environment",
    "C41_environment_error",
    "C41_token",
    "C41_launcher",
    "C41_broken",
    "C41_unrelated_refuted"
   ],
   "note": "Every setting by last option, else variable, else default; options win even when the environment cannot be read; headers accumulate; attributes are those of the last option; token rule; error exactly when a variable that is set cannot be read."
  },
  {
   "property": "C42",
   "status": "proved",
   "theorems": [
    "C42_resource"
   ],
   "note": "Exact contents of the resource, one value per key."
  },
  {
   "property": "C43",
   "status": "proved",
   "theorems": [
    "C43_one",
    "C43_rejects",
    "C43_selects"
   ],
   "note": "ASCII case only."
  },
  {
   "property": "C44",
   "status": "proved",
   "theorems": [
    "C44_recognised",
    "C44_installs",
    "C44_no_exporter"
   ],
   "note": "Names are case sensitive, as in the code."
  },
  {
   "property": "C45",
   "status": "proved",
   "theorems": [
    "C45_libraries",
    "C45_counts",
    "C45_prestable_refuted"
   ],
   "note": "Refuted for the documented 'prestable' versions: C45_prestable_refuted."
  },
  {
   "property": "C46",
   "status": "proved",
   "theorems": [
    "C46_table",
    "C46_documented",
    "C46_unknown",
    "C46_determined",
    "C46_safe",
    "C46_one_family",
    "C46_distinct",
    "C46_keys",
    "C46_exactly_one",
    "C46_short_class_refuted",
    "C46_longer_refuted",
    "C46_other_patterns_refuted"
   ],
   "note": "The documented table is an independent specification; one-letter classes, longer units and malformed patterns of other tables are recorded as refuted."
  },
  {
   "property": "C47",
   "status": "proved",
   "theorems": [
    "C47_apart",
    "C47_refused",
    "C47_emits_once",
    "C47_after",
    "C47_emits_all",
    "C47_emits",
    "C47_total",
    "C47_rate",
    "C47_no_delay",
    "C47_outside",
    "C47_returns",
    "C47_together_refuted",
    "C47_boundary_refuted",
    "C47_turns"
   ],
   "note": "All interleavings of any number of goroutines with an advancing clock. The claim that emissions themselves are never together is refuted, since the diagnostic runs after the lock is released; the rate is proved instead."
  },
  {
   "property": "C48",
   "status": "proved",
   "theorems": [
    "C48_custom_logger",
    "C48_default_logger",
    "C48_all_succeed",
    "C48_logger",
    "C48_reports"
   ],
   "note": ""
  },
  {
   "property": "C49",
   "status": "proved",
   "theorems": [
    "C49_collects",
    "C49_never_crashes_refuted"
   ],
   "note": "Crash freedom under the stated condition; the unconditional claim is refuted."
  },
  {
   "property": "C50",
   "status": "proved",
   "theorems": [
    "C50_metrics",
    "C50_prometheus",
    "C50_traces"
   ],
   "note": ""
  },
  {
   "property": "C51",
   "status": "proved",
   "theorems": [
    "C51_setup",
    "C51_default_logger",
    "C51_leak_refuted",
    "C51_empty_endpoint_refuted",
    "C51_exporter",
    "C51_handler",
    "C51_meter",
    "C51_propagators"
   ],
   "note": "Findings: a span exporter that is created and never shut down when no propagator is supported (C51_leak_refuted); an empty metric endpoint does not disable metrics (C51_empty_endpoint_refuted)."
  },
  {
   "property": "C52",
   "status": "proved",
   "theorems": [
    "C52_registers",
    "C52_succeeds",
    "C52_fails",
    "C52_safe",
    "C52_streams",
    "C52_observes",
    "C52_stops",
    "C52_kind_refuted",
    "C52_large_refuted",
    "C52_one_instrument"
   ],
   "note": "Creation of instruments is an oracle that may refuse any of them."
  },
  {
   "property": "C53",
   "status": "proved",
   "theorems": [
    "C53_host",
    "C53_all_or_nothing",
    "C53_error",
    "C53_silent_refuted",
    "C53_process",
    "C53_process_fails",
    "C53_start",
    "C53_trial",
    "C53_created"
   ],
   "note": "Float arithmetic, system calls and gopsutil are parameters."
  },
  {
   "property": "C54",
   "status": "proved",
   "theorems": [
    "C54_names",
    "C54_default",
    "C54_clause",
    "C54_only_unselected_refuted"
   ],
   "note": "Hints as parsed by the JSON library are a parameter; the instrument is the first of its output name. The documented restriction to unselected instruments does not hold (refuted)."
  },
  {
   "property": "C55",
   "status": "proved",
   "theorems": [
    "C55_options",
    "C55_readers",
    "C28_views"
   ],
   "note": "Resources are texts; C28_views states which streams result."
  },
  {
   "property": "C56",
   "status": "proved",
   "theorems": [
    "C56_points",
    "C56_shape"
   ],
   "note": "Histograms are their configuration and the numbers they hold."
  },
  {
   "property": "C57",
   "status": "proved",
   "theorems": [
    "C57_delivered",
    "C57_once",
    "C57_complete",
    "C57_called_after",
    "C57_progress",
    "C57_nil_means_received_refuted"
   ],
   "note": "SyncModel and Per composed in Flow; synchronous instruments."
  },
  {
   "property": "C58",
   "status": "proved",
   "theorems": [
    "C58_summary",
    "C58_text",
    "C58_error",
    "C58_string",
    "C58_handled",
    "C58_about_refuted",
    "C58_hint_refuted",
    "C58_names_refuted",
    "C58_reason_refuted",
    "C58_sum_refuted"
   ],
   "note": "Texts, contents and handling of creation errors; the stronger readings that do not hold are the _refuted theorems."
  },
  {
   "property": "C59",
   "status": "proved",
   "theorems": [
    "C59_streams",
    "C59_presets",
    "C59_preference"
   ],
   "note": "Without hints; the reader has no view clauses, as the launcher's has."
  },
  {
   "property": "C60",
   "status": "proved",
   "theorems": [
    "C60_delivers",
    "C60_each_its_own",
    "C60_no_panic",
    "C60_once",
    "C60_own",
    "C60_own_shared_refuted",
    "C60_refused",
    "C60_returns",
    "C60_silent_after_shutdown_refuted",
    "C60_stops",
    "C60_stops_only_its_own_refuted",
    "C60_manual",
    "C60_manual_first"
   ],
   "note": "Shared readers and ForceFlush after Shutdown are refuted in the theorems with that suffix. Contexts are left out."
  },
  {
   "property": "C61",
   "status": "proved",
   "theorems": [
    "C61_exact",
    "C61_bounded",
    "C61_lost_refuted",
    "C61_once",
    "C61_overlap_skips_refuted",
    "C61_overlap_twice_refuted",
    "C61_registered_first",
    "C61_returns",
    "C61_silent_after_refuted",
    "C61_twice_refuted",
    "C61_unregistered_runs_refuted"
   ],
   "note": "Exactness needs that Unregister overlaps neither another Unregister nor a registration nor that collection; what happens otherwise is shown by the _refuted theorems (finding 25). Reading or writing a slice header is one step; data races beyond that are not modelled."
  },
  {
   "property": "C62",
   "status": "proved",
   "theorems": [
    "C62_constructors",
    "C62_created",
    "C62_once",
    "C62_own",
    "C62_late",
    "C62_points",
    "C62_panics"
   ],
   "note": "Programs of creations, registrations, Unregister, collections and late observations over the meter of Async; a nil callback panics (finding 26)."
  },
  {
   "property": "C63",
   "status": "proved",
   "theorems": [
    "C63_cumulative",
    "C63_int",
    "C63_delta",
    "C63_late",
    "C63_collection_goes_on",
    "C63_call_goes_on",
    "C63_views_refuted",
    "C63_overlap_refuted",
    "C63_straggler_refuted"
   ],
   "note": "Any number of readers, collections, callbacks and goroutines. Conditions (collections of the reader do not overlap, callbacks wait for their goroutines) shown necessary by the refuted theorems; C63_delta needs fewer attribute sets than the limit."
  },
  {
   "property": "C64",
   "status": "proved",
   "theorems": [
    "C64_options",
    "C64_cleanup_refuted",
    "C64_creation",
    "C64_export",
    "C64_life",
    "C64_names",
    "C64_names_refuted",
    "C64_no_panic",
    "C64_port",
    "C64_shutdown",
    "C64_spans",
    "C64_tls"
   ],
   "note": "Exporters built from parts of the collector, whose answers are an oracle over the whole history; data accepted by the conversion (C35, C39). Two expectations refuted: a failed creation leaves a started part running, and two instrument names can become one."
  },
  {
   "property": "C65",
   "status": "proved",
   "theorems": [
    "C65_recorded",
    "C65_fixed",
    "C65_reuse",
    "C65_written",
    "C65_left",
    "C65_returns",
    "C65_options",
    "C65_options_refuted",
    "C65_untouched_refuted",
    "C65_mapped",
    "C65_shared"
   ],
   "note": "Memory model with any number of calls. Modelled step by step; the protocol of removing records is SyncModel's (C05), the update of the accumulator Conc's (C63)."
  },
  {
   "property": "C66",
   "status": "proved",
   "theorems": [
    "C66_linearizable",
    "C66_no_race",
    "C66_goes_on",
    "C66_bounded",
    "C66_bounded_linear",
    "C66_tickets",
    "C66_gauge_last",
    "C66_conserved_sum",
    "C66_conserved_count"
   ],
   "note": "The structure of the histogram library is any structure."
  },
  {
   "property": "C67",
   "status": "proved",
   "theorems": [
    "C67_single",
    "C67_delivered",
    "C67_told",
    "C67_fresh",
    "C67_delta",
    "C67_once",
    "C67_complete",
    "C67_progress"
   ],
   "note": "Conc and Per composed; callbacks that wait are a hypothesis of C67_told and C67_delta, needed by C63_straggler_refuted"
  },
  {
   "property": "C68",
   "status": "proved",
   "theorems": [
    "C68_delta",
    "C68_delta_count",
    "C68_cumulative",
    "C68_gauge",
    "C68_count",
    "C68_distinct",
    "C68_distinct_refuted",
    "C68_delta_gauge"
   ],
   "note": "Flow, AggSync, Data and Exp composed; int64 sums, gauges and minmaxsumcount counts; C68_distinct_refuted is finding 36"
  },
  {
   "property": "C69",
   "status": "proved",
   "theorems": [
    "C69_shape",
    "C69_intervals",
    "C69_once",
    "C69_telemetry"
   ],
   "note": "every request of a periodic reader: resource, scope, metrics, types, temporality, times, series shown once, telemetry; int64 synchronous instruments of one meter"
  },
  {
   "property": "C70",
   "status": "proved",
   "theorems": [
    "C70_shape",
    "C70_cumulative",
    "C70_flush",
    "C70_delta",
    "C70_delta_total",
    "C70_intervals",
    "C70_limit"
   ],
   "note": "int64 asynchronous instruments of one meter; callbacks wait for the goroutines they start (hypothesis, as in C67); attribute values have types; streams of a reader have different names"
  },
  {
   "property": "C71",
   "status": "proved",
   "theorems": [
    "C71_bounded",
    "C71_reserved",
    "C71_reported",
    "C71_whole",
    "C71_requests",
    "C71_no_error",
    "C71_forgotten",
    "C71_overflow_stays"
   ],
   "note": "Invariants of every reachable state of the model of asynchronous instruments; no hypothesis on the schedule. C71_requests: one meter with int64 asynchronous instruments."
  }
 ]
}