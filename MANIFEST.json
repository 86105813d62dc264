{
 "claims": [
  {
   "property": "C01",
   "status": "proved",
   "theorems": [
    "C01_start_publishes"
   ],
   "note": "startable (RegInv.v) is the publishability condition of the quantifier."
  },
  {
   "property": "C02",
   "status": "proved",
   "theorems": [
    "C02_no_panic",
    "C02_no_deadlock",
    "C02_terminates",
    "C02_succeeds"
   ],
   "note": ""
  },
  {
   "property": "C03",
   "status": "proved",
   "theorems": [
    "C03_no_torn_file",
    "C03_zero_file"
   ],
   "note": "Crash points are the states of the goroutine machine, whose buffer stores are single bytes; gen = time.Now().Unix() must not be 0 mod 2^64."
  },
  {
   "property": "C04",
   "status": "proved",
   "theorems": [
    "C04_updates",
    "C04_any_calls",
    "C04_no_fault"
   ],
   "note": "Also for histories with arbitrary other calls (registrations, other clients) that leave this client alone."
  },
  {
   "property": "C05",
   "status": "proved",
   "theorems": [
    "C05_frame",
    "C05_unregistered"
   ],
   "note": "Proved with 8 instead of 16 bytes for numeric types."
  },
  {
   "property": "C06",
   "status": "proved",
   "theorems": [
    "C06_layout",
    "C06_length"
   ],
   "note": ""
  },
  {
   "property": "C07",
   "status": "partial",
   "theorems": [
    "C07_write_in_range",
    "C07_write_error",
    "C07_write_negative",
    "C07_write_overflow",
    "C07_write_error_overflow_refuted",
    "C07_write_model",
    "C07_must_write",
    "C07_write_string",
    "C07_typed",
    "C07_write_val_other"
   ],
   "note": "In-range writes, error on out-of-range and negative offsets, MustWrite and WriteString; C07_typed and C07_write_val_other: WriteVal and the typed functions. C07_write_error_overflow_refuted: with offset+len overflowing int the bounds test passes and Write panics; the other theorems exclude that corner."
  },
  {
   "property": "C08",
   "status": "proved",
   "theorems": [
    "C08_disjoint_writes"
   ],
   "note": ""
  },
  {
   "property": "C09",
   "status": "proved",
   "theorems": [
    "C09_round_trip"
   ],
   "note": ""
  },
  {
   "property": "C10",
   "status": "proved",
   "theorems": [
    "C10_accepted_values"
   ],
   "note": ""
  },
  {
   "property": "C11",
   "status": "proved",
   "theorems": [
    "C11_integers",
    "C11_strings",
    "C11_doubles",
    "C11_float32",
    "C11_type"
   ],
   "note": ""
  },
  {
   "property": "C12",
   "status": "proved",
   "theorems": [
    "C12_narrowing"
   ],
   "note": "Uses Flocq; depends on the standard library's real-number axioms."
  },
  {
   "property": "C13",
   "status": "partial",
   "theorems": [
    "C13_usable_started",
    "C13_usable_unmapped",
    "C13_set",
    "C13_rejected",
    "C13_error_val",
    "C13_error_file_partial",
    "C13_error_file_refuted"
   ],
   "note": "Value part proved for every reachable metric whose mapping is live. File part: proved for strings of at most 256 bytes; C13_error_file_refuted shows a failing Set of a longer string that wipes the slot in the file."
  },
  {
   "property": "C14",
   "status": "partial",
   "theorems": [
    "C14_counters_partial",
    "C14_counter_value",
    "C14_set",
    "C14_inc",
    "C14_overflow_refuted",
    "C14_vector_set",
    "C14_vector_inc",
    "C14_vector_up"
   ],
   "note": "Proved over all histories without int64 overflow; C14_overflow_refuted: Inc at MaxInt64 wraps to a smaller value. C14_set, C14_inc and C14_vector_* say exactly which calls succeed and what they leave."
  },
  {
   "property": "C15",
   "status": "proved",
   "theorems": [
    "C15_no_lost_increment",
    "C15_exact",
    "C15_all_return"
   ],
   "note": "Inc, Up and Val from any number of goroutines on a usable counter, one field access or byte write at a time; the sum is taken as an int64 (C15_no_lost_increment) and is exact without overflow (C15_exact). C15_lock_needed shows an increment lost when the write lock is replaced by a read lock."
  },
  {
   "property": "C16",
   "status": "proved",
   "theorems": [
    "C16_set",
    "C16_inc",
    "C16_dec",
    "C16_inc_zero",
    "C16_add_ieee",
    "C16_sub_ieee",
    "C16_vector_set",
    "C16_vector_inc",
    "C16_vector_dec"
   ],
   "note": "Gauges and single instances of gauge vectors (C16_vector_*). The bit-level sum and difference are tied to rounded real arithmetic by C16_add_ieee/C16_sub_ieee (Flocq, real axioms)."
  },
  {
   "property": "C17",
   "status": "proved",
   "theorems": [
    "C17_start",
    "C17_stop_idle",
    "C17_reset_running",
    "C17_stop_reset_succeed",
    "C17_stop",
    "C17_reset"
   ],
   "note": ""
  },
  {
   "property": "C18",
   "status": "proved",
   "theorems": [
    "C18_value",
    "C18_stop_returns",
    "C18_monotone",
    "C18_conversion",
    "C18_total"
   ],
   "note": "Value over histories equals the fold timer_fold of HistFacts.v, bit for bit; C18_conversion and C18_total bound the distance to the exact elapsed time as a real number. Monotonicity and accuracy use Flocq (real axioms)."
  },
  {
   "property": "C19",
   "status": "proved",
   "theorems": [
    "C19_created_iff",
    "C19_values"
   ],
   "note": ""
  },
  {
   "property": "C20",
   "status": "proved",
   "theorems": [
    "C20_set",
    "C20_reject",
    "C20_val",
    "C20_val_total"
   ],
   "note": ""
  },
  {
   "property": "C21",
   "status": "partial",
   "theorems": [
    "C21_gauge_set_all",
    "C21_gauge_inc_all",
    "C21_counter_inc_all",
    "C21_counter_inc_all_negative",
    "C21_counter_set_all_partial",
    "C21_counter_set_all_refuted",
    "C21_gauge_dec_all",
    "C21_counter_up_all"
   ],
   "note": "Gauge vectors and CounterVector.IncAll/UpAll proved; CounterVector.SetAll refuted ({a:5,b:1}.SetAll(3) panics after changing b) and proved when no instance is above the new value."
  },
  {
   "property": "C22",
   "status": "proved",
   "theorems": [
    "C22_bounds",
    "C22_bounds_kept",
    "C22_nearest",
    "C22_params",
    "C22_created_iff",
    "C22_record",
    "C22_failed_record"
   ],
   "note": "The underlying HdrHistogram is an input of the model: any statistics it reports are the ones published."
  },
  {
   "property": "C23",
   "status": "partial",
   "theorems": [
    "C23_refuted",
    "C23_swapped_partial"
   ],
   "note": "High and Low are swapped in the code; C23_swapped_partial states what they do return."
  },
  {
   "property": "C24",
   "status": "partial",
   "theorems": [
    "C24_dimensions_refuted",
    "C24_recorded",
    "C24_dimensions_partial",
    "C24_order",
    "C24_panic"
   ],
   "note": "Refuted for even dimensions: the unit constants carry dimension 1, which is ORed onto the requested one (byte at dimension 2 is byte^3). Proved for odd dimensions; C24_recorded states what is recorded in all cases."
  },
  {
   "property": "C25",
   "status": "partial",
   "theorems": [
    "C25_aliasing_refuted",
    "C25_preserves_partial",
    "C25_fresh_partial"
   ],
   "note": "Refuted: a composed unit is a pointer that Space, Time and Count modify in place. Only the receiver changes, and a unit derived from an exported constant is new."
  },
  {
   "property": "C26",
   "status": "proved",
   "theorems": [
    "C26_hash_function",
    "C26_metric_ids",
    "C26_indom_ids",
    "C26_cluster_ids"
   ],
   "note": "The published test vectors of FNV-1a are checked in C26_ex."
  },
  {
   "property": "C27",
   "status": "partial",
   "theorems": [
    "C27_distinct_ids_refuted",
    "C27_pigeonhole",
    "C27_distinct_ids_partial"
   ],
   "note": "Refuted (net.out / m82, and unavoidable beyond 1024 metrics); ids differ exactly when the hashes differ mod 1024."
  },
  {
   "property": "C28",
   "status": "proved",
   "theorems": [
    "C28_grammar",
    "C28_rejects",
    "C28_registers",
    "C28_rejected_no_effect"
   ],
   "note": "The Unicode letter and digit tables are a parameter; used of them: the delimiters are in neither. AddMetricByString stands for RegisterString; repeated instances are C34."
  },
  {
   "property": "C29",
   "status": "proved",
   "theorems": [
    "C29_counts"
   ],
   "note": ""
  },
  {
   "property": "C30",
   "status": "proved",
   "theorems": [
    "C30_metric_name_taken",
    "C30_indom_name_taken",
    "C30_by_string_name_taken",
    "C30_forever"
   ],
   "note": "For AddMetricByString with a taken metric name the metrics are unchanged; the domain may be added (C32)."
  },
  {
   "property": "C31",
   "status": "proved",
   "theorems": [
    "C31_frozen",
    "C31_frozen_while_mapped"
   ],
   "note": ""
  },
  {
   "property": "C32",
   "status": "partial",
   "theorems": [
    "C32_by_string_refuted",
    "C32_no_effect_partial",
    "C32_by_string_partial"
   ],
   "note": "Refuted for AddMetricByString (the new domain stays when the metric fails); proved for the other three."
  },
  {
   "property": "C33",
   "status": "proved",
   "theorems": [
    "C33_version",
    "C33_information"
   ],
   "note": "Same information: names read as C strings; texts have the same width in both versions."
  },
  {
   "property": "C34",
   "status": "partial",
   "theorems": [
    "C34_set_equality_refuted",
    "C34_set_equality_partial",
    "C34_subset",
    "C34_register_string_partial"
   ],
   "note": "Refuted for lists with repetitions; set equality for lists without."
  },
  {
   "property": "C35",
   "status": "partial",
   "theorems": [
    "C35_links_refuted",
    "C35_links_partial",
    "C35_published_partial"
   ],
   "note": "Refuted when AddMetric gets a metric over another domain object of a registered name; proved for all histories where it does not."
  },
  {
   "property": "C36",
   "status": "partial",
   "theorems": [
    "C36_stop_partial",
    "C36_stop_file",
    "C36_set_flag_partial",
    "C36_flag_effect",
    "C36_shared_refuted"
   ],
   "note": "Proved when no registry is shared by two clients; C36_shared_refuted: with a shared registry Stop on a never started client panics. The effect on the file and of the flag need no such restriction."
  },
  {
   "property": "C37",
   "status": "partial",
   "theorems": [
    "C37_set_after_stop_refuted",
    "C37_concrete_refuted",
    "C37_unpublished_partial"
   ],
   "note": "Refuted: after Stop every Set changing a published singleton's value is a memory fault. Holds for metrics never published."
  },
  {
   "property": "C38",
   "status": "partial",
   "theorems": [
    "C38_lost_update_refuted",
    "C38_one_of_two_partial",
    "C38_quiet_partial"
   ],
   "note": "False as stated: Start reads the value and later installs the update closure without the metric's lock. Witness: an Inc between the two is lost in the file, and stays lost after a Set of the same value. _partial: in every interleaving each slot ends with the current value or the one Start read; with the current one if no call holds the metric's lock for writing between the two accesses. Modelled are the goroutines of Start that access values and closures, with the slots given; the rest of Start touches neither. Reads and writes of m.val are single steps, although the Go memory model gives no guarantee for such a data race (an interface value is two words)."
  },
  {
   "property": "C39",
   "status": "partial",
   "theorems": [
    "C39_same_name_refuted",
    "C39_domain_counted_twice_refuted",
    "C39_spurious_error_refuted",
    "C39_string_count_refuted",
    "C39_sequential_partial",
    "C39_counts_partial",
    "C39_every_interleaving",
    "C39_values",
    "C39_all_return"
   ],
   "note": "False as stated: AddMetric checks for the name under a read lock and inserts under a later write lock, and the string counter is shared by two locks. Witnesses: one name registered twice with both calls succeeding, a domain counted twice, an error no sequential order gives, a lost string count. _partial: if the calls bring in different names and only metrics or only domains bring in strings, every interleaving gives the result of every sequential order, so the counts agree with the contents. For all names and texts, C39_every_interleaving and C39_values state what every interleaving keeps: nothing is lost, additions come from successful calls, success and failure are justified by the final contents, values are counted once for each successful call, and the format fits the names. Missing for the full property: the code itself would have to change. Not modelled: Start running at the same time, and AddMetricByString's unlocked read of the domain map (a data race in Go)."
  },
  {
   "property": "C40",
   "status": "partial",
   "theorems": [
    "C40_location_refuted",
    "C40_location_partial",
    "C40_name_partial",
    "C40_configured",
    "C40_temporary",
    "C40_default",
    "C40_place",
    "C40_rejected",
    "C40_client",
    "C40_distinct"
   ],
   "note": "Refuted for the names \"\", \".\" and \"..\", which are accepted; C40_location_partial: exactly for these the location is not directly inside the directory. C40_configured, C40_temporary and C40_default fix the directory without reference to the model, and C40_place says where the location leads for all directories, also relative ones with '..'."
  },
  {
   "property": "C41",
   "status": "partial",
   "theorems": [
    "C41_line",
    "C41_file_refuted",
    "C41_file_partial",
    "C41_long_line",
    "C41_init_partial"
   ],
   "note": "Refuted for files with a line of 65536 bytes or more (the scanner stops there); proved for all other files, and C41_long_line says what is read otherwise."
  },
  {
   "property": "C42",
   "status": "partial",
   "theorems": [
    "C42_toc_count_refuted",
    "C42_count_refuted",
    "C42_unknown_type_refuted",
    "C42_offset_refuted",
    "C42_orderly_partial",
    "C42_exact",
    "C42_finite",
    "C42_in_bounds",
    "C42_header",
    "C42_bad_header",
    "C42_table",
    "C42_accepts"
   ],
   "note": "False as stated: negative table count, negative record count, unknown section type and offsets near 2^64 take Dump down (C42_*_refuted). C42_exact characterises the inputs on which some interleaving panics or blocks, C42_orderly_partial covers all others, C42_in_bounds and C42_finite hold for every input. C42_header, C42_table and C42_accepts say exactly which inputs are accepted. Missing: those inputs."
  },
  {
   "property": "C43",
   "status": "partial",
   "theorems": [
    "C43_sequential",
    "C43_same_dump",
    "C43_same_outcome",
    "C43_one_per_type_needed",
    "C43_total",
    "C43_error_or_panic_refuted"
   ],
   "note": "The sequential reader is one of the interleavings (C43_sequential). If one interleaving returns a dump, all return it (C43_same_dump); on inputs that cannot take the reader down all outcomes agree (C43_same_outcome). Refuted on inputs mixing an item beyond the file with one whose end wraps around 2^64: error or panic depending on the schedule."
  },
  {
   "property": "C44",
   "status": "proved",
   "theorems": [
    "C44_truncated"
   ],
   "note": "All truncation points and all interleavings of Dump, for the file after Start and any later calls that leave the client alone."
  },
  {
   "property": "C45",
   "status": "proved",
   "theorems": [
    "C45_write",
    "C45_needs_complete"
   ],
   "note": "DumpText.v models writer.go byte for byte except the formatting of floats and errors of the io.Writer; Golden.v checks it against the five golden files of the repository."
  },
  {
   "property": "C46",
   "status": "partial",
   "theorems": [
    "C46_value_refuted",
    "C46_description_refuted",
    "C46_names_partial"
   ],
   "note": "Refuted for values and descriptions of more than 256 bytes; metric and instance names are checked; texts of at most 256 bytes stay in their slots (C01, C05)."
  },
  {
   "property": "C47",
   "status": "partial",
   "theorems": [
    "C47_empty_domain_refuted",
    "C47_next_to_nonempty_partial"
   ],
   "note": "Refuted when all domains are empty (Start panics: the table of contents has more entries than tocCount); proved when some domain is non-empty."
  },
  {
   "property": "C48",
   "status": "proved",
   "theorems": [
    "C48_restart"
   ],
   "note": ""
  },
  {
   "property": "C49",
   "status": "partial",
   "theorems": [
    "C49_independent_partial",
    "C49_shared_refuted"
   ],
   "note": "Proved for clients with separate registries, files and metrics; refuted for two clients on one registry."
  },
  {
   "property": "C50",
   "status": "partial",
   "theorems": [
    "C50_types",
    "C50_unit_constants",
    "C50_reader_fields",
    "C50_same_dimensions",
    "C50_composed",
    "C50_semantics_refuted",
    "C50_no_semantics_partial"
   ],
   "note": "Types, units and accessors agree; semantics refuted: the reader's Semantics constants are all 0."
  },
  {
   "property": "C51",
   "status": "proved",
   "theorems": [
    "C51_linearizable",
    "C51_started_apart",
    "C51_all_return"
   ],
   "note": "Methods named *All are several calls (one per instance), as in the code. Percentile and Buckets of a histogram, which read without the lock, are not among the calls. The Go memory model is taken as sequentially consistent, which it is for these accesses because all of them are under the metric's lock."
  },
  {
   "property": "C52",
   "status": "proved",
   "theorems": [
    "C52_names",
    "C52_distinct",
    "C52_units"
   ],
   "note": "Integer-to-decimal conversion (strconv) is specified as the decimal representation."
  },
  {
   "property": "C53",
   "status": "proved",
   "theorems": [
    "C53_start_frame",
    "C53_replaced_file",
    "C53_stopped_file"
   ],
   "note": "The file system is modelled as names for inodes; NewMemoryMappedWriter removes an existing name and creates a new inode."
  },
  {
   "property": "C54",
   "status": "proved",
   "theorems": [
    "C54_failed_start",
    "C54_zeros_refused",
    "C54_crash",
    "C54_calls",
    "C54_try_again"
   ],
   "note": "Files.v models NewMemoryMappedWriter one system call at a time; C54_calls shows that the failing Start of the history model allows exactly what these calls can do. Crashes after the file is created are C03."
  },
  {
   "property": "C55",
   "status": "partial",
   "theorems": [
    "C55_failed_restart_refuted",
    "C55_failed_restart_partial"
   ],
   "note": "Refuted: the old file is removed first, so any later failure (directory, open, write, mmap) leaves nothing or zeros while the client still counts as started. _partial: nothing else is lost, updates do not fault, and a failure before the removal keeps the publication."
  },
  {
   "property": "C56",
   "status": "partial",
   "theorems": [
    "C56_text_partial",
    "C56_text_instances",
    "C56_instance_refuted"
   ],
   "note": "Refuted for metrics in a domain whose identifier is 0 (the 22-bit hash of the name, for example \"xtdev\"): writeValue prints their values without the instance. C56_text_partial: everything else is shown in all cases; C56_text_instances: no gap if no registered domain name hashes to 0. Formatting of floats is a parameter; the words for dimensions come from UnitFacts.v."
  },
  {
   "property": "C57",
   "status": "proved",
   "theorems": [
    "C57_domain",
    "C57_singleton",
    "C57_counter",
    "C57_gauge",
    "C57_timer",
    "C57_instance",
    "C57_counter_vector",
    "C57_gauge_vector",
    "C57_histogram"
   ],
   "note": "C19 says exactly when an instance metric is created and C22 exactly when a histogram is; C57 says what they then contain."
  },
  {
   "property": "C58",
   "status": "proved",
   "theorems": [
    "C58_add_metric",
    "C58_add_domain",
    "C58_add_domain_by_name",
    "C58_by_string_single",
    "C58_by_string_instances",
    "C58_by_string"
   ],
   "note": "Calls one after the other; concurrent registration is C39, strings listing an instance twice are C34. C58_by_string goes from the string, the others from its parts."
  },
  {
   "property": "C59",
   "status": "partial",
   "theorems": [
    "C59_quiet",
    "C59_kept_partial",
    "C59_cut_off",
    "C59_late",
    "C59_unreadable_refuted",
    "C59_panics_refuted",
    "C59_unpublished_refuted"
   ],
   "note": "False as stated: Start takes no registry lock, computes the file's length first and sets mapped last. Witnesses: a metric registered in between makes Start return nil with a file cut off at 480 of 616 bytes that the reader refuses, or makes Start panic, or is registered successfully and never shown. C59_kept_partial: if the registry is unchanged when the writing begins, Start succeeds and the file shows what was registered then, also after later updates; C59_cut_off and C59_late say what happens otherwise. Not modelled: a registration taking effect in the middle of Length or of start()."
  },
  {
   "property": "C60",
   "status": "proved",
   "theorems": [
    "C60_counter",
    "C60_simple",
    "C60_string_counter",
    "C60_names",
    "C60_users",
    "C60_acme",
    "C60_runtime"
   ],
   "note": "Programs are lists of calls of the history machine; NewPCPClient's location is a parameter (C40). \"Lookups\" of the runtime example is never updated and shows 0; the users of go in instance_string are 2^n mod 2^64."
  },
  {
   "property": "C61",
   "status": "partial",
   "theorems": [
    "C61_runtime_stop_partial",
    "C61_runtime_stop_refuted"
   ],
   "note": "False: main's deferred MustStop unmaps the file while the goroutine may still be in its loop; a changed figure is then stored through the removed mapping. C61_runtime_stop_partial says exactly what happens for a stop after any number of updates of a round: the rest of the round faults exactly if one of its figures differs from the last round's. Updates and the stop are atomic steps here; an update interrupted by the stop is not modelled."
  },
  {
   "property": "C62",
   "status": "partial",
   "theorems": [
    "C62_client",
    "C62_during_start",
    "C62_erased",
    "C62_kept",
    "C62_crash_refuted",
    "C62_part_refuted",
    "C62_dash_refuted",
    "C62_output_partial"
   ],
   "note": "False as stated: every file Dump rejects (and a missing one) makes the command panic; a file whose metric has no name makes it panic after a part of the text; a name beginning with a dash is taken for a flag. C62_output_partial: what holds for all files and arguments; C62_client, C62_during_start, C62_erased, C62_kept: a client's file. Only standard output is modelled, and the file is read at one moment."
  },
  {
   "property": "C63",
   "status": "partial",
   "theorems": [
    "C63_start_refuted",
    "C63_by_string_refuted",
    "C63_maps_partial",
    "C63_no_race",
    "C63_two_writers"
   ],
   "note": "False as stated: Start walks over both maps without their locks, and AddMetricByString given instances looks its domain up without the lock; one witness each. C63_maps_partial: in every execution these two are the only accesses that can meet a write, and C63_no_race: without those calls no two goroutines race. The race is about the maps; other fields are not covered."
  },
  {
   "property": "C64",
   "status": "partial",
   "theorems": [
    "C64_readable_partial",
    "C64_quiet",
    "C64_string_partial",
    "C64_number_partial",
    "C64_old_or_new_refuted"
   ],
   "note": "False as stated: the update writes byte by byte, so a reader can see a counter go from 7 to 0 on its way to 256, and a string empty (it is overwritten with zeros first). C64_readable_partial: at every moment the file is complete, and but for at most one value of each metric being updated it shows exactly the memory; that value consists of the first bytes of the new one and the rest of the old one (or of zeros). C64_quiet: exact while no changing method runs. C64_string_partial, C64_number_partial: what such a value can look like. The reader is taken to read the file at one moment."
  },
  {
   "property": "C65",
   "status": "partial",
   "theorems": [
    "C65_readable_partial",
    "C65_not_updated",
    "C65_number_partial",
    "C65_read_value_was_there_refuted"
   ],
   "note": "False as stated: a counter is incremented once, from 7 to 256; a reader going front to back that has read the first byte of the value before the increment and the others after it gets 263, which the file shows at no moment (C65_read_value_was_there_refuted, over all moments). C65_readable_partial: what the reader gets is a complete file of the registered contents; metrics no call updates are shown as they are, and every byte of another value was there, at the same place, at some moment. C65_not_updated: without updates it is exactly the memory. C65_number_partial: a number is one that was there if the values shown differ in one byte only (a counter below 256)."
  },
  {
   "property": "C66",
   "status": "partial",
   "theorems": [
    "C66_counts",
    "C66_all_answered",
    "C66_any_moment_partial",
    "C66_left_file_refuted"
   ],
   "note": "False as stated, in the last sentence: os.Exit does not run the deferred MustStop, and if it comes after the handler of request 256 has written one byte of the new number the file left says 0 (C66_left_file_refuted, for every run of the program). C66_counts, C66_all_answered: the other sentences. C66_any_moment_partial: at every moment the file is complete, and the number consists of the first bytes of the next count and the rest of the count of answered requests; it is one of the two unless the count ends in the byte 255. The handlers are goroutines of the machine of C15; the server and its answers are not modelled."
  },
  {
   "property": "C67",
   "status": "partial",
   "theorems": [
    "C67_shows",
    "C67_between_partial",
    "C67_returned",
    "C67_together_refuted",
    "C67_number_refuted"
   ],
   "note": "False as stated, in the last sentence: between Stop and Set the file shows the new time with the old speed (C67_together_refuted), and if the clock reads the same before and after a download the speed is +Inf (C67_number_refuted). C67_shows is the rest: time to 2^-51, speed to 2^-49 of the exact value if any time passed. C67_between_partial says what is shown after each call of a round. The program reads what Stop returned back from the timer; C67_returned justifies that."
  },
  {
   "property": "C68",
   "status": "proved",
   "theorems": [
    "C68_shows",
    "C68_range",
    "C68_refused"
   ],
   "note": "What the library does with each value is an input of the program; a shown value is the reported double, up to the sign of a zero and the payload of a NaN. That the library takes every value in the range it is asked for is not proved, as it is not part of the repository."
  },
  {
   "property": "C69",
   "status": "partial",
   "theorems": [
    "C69_after_partial",
    "C69_together_refuted"
   ],
   "note": "False as stated: the five values are stored one after the other, and while the first value 5 is recorded the file shows the minimum 5 and the maximum 0 (C69_together_refuted). C69_after_partial: when Record or RecordN returns all five are those of the value just recorded. What each single value may look like at other moments is C64."
  },
  {
   "property": "C70",
   "status": "proved",
   "theorems": [
    "C70_shows"
   ],
   "note": "Each update is one step and none falls into the run of Start; that concurrent calls behave like this is C15 and C51, that an update racing with Start is not lost is C38."
  }
 ]
}