# (status or None for automatic, note)
notes["C07"] = (None, "In-range writes, error on out-of-range and negative offsets, MustWrite and WriteString; C07_typed and C07_write_val_other: WriteVal and the typed functions. "
  "C07_write_error_overflow_refuted: with offset+len overflowing int the bounds test passes and Write panics; "
  "the other theorems exclude that corner.")
notes["C08"] = (None, "")
notes["C09"] = (None, "")
notes["C10"] = (None, "")
notes["C11"] = (None, "")
notes["C12"] = (None, "Uses Flocq; depends on the standard library's real-number axioms.")
notes["C13"] = (None, "Value part proved for every reachable metric whose mapping is live. File part: proved for strings of at most 256 bytes; "
  "C13_error_file_refuted shows a failing Set of a longer string that wipes the slot in the file.")
notes["C14"] = (None, "Proved over all histories without int64 overflow; C14_overflow_refuted: Inc at MaxInt64 wraps to a smaller value. C14_set, C14_inc and C14_vector_* say exactly which calls succeed and what they leave.")
notes["C16"] = (None, "Gauges and single instances of gauge vectors (C16_vector_*). The bit-level sum and difference are tied to rounded real arithmetic by C16_add_ieee/C16_sub_ieee (Flocq, real axioms).")
notes["C17"] = (None, "")
notes["C18"] = (None, "Value over histories equals the fold timer_fold of HistFacts.v, bit for bit; C18_conversion and C18_total bound the distance to the exact elapsed time as a real number. Monotonicity and accuracy use Flocq (real axioms).")
notes["C19"] = (None, "")
notes["C20"] = (None, "")
notes["C21"] = (None, "Gauge vectors and CounterVector.IncAll/UpAll proved; CounterVector.SetAll refuted ({a:5,b:1}.SetAll(3) panics after changing b) "
  "and proved when no instance is above the new value.")
notes["C22"] = (None, "The underlying HdrHistogram is an input of the model: any statistics it reports are the ones published.")
notes["C23"] = (None, "High and Low are swapped in the code; C23_swapped_partial states what they do return.")
notes["C01"] = (None, "startable (RegInv.v) is the publishability condition of the quantifier.")
notes["C02"] = (None, "")
notes["C03"] = (None, "Crash points are the states of the goroutine machine, whose buffer stores are single bytes; gen = time.Now().Unix() must not be 0 mod 2^64.")
notes["C04"] = (None, "Also for histories with arbitrary other calls (registrations, other clients) that leave this client alone.")
notes["C05"] = (None, "Proved with 8 instead of 16 bytes for numeric types.")
notes["C06"] = (None, "")
notes["C36"] = (None, "Proved when no registry is shared by two clients; C36_shared_refuted: with a shared registry Stop on a never started client panics. The effect on the file and of the flag need no such restriction.")
notes["C37"] = (None, "Refuted: after Stop every Set changing a published singleton's value is a memory fault. Holds for metrics never published.")
notes["C46"] = (None, "Refuted for values and descriptions of more than 256 bytes; metric and instance names are checked; texts of at most 256 bytes stay in their slots (C01, C05).")
notes["C47"] = (None, "Refuted when all domains are empty (Start panics: the table of contents has more entries than tocCount); proved when some domain is non-empty.")
notes["C48"] = (None, "")
notes["C49"] = (None, "Proved for clients with separate registries, files and metrics; refuted for two clients on one registry.")
notes["C24"] = (None, "Refuted for even dimensions: the unit constants carry dimension 1, which is ORed onto the requested one (byte at dimension 2 is byte^3). Proved for odd dimensions; C24_recorded states what is recorded in all cases.")
notes["C25"] = (None, "Refuted: a composed unit is a pointer that Space, Time and Count modify in place. Only the receiver changes, and a unit derived from an exported constant is new.")
notes["C26"] = (None, "The published test vectors of FNV-1a are checked in C26_ex.")
notes["C27"] = (None, "Refuted (net.out / m82, and unavoidable beyond 1024 metrics); ids differ exactly when the hashes differ mod 1024.")
notes["C29"] = (None, "")
notes["C30"] = (None, "For AddMetricByString with a taken metric name the metrics are unchanged; the domain may be added (C32).")
notes["C31"] = (None, "")
notes["C32"] = (None, "Refuted for AddMetricByString (the new domain stays when the metric fails); proved for the other three.")
notes["C33"] = (None, "Same information: names read as C strings; texts have the same width in both versions.")
notes["C34"] = (None, "Refuted for lists with repetitions; set equality for lists without.")
notes["C35"] = (None, "Refuted when AddMetric gets a metric over another domain object of a registered name; proved for all histories where it does not.")
notes["C50"] = (None, "Types, units and accessors agree; semantics refuted: the reader's Semantics constants are all 0.")
notes["C42"] = (None, "False as stated: negative table count, negative record count, unknown section type and offsets near 2^64 take Dump down (C42_*_refuted). C42_exact characterises the inputs on which some interleaving panics or blocks, C42_orderly_partial covers all others, C42_in_bounds and C42_finite hold for every input. C42_header, C42_table and C42_accepts say exactly which inputs are accepted. Missing: those inputs.")
notes["C43"] = (None, "The sequential reader is one of the interleavings (C43_sequential). If one interleaving returns a dump, all return it (C43_same_dump); on inputs that cannot take the reader down all outcomes agree (C43_same_outcome). Refuted on inputs mixing an item beyond the file with one whose end wraps around 2^64: error or panic depending on the schedule.")
notes["C44"] = (None, "All truncation points and all interleavings of Dump, for the file after Start and any later calls that leave the client alone.")
notes["C45"] = (None, "DumpText.v models writer.go byte for byte except the formatting of floats and errors of the io.Writer; Golden.v checks it against the five golden files of the repository.")
notes["C28"] = (None, "The Unicode letter and digit tables are a parameter; used of them: the delimiters are in neither. AddMetricByString stands for RegisterString; repeated instances are C34.")
notes["C40"] = (None, "Refuted for the names \"\", \".\" and \"..\", which are accepted; C40_location_partial: exactly for these the location is not directly inside the directory. C40_configured, C40_temporary and C40_default fix the directory without reference to the model, and C40_place says where the location leads for all directories, also relative ones with '..'.")
notes["C41"] = (None, "Refuted for files with a line of 65536 bytes or more (the scanner stops there); proved for all other files, and C41_long_line says what is read otherwise.")
notes["C15"] = (None, "Inc, Up and Val from any number of goroutines on a usable counter, one field access or byte write at a time; the sum is taken as an int64 (C15_no_lost_increment) and is exact without overflow (C15_exact). C15_lock_needed shows an increment lost when the write lock is replaced by a read lock.")
notes["C51"] = (None, "Methods named *All are several calls (one per instance), as in the code. Percentile and Buckets of a histogram, which read without the lock, are not among the calls. The Go memory model is taken as sequentially consistent, which it is for these accesses because all of them are under the metric's lock.")
notes["C39"] = (None, "False as stated: AddMetric checks for the name under a read lock and inserts under a later write lock, and the string counter is shared by two locks. Witnesses: one name registered twice with both calls succeeding, a domain counted twice, an error no sequential order gives, a lost string count. _partial: if the calls bring in different names and only metrics or only domains bring in strings, every interleaving gives the result of every sequential order, so the counts agree with the contents. For all names and texts, C39_every_interleaving and C39_values state what every interleaving keeps: nothing is lost, additions come from successful calls, success and failure are justified by the final contents, values are counted once for each successful call, and the format fits the names. Missing for the full property: the code itself would have to change. Not modelled: Start running at the same time, and AddMetricByString's unlocked read of the domain map (a data race in Go).")
notes["C38"] = (None, "False as stated: Start reads the value and later installs the update closure without the metric's lock. Witness: an Inc between the two is lost in the file, and stays lost after a Set of the same value. _partial: in every interleaving each slot ends with the current value or the one Start read; with the current one if no call holds the metric's lock for writing between the two accesses. Modelled are the goroutines of Start that access values and closures, with the slots given; the rest of Start touches neither. Reads and writes of m.val are single steps, although the Go memory model gives no guarantee for such a data race (an interface value is two words).")
notes["C52"] = (None, "Integer-to-decimal conversion (strconv) is specified as the decimal representation.")
notes["C53"] = (None, "The file system is modelled as names for inodes; NewMemoryMappedWriter removes an existing name and creates a new inode.")
notes["C54"] = (None, "Files.v models NewMemoryMappedWriter one system call at a time; C54_calls shows that the failing Start of the history model allows exactly what these calls can do. Crashes after the file is created are C03.")
notes["C56"] = (None, "Refuted for metrics in a domain whose identifier is 0 (the 22-bit hash of the name, for example \"xtdev\"): writeValue prints their values without the instance. C56_text_partial: everything else is shown in all cases; C56_text_instances: no gap if no registered domain name hashes to 0. Formatting of floats is a parameter; the words for dimensions come from UnitFacts.v.")
notes["C55"] = (None, "Refuted: the old file is removed first, so any later failure (directory, open, write, mmap) leaves nothing or zeros while the client still counts as started. _partial: nothing else is lost, updates do not fault, and a failure before the removal keeps the publication.")
notes["C58"] = (None, "Calls one after the other; concurrent registration is C39, strings listing an instance twice are C34. C58_by_string goes from the string, the others from its parts.")
notes["C57"] = (None, "C19 says exactly when an instance metric is created and C22 exactly when a histogram is; C57 says what they then contain.")
notes["C59"] = (None, "False as stated: Start takes no registry lock, computes the file's length first and sets mapped last. Witnesses: a metric registered in between makes Start return nil with a file cut off at 480 of 616 bytes that the reader refuses, or makes Start panic, or is registered successfully and never shown. C59_kept_partial: if the registry is unchanged when the writing begins, Start succeeds and the file shows what was registered then, also after later updates; C59_cut_off and C59_late say what happens otherwise. Not modelled: a registration taking effect in the middle of Length or of start().")
notes["C60"] = (None, "Programs are lists of calls of the history machine; NewPCPClient's location is a parameter (C40). \"Lookups\" of the runtime example is never updated and shows 0; the users of go in instance_string are 2^n mod 2^64.")
notes["C61"] = (None, "False: main's deferred MustStop unmaps the file while the goroutine may still be in its loop; a changed figure is then stored through the removed mapping. C61_runtime_stop_partial says exactly what happens for a stop after any number of updates of a round: the rest of the round faults exactly if one of its figures differs from the last round's. Updates and the stop are atomic steps here; an update interrupted by the stop is not modelled.")
notes["C62"] = (None, "False as stated: every file Dump rejects (and a missing one) makes the command panic; a file whose metric has no name makes it panic after a part of the text; a name beginning with a dash is taken for a flag. C62_output_partial: what holds for all files and arguments; C62_client, C62_during_start, C62_erased, C62_kept: a client's file. Only standard output is modelled, and the file is read at one moment.")
notes["C63"] = (None, "False as stated: Start walks over both maps without their locks, and AddMetricByString given instances looks its domain up without the lock; one witness each. C63_maps_partial: in every execution these two are the only accesses that can meet a write, and C63_no_race: without those calls no two goroutines race. The race is about the maps; other fields are not covered.")
notes["C64"] = (None, "False as stated: the update writes byte by byte, so a reader can see a counter go from 7 to 0 on its way to 256, and a string empty (it is overwritten with zeros first). C64_readable_partial: at every moment the file is complete, and but for at most one value of each metric being updated it shows exactly the memory; that value consists of the first bytes of the new one and the rest of the old one (or of zeros). C64_quiet: exact while no changing method runs. C64_string_partial, C64_number_partial: what such a value can look like. The reader is taken to read the file at one moment.")
notes["C65"] = (None, "False as stated: a counter is incremented once, from 7 to 256; a reader going front to back that has read the first byte of the value before the increment and the others after it gets 263, which the file shows at no moment (C65_read_value_was_there_refuted, over all moments). C65_readable_partial: what the reader gets is a complete file of the registered contents; metrics no call updates are shown as they are, and every byte of another value was there, at the same place, at some moment. C65_not_updated: without updates it is exactly the memory. C65_number_partial: a number is one that was there if the values shown differ in one byte only (a counter below 256).")
notes["C66"] = (None, "False as stated, in the last sentence: os.Exit does not run the deferred MustStop, and if it comes after the handler of request 256 has written one byte of the new number the file left says 0 (C66_left_file_refuted, for every run of the program). C66_counts, C66_all_answered: the other sentences. C66_any_moment_partial: at every moment the file is complete, and the number consists of the first bytes of the next count and the rest of the count of answered requests; it is one of the two unless the count ends in the byte 255. The handlers are goroutines of the machine of C15; the server and its answers are not modelled.")
notes["C67"] = (None, "False as stated, in the last sentence: between Stop and Set the file shows the new time with the old speed (C67_together_refuted), and if the clock reads the same before and after a download the speed is +Inf (C67_number_refuted). "
  "C67_shows is the rest: time to 2^-51, speed to 2^-49 of the exact value if any time passed. C67_between_partial says what is shown after each call of a round. The program reads what Stop returned back from the timer; C67_returned justifies that.")
notes["C68"] = (None, "What the library does with each value is an input of the program; a shown value is the reported double, up to the sign of a zero and the payload of a NaN. That the library takes every value in the range it is asked for is not proved, as it is not part of the repository.")
notes["C69"] = (None, "False as stated: the five values are stored one after the other, and while the first value 5 is recorded the file shows the minimum 5 and the maximum 0 (C69_together_refuted). "
  "C69_after_partial: when Record or RecordN returns all five are those of the value just recorded. What each single value may look like at other moments is C64.")
notes["C70"] = (None, "Each update is one step and none falls into the run of Start; that concurrent calls behave like this is C15 and C51, that an update racing with Start is not lost is C38.")
