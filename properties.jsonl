{"id": "C01", "title": "Start publishes exactly the registered metrics", "statement": "After Start returns nil, reading the MMV file with mmvdump.Dump yields exactly the registered instance domains, instances, metrics and values: every registered item appears once with its name, id, type, semantics, unit, descriptions, instance linkage and current value, and nothing else appears.", "quantifier": "every publishable registry (reachable through the API, strings fit their slots, each instance metric's domain is the one registered under its name, no domain or not all of them empty, counts below 2^31; the excluded cases are C35, C46 and C47), every goroutine interleaving, every map iteration order", "why_tests_cant": "The goroutines spawned by Start race for file offsets through channels and Go randomises map iteration, so the number of interleavings is astronomically large; a test sees one of them per run.", "anchors": ["client.go:PCPClient.start", "client.go:writeInstanceDomain", "client.go:writeSingletonMetric", "client.go:writeInstanceMetric", "client.go:writeMetricDesc", "client.go:writeValue", "mmvdump/mmvdump.go:Dump"]}
{"id": "C02", "title": "Start neither panics nor deadlocks and always terminates", "statement": "Start on a registry with no oversized string and no empty instance domain runs to completion: no goroutine panics (no out-of-range write, no negative WaitGroup counter), no set of goroutines blocks forever on the offset channels or wait groups, and every execution is finite.", "quantifier": "every such registry, every reachable intermediate state of the goroutine pool, every scheduler choice", "why_tests_cant": "The goroutines spawned by Start race for file offsets through channels and Go randomises map iteration, so the number of interleavings is astronomically large; a test sees one of them per run.", "anchors": ["client.go:PCPClient.start", "client.go:writeTocBlock", "client.go:writeMetricDesc"]}
{"id": "C03", "title": "A reader never mistakes a half-written file for a complete one", "statement": "If the process dies (or a reader looks) after any prefix of the byte stores performed by Start, then Dump of the file either fails, or returns a dump with no table-of-contents entry at all, or returns the complete final contents.", "quantifier": "every publishable registry (as in C01), schedule, and crash point at byte granularity; clock not at the epoch", "why_tests_cant": "A crash can happen between any two byte stores of any interleaving.", "anchors": ["client.go:PCPClient.start", "client.go:writeHeaderBlock", "mmvdump/mmvdump.go:readHeader"]}
{"id": "C04", "title": "Updates after Start keep the file equal to the in-memory values", "statement": "After Start and any sequence of successful or failing update calls (Set, SetInstance, Inc, Up, ...) on registered metrics with string values of at most 256 bytes, Dump of the file yields exactly the registered metrics with their current values.", "quantifier": "every publishable registry (as in C01), every schedule of Start, every finite history of updates", "why_tests_cant": "Histories are unbounded and metric values range over all Go values.", "anchors": ["metrics.go:newupdateClosure", "metrics.go:pcpSingletonMetric.set", "metrics.go:pcpInstanceMetric.setInstance", "client.go:writeValue"]}
{"id": "C05", "title": "An update touches only its own value", "statement": "An update of one metric (or instance) on a started client modifies no byte of the file outside the 16-byte value field (numeric types) or the 256-byte string slot (string type) that Start assigned to that metric or instance.", "quantifier": "every started client, every metric, every value of at most 256 bytes", "why_tests_cant": "Ranges over all offsets assigned by any schedule and all values.", "anchors": ["metrics.go:newupdateClosure", "bytewriter/bytewriter.go:Write"]}
{"id": "C06", "title": "Length is exactly the space the sections need", "statement": "PCPClient.Length equals the size of the file created by Start, and header, table of contents, instance domains, instances, metrics, values and strings sections are laid out contiguously, without gap or overlap, and end exactly at Length.", "quantifier": "every publishable registry (as in C01), both format versions", "why_tests_cant": "Quantifies over all combinations of counts.", "anchors": ["client.go:PCPClient.Length", "client.go:PCPClient.start", "client.go:tocCount"]}
{"id": "C07", "title": "ByteWriter.Write writes exactly the given bytes or nothing", "statement": "Write(data, off) with 0 <= off and off+len(data) <= Len() returns off+len(data), stores data at [off, off+len(data)) and changes nothing else; if off+len(data) > Len() it returns an error and leaves the buffer unchanged. MustWrite panics exactly when Write errors. WriteString behaves the same except for its returned position. WriteVal and the typed functions store a number in 4 or 8 bytes, lowest first, and WriteVal returns an error for any other type.", "quantifier": "all buffers, data and offsets", "why_tests_cant": "All sizes and offsets.", "anchors": ["bytewriter/bytewriter.go:Write", "bytewriter/bytewriter.go:WriteString", "bytewriter/bytewriter.go:WriteVal"]}
{"id": "C08", "title": "Concurrent writes to disjoint ranges do not interfere", "statement": "Any number of concurrent Write calls to pairwise disjoint in-range regions leave, under every byte-level interleaving, the buffer in the same state as executing them sequentially in any order.", "quantifier": "all buffers, sets of writes, interleavings", "why_tests_cant": "Interleavings are exponential.", "anchors": ["bytewriter/writer.go:Writer", "bytewriter/bytewriter.go:Write"]}
{"id": "C09", "title": "Stored values decode to the value written", "statement": "For every metric type and every value a metric of that type can hold, writing it with WriteVal and reading the 8-byte value field of a zeroed slot back with FixedVal gives the same value (bit-for-bit for floats).", "quantifier": "all int32, uint32, int64, uint64, float32, float64 values", "why_tests_cant": "2^64 values.", "anchors": ["bytewriter/bytewriter.go:WriteVal", "mmvdump/mmvdump.go:FixedVal"]}
{"id": "C10", "title": "IsCompatible accepts exactly the representable values", "statement": "IsCompatible(v) holds exactly when v is a fixed-size Go value of the metric's own type, or an int/uint whose mathematical value lies in the metric type's range (signed types never accept uint), or a float64 that is in the finite float32 range for FloatType, any float64 for DoubleType, or a string for StringType.", "quantifier": "all metric types and all Go values", "why_tests_cant": "All values.", "anchors": ["metrics.go:MetricType.IsCompatible", "metrics.go:isCompatibleInt", "metrics.go:isCompatibleUint", "metrics.go:isCompatibleFloat"]}
{"id": "C11", "title": "A metric always stores a value of its declared type, unchanged in value", "statement": "When an integer or string value is accepted by a metric, the value stored is of the Go type corresponding to the metric type and has the same mathematical value as the argument; a float64 given to a DoubleType is stored bit-for-bit.", "quantifier": "all metric types and accepted values", "why_tests_cant": "All values.", "anchors": ["metrics.go:MetricType.resolve", "metrics.go:resolveInt", "metrics.go:resolveFloat"]}
{"id": "C12", "title": "Narrowing to float32 is correct rounding and never overflows", "statement": "A float64 accepted by a FloatType metric is stored as a finite float32, namely the IEEE-754 round-to-nearest-even of the argument.", "quantifier": "all float64 values", "why_tests_cant": "2^64 values.", "anchors": ["metrics.go:isCompatibleFloat", "metrics.go:resolveFloat"]}
{"id": "C13", "title": "Set then Val", "statement": "After Set(v) returns nil, Val() equals (Go ==, NaN excepted) the resolved v; after Set(v) returns an error, Val() and the file are unchanged. The stored bits equal the resolved v unless old and new value are == already.", "quantifier": "all metrics, states and values", "why_tests_cant": "All values and histories.", "anchors": ["metrics.go:pcpSingletonMetric.set", "metrics.go:PCPSingletonMetric.Val"]}
{"id": "C14", "title": "Counters never go backwards", "statement": "No sequence of Set, Inc and Up calls on a PCPCounter (or on an instance of a PCPCounterVector) ever makes Val() smaller.", "quantifier": "all initial values and call histories", "why_tests_cant": "All histories, including near the int64 limit.", "anchors": ["metrics.go:PCPCounter.Inc", "metrics.go:PCPCounter.Set", "metrics.go:PCPCounterVector.Inc", "metrics.go:PCPCounterVector.Set"]}
{"id": "C15", "title": "No increment is lost under concurrency", "statement": "If n goroutines perform Inc calls with non-negative amounts on one counter, then after all return Val() is the initial value plus the sum of all amounts (as an int64), whatever the interleaving.", "quantifier": "all numbers of goroutines, call lists and interleavings", "why_tests_cant": "Interleavings.", "anchors": ["metrics.go:PCPCounter.Inc"]}
{"id": "C16", "title": "Gauge arithmetic", "statement": "Gauge Inc(d) makes Val() the IEEE double sum of the old value and d, Dec(d) the IEEE double difference, Set(v) makes it v; none of them ever fails; Inc(0) never changes the value.", "quantifier": "all doubles", "why_tests_cant": "2^128 pairs.", "anchors": ["metrics.go:PCPGauge.Inc", "metrics.go:PCPGauge.Dec", "metrics.go:PCPGaugeVector.Inc"]}
{"id": "C17", "title": "Timer protocol", "statement": "Timer Start succeeds exactly when the timer is stopped, Stop and the accumulated time change exactly when it is started, Reset succeeds exactly when stopped; failing calls change nothing.", "quantifier": "all call histories", "why_tests_cant": "Histories.", "anchors": ["metrics.go:PCPTimer.Start", "metrics.go:PCPTimer.Stop", "metrics.go:PCPTimer.Reset"]}
{"id": "C18", "title": "Timer accumulates elapsed time in its unit", "statement": "After any history the timer's value is the IEEE double sum, in order since the last Reset, of the elapsed durations converted to the timer's unit, Stop returns that value, and (clock monotone) it never decreases between Resets.", "quantifier": "all histories and durations", "why_tests_cant": "Histories and all durations.", "anchors": ["metrics.go:PCPTimer.Stop"]}
{"id": "C19", "title": "Instance metrics are created only with one value per instance", "statement": "NewPCPInstanceMetric succeeds exactly when the keys of the value map are exactly the instances of the domain, each value is compatible with the type, the name is non-empty and at most 256 bytes, and there are at most two descriptions; the metric then has exactly one (resolved) value per instance.", "quantifier": "all value maps, domains, iteration orders", "why_tests_cant": "All maps.", "anchors": ["metrics.go:newpcpInstanceMetric", "metrics.go:newpcpMetricDesc"]}
{"id": "C20", "title": "SetInstance changes only that instance", "statement": "SetInstance(v, i) with i in the domain and v compatible makes ValInstance(i) the resolved v and leaves every other instance unchanged; with i not in the domain or v incompatible it errors and changes nothing. ValInstance(i) errors exactly when i is not in the domain, and never panics.", "quantifier": "all metrics, values, instances", "why_tests_cant": "All.", "anchors": ["metrics.go:setInstance", "metrics.go:valInstance"]}
{"id": "C21", "title": "SetAll and IncAll are all-or-nothing", "statement": "SetAll/IncAll/UpAll of a CounterVector or GaugeVector either updates every instance or panics without having changed any.", "quantifier": "all vectors, values and iteration orders", "why_tests_cant": "Map iteration order is random.", "anchors": ["metrics.go:PCPCounterVector.SetAll", "metrics.go:PCPCounterVector.IncAll", "metrics.go:PCPGaugeVector.SetAll"]}
{"id": "C22", "title": "Histogram parameters and published statistics", "statement": "NewPCPHistogram passes the underlying histogram bounds with 0 <= low <= high <= 3600000000 and 1..5 significant figures whatever it is given (low <= high), each the one nearest to what was asked for, and after every successful Record/RecordN the published min, max, mean, variance and standard_deviation are the underlying histogram's current statistics; a failed Record changes none of them.", "quantifier": "all parameters, all record histories, all histogram implementations", "why_tests_cant": "Histories.", "anchors": ["metrics.go:normalize", "metrics.go:NewPCPHistogram", "metrics.go:PCPHistogram.update", "metrics.go:PCPHistogram.Record"]}
{"id": "C23", "title": "Histogram Low and High report the recordable range", "statement": "Low() returns the lowest and High() the highest recordable value of the histogram, so Low() <= High().", "quantifier": "all histograms", "why_tests_cant": "All parameters.", "anchors": ["metrics.go:PCPHistogram.High", "metrics.go:PCPHistogram.Low"]}
{"id": "C24", "title": "Unit composition records the requested dimensions and scales", "statement": "A unit composed with Space/Time/Count at dimensions in [-8,7] reports through PMAPI exactly the requested dimension and scale for each component, a component not added has dimension 0, the order of composition does not matter, and a dimension outside [-8,7] panics.", "quantifier": "all unit constants, dimensions and composition orders", "why_tests_cant": "All combinations.", "anchors": ["metrics.go:metricUnit.Space", "metrics.go:metricUnit.Time", "metrics.go:metricUnit.Count", "mmvdump/pcp.go:SpaceDim"]}
{"id": "C25", "title": "Composing a unit leaves the unit it was derived from unchanged", "statement": "Calling Space/Time/Count on a unit value yields a new unit and does not alter units obtained earlier.", "quantifier": "all composition histories", "why_tests_cant": "Histories with aliasing.", "anchors": ["metrics.go:metricUnit.Space", "metrics.go:SpaceUnit.Time"]}
{"id": "C26", "title": "Identifiers are FNV-1a hashes of the names that fit their PCP bit fields", "statement": "A metric's id is the 32-bit FNV-1a hash of its name reduced to 10 bits, an instance domain's to 22 bits, a client's cluster id to 12 bits, an instance's id the full 32-bit hash; the id depends on the name only.", "quantifier": "all names", "why_tests_cant": "All strings.", "anchors": ["speed.go:hash", "metrics.go:newpcpMetricDesc", "instance_domain.go:NewPCPInstanceDomain", "instance.go:newpcpInstance"]}
{"id": "C27", "title": "Different metrics have different ids", "statement": "Two metrics with different names registered in one registry have different ids.", "quantifier": "all pairs of names", "why_tests_cant": "All pairs.", "anchors": ["speed.go:hash", "registry.go:AddMetric"]}
{"id": "C28", "title": "RegisterString parses its argument by the documented grammar", "statement": "A string is accepted exactly when it is name[inst, inst...].suffix with dot separated identifiers made of letters, digits and underscores (bracket part optional); the metric name is name.suffix, and with a bracket the domain is name and the instances are those listed in order, otherwise the metric has no domain.", "quantifier": "all strings", "why_tests_cant": "All strings; regexp backtracking semantics.", "anchors": ["registry.go:parseString", "registry.go:pattern"]}
{"id": "C29", "title": "Registry counts equal the contents", "statement": "After any history of registrations MetricCount, InstanceDomainCount, InstanceCount, ValuesCount and StringCount equal the numbers computed from the registered metrics and instance domains.", "quantifier": "all histories of (successful and failing) registrations", "why_tests_cant": "Histories.", "anchors": ["registry.go:AddMetric", "registry.go:addMetric", "registry.go:AddInstanceDomain", "registry.go:StringCount"]}
{"id": "C30", "title": "Registered names are unique and never replaced", "statement": "Registering a metric or instance domain under a name already present fails and leaves the registry unchanged; a successfully registered item remains registered under its name, with the same object, forever.", "quantifier": "all histories", "why_tests_cant": "Histories.", "anchors": ["registry.go:AddMetric", "registry.go:AddInstanceDomain", "registry.go:HasMetric"]}
{"id": "C31", "title": "A mapped registry is frozen", "statement": "Between a successful Start and the next Stop every registration attempt (by object or by string) fails and no count changes.", "quantifier": "all histories", "why_tests_cant": "Histories.", "anchors": ["registry.go:AddMetric", "registry.go:AddInstanceDomain", "client.go:PCPClient.Start"]}
{"id": "C32", "title": "A failed registration has no effect", "statement": "If AddMetric, AddInstanceDomain, AddInstanceDomainByName or AddMetricByString returns an error the registry is unchanged.", "quantifier": "all registries and arguments", "why_tests_cant": "All.", "anchors": ["registry.go:AddMetricByString", "registry.go:addInstanceMetricByString"]}
{"id": "C33", "title": "The format version is 2 exactly when a name needs it", "statement": "The file is written in MMV version 2 exactly when some registered metric name or registered instance name exceeds 63 bytes, and the information a reader recovers does not depend on the version.", "quantifier": "all registries", "why_tests_cant": "All.", "anchors": ["registry.go:addMetric", "registry.go:AddInstanceDomain", "client.go:writeHeaderBlock"]}
{"id": "C34", "title": "RegisterString reuses a domain only if the instances are the same", "statement": "AddMetricByString with a domain name already registered succeeds only if the listed instances are, as a set, exactly the domain's instances (MatchInstances is set equality).", "quantifier": "all domains and instance lists", "why_tests_cant": "All lists incl. duplicates.", "anchors": ["instance_domain.go:MatchInstances", "registry.go:addInstanceMetricByString"]}
{"id": "C35", "title": "A registered metric's domain is the registered domain", "statement": "Every registered instance metric's instance domain is the domain registered under that name, so each of its published values refers to a published instance of that domain.", "quantifier": "all histories", "why_tests_cant": "Histories.", "anchors": ["registry.go:AddMetric", "client.go:writeInstanceMetric"]}
{"id": "C36", "title": "Client life cycle", "statement": "Stop succeeds exactly on a started client and makes it stopped; SetFlag succeeds exactly on a stopped client and takes effect at the next Start; after Stop the file keeps its contents unless EraseFileOnStop is set, in which case it is removed.", "quantifier": "all call histories", "why_tests_cant": "Histories.", "anchors": ["client.go:PCPClient.Stop", "client.go:PCPClient.SetFlag", "client.go:PCPClient.Start"]}
{"id": "C37", "title": "Metrics can be used after Stop", "statement": "After Stop, updating a metric is safe: it updates the in-memory value and does not touch the unmapped file.", "quantifier": "all metrics and updates", "why_tests_cant": "Crash behaviour of stale mappings.", "anchors": ["client.go:PCPClient.Stop", "metrics.go:newupdateClosure", "bytewriter/memorymappedwriter.go:Unmap"]}
{"id": "C38", "title": "An update racing with Start is not lost", "statement": "If Set runs concurrently with Start then once both have returned the file holds the metric's current value.", "quantifier": "all interleavings", "why_tests_cant": "Interleavings.", "anchors": ["metrics.go:pcpSingletonMetric.set", "client.go:writeValue", "client.go:writeSingletonMetric"]}
{"id": "C39", "title": "Concurrent registrations behave like some sequential order", "statement": "If several goroutines register metrics concurrently, then afterwards the counts agree with the contents and of several registrations of one name exactly one succeeded.", "quantifier": "all interleavings", "why_tests_cant": "Interleavings.", "anchors": ["registry.go:AddMetric"]}
{"id": "C40", "title": "The MMV file lies inside the mmv directory", "statement": "For every client name accepted by NewPCPClient the file location is a file directly inside <PCP_TMP_DIR or temp dir>/mmv; names with a path separator are rejected.", "quantifier": "all names and configurations", "why_tests_cant": "All strings.", "anchors": ["client.go:mmvFileLocation"]}
{"id": "C41", "title": "pcp.conf parsing", "statement": "Each line of pcp.conf that contains a run of [A-Z0-9_]+ immediately followed by '=' defines that key (leftmost such run) with the rest of the line as value, later definitions win, other lines are ignored.", "quantifier": "all files", "why_tests_cant": "All strings.", "anchors": ["config.go:initConfig"]}
{"id": "C42", "title": "Dump is safe on arbitrary input", "statement": "Dump on any byte slice returns either a dump or an error: it never panics, never hangs and never reads outside the slice.", "quantifier": "all byte strings", "why_tests_cant": "All inputs.", "anchors": ["mmvdump/mmvdump.go:Dump", "mmvdump/mmvdump.go:readItems", "mmvdump/mmvdump.go:readComponents"]}
{"id": "C43", "title": "Dump's result does not depend on the scheduling of its goroutines", "statement": "For every input whose table of contents has at most one entry per known type, all interleavings of Dump's goroutines give the same maps or all give an error.", "quantifier": "all inputs and interleavings", "why_tests_cant": "Interleavings.", "anchors": ["mmvdump/mmvdump.go:readItems", "mmvdump/mmvdump.go:readComponents"]}
{"id": "C44", "title": "Truncated files are rejected", "statement": "Dump of any strict prefix of a complete file written by Start returns an error.", "quantifier": "all registries, schedules and truncation points", "why_tests_cant": "All prefixes.", "anchors": ["mmvdump/mmvdump.go:Dump"]}
{"id": "C45", "title": "The textual dump of a client's file never fails", "statement": "mmvdump.Write of the Dump of any complete file written by Start returns nil without panicking.", "quantifier": "all registries and schedules", "why_tests_cant": "All.", "anchors": ["mmvdump/writer.go:Write"]}
{"id": "C46", "title": "Over-long strings cannot corrupt other data", "statement": "Descriptions or string values longer than a string slot are rejected or confined to their own slot.", "quantifier": "all strings", "why_tests_cant": "All lengths.", "anchors": ["metrics.go:newpcpMetricDesc", "metrics.go:newupdateClosure", "client.go:writeMetricDesc"]}
{"id": "C47", "title": "Empty instance domains can be published", "statement": "A registry containing an instance domain without instances can be started and dumped.", "quantifier": "all registries", "why_tests_cant": "Interaction of counts.", "anchors": ["client.go:tocCount", "client.go:writeTocBlock"]}
{"id": "C48", "title": "Restart republishes current values", "statement": "After Stop and a further Start the new file again holds exactly the registered metrics with their current values, including metrics registered and values set in between.", "quantifier": "all histories", "why_tests_cant": "Histories.", "anchors": ["client.go:PCPClient.Start", "client.go:PCPClient.Stop"]}
{"id": "C49", "title": "Clients are independent", "statement": "Starting, updating and stopping one client does not affect the file or life cycle of another client with another name.", "quantifier": "all histories over several clients", "why_tests_cant": "Histories with sharing.", "anchors": ["client.go:NewPCPClientWithRegistry", "speed.go:histogramIndom"]}
{"id": "C50", "title": "mmvdump interprets unit, type and semantics codes as speed writes them", "statement": "For every metric type, semantics and composed unit written by speed, mmvdump's constants and accessors give the same type, semantics, dimensions and scales.", "quantifier": "all codes", "why_tests_cant": "All combinations.", "anchors": ["mmvdump/pcp.go:Unit", "mmvdump/pcp.go:Semantics", "mmvdump/pcp.go:Type"]}
{"id": "C51", "title": "Concurrent method calls behave like a sequential order of them, and all return", "statement": "If several goroutines call methods of metrics whose slots do not overlap (the metrics of one started client, and metrics never started), then every execution in which all calls have returned gives the same results and leaves the same metrics and the same file bytes as the calls made one after the other in some order; that order contains each goroutine's calls in its own order and puts calls that had returned at any moment before calls that had not. No execution deadlocks, faults or runs forever.", "quantifier": "all numbers of goroutines, call lists, metrics and interleavings of single field accesses and single byte writes", "why_tests_cant": "Interleavings.", "anchors": ["metrics.go:pcpSingletonMetric.set", "metrics.go:PCPCounter.Inc", "metrics.go:PCPGauge.Inc", "metrics.go:PCPTimer.Stop", "metrics.go:PCPCounterVector.Inc", "metrics.go:PCPHistogram.Record", "client.go:writeValue", "bytewriter/bytewriter.go:Write"]}
{"id": "C52", "title": "Printed names identify the value", "statement": "The String methods of metric types, semantics, flags, units, and of the reader's types, semantics and section types return for every value, without panicking, the Go name of the constant with that value, or Name(number) if there is none; different values of one type never print alike. A composed unit prints without panicking, and units printed alike have the same dimensions and scales.", "quantifier": "all values of each enumeration's underlying integer type; all 32-bit unit words", "why_tests_cant": "Each enumeration has up to 2^64 values; the generated methods index into packed strings with hand-made offsets.", "anchors": ["metrictype_string.go", "metricsemantics_string.go", "mmvflag_string.go", "spaceunit_string.go", "timeunit_string.go", "countunit_string.go", "mmvdump/semantics_string.go", "mmvdump/toctype_string.go", "mmvdump/type_string.go", "metrics.go:metricUnit.String"]}
{"id": "C53", "title": "Start never touches the contents of files that already exist", "statement": "Whatever the outcome of Start, a file that existed before keeps its contents for everyone who has it open, and files at other locations are not touched. Once a client is started a second time, nothing the program does later changes the first file, even updates of the metrics that were mapped to it; after Stop nothing changes the contents of the stopped file.", "quantifier": "all histories of calls, all clients, all outcomes of Start", "why_tests_cant": "Quantifies over all later histories; a test sees one.", "anchors": ["client.go:PCPClient.Start", "client.go:PCPClient.Stop", "bytewriter/memorymappedwriter.go:NewMemoryMappedWriter", "bytewriter/memorymappedwriter.go:Unmap"]}
{"id": "C54", "title": "A failed or interrupted Start leaves nothing a reader could mistake for metrics, and can be retried", "statement": "If Start returns an error, or the process dies anywhere during the creation of the file, then no metric, registry or client has changed and at the client's location there is the previous file, no file, or a file of zeros, which the reader refuses. Calling Start again can succeed, and then publishes everything.", "quantifier": "all states reachable by the API, all system calls of the file's creation failing or being the last one, all lengths of an interrupted write", "why_tests_cant": "Needs a failure injected at every system call and every byte count of a partial write.", "anchors": ["client.go:PCPClient.Start", "bytewriter/memorymappedwriter.go:NewMemoryMappedWriter", "mmvdump/mmvdump.go:Dump"]}
{"id": "C55", "title": "A failed second Start keeps the published file", "statement": "If a started client's Start is called again and returns an error, the file published before is still at the client's location and later updates still reach it.", "quantifier": "all reachable states in which a client is publishing, all failures", "why_tests_cant": "Needs a failure injected at every system call in every reachable state.", "anchors": ["client.go:PCPClient.Start", "bytewriter/memorymappedwriter.go:NewMemoryMappedWriter"]}
{"id": "C56", "title": "The textual dump shows exactly the registered contents", "statement": "For a client that has been started and whose metrics have then been updated in any way, the text mmvdump prints for the client's file consists of the file's header and one section per kind of record present, listing every registered instance domain, instance, metric and value exactly once, in file order, with its name, identifier, type, semantics, unit, domain and help texts, and beside every value its metric, its instance and the current value.", "quantifier": "all registries that can be published, all histories of calls after Start, all versions of the format", "why_tests_cant": "The golden files of the repository cover five fixed files, none with a domain whose identifier is 0.", "anchors": ["mmvdump/writer.go:Write", "mmvdump/writer.go:writeMetric", "mmvdump/writer.go:writeInstance", "mmvdump/writer.go:writeInstanceDomain", "mmvdump/writer.go:writeValue", "mmvdump/writer.go:writeString", "mmvdump/pcp.go:Unit.String", "client.go:PCPClient.Start"]}
{"id": "C57", "title": "Constructors accept exactly the documented arguments and build what they are given", "statement": "A metric is created exactly if its name has 1 to 256 bytes, at most two descriptions are given and the initial values fit the type; it then has the given name, type, semantics, unit and values, the first description as its short and the second as its long help text, and is attached to no file. Counters are int64 counters, gauges instantaneous doubles, timers stopped discrete doubles showing 0, histograms instantaneous doubles whose five statistics are 0. Vectors get an instance domain named after the metric whose instances are exactly the keys given. An instance domain is created exactly if its name is not empty, it has at most two descriptions and no instance name is longer than 256 bytes; its instances are exactly those given.", "quantifier": "all names, descriptions, values, types, semantics, units, maps and lists of instances", "why_tests_cant": "The tests create a few metrics and never check long descriptions, too many descriptions or maps with long keys.", "anchors": ["metrics.go:newpcpMetricDesc", "metrics.go:NewPCPSingletonMetric", "metrics.go:NewPCPCounter", "metrics.go:NewPCPGauge", "metrics.go:NewPCPTimer", "metrics.go:NewPCPInstanceMetric", "metrics.go:NewPCPCounterVector", "metrics.go:NewPCPGaugeVector", "metrics.go:NewPCPHistogram", "metrics.go:generateInstanceMetric", "instance_domain.go:NewPCPInstanceDomain"]}
{"id": "C58", "title": "Registering succeeds exactly when it should and registers exactly what was given", "statement": "AddMetric, AddInstanceDomain, AddInstanceDomainByName and AddMetricByString return nil or an error. They return nil exactly if no file is mapped for the registry, no metric (domain) of that name is registered and the arguments are acceptable: names of the permitted length, a value compatible with the type, and for strings with instances a value for exactly the listed instances, which must be those of the domain if one of that name is registered. On success exactly this metric (and its domain, if none of that name was registered) is added, built from the given arguments, and nothing else in the program changes.", "quantifier": "all reachable states, all registries, all metrics, domains, names, strings, instance lists, values, types, semantics and units", "why_tests_cant": "The tests register a handful of strings; none checks that every acceptable call succeeds or that nothing else changes.", "anchors": ["registry.go:AddMetric", "registry.go:AddInstanceDomain", "registry.go:AddInstanceDomainByName", "registry.go:AddMetricByString", "registry.go:addSingletonMetricByString", "registry.go:addInstanceMetricByString"]}
{"id": "C59", "title": "Registering while Start runs", "statement": "If goroutines register metrics and domains while a client's Start runs and Start returns nil, then the file can be read and shows every metric whose registration returned nil before Start returned; Start does not panic because of such registrations.", "quantifier": "all reachable states, all registrations by other goroutines between the computation of the file's length, the writing of the file and the assignment to mapped, all interleavings of Start's goroutines", "why_tests_cant": "Needs a registration at one exact moment inside Start; the outcome depends on what is registered.", "anchors": ["client.go:PCPClient.Start", "client.go:PCPClient.start", "client.go:PCPClient.Length", "registry.go:AddMetric", "registry.go:AddInstanceDomain"]}
{"id": "C60", "title": "The example programs publish what their text says", "statement": "Each of the example programs singleton_counter, simple, singleton_string, simple_string_metric, instance_string, acme (without --forever) and runtime, run where no system call fails, never stops with an error. After any number of rounds of its loop the file at the client's location can be read and shows exactly the program's domains, instances and metrics with the names, descriptions, types, semantics and units written in the program, and the values of that round: the count, 42, 10 plus the count, the name whose turn it is, the language users, 42 anvils, the last measurements. MustStop leaves the file as it is, or removes it if files are to be erased.", "quantifier": "all numbers of rounds, all locations, generation numbers and process ids, all orders of visiting maps, all figures the Go runtime reports", "why_tests_cant": "The examples have no tests and run for a minute or until a key is pressed.", "anchors": ["examples/singleton_counter/main.go:main", "examples/simple/main.go:main", "examples/singleton_string/main.go:main", "examples/simple_string_metric/main.go:main", "examples/instance_string/main.go:main", "examples/acme/main.go:serial", "examples/runtime/main.go:main", "client.go:PCPClient.Start", "client.go:PCPClient.Stop"]}
{"id": "C61", "title": "The runtime example ends cleanly", "statement": "When the runtime example's main function stops its client while the goroutine goes on measuring, the program still ends without a memory fault.", "quantifier": "all figures the Go runtime reports, all numbers of rounds before the stop", "why_tests_cant": "Needs a round of the goroutine between MustStop and the end of the process.", "anchors": ["examples/runtime/main.go:main", "client.go:PCPClient.Stop", "metrics.go:PCPInstanceMetric.MustSetInstance"]}
{"id": "C62", "title": "The mmvdump command prints the whole text of the named file or nothing", "statement": "The command mmvdump, given a file name as its first argument, prints the line \"File      = \" with the name and the complete text of that file, and returns; if it cannot, it prints nothing on standard output and ends without a crash. For the location of a running client the text is that of the registered contents; while Start is still writing the file it is not mistaken for a complete one, and after a Stop that erases the file nothing is printed.", "quantifier": "all argument lists, all contents of the files, all interleavings of the reader's goroutines, all histories of calls after Start, all points in the execution of Start", "why_tests_cant": "The command has no tests.", "anchors": ["mmvdump/cmd/mmvdump/main.go:main", "mmvdump/mmvdump.go:Dump", "mmvdump/writer.go:Write", "client.go:PCPClient.Start", "client.go:PCPClient.Stop"]}
{"id": "C63", "title": "The registry's maps are never written while another goroutine accesses them", "statement": "However many goroutines use one registry at once, calling HasMetric, HasInstanceDomain, the counts, AddMetric, AddInstanceDomain, AddInstanceDomainByName, AddMetricByString and Start of its client, no goroutine is ever about to write one of the registry's two maps while another is about to read or write it.", "quantifier": "all registries, all numbers of goroutines and calls with all arguments, all interleavings", "why_tests_cant": "The Go runtime notices such an access only if the two happen within a few instructions of each other.", "anchors": ["registry.go:HasMetric", "registry.go:HasInstanceDomain", "registry.go:InstanceDomainCount", "registry.go:MetricCount", "registry.go:AddMetric", "registry.go:AddInstanceDomain", "registry.go:AddInstanceDomainByName", "registry.go:AddMetricByString", "registry.go:addInstanceMetricByString", "client.go:PCPClient.Start", "client.go:PCPClient.writeInstanceDomains", "client.go:PCPClient.writeMetrics"]}
{"id": "C64", "title": "A reader sees every value as it was before or after an update, at every moment", "statement": "While goroutines call methods of metrics of a started client, the file can be read completely at every moment, also after the process has been killed at that moment. It shows the registered domains, instances and metrics, and every value is the one in memory or, if a goroutine is inside a method changing it, the value it had before or the one the method stores.", "quantifier": "all started clients, all numbers of goroutines and sequences of calls of the metrics' methods, all interleavings of their accesses to memory, the lock and the bytes of the mapping, all moments of them", "why_tests_cant": "A reader would have to look at the file between two instructions of a method; the tests read the file only after the calls have returned.", "anchors": ["metrics.go:pcpSingletonMetric.set", "metrics.go:pcpInstanceMetric.setInstance", "metrics.go:newupdateClosure", "bytewriter/bytewriter.go:ByteWriter.Write", "bytewriter/bytewriter.go:ByteWriter.WriteVal", "mmvdump/mmvdump.go:Dump"]}
{"id": "C65", "title": "A reader that reads the file in pieces gets only values that were there", "statement": "A reader that reads the bytes of a started client's file at different moments while goroutines call methods of its metrics, as every reader does that reads the file in more than one piece, gets a file that can be read completely. It shows the registered domains, instances and metrics, and every value it shows was in the file at some moment of the reading.", "quantifier": "all started clients, all numbers of goroutines and sequences of calls of the metrics' methods, all interleavings, all choices of the moment at which each byte is read", "why_tests_cant": "Needs a reader that is interrupted between two bytes of one value; the tests read the file only while nothing changes it.", "anchors": ["metrics.go:pcpSingletonMetric.set", "metrics.go:pcpInstanceMetric.setInstance", "metrics.go:newupdateClosure", "bytewriter/bytewriter.go:ByteWriter.Write", "mmvdump/mmvdump.go:Dump"]}
{"id": "C66", "title": "The http_counter example counts its requests, and the file it leaves says how many", "statement": "The example program http_counter starts without an error. However many requests arrive at once, every handler returns without a panic, and when none is at work the file shows exactly the number of requests answered. When the program ends, the file it leaves shows the number of requests answered, or one more if a request was just being counted.", "quantifier": "all locations, generation numbers and process ids, all numbers of connections and requests on each, all interleavings of their handlers, all moments at which the program can end", "why_tests_cant": "The examples have no tests; the program would have to end between two bytes written by a handler.", "anchors": ["examples/http_counter/server.go:main", "examples/http_counter/server.go:handleIncrement", "metrics.go:PCPCounter.Up", "metrics.go:PCPCounter.Inc", "client.go:PCPClient.MustStart"]}
{"id": "C67", "title": "The download example shows the time and the speed of a download", "statement": "The example program download starts without an error, and no call of the library in its loop fails. When it is back at the top of the loop, download_time shows how many seconds the download it has just made took, and download_speed how many megabytes a second that is, up to rounding; before the first download both are 0. The units in the file are seconds and megabytes per second. At every moment between two calls both values belong to the same download, and the speed is a number.", "quantifier": "all locations, generation numbers and process ids, all sequences of downloads: all sizes, all clock readings that do not run backwards", "why_tests_cant": "The examples have no tests, and this one needs the network; rounding depends on all sizes and times.", "anchors": ["examples/download/main.go:main", "examples/download/main.go:run", "metrics.go:PCPTimer.Reset", "metrics.go:PCPTimer.Start", "metrics.go:PCPTimer.Stop", "metrics.go:PCPSingletonMetric.Set"]}
{"id": "C68", "title": "The basic_histogram example shows the statistics of what it recorded", "statement": "The example program basic_histogram starts without an error and asks the histogram library for a range that includes every value it records. After each value the library takes, the file shows exactly five values for the metric hist, which are the minimum, maximum, mean, variance and standard deviation the library reports (a zero may differ in sign), and zeros before the first. If the library refuses a value, the program panics and the file still shows the statistics from before. Stopping the client removes the file if asked to and leaves it alone otherwise.", "quantifier": "all locations, generation numbers and process ids, all sequences of statistics the library may report, all orders of visiting the domain", "why_tests_cant": "The examples have no tests, and this one records random values.", "anchors": ["examples/basic_histogram/main.go:main", "metrics.go:NewPCPHistogram", "metrics.go:PCPHistogram.MustRecord", "metrics.go:PCPHistogram.Record", "metrics.go:PCPHistogram.update"]}
{"id": "C69", "title": "A reader sees the statistics of one recording", "statement": "While a client is started, the five values the file shows for a registered histogram are at every moment the statistics the library reported after one of the values recorded; in particular the minimum shown is at most the maximum shown. When Record returns they are those of the value just recorded.", "quantifier": "all started clients, registered histograms and reported statistics, all moments at which the file is read", "why_tests_cant": "Needs a reader between two of the five updates a recording makes; the tests look at the values only after Record has returned.", "anchors": ["metrics.go:PCPHistogram.update", "metrics.go:PCPHistogram.Record", "metrics.go:PCPHistogram.RecordN", "metrics.go:pcpInstanceMetric.setInstance"]}
{"id": "C70", "title": "The acme factory shows how many products were built and how long they took", "statement": "The example program acme --forever, run where no system call fails, starts without an error. In every interleaving of its three builders, whether their updates come before Start or after it, the file then shows exactly six values: for each product the number built, as an int64, and the exact sum of the milliseconds they took, as a double. Only while a builder is between its two updates does the time include one product that is not counted yet.", "quantifier": "all locations, generation numbers and process ids, all interleavings of the builders' updates, all times below 4500 ms, fewer than 2^40 products of each kind", "why_tests_cant": "The examples have no tests; the interleaving and the random times are unbounded, and exactness of the sum depends on all of them.", "anchors": ["examples/acme/main.go:forever", "examples/acme/main.go:NewProductBuilder", "examples/acme/main.go:ProductBuilder.Build", "examples/acme/main.go:ProductBuilder.Start", "metrics.go:PCPGauge.MustInc", "metrics.go:PCPCounter.Up"]}
