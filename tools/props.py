#!/usr/bin/env python3
"""Regenerates properties.jsonl (kept as a script so that the text is easy to edit)."""
import json, os
P = []
def p(i, title, statement, quantifier, why, anchors):
    P.append(dict(id=i, title=title, statement=statement, quantifier=quantifier, why_tests_cant=why, anchors=anchors))

SCHED = "The goroutines spawned by Start race for file offsets through channels and Go randomises map iteration, so the number of interleavings is astronomically large; a test sees one of them per run."

p("C01", "Start publishes exactly the registered metrics",
  "After Start returns nil, reading the MMV file with mmvdump.Dump yields exactly the registered instance domains, instances, metrics and values: every registered item appears once with its name, id, type, semantics, unit, descriptions, instance linkage and current value, and nothing else appears.",
  "every publishable registry (reachable through the API, strings fit their slots, each instance metric's domain is the one registered under its name, no domain or not all of them empty, counts below 2^31; the excluded cases are C35, C46 and C47), every goroutine interleaving, every map iteration order",
  SCHED, ["client.go:PCPClient.start", "client.go:writeInstanceDomain", "client.go:writeSingletonMetric", "client.go:writeInstanceMetric", "client.go:writeMetricDesc", "client.go:writeValue", "mmvdump/mmvdump.go:Dump"])
p("C02", "Start neither panics nor deadlocks and always terminates",
  "Start on a registry with no oversized string and no empty instance domain runs to completion: no goroutine panics (no out-of-range write, no negative WaitGroup counter), no set of goroutines blocks forever on the offset channels or wait groups, and every execution is finite.",
  "every such registry, every reachable intermediate state of the goroutine pool, every scheduler choice",
  SCHED, ["client.go:PCPClient.start", "client.go:writeTocBlock", "client.go:writeMetricDesc"])
p("C03", "A reader never mistakes a half-written file for a complete one",
  "If the process dies (or a reader looks) after any prefix of the byte stores performed by Start, then Dump of the file either fails, or returns a dump with no table-of-contents entry at all, or returns the complete final contents.",
  "every publishable registry (as in C01), schedule, and crash point at byte granularity; clock not at the epoch",
  "A crash can happen between any two byte stores of any interleaving.", ["client.go:PCPClient.start", "client.go:writeHeaderBlock", "mmvdump/mmvdump.go:readHeader"])
p("C04", "Updates after Start keep the file equal to the in-memory values",
  "After Start and any sequence of successful or failing update calls (Set, SetInstance, Inc, Up, ...) on registered metrics with string values of at most 256 bytes, Dump of the file yields exactly the registered metrics with their current values.",
  "every publishable registry (as in C01), every schedule of Start, every finite history of updates",
  "Histories are unbounded and metric values range over all Go values.", ["metrics.go:newupdateClosure", "metrics.go:pcpSingletonMetric.set", "metrics.go:pcpInstanceMetric.setInstance", "client.go:writeValue"])
p("C05", "An update touches only its own value",
  "An update of one metric (or instance) on a started client modifies no byte of the file outside the 16-byte value field (numeric types) or the 256-byte string slot (string type) that Start assigned to that metric or instance.",
  "every started client, every metric, every value of at most 256 bytes",
  "Ranges over all offsets assigned by any schedule and all values.", ["metrics.go:newupdateClosure", "bytewriter/bytewriter.go:Write"])
p("C06", "Length is exactly the space the sections need",
  "PCPClient.Length equals the size of the file created by Start, and header, table of contents, instance domains, instances, metrics, values and strings sections are laid out contiguously, without gap or overlap, and end exactly at Length.",
  "every publishable registry (as in C01), both format versions",
  "Quantifies over all combinations of counts.", ["client.go:PCPClient.Length", "client.go:PCPClient.start", "client.go:tocCount"])
p("C07", "ByteWriter.Write writes exactly the given bytes or nothing",
  "Write(data, off) with 0 <= off and off+len(data) <= Len() returns off+len(data), stores data at [off, off+len(data)) and changes nothing else; if off+len(data) > Len() it returns an error and leaves the buffer unchanged. MustWrite panics exactly when Write errors. WriteString behaves the same except for its returned position. WriteVal and the typed functions store a number in 4 or 8 bytes, lowest first, and WriteVal returns an error for any other type.",
  "all buffers, data and offsets",
  "All sizes and offsets.", ["bytewriter/bytewriter.go:Write", "bytewriter/bytewriter.go:WriteString", "bytewriter/bytewriter.go:WriteVal"])
p("C08", "Concurrent writes to disjoint ranges do not interfere",
  "Any number of concurrent Write calls to pairwise disjoint in-range regions leave, under every byte-level interleaving, the buffer in the same state as executing them sequentially in any order.",
  "all buffers, sets of writes, interleavings",
  "Interleavings are exponential.", ["bytewriter/writer.go:Writer", "bytewriter/bytewriter.go:Write"])
p("C09", "Stored values decode to the value written",
  "For every metric type and every value a metric of that type can hold, writing it with WriteVal and reading the 8-byte value field of a zeroed slot back with FixedVal gives the same value (bit-for-bit for floats).",
  "all int32, uint32, int64, uint64, float32, float64 values",
  "2^64 values.", ["bytewriter/bytewriter.go:WriteVal", "mmvdump/mmvdump.go:FixedVal"])
p("C10", "IsCompatible accepts exactly the representable values",
  "IsCompatible(v) holds exactly when v is a fixed-size Go value of the metric's own type, or an int/uint whose mathematical value lies in the metric type's range (signed types never accept uint), or a float64 that is in the finite float32 range for FloatType, any float64 for DoubleType, or a string for StringType.",
  "all metric types and all Go values", "All values.", ["metrics.go:MetricType.IsCompatible", "metrics.go:isCompatibleInt", "metrics.go:isCompatibleUint", "metrics.go:isCompatibleFloat"])
p("C11", "A metric always stores a value of its declared type, unchanged in value",
  "When an integer or string value is accepted by a metric, the value stored is of the Go type corresponding to the metric type and has the same mathematical value as the argument; a float64 given to a DoubleType is stored bit-for-bit.",
  "all metric types and accepted values", "All values.", ["metrics.go:MetricType.resolve", "metrics.go:resolveInt", "metrics.go:resolveFloat"])
p("C12", "Narrowing to float32 is correct rounding and never overflows",
  "A float64 accepted by a FloatType metric is stored as a finite float32, namely the IEEE-754 round-to-nearest-even of the argument.",
  "all float64 values", "2^64 values.", ["metrics.go:isCompatibleFloat", "metrics.go:resolveFloat"])
p("C13", "Set then Val",
  "After Set(v) returns nil, Val() equals (Go ==, NaN excepted) the resolved v; after Set(v) returns an error, Val() and the file are unchanged. The stored bits equal the resolved v unless old and new value are == already.",
  "all metrics, states and values", "All values and histories.", ["metrics.go:pcpSingletonMetric.set", "metrics.go:PCPSingletonMetric.Val"])
p("C14", "Counters never go backwards",
  "No sequence of Set, Inc and Up calls on a PCPCounter (or on an instance of a PCPCounterVector) ever makes Val() smaller.",
  "all initial values and call histories", "All histories, including near the int64 limit.", ["metrics.go:PCPCounter.Inc", "metrics.go:PCPCounter.Set", "metrics.go:PCPCounterVector.Inc", "metrics.go:PCPCounterVector.Set"])
p("C15", "No increment is lost under concurrency",
  "If n goroutines perform Inc calls with non-negative amounts on one counter, then after all return Val() is the initial value plus the sum of all amounts (as an int64), whatever the interleaving.",
  "all numbers of goroutines, call lists and interleavings", "Interleavings.", ["metrics.go:PCPCounter.Inc"])
p("C16", "Gauge arithmetic",
  "Gauge Inc(d) makes Val() the IEEE double sum of the old value and d, Dec(d) the IEEE double difference, Set(v) makes it v; none of them ever fails; Inc(0) never changes the value.",
  "all doubles", "2^128 pairs.", ["metrics.go:PCPGauge.Inc", "metrics.go:PCPGauge.Dec", "metrics.go:PCPGaugeVector.Inc"])
p("C17", "Timer protocol",
  "Timer Start succeeds exactly when the timer is stopped, Stop and the accumulated time change exactly when it is started, Reset succeeds exactly when stopped; failing calls change nothing.",
  "all call histories", "Histories.", ["metrics.go:PCPTimer.Start", "metrics.go:PCPTimer.Stop", "metrics.go:PCPTimer.Reset"])
p("C18", "Timer accumulates elapsed time in its unit",
  "After any history the timer's value is the IEEE double sum, in order since the last Reset, of the elapsed durations converted to the timer's unit, Stop returns that value, and (clock monotone) it never decreases between Resets.",
  "all histories and durations", "Histories and all durations.", ["metrics.go:PCPTimer.Stop"])
p("C19", "Instance metrics are created only with one value per instance",
  "NewPCPInstanceMetric succeeds exactly when the keys of the value map are exactly the instances of the domain, each value is compatible with the type, the name is non-empty and at most 256 bytes, and there are at most two descriptions; the metric then has exactly one (resolved) value per instance.",
  "all value maps, domains, iteration orders", "All maps.", ["metrics.go:newpcpInstanceMetric", "metrics.go:newpcpMetricDesc"])
p("C20", "SetInstance changes only that instance",
  "SetInstance(v, i) with i in the domain and v compatible makes ValInstance(i) the resolved v and leaves every other instance unchanged; with i not in the domain or v incompatible it errors and changes nothing. ValInstance(i) errors exactly when i is not in the domain, and never panics.",
  "all metrics, values, instances", "All.", ["metrics.go:setInstance", "metrics.go:valInstance"])
p("C21", "SetAll and IncAll are all-or-nothing",
  "SetAll/IncAll/UpAll of a CounterVector or GaugeVector either updates every instance or panics without having changed any.",
  "all vectors, values and iteration orders", "Map iteration order is random.", ["metrics.go:PCPCounterVector.SetAll", "metrics.go:PCPCounterVector.IncAll", "metrics.go:PCPGaugeVector.SetAll"])
p("C22", "Histogram parameters and published statistics",
  "NewPCPHistogram passes the underlying histogram bounds with 0 <= low <= high <= 3600000000 and 1..5 significant figures whatever it is given (low <= high), each the one nearest to what was asked for, and after every successful Record/RecordN the published min, max, mean, variance and standard_deviation are the underlying histogram's current statistics; a failed Record changes none of them.",
  "all parameters, all record histories, all histogram implementations", "Histories.", ["metrics.go:normalize", "metrics.go:NewPCPHistogram", "metrics.go:PCPHistogram.update", "metrics.go:PCPHistogram.Record"])
p("C23", "Histogram Low and High report the recordable range",
  "Low() returns the lowest and High() the highest recordable value of the histogram, so Low() <= High().",
  "all histograms", "All parameters.", ["metrics.go:PCPHistogram.High", "metrics.go:PCPHistogram.Low"])
p("C24", "Unit composition records the requested dimensions and scales",
  "A unit composed with Space/Time/Count at dimensions in [-8,7] reports through PMAPI exactly the requested dimension and scale for each component, a component not added has dimension 0, the order of composition does not matter, and a dimension outside [-8,7] panics.",
  "all unit constants, dimensions and composition orders", "All combinations.", ["metrics.go:metricUnit.Space", "metrics.go:metricUnit.Time", "metrics.go:metricUnit.Count", "mmvdump/pcp.go:SpaceDim"])
p("C25", "Composing a unit leaves the unit it was derived from unchanged",
  "Calling Space/Time/Count on a unit value yields a new unit and does not alter units obtained earlier.",
  "all composition histories", "Histories with aliasing.", ["metrics.go:metricUnit.Space", "metrics.go:SpaceUnit.Time"])
p("C26", "Identifiers are FNV-1a hashes of the names that fit their PCP bit fields",
  "A metric's id is the 32-bit FNV-1a hash of its name reduced to 10 bits, an instance domain's to 22 bits, a client's cluster id to 12 bits, an instance's id the full 32-bit hash; the id depends on the name only.",
  "all names", "All strings.", ["speed.go:hash", "metrics.go:newpcpMetricDesc", "instance_domain.go:NewPCPInstanceDomain", "instance.go:newpcpInstance"])
p("C27", "Different metrics have different ids",
  "Two metrics with different names registered in one registry have different ids.",
  "all pairs of names", "All pairs.", ["speed.go:hash", "registry.go:AddMetric"])
p("C28", "RegisterString parses its argument by the documented grammar",
  "A string is accepted exactly when it is name[inst, inst...].suffix with dot separated identifiers made of letters, digits and underscores (bracket part optional); the metric name is name.suffix, and with a bracket the domain is name and the instances are those listed in order, otherwise the metric has no domain.",
  "all strings", "All strings; regexp backtracking semantics.", ["registry.go:parseString", "registry.go:pattern"])
p("C29", "Registry counts equal the contents",
  "After any history of registrations MetricCount, InstanceDomainCount, InstanceCount, ValuesCount and StringCount equal the numbers computed from the registered metrics and instance domains.",
  "all histories of (successful and failing) registrations", "Histories.", ["registry.go:AddMetric", "registry.go:addMetric", "registry.go:AddInstanceDomain", "registry.go:StringCount"])
p("C30", "Registered names are unique and never replaced",
  "Registering a metric or instance domain under a name already present fails and leaves the registry unchanged; a successfully registered item remains registered under its name, with the same object, forever.",
  "all histories", "Histories.", ["registry.go:AddMetric", "registry.go:AddInstanceDomain", "registry.go:HasMetric"])
p("C31", "A mapped registry is frozen",
  "Between a successful Start and the next Stop every registration attempt (by object or by string) fails and no count changes.",
  "all histories", "Histories.", ["registry.go:AddMetric", "registry.go:AddInstanceDomain", "client.go:PCPClient.Start"])
p("C32", "A failed registration has no effect",
  "If AddMetric, AddInstanceDomain, AddInstanceDomainByName or AddMetricByString returns an error the registry is unchanged.",
  "all registries and arguments", "All.", ["registry.go:AddMetricByString", "registry.go:addInstanceMetricByString"])
p("C33", "The format version is 2 exactly when a name needs it",
  "The file is written in MMV version 2 exactly when some registered metric name or registered instance name exceeds 63 bytes, and the information a reader recovers does not depend on the version.",
  "all registries", "All.", ["registry.go:addMetric", "registry.go:AddInstanceDomain", "client.go:writeHeaderBlock"])
p("C34", "RegisterString reuses a domain only if the instances are the same",
  "AddMetricByString with a domain name already registered succeeds only if the listed instances are, as a set, exactly the domain's instances (MatchInstances is set equality).",
  "all domains and instance lists", "All lists incl. duplicates.", ["instance_domain.go:MatchInstances", "registry.go:addInstanceMetricByString"])
p("C35", "A registered metric's domain is the registered domain",
  "Every registered instance metric's instance domain is the domain registered under that name, so each of its published values refers to a published instance of that domain.",
  "all histories", "Histories.", ["registry.go:AddMetric", "client.go:writeInstanceMetric"])
p("C36", "Client life cycle",
  "Stop succeeds exactly on a started client and makes it stopped; SetFlag succeeds exactly on a stopped client and takes effect at the next Start; after Stop the file keeps its contents unless EraseFileOnStop is set, in which case it is removed.",
  "all call histories", "Histories.", ["client.go:PCPClient.Stop", "client.go:PCPClient.SetFlag", "client.go:PCPClient.Start"])
p("C37", "Metrics can be used after Stop",
  "After Stop, updating a metric is safe: it updates the in-memory value and does not touch the unmapped file.",
  "all metrics and updates", "Crash behaviour of stale mappings.", ["client.go:PCPClient.Stop", "metrics.go:newupdateClosure", "bytewriter/memorymappedwriter.go:Unmap"])
p("C38", "An update racing with Start is not lost",
  "If Set runs concurrently with Start then once both have returned the file holds the metric's current value.",
  "all interleavings", "Interleavings.", ["metrics.go:pcpSingletonMetric.set", "client.go:writeValue", "client.go:writeSingletonMetric"])
p("C39", "Concurrent registrations behave like some sequential order",
  "If several goroutines register metrics concurrently, then afterwards the counts agree with the contents and of several registrations of one name exactly one succeeded.",
  "all interleavings", "Interleavings.", ["registry.go:AddMetric"])
p("C40", "The MMV file lies inside the mmv directory",
  "For every client name accepted by NewPCPClient the file location is a file directly inside <PCP_TMP_DIR or temp dir>/mmv; names with a path separator are rejected.",
  "all names and configurations", "All strings.", ["client.go:mmvFileLocation"])
p("C41", "pcp.conf parsing",
  "Each line of pcp.conf that contains a run of [A-Z0-9_]+ immediately followed by '=' defines that key (leftmost such run) with the rest of the line as value, later definitions win, other lines are ignored.",
  "all files", "All strings.", ["config.go:initConfig"])
p("C42", "Dump is safe on arbitrary input",
  "Dump on any byte slice returns either a dump or an error: it never panics, never hangs and never reads outside the slice.",
  "all byte strings", "All inputs.", ["mmvdump/mmvdump.go:Dump", "mmvdump/mmvdump.go:readItems", "mmvdump/mmvdump.go:readComponents"])
p("C43", "Dump's result does not depend on the scheduling of its goroutines",
  "For every input whose table of contents has at most one entry per known type, all interleavings of Dump's goroutines give the same maps or all give an error.",
  "all inputs and interleavings", "Interleavings.", ["mmvdump/mmvdump.go:readItems", "mmvdump/mmvdump.go:readComponents"])
p("C44", "Truncated files are rejected",
  "Dump of any strict prefix of a complete file written by Start returns an error.",
  "all registries, schedules and truncation points", "All prefixes.", ["mmvdump/mmvdump.go:Dump"])
p("C45", "The textual dump of a client's file never fails",
  "mmvdump.Write of the Dump of any complete file written by Start returns nil without panicking.",
  "all registries and schedules", "All.", ["mmvdump/writer.go:Write"])
p("C46", "Over-long strings cannot corrupt other data",
  "Descriptions or string values longer than a string slot are rejected or confined to their own slot.",
  "all strings", "All lengths.", ["metrics.go:newpcpMetricDesc", "metrics.go:newupdateClosure", "client.go:writeMetricDesc"])
p("C47", "Empty instance domains can be published",
  "A registry containing an instance domain without instances can be started and dumped.",
  "all registries", "Interaction of counts.", ["client.go:tocCount", "client.go:writeTocBlock"])
p("C48", "Restart republishes current values",
  "After Stop and a further Start the new file again holds exactly the registered metrics with their current values, including metrics registered and values set in between.",
  "all histories", "Histories.", ["client.go:PCPClient.Start", "client.go:PCPClient.Stop"])
p("C49", "Clients are independent",
  "Starting, updating and stopping one client does not affect the file or life cycle of another client with another name.",
  "all histories over several clients", "Histories with sharing.", ["client.go:NewPCPClientWithRegistry", "speed.go:histogramIndom"])
p("C50", "mmvdump interprets unit, type and semantics codes as speed writes them",
  "For every metric type, semantics and composed unit written by speed, mmvdump's constants and accessors give the same type, semantics, dimensions and scales.",
  "all codes", "All combinations.", ["mmvdump/pcp.go:Unit", "mmvdump/pcp.go:Semantics", "mmvdump/pcp.go:Type"])
exec(open(os.path.join(os.path.dirname(__file__), "props_extra.py")).read()) if os.path.exists(os.path.join(os.path.dirname(__file__), "props_extra.py")) else None
with open(os.path.join(os.path.dirname(__file__), "..", "properties.jsonl"), "w") as f:
    for x in P:
        f.write(json.dumps(x) + "\n")
print(len(P))
