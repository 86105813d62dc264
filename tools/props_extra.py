p("C51", "Concurrent method calls behave like a sequential order of them, and all return",
  "If several goroutines call methods of metrics whose slots do not overlap (the metrics of one started client, and metrics never started), then every execution in which all calls have returned gives the same results and leaves the same metrics and the same file bytes as the calls made one after the other in some order; that order contains each goroutine's calls in its own order and puts calls that had returned at any moment before calls that had not. No execution deadlocks, faults or runs forever.",
  "all numbers of goroutines, call lists, metrics and interleavings of single field accesses and single byte writes",
  "Interleavings.",
  ["metrics.go:pcpSingletonMetric.set", "metrics.go:PCPCounter.Inc", "metrics.go:PCPGauge.Inc", "metrics.go:PCPTimer.Stop", "metrics.go:PCPCounterVector.Inc", "metrics.go:PCPHistogram.Record", "client.go:writeValue", "bytewriter/bytewriter.go:Write"])

p("C52", "Printed names identify the value",
  "The String methods of metric types, semantics, flags, units, and of the reader's types, semantics and section types return for every value, without panicking, the Go name of the constant with that value, or Name(number) if there is none; different values of one type never print alike. A composed unit prints without panicking, and units printed alike have the same dimensions and scales.",
  "all values of each enumeration's underlying integer type; all 32-bit unit words",
  "Each enumeration has up to 2^64 values; the generated methods index into packed strings with hand-made offsets.",
  ["metrictype_string.go", "metricsemantics_string.go", "mmvflag_string.go", "spaceunit_string.go", "timeunit_string.go", "countunit_string.go", "mmvdump/semantics_string.go", "mmvdump/toctype_string.go", "mmvdump/type_string.go", "metrics.go:metricUnit.String"])
p("C53", "Start never touches the contents of files that already exist",
  "Whatever the outcome of Start, a file that existed before keeps its contents for everyone who has it open, and files at other locations are not touched. Once a client is started a second time, nothing the program does later changes the first file, even updates of the metrics that were mapped to it; after Stop nothing changes the contents of the stopped file.",
  "all histories of calls, all clients, all outcomes of Start",
  "Quantifies over all later histories; a test sees one.",
  ["client.go:PCPClient.Start", "client.go:PCPClient.Stop", "bytewriter/memorymappedwriter.go:NewMemoryMappedWriter", "bytewriter/memorymappedwriter.go:Unmap"])
p("C54", "A failed or interrupted Start leaves nothing a reader could mistake for metrics, and can be retried",
  "If Start returns an error, or the process dies anywhere during the creation of the file, then no metric, registry or client has changed and at the client's location there is the previous file, no file, or a file of zeros, which the reader refuses. Calling Start again can succeed, and then publishes everything.",
  "all states reachable by the API, all system calls of the file's creation failing or being the last one, all lengths of an interrupted write",
  "Needs a failure injected at every system call and every byte count of a partial write.",
  ["client.go:PCPClient.Start", "bytewriter/memorymappedwriter.go:NewMemoryMappedWriter", "mmvdump/mmvdump.go:Dump"])
p("C55", "A failed second Start keeps the published file",
  "If a started client's Start is called again and returns an error, the file published before is still at the client's location and later updates still reach it.",
  "all reachable states in which a client is publishing, all failures",
  "Needs a failure injected at every system call in every reachable state.",
  ["client.go:PCPClient.Start", "bytewriter/memorymappedwriter.go:NewMemoryMappedWriter"])
p("C56", "The textual dump shows exactly the registered contents",
  "For a client that has been started and whose metrics have then been updated in any way, the text mmvdump prints for the client's file consists of the file's header and one section per kind of record present, listing every registered instance domain, instance, metric and value exactly once, in file order, with its name, identifier, type, semantics, unit, domain and help texts, and beside every value its metric, its instance and the current value.",
  "all registries that can be published, all histories of calls after Start, all versions of the format",
  "The golden files of the repository cover five fixed files, none with a domain whose identifier is 0.",
  ["mmvdump/writer.go:Write", "mmvdump/writer.go:writeMetric", "mmvdump/writer.go:writeInstance", "mmvdump/writer.go:writeInstanceDomain", "mmvdump/writer.go:writeValue", "mmvdump/writer.go:writeString", "mmvdump/pcp.go:Unit.String", "client.go:PCPClient.Start"])
p("C57", "Constructors accept exactly the documented arguments and build what they are given",
  "A metric is created exactly if its name has 1 to 256 bytes, at most two descriptions are given and the initial values fit the type; it then has the given name, type, semantics, unit and values, the first description as its short and the second as its long help text, and is attached to no file. Counters are int64 counters, gauges instantaneous doubles, timers stopped discrete doubles showing 0, histograms instantaneous doubles whose five statistics are 0. Vectors get an instance domain named after the metric whose instances are exactly the keys given. An instance domain is created exactly if its name is not empty, it has at most two descriptions and no instance name is longer than 256 bytes; its instances are exactly those given.",
  "all names, descriptions, values, types, semantics, units, maps and lists of instances",
  "The tests create a few metrics and never check long descriptions, too many descriptions or maps with long keys.",
  ["metrics.go:newpcpMetricDesc", "metrics.go:NewPCPSingletonMetric", "metrics.go:NewPCPCounter", "metrics.go:NewPCPGauge", "metrics.go:NewPCPTimer", "metrics.go:NewPCPInstanceMetric", "metrics.go:NewPCPCounterVector", "metrics.go:NewPCPGaugeVector", "metrics.go:NewPCPHistogram", "metrics.go:generateInstanceMetric", "instance_domain.go:NewPCPInstanceDomain"])
p("C58", "Registering succeeds exactly when it should and registers exactly what was given",
  "AddMetric, AddInstanceDomain, AddInstanceDomainByName and AddMetricByString return nil or an error. They return nil exactly if no file is mapped for the registry, no metric (domain) of that name is registered and the arguments are acceptable: names of the permitted length, a value compatible with the type, and for strings with instances a value for exactly the listed instances, which must be those of the domain if one of that name is registered. On success exactly this metric (and its domain, if none of that name was registered) is added, built from the given arguments, and nothing else in the program changes.",
  "all reachable states, all registries, all metrics, domains, names, strings, instance lists, values, types, semantics and units",
  "The tests register a handful of strings; none checks that every acceptable call succeeds or that nothing else changes.",
  ["registry.go:AddMetric", "registry.go:AddInstanceDomain", "registry.go:AddInstanceDomainByName", "registry.go:AddMetricByString", "registry.go:addSingletonMetricByString", "registry.go:addInstanceMetricByString"])
p("C59", "Registering while Start runs",
  "If goroutines register metrics and domains while a client's Start runs and Start returns nil, then the file can be read and shows every metric whose registration returned nil before Start returned; Start does not panic because of such registrations.",
  "all reachable states, all registrations by other goroutines between the computation of the file's length, the writing of the file and the assignment to mapped, all interleavings of Start's goroutines",
  "Needs a registration at one exact moment inside Start; the outcome depends on what is registered.",
  ["client.go:PCPClient.Start", "client.go:PCPClient.start", "client.go:PCPClient.Length", "registry.go:AddMetric", "registry.go:AddInstanceDomain"])
p("C60", "The example programs publish what their text says",
  "Each of the example programs singleton_counter, simple, singleton_string, simple_string_metric, instance_string, acme (without --forever) and runtime, run where no system call fails, never stops with an error. After any number of rounds of its loop the file at the client's location can be read and shows exactly the program's domains, instances and metrics with the names, descriptions, types, semantics and units written in the program, and the values of that round: the count, 42, 10 plus the count, the name whose turn it is, the language users, 42 anvils, the last measurements. MustStop leaves the file as it is, or removes it if files are to be erased.",
  "all numbers of rounds, all locations, generation numbers and process ids, all orders of visiting maps, all figures the Go runtime reports",
  "The examples have no tests and run for a minute or until a key is pressed.",
  ["examples/singleton_counter/main.go:main", "examples/simple/main.go:main", "examples/singleton_string/main.go:main", "examples/simple_string_metric/main.go:main", "examples/instance_string/main.go:main", "examples/acme/main.go:serial", "examples/runtime/main.go:main", "client.go:PCPClient.Start", "client.go:PCPClient.Stop"])
p("C61", "The runtime example ends cleanly",
  "When the runtime example's main function stops its client while the goroutine goes on measuring, the program still ends without a memory fault.",
  "all figures the Go runtime reports, all numbers of rounds before the stop",
  "Needs a round of the goroutine between MustStop and the end of the process.",
  ["examples/runtime/main.go:main", "client.go:PCPClient.Stop", "metrics.go:PCPInstanceMetric.MustSetInstance"])
p("C62", "The mmvdump command prints the whole text of the named file or nothing",
  "The command mmvdump, given a file name as its first argument, prints the line \"File      = \" with the name and the complete text of that file, and returns; if it cannot, it prints nothing on standard output and ends without a crash. For the location of a running client the text is that of the registered contents; while Start is still writing the file it is not mistaken for a complete one, and after a Stop that erases the file nothing is printed.",
  "all argument lists, all contents of the files, all interleavings of the reader's goroutines, all histories of calls after Start, all points in the execution of Start",
  "The command has no tests.",
  ["mmvdump/cmd/mmvdump/main.go:main", "mmvdump/mmvdump.go:Dump", "mmvdump/writer.go:Write", "client.go:PCPClient.Start", "client.go:PCPClient.Stop"])
p("C63", "The registry's maps are never written while another goroutine accesses them",
  "However many goroutines use one registry at once, calling HasMetric, HasInstanceDomain, the counts, AddMetric, AddInstanceDomain, AddInstanceDomainByName, AddMetricByString and Start of its client, no goroutine is ever about to write one of the registry's two maps while another is about to read or write it.",
  "all registries, all numbers of goroutines and calls with all arguments, all interleavings",
  "The Go runtime notices such an access only if the two happen within a few instructions of each other.",
  ["registry.go:HasMetric", "registry.go:HasInstanceDomain", "registry.go:InstanceDomainCount", "registry.go:MetricCount", "registry.go:AddMetric", "registry.go:AddInstanceDomain", "registry.go:AddInstanceDomainByName", "registry.go:AddMetricByString", "registry.go:addInstanceMetricByString", "client.go:PCPClient.Start", "client.go:PCPClient.writeInstanceDomains", "client.go:PCPClient.writeMetrics"])
p("C64", "A reader sees every value as it was before or after an update, at every moment",
  "While goroutines call methods of metrics of a started client, the file can be read completely at every moment, also after the process has been killed at that moment. It shows the registered domains, instances and metrics, and every value is the one in memory or, if a goroutine is inside a method changing it, the value it had before or the one the method stores.",
  "all started clients, all numbers of goroutines and sequences of calls of the metrics' methods, all interleavings of their accesses to memory, the lock and the bytes of the mapping, all moments of them",
  "A reader would have to look at the file between two instructions of a method; the tests read the file only after the calls have returned.",
  ["metrics.go:pcpSingletonMetric.set", "metrics.go:pcpInstanceMetric.setInstance", "metrics.go:newupdateClosure", "bytewriter/bytewriter.go:ByteWriter.Write", "bytewriter/bytewriter.go:ByteWriter.WriteVal", "mmvdump/mmvdump.go:Dump"])
p("C65", "A reader that reads the file in pieces gets only values that were there",
  "A reader that reads the bytes of a started client's file at different moments while goroutines call methods of its metrics, as every reader does that reads the file in more than one piece, gets a file that can be read completely. It shows the registered domains, instances and metrics, and every value it shows was in the file at some moment of the reading.",
  "all started clients, all numbers of goroutines and sequences of calls of the metrics' methods, all interleavings, all choices of the moment at which each byte is read",
  "Needs a reader that is interrupted between two bytes of one value; the tests read the file only while nothing changes it.",
  ["metrics.go:pcpSingletonMetric.set", "metrics.go:pcpInstanceMetric.setInstance", "metrics.go:newupdateClosure", "bytewriter/bytewriter.go:ByteWriter.Write", "mmvdump/mmvdump.go:Dump"])
p("C66", "The http_counter example counts its requests, and the file it leaves says how many",
  "The example program http_counter starts without an error. However many requests arrive at once, every handler returns without a panic, and when none is at work the file shows exactly the number of requests answered. When the program ends, the file it leaves shows the number of requests answered, or one more if a request was just being counted.",
  "all locations, generation numbers and process ids, all numbers of connections and requests on each, all interleavings of their handlers, all moments at which the program can end",
  "The examples have no tests; the program would have to end between two bytes written by a handler.",
  ["examples/http_counter/server.go:main", "examples/http_counter/server.go:handleIncrement", "metrics.go:PCPCounter.Up", "metrics.go:PCPCounter.Inc", "client.go:PCPClient.MustStart"])
p("C67", "The download example shows the time and the speed of a download",
  "The example program download starts without an error, and no call of the library in its loop fails. When it is back at the top of the loop, download_time shows how many seconds the download it has just made took, and download_speed how many megabytes a second that is, up to rounding; before the first download both are 0. The units in the file are seconds and megabytes per second. At every moment between two calls both values belong to the same download, and the speed is a number.",
  "all locations, generation numbers and process ids, all sequences of downloads: all sizes, all clock readings that do not run backwards",
  "The examples have no tests, and this one needs the network; rounding depends on all sizes and times.",
  ["examples/download/main.go:main", "examples/download/main.go:run", "metrics.go:PCPTimer.Reset", "metrics.go:PCPTimer.Start", "metrics.go:PCPTimer.Stop", "metrics.go:PCPSingletonMetric.Set"])
p("C68", "The basic_histogram example shows the statistics of what it recorded",
  "The example program basic_histogram starts without an error and asks the histogram library for a range that includes every value it records. After each value the library takes, the file shows exactly five values for the metric hist, which are the minimum, maximum, mean, variance and standard deviation the library reports (a zero may differ in sign), and zeros before the first. If the library refuses a value, the program panics and the file still shows the statistics from before. Stopping the client removes the file if asked to and leaves it alone otherwise.",
  "all locations, generation numbers and process ids, all sequences of statistics the library may report, all orders of visiting the domain",
  "The examples have no tests, and this one records random values.",
  ["examples/basic_histogram/main.go:main", "metrics.go:NewPCPHistogram", "metrics.go:PCPHistogram.MustRecord", "metrics.go:PCPHistogram.Record", "metrics.go:PCPHistogram.update"])
p("C69", "A reader sees the statistics of one recording",
  "While a client is started, the five values the file shows for a registered histogram are at every moment the statistics the library reported after one of the values recorded; in particular the minimum shown is at most the maximum shown. When Record returns they are those of the value just recorded.",
  "all started clients, registered histograms and reported statistics, all moments at which the file is read",
  "Needs a reader between two of the five updates a recording makes; the tests look at the values only after Record has returned.",
  ["metrics.go:PCPHistogram.update", "metrics.go:PCPHistogram.Record", "metrics.go:PCPHistogram.RecordN", "metrics.go:pcpInstanceMetric.setInstance"])
p("C70", "The acme factory shows how many products were built and how long they took",
  "The example program acme --forever, run where no system call fails, starts without an error. In every interleaving of its three builders, whether their updates come before Start or after it, the file then shows exactly six values: for each product the number built, as an int64, and the exact sum of the milliseconds they took, as a double. Only while a builder is between its two updates does the time include one product that is not counted yet.",
  "all locations, generation numbers and process ids, all interleavings of the builders' updates, all times below 4500 ms, fewer than 2^40 products of each kind",
  "The examples have no tests; the interleaving and the random times are unbounded, and exactness of the sum depends on all of them.",
  ["examples/acme/main.go:forever", "examples/acme/main.go:NewProductBuilder", "examples/acme/main.go:ProductBuilder.Build", "examples/acme/main.go:ProductBuilder.Start", "metrics.go:PCPGauge.MustInc", "metrics.go:PCPCounter.Up"])
