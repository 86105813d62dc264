# Formal model of performancecopilot/speed

The model is written in Gallina (Coq 8.16.1): executable total functions wherever the Go code is a function, and
transition systems wherever several goroutines, system calls or API calls interleave. `properties.jsonl` lists the
properties (C01-C67), `MANIFEST.json` the theorems and status of each, `seeded/LOG.jsonl` the wrong programs the
theorems were tested against.

## Trusted base

* Coq's kernel, including its virtual machine (`vm_compute`, used for examples and for finite checks inside proofs).
* The axioms that `Print Assumptions` lists; it is called for every property theorem at the end of its `Props*.v`
  file, and `tools/assumptions.sh` prints the whole table from a finished build. All theorems are "Closed under the
  global context", except these, which speak about real numbers and use Flocq:
  `C12_narrowing`, `C16_add_ieee`, `C16_sub_ieee`, `C18_monotone`, `C18_conversion`, `C18_total` and those of C67 and C70.
  They depend on four axioms, all of Coq's standard library:
  `ClassicalDedekindReals.sig_not_dec`, `ClassicalDedekindReals.sig_forall_dec`,
  `FunctionalExtensionality.functional_extensionality_dep`, `Classical_Prop.classic`.
  No axiom of another library and none of our own is used.
* Libraries used: the standard library, std++ (finite maps, lists, relations), Flocq (only in FlocqFacts.v,
  FloatMono.v, FloatErr.v and what builds on them). Their proofs are checked by the kernel like ours.
* The reading of the Go sources: every definition of the model cites the file and lines it models and says where it
  simplifies. The code cannot be run here. As a check of the reading, the model of the reader and of its text output
  is run by the kernel on the five files of `/repo/mmvdump/testdata` and gives the repository's expected outputs
  (Golden.v; these are tests of the model, not proofs). Formatting of floats is not modelled: the texts of the two
  floats in test5 are taken from the expected output, everything else is computed.
* The behaviour of Go itself and of what the code calls outside the repository, as far as stated below.

## What is modelled, and what is simplified

| Go source | Model | Simplifications |
| --- | --- | --- |
| bytewriter/bytewriter.go | ByteWriter.v | A buffer is a list of bytes. Stores are single bytes. `bw_write` adds offsets without overflow, `bw_write64` with (C07). |
| bytewriter/memorymappedwriter.go | Files.v (one system call at a time), World.v (as one step of a history) | A file is an inode with contents, a path a name for it. A mapping is a flag on a writer; access through a removed mapping is a memory fault. Permissions, directories and leaked file handles are left out. |
| metrics.go: types, compatibility, resolution | GoVal.v, MetricType.v, Floats.v | `int` and `uint` have 64 bits. Floats are IEEE-754 bit patterns; arithmetic that yields a NaN yields the quiet NaN. |
| metrics.go: units | Units.v, MmvPcp.v (as the reader decodes them) | Units of descriptions are the 32-bit word at the time of the description (`md_unit`); sharing of unit pointers is modelled for C25 by a heap of units. |
| metrics.go: singleton, counter, gauge, timer, instance metric, vectors, histogram | Metrics.v (each method one function), Conc.v (the same methods access by access, under their locks) | Map iteration order is an argument. The clock is an argument. HdrHistogram is a parameter: any statistics it reports are the ones published. |
| metrics.go, *_string.go: String methods | Names.v | `strconv` is the decimal representation. String of whole metrics and domains (debug output) is not modelled. |
| instance.go, instance_domain.go, speed.go | Indom.v, Hash.v | Go maps are finite maps. |
| registry.go | Registry.v (sequential), RegConc.v (field by field, under its locks), Parse.v, RegString.v | Objects are pointers into heaps. Logging is left out. |
| client.go: Start and everything it calls | Prog.v (a language of goroutine programs with channels, wait groups, byte stores), Client.v (start statement by statement), StartRace.v (its accesses to values and closures against method calls), StartGrow.v (registrations between its three statements) | Sequentially consistent memory. In histories a Start takes no time for other callers, except in StartRace.v. |
| client.go: clients, Stop, SetFlag, Register | World.v | One transition per API call; every successful `New...` gives a new object. |
| client.go: mmvFileLocation, config.go | Path.v, Config.v, Utf8.v, Regexp.v | filepath.Join/Clean by their documentation, on Unix. Go's regexp is a leftmost-first backtracking matcher. The Unicode tables L and N are a parameter. bufio.Scanner by its documentation. |
| mmvdump/mmvdump.go, pcp.go | Mmvdump.v (sequential), DumpSched.v (its goroutines) | Pointers cast into the byte slice are decoded records (little endian). The data race on `err` in readItems is atomic. Memory exhaustion by a large count is left out. |
| registry.go, client.go, accesses to the maps | RegMaps.v (on top of RegConc.v) | Only the accesses to the maps and locks; what Start writes is left out. |
| mmvdump/cmd/mmvdump/main.go | DumpCmd.v (every interleaving of Dump) | Standard output only. The file is read at one moment. |
| examples/: singleton_counter, simple, singleton_string, simple_string_metric, instance_string, acme (serial and forever), runtime, basic_histogram | Samples.v, SamplesHist.v, SamplesAcme.v (lists of API calls over the history machine) | What is printed and the pauses are left out. What the Go runtime reports is a parameter. A failing call ends the program. |
| mmvdump/writer.go | DumpText.v | The io.Writer does not fail. Floats are printed as a token with their bits, not formatted. |

Not modelled: logging, the server of http_counter, HdrHistogram-go's internals (and
`Percentile`/`Buckets`, which only forward to it, without the lock), the Go memory model beyond sequential
consistency, the texts of error messages, memory exhaustion. AddMetricByString's read of the domain map without a lock
is a data race in Go: C63 shows where it is, the concurrent registry model of C39 leaves that call out.

## How the proofs are organised

Model files contain definitions only; facts and invariants are in files named `...Facts`, `...Inv` and those below;
the `Props*.v` files contain only the property theorems, an `Example` beside each showing that a non-trivial case meets
its hypotheses, and `Print Assumptions`. The vocabulary of the statements is explained at the head of each file.

* Start (C01-C03, C06): ProgProofs.v (complete runs split into per-goroutine traces; token discipline gives progress; a
  cost gives termination), Events/StartEvents (unordered summary of a run), Tiling/StartGood/StartLayout (slots handed
  out by channels tile the file), StartFinal/StartDone (final buffer, offsets, closures), View.v (specification: what a
  reader sees, and what a registry should show), Sections/StartView (they agree), StartLive.v (some run exists, all
  end), Crash.v (every intermediate file is refused or complete).
* Histories (C04, C05, C13-C22, C29-C37, C48, C49, C53-C55): World.v (transitions), WorldInv.v (invariant `w_ok` of all
  reachable states), Sync.v (`synced`: a started client's file is the image of its registry, kept by every call),
  SyncView/SyncLive/SyncApart, Life.v, RegSteps.v, HistFacts.v, FilesFacts.v.
* Values (C07-C12, C16, C18): WriterFacts, ValueFacts, FloatFacts, FlocqFacts, FloatMono, FloatErr, TimerTotal; vectors (C16, C21): VectorOps; constructors (C57): NewFacts; registration (C58): AddFacts.
* Reader (C42-C45, C56): DumpFacts (all schedules), DumpSeq, DumpRun (the sequential reader is a schedule; exactly which inputs are accepted), DumpBad (exactly which inputs can take it down), DumpTrunc,
  TextFacts; TextView.v (specification of the printed text of a view) and TextShow.v (the text of a synced file is the text of its view).
* Strings and paths (C28, C40, C41): RegexpFacts (soundness and completeness of the matcher), ParseFacts (the grammar),
  PathFacts, PathWalk (where a path leads), ConfigFacts.
* Concurrency (C08, C15, C38, C39, C51): Locks.v and its facts (methods under one lock linearize and do not deadlock),
  ConcRuns.v (the step-by-step methods refine Metrics.v), RegConc*.v (RegConcAny: what every interleaving of registrations keeps), StartRace*.v, StartGrow*.v (C59), LocksExec.v (executing schedules).
* The command (C62): DumpCmdFacts.v.
* The registry's maps (C63): RegMapsFacts.v (which locks are held at which access).
* The file during updates (C64): MidSlot.v (the bytes of one slot), MidUpdate.v, MidStep.v (each access of a method keeps
  a heap the file shows exactly), MidRun.v (the invariant of the machine), MidView.v (what that heap looks like).
* The file read in pieces (C65): MidPiece.v (what no call touches, a buffer with bytes of several moments is the file of some
  values), PropsPiece.v. Utf8Enc.v checks the decoder of Utf8.v against the encoding of code points.
* The http_counter example (C66): LocksCut.v (calls not begun make no difference), SamplesHttp.v (the program and its
  handlers), SamplesHttpMid.v (the file at any moment), PropsHttp.v.
* The download example (C67): SamplesDl.v (the program), SamplesDlErr.v (rounding errors), PropsDl.v.
* The basic_histogram example (C68): SamplesHist.v (the program), PropsHist.v. What the histogram library makes of each value is an input.
* The five values of a histogram during an update (C69): PropsHistMid.v.
* The factory of the acme example (C70): SamplesAcme.v (the program), SamplesAcmeRun.v, PropsAcme.v. The updates of its three goroutines are taken one after the
  other, in every order (C15, C51), and none falls into the run of Start (that such an update is not lost is C38).
* Example programs (C60, C61): SamplesFacts.v (statements), SamplesRun.v, SamplesRt.v (programs), SamplesView.v (what the file shows; updates after Stop).
* Examples and counterexamples: Example.v (a started client with a metric of every kind), Witness.v, RegWitness.v,
  ConcWitness.v, ConfigWitness.v, TextWitness.v, DumpBad.v.

## Per-property plan

| id | model | proof idea | result |
| --- | --- | --- | --- |
| C01 | goroutine machine for Start, Dump | complete run -> summary; channel slots tile the sections; contents region by region; all offsets resolved | proved |
| C02 | same | token discipline gives progress, decreasing cost gives termination | proved |
| C03 | same, every intermediate buffer | second generation number is written after everything else | proved |
| C04 C05 | history machine | invariant `synced` kept by every update; frame of Write | proved |
| C06 | Length, offsets | arithmetic over the tiling | proved |
| C07 | ByteWriter | list lemmas | one corner refuted (overflow of offset+len) |
| C08 | ByteWriter, interleavings | disjoint stores commute | proved |
| C09 | encodings | round trip | proved |
| C10 C11 | value types | case analysis | proved |
| C12 | Flocq rounding | bound on rounding | proved |
| C13 | histories | case analysis over all methods | value part proved; file part refuted for long strings |
| C14 | histories | induction | refuted by overflow, proved without |
| C15 C51 | methods under locks | linearizability of locked methods; refinement | proved |
| C16 C17 | single calls and histories | case analysis; IEEE sum by Flocq | proved |
| C18 | histories | fold over histories; rounding error analysis against the exact sum | proved |
| C19 C20 C22 | instance metrics, histogram | finite-map lemmas | proved |
| C21 | vectors | induction over the iteration order | SetAll on counters refuted, the rest proved |
| C23 | histogram accessors | definitions | refuted (swapped) |
| C24 C25 | unit words, heap of units | bit fields | refuted for even dimensions / aliasing; corrected versions proved |
| C26 C27 | FNV-1a | arithmetic; pigeonhole | C26 proved, C27 refuted |
| C28 | regexp engine | grammar soundness and completeness | proved |
| C29-C31 | registry machine | invariant over histories | proved |
| C32 C34 C35 | registry machine | | corners refuted, the rest proved |
| C33 | registry and client | invariant | proved |
| C36 C37 C49 | history machine | | corners refuted, the rest proved |
| C38 | Start against method calls | per-slot invariant over all interleavings | refuted; bounded by `_partial` theorems |
| C39 | registry under its locks | commuting critical sections | refuted; sequential for different names; what every interleaving keeps |
| C40 C41 | paths, pcp.conf | | corners refuted, the rest proved |
| C42 C43 | reader, all schedules | exact characterisation of the inputs that can take it down | refuted on those, proved on all others |
| C44 C45 | reader on client files | from the layout | proved |
| C46 C47 | Start on unusual registries | | refuted by witnesses, rest proved |
| C48 | history machine | restart | proved |
| C50 | constants | computation | semantics constants refute part |
| C52 | String methods | checked slices against a table of names; injectivity of decimal numbers | proved |
| C53 C54 | system calls of the file's creation, history machine | run invariant; ownership of inodes over histories | proved |
| C55 | same | | refuted; what is kept is proved |
| C56 | reader's text on client files | each record's text from its resolved contents; sections in file order | refuted for domains with identifier 0, proved otherwise |
| C57 | constructors | case analysis; the loop over the instances | proved |
| C58 | registry machine | exact success conditions of each call | proved |
| C59 | history machine with registrations inside Start | simulation of the short file by a full one (every store inside the file is the same); lengths grow with every registration | refuted / partial |
| C60 | example programs over the history machine | one lemma per kind of statement; invariants of the loops | proved |
| C61 | runtime example, Stop at any point of a round | updates through an unmapped writer | refuted / partial |
| C62 | mmvdump command: arguments, files | reader interleavings, Start interrupted | refuted / partial |
| C63 | goroutines, their calls and arguments | interleavings of accesses to maps and locks | refuted / partial |
| C64 | started clients, goroutines, calls of methods of metrics | interleavings of accesses and bytes written, every moment | refuted / partial |
| C65 | started clients, goroutines, calls of methods of metrics | interleavings, a moment for each byte read | refuted / partial |
| C66 | locations, generations, pids, connections and requests | interleavings of handlers, the moment the program ends | refuted / partial |
| C67 | locations, generations, pids, downloads | the size of each download, the clock before and after it, the moment between calls | refuted / partial |

Theorems with suffix `_refuted` give a witness that the property as stated is false of the code; theorems with suffix
`_partial` prove the part that holds and say in a comment what is missing.

## Wrong programs (`seeded/LOG.jsonl`)

Each line is one edit of a model definition in a scratch copy. `evidence` says how strong the result is:

* `refuted`: the negation of the theorems in `theorems_refuted` was proved of the edited model, without assumptions.
* `direct`: the proof of the property theorem itself failed (`theorems_failed`).
* `dependency`: only the proof of a lemma failed (`lemmas_failed`); the property theorems which use it are listed, but it
  was not shown that they are false of the edited model. This is weak evidence: a script can break although the
  theorem still holds.
* `survived`: everything still proved; `theorems_tightened` says what was added because of it.
