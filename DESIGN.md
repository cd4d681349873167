# Formal model of sttp/goapi in Rocq (Coq 8.16.1)

## 1. What this is

`/verif/rocq/theories` holds an executable Gallina model of the parts of
`/repo` (Go) listed below, small specifications that do not mention the model,
and theorems that connect the two.  Nothing here runs the Go code: the only tie
between model and code is the citation (file and lines) carried by every model
definition.

Conventions

* Go integers are `Z`; wrap-around is written explicitly (`u8 u16 u32 u64 i32
  i64` in `Base.v`).  Byte slices are `list Z` with a `bytes_ok` predicate
  (`0 <= b < 256`) where the statement needs it.
* A Go call that can return an error or panic returns `res A = Ok a | Err |
  Panic`.  Panics are modelled (index out of range, slice bounds, failed type
  assertion, division by zero), they are never totalised away.
* Mutation through pointers becomes returning the new value.  Goroutines,
  mutexes, channels and timers become explicit step relations over a shared
  state; a theorem about "all schedules" is about all step sequences.
* Float values are carried as their bit patterns; no float arithmetic is
  modelled.  `decimal`, `dateparse`, `regexp`, ANTLR, gzip, AES, sockets and
  the XML tokenizer are outside the model.
* If the code violates the property, the faithful model does too.  Then the
  theorem proved is `..._refuted : exists ..., ...` and, where useful, a
  `..._partial` theorem delimiting where the property does hold.

Files

* `Base.v`                 result type, integer wraps, big-endian readers
* `<Area>Model.v`          model only (no proofs)
* `<Area>Spec.v`           specification written without the model
* `<Area>Proofs.v`         lemmas
* `Properties<Area>.v`     only property theorems (`exact lemma`), examples that
                           their hypotheses are met, and `Print Assumptions`

## 2. Plan per property

| id | what is modelled | how it is proved |
|----|------------------|------------------|
| C01 | Ticks bit operations on 64-bit words | bit-level lemmas (`Z.testbit`), induction over operation lists |
| C02 | `FromUnixNano`, `ToUnixNano`, `ToTime` with uint64/int64 wrap | arithmetic, `lia` |
| C03 | same | expected refuted for times before 1970; partial on the domain where it holds |
| C04 | Guid components and `Compare` | `Compare` = lexicographic comparison of 16 bytes |
| C05 | `FromBytes`/`ToBytes`/`swapGuidEndianness` on byte lists | case analysis on a 16-element list |
| C06 | HashSet as std++ `gset`, loops as folds over an arbitrary enumeration | `set_solver` |
| C07 | set relations | refinement to `⊆`, `⊂`, `=` |
| C08 | slice relations | expected refuted (duplicates, empty set), partial for duplicate-free |
| C09 | `formatNumber` loop on byte lists | loop invariant; spec = strip separators / grouping |
| C10 | flag mapping | bit-level; complete over all words |
| C11 C12 | `CompactMeasurement.Decode`, parse loop | round trip against a reference encoder in the spec |
| C13 | same plus packet dispatch | expected refuted (panics on truncation) with exact characterisation |
| C14 C15 | SignalIndexCache maps and `decode` | invariants over add histories; round trip against reference encoder |
| C16 C17 C18 | frame writer, frame reader over chunked streams | round trip, chunking independence by induction; C17 expected refuted |
| C19 | operational mode word | bit fields, all combinations |
| C20 | connection string builder | parse-back; expected refuted (missing `=`) |
| C21 C22 | PointMetadata coding tables and adaptation | invariant on statistics; read after write |
| C23 | 7-bit decoders | round trip by length class |
| C24 | the full TSSC decoder; reference encoder in the spec | simulation between encoder and decoder state, induction over measurements and packets |
| C25 | delta maintenance | invariant |
| C26 | decoder on arbitrary bytes | expected refuted (index panics), exact characterisation |
| C27 | TSSC packet sequencing | state machine, all packet histories |
| C28 C29 | data packet handling with pooled slices | expected refuted (stale slots), partial for complete packets |
| C30 | buffer block handling | expected refuted (payload never set, uint32 difference never negative) |
| C31 C32 | cache / base time index alternation | state machine invariants |
| C33 | connection validation | expected refuted for first connection, partial for later ones |
| C34 C35 | response dispatch, counters | state machine invariants |
| C36 C37 | retry delay computation, retry loop | int32 arithmetic; C36 expected refuted |
| C38 | connector threads + timer channel | transition system; expected refuted (deadlock state) |
| C39 C40 | Thread as transition system | expected refuted / invariant |
| C41 | RWMutex with writer preference | transition system; expected refuted |
| C42 | reader channel | transition system, trace invariant |
| C43 | racing map insert | transition system; expected refuted |
| C44 C45 | signal kinds and references on byte strings | finite case analysis, string induction; C45 expected refuted (panic) |
| C46-C59 | the filter expression evaluator over a value domain with exact Null/int/bool/string/guid semantics; decimal, double and date payloads abstract | case analysis on types, induction on expressions; several expected refuted |
| C60-C63, C66 | row selection loops over abstract rows | list induction |
| C64 C65 | DataSet/DataTable/DataRow | map laws |
| C67 C68 | XML node trees (after tokenizing) | tree induction |
| C69 | float formatting after `strconv` | list induction on digit strings |
| C70 | signal index cache registration | induction over record lists |
| C71 C74 C75 | every message in every reachable subscriber state | state machine invariants, exact effects per message |
| C72 | cipher key message and decryption | equality of effects, cipher as a parameter |
| C73 | new connection against leftovers of the old one | refuted, with the exact list of what is kept; non-interference of everything else: two histories related state by state (`CleanProofs.v`) |
| C76 C77 | shared send buffer; Unsubscribe against the reader | transition systems; expected refuted |
| C78 | arithmetic operators | exact values over Z, wrapped |
| C79 C80 C81 | signal ID selection, computed columns, cloning | list induction, depth-indexed evaluation |
| C82 | refusal mark | invariant over histories |
| C83 C84 | DataSet loading from an element tree | induction over schemas and records; field texts per type |
| C85 | `Dial`/`Listen` addresses, `net.SplitHostPort` | parser specification; invariant over API histories; IPv6 expected refuted |
| C86 | what is sent on a new connection and on received metadata | exact frames per action; provenance of every frame by an invariant |
| C87 | `Disconnect`, `Dial`, retries across calls | invariant over histories; expected refuted |
| C88 | `handleMetadataReceived`, `loadMeasurementMetadata` | induction over rows; counting invariant over histories |
| C89 | `Subscribe` settings | invariant between two calls |
| C90 | `Config` | invariants over histories; nil and sticky settings expected refuted |
| C91 | `floor`, `ceiling`, `round`, `abs`, `sqrt` | rational specification of the numbers; case analysis over mantissa and exponent; Flocq for the square root |
| C92 | `datePart`, `dateAdd`, `dateDiff`, calendar | calendar as an inductive "next day" relation; periodicity over 400 years; error bounds of the float divisions |
| C93 | string functions | induction over runes; relation for leftmost replacement |
| C94 | `convert`, type tests | case analysis over types and names |
| C95 | double operators | equivalence of the computable operations to Flocq's and its rounding theorems |
| C96 | lexer and parser of the grammar file | both directions between the functions and an inductive grammar; determinism of longest match |
| C97 | precedence climbing | the grammar applied to two operators; witnesses against the documented order |
| C98 | `ExitLiteralValue` | each literal form against its denotation; witnesses |
| C99 | lexer on layouts | longest match stops where the layout says |
| C100 | text functions | composition of C96 with the denotation of trees |
| C101 | `DataTable.Select` | layout of the composed statement, then C100 |
| C102 | small-step model of connect, disconnect, the disconnect threads, the reader and the termination thread | invariant in sums over the goroutines, decreasing measure, analysis of states at rest; schedules as counterexamples |
| C103 | the same model, the publisher closing the connection | the finitely many reachable states, enumerated and shown closed by computation; schedule as counterexample |
| C104 | the same model | invariant of the run of Connect over goroutines at rest; schedules as counterexamples |
| C105 | sockets and goroutines of the data channel as a transition system | inductive invariant over all histories, decreasing measure for termination; schedules as counterexamples |
| C106 | the publisher of a connection as a specification (`EndSpec.v`), the read loop over SubscriberModel | relation between what the publisher has sent and the state of the subscriber, kept by every packet (induction over the publication); composition with framing |
| C107 | the same models | decoding with trailing bytes; concrete packet as counterexample |
| C108 | goroutines of Disconnect, Cancel, the reader, the termination, disconnect and reconnect threads (`ReconnectModel.v`) | the reachable states under the theorem's schedules are finitely many; the kernel computes the set and checks that it is closed and good; induction over schedules; concrete schedules as counterexamples |
| C109 | the same model | the same, for unboundedly many losses |
| C110 | goroutines of Listen, the accept thread, the reader, the termination and disconnect threads, with publishers connecting and closing (`ListenModel.v`) | the kernel enumerates the reachable states (`Explore.v`), closed under the schedules of the theorem; what an action at rest leads to by a second enumeration with the log as ghost; counterexample schedules |
| C111 | the same model | the same; a frozen state for the deadlock |
| C112 | the same model | the same |
| C113 | the data goroutine cut at its reads of shared fields, interleaved with stores of other goroutines (`MixModel.v`) | it is proved equal to the packet handler when alone; induction on the schedule with the invariant that kept keys, tables and base times are those of the start; counterexample schedules |
| C114 | `time.Format` for the layouts of `Ticks`, over a calendar (`StampModel.v`) | digits of fixed width are unique and have their value; wrapping of `ToTime` reduced to one int64 conversion; a text determines its instant |
| C115 | `time.Parse` and `time.Format` for `DateTimeFormat` (`StampModel.v`) | stepwise over the layout, both ways: texts of the grammar are read, and only they |
| C116 | `google/uuid` parsing and printing (`GoTextModel.v`) | hexadecimal pairs are read back digit by digit; the accepted texts characterised both ways |
| C117 | lexer and literal parsing as in C98 with the concrete GUID parser | the token's shape decides which forms the parser accepts; both directions |
| C118 | `strconv.FormatFloat` with a fixed precision as integer division with ties to even (`GoTextModel.v`) | rational arithmetic: the quotient is the nearest; monotone, unique; texts determine digits |
| C119 | `StateFlagsEnum.String` (`MeasTextModel.v`) | fold over the table equals filtering the bits; names contain no commas and differ |
| C120 | `Measurement.String`, `Float32frombits` (`MeasTextModel.v`) | parts are separated by blanks they do not contain; float32 to float64 is exact (Flocq) |
| C121 | `AdjustedValue` over the records (`MeasTextModel.v`) | rounding lemmas of Flocq; counterexamples by computation |
| C122 | `LookupMetadata` in two atomic steps, any number of goroutines (`MeasTextModel.v`) | invariant: a missed identifier is not registered while its lookup is alone; induction on runs |
| C123 | `strconv.ParseFloat` by exact long division (`NumTextModel.v`) | digits are scanned into mantissa and exponent by induction; the quotient rounds as Flocq's `round` says |
| C124 | `decimal.NewFromString` (`NumTextModel.v`) | the text splits at E and point in one way; both directions |
| C125 | `Decimal.String`, `Decimal.Float64` (`NumTextModel.v`) | digits padded and trimmed keep their value; canonical texts are unique |
| C126 | `Decimal.Div` (`NumTextModel.v`) | truncated quotient and remainder against half the divisor; rational arithmetic |
| C127 | slices as pointers to headers over numbered arrays, the pool, any number of decoding goroutines (`PoolModel.v`) | invariant over all interleavings: pooled, held and filled slices are disjoint and share no array |
| C128 | calls of Close and Dial over the goroutines of C102 (`CloseModel.v`) | simulation by steps of `ShutdownModel.v`, whose invariant carries over; schedules as counterexamples |
| C129 | the String methods (`DisplayModel.v`) | induction over the loops; tables of names checked once for distinctness; names of operators and functions read with the lexer of C97 and the grammar of C98; collisions as counterexamples |
| C130 | senders of commands over the goroutines of C102 (`WriteModel.v`) | invariant in sums over goroutines and senders for every schedule; races as schedules |
| C131 | conversions of a computed value in `TableModel.v`; numbers they stand for in `CellSpec.v` | one theorem per kind of column over all values; nearest floats by Flocq's `binary_normalize_correct` |
| C132 | `SignalTypeAcronym` (`SigTypeModel.v`) | case analysis on kinds; `unicode.ToUpper` by arithmetic |
| C133 | `NewConfig`, `NewSettings`, `Dial`, `Subscribe` (`SessionModel.v`, `ConnectorModel.v`) | from C86 and C89; induction on the number of refused attempts |
| C134 | `Unsubscribe` over the goroutines of `ShutdownModel.v` (`UnsubModel.v`) | two phases, before and after the first `Disconnect`; the second is the invariant of C102; schedules that refute |
| C135 | the data channel of `ChannelModel.v` with any number of callers and disconnect threads (`OverlapModel.v`) | invariant: the socket is closed, or somebody is on the way to close it, or nobody has done anything; a weight that every step lessens; schedules that refute |
| C136 | a parser object with its settings, the text it has left and its results, and histories of calls (`ReuseModel.v`); after a failure any results | induction over histories: who reads the text, what getters leave alone; the sets hold what the lists hold |
| C137 | the loading of `XmlModel.v` into any data set | a lookup lemma for tables added over others; rows depend on the columns only; the fresh load and the load over another compared name by name |
| C138 | the three callback locks and, for each function of the library, the locks it takes and the callbacks it reads and assigns, in order (`LocksModel.v`) | locks taken upwards only: whoever blocks is blocked by somebody further up, so somebody moves, and every move shortens the work; concrete schedules for the deadlocks |
| C139 | the same | exclusion as an invariant of the locks; every read and assignment of a callback is in the lock of its object |
| C140 | the callback fields of the three objects, what registering, dialing and listening assign and what each event looks up (`RegisterModel.v`) | induction over histories, from the last change |
| C141 | goroutines in `connect`: the test of the flag, the mutex, the dial, the assignment of the socket (`DialsModel.v`) | invariants over all schedules; a schedule for every number of goroutines that opens as many connections |
| C142 | the goroutines in which things happen and those started for one call each, with what has been heard (`HeardModel.v`) | invariants over all schedules; a schedule for every permutation |
| C143 | the goroutines that load metadata documents, assignment by assignment, with documents arriving meanwhile (`DocsModel.v`) | invariants over all schedules; for any two documents a schedule that leaves the first |
| C144 | the read buffer, its growth and the goroutines that hold parts of it (`BufferModel.v`) | invariants over all schedules; for any document and any packet a schedule in which the packet is read as the document |
| C145 | the frames the simplified subscriber sends (`SessionModel.v`), seen from any point of a history | induction over what follows; a history under the default configuration |
| C146 | what a Dial leaves behind when the subscriber listens: the reconnect callback, the reconnect thread and those that wait for it (`KeepModel.v`) | invariants over all histories and schedules; for each MaxRetries a history |
| C147 | the readers made one after the other, the goroutine that delivers to the last and the lock it holds meanwhile (`ReadersModel.v`) | induction over histories: what was returned and what is left make up what was received |

## 3. Trusted base

* Coq 8.16.1's kernel (and its `vm_compute` evaluator, used for finite case
  analyses and examples).
* No axiom of our own, no `Admitted`, no disabled kernel check, no functor or
  module type.  Every theorem in the `Properties*.v` files is followed by
  `Print Assumptions`; each one answers `Closed under the global context`,
  except `C91_sqrt`, `C92_date_diff_partial`, `C94_doubles`, `C95_arithmetic`,
  `C95_order`, `C95_exact_integers`, `C120_value`, `C121_linear`,
  `C121_default_partial`, `C123_field`, `C123_convert`, `C123_literal`, `C123_fits`,
  `C125_as_double`, `C131_float_whole`, `C131_single_of_double`,
  `C131_float_of_decimal`, `C131_number_text` and `C131_single_text_refuted`.  These speak of real numbers or use them
  in their proofs (through Flocq, which adds no axioms), and rest on the standard
  library's `ClassicalDedekindReals.sig_not_dec`,
  `ClassicalDedekindReals.sig_forall_dec`,
  `FunctionalExtensionality.functional_extensionality_dep` and
  `Classical_Prop.classic`.
* `coqchk` lists seven constants `Coq.ssr.ssrunder.Under_rel.*` as axioms of
  the loaded libraries: they are the fields of a sealed module in Coq's own
  `ssreflect` plugin files, loaded through std++ (used by `HashSetProofs.v`).  No
  theorem here depends on them.  It also lists the fields of the sealed modules
  `RbaseSymbolsImpl`, `RinvImpl` and of the like in the standard library's `Reals`,
  which have definitions.
* The correspondence between Go and Gallina: every model definition cites the
  lines it models and says what it leaves out.  It was established by reading,
  not by execution: the sandbox has neither the dependencies nor a network.
* Go semantics as we understand it (go 1.22, 64-bit `int`): wrap-around
  integer arithmetic, bounds-checked indexing, nil-map reads, one-element
  `for range` order over maps arbitrary (quantified over where it shows),
  slices of capacity equal to their length except where said otherwise,
  `sync.RWMutex` with writer preference, unbuffered channels.

### Modelled

| files | model | what is in it |
|-------|-------|---------------|
| `ticks/Ticks.go` | `TicksModel.v` | everything except the texts, which are in `StampModel.v` |
| `guid/Guid.go` | `GuidModel.v` | everything except random generation and texts |
| `guid/Guid.go` (FromBytes, ToBytes, swapGuidEndianness) | `GuidMemModel.v` | the same conversions statement by statement over numbered arrays, to see which slices they write |
| `guid/Guid.go` (`Parse`, `String`), and the functions of `strconv` and `google/uuid` that /repo calls | `GoTextModel.v` | `ParseInt`, `ParseUint`, `ParseBool`, `FormatFloat` with a given precision, `uuid.Parse`, `uuid.String`, written from the sources of Go 1.22 and `google/uuid` 1.3.0 |
| the functions of `strconv` and `shopspring/decimal` that `data/*.go` calls | `NumTextModel.v`, `NumModel.v` | `ParseFloat` (as exact rounding; its fast paths are not modelled), `NewFromString`, `Decimal.String`, `Float64`, arithmetic and `Div`; `Pow` in `PowModel.v`; `NewFromFloat` is not modelled |
| `transport/Measurement.go` (`String`), `transport/Constants.go` (`StateFlagsEnum.String`), `DataSubscriber.go` (`LookupMetadata`, `AdjustedValue`), `MeasurementMetadata.go` | `MeasTextModel.v` | texts in full; records with the fields that matter for values, lookups in two atomic steps by any number of goroutines |
| `hashset/HashSet.go` | `HashSetModel.v` | everything |
| `format/*.go` | `FormatModel.v` | everything; the digits come from `GoTextModel.v` |
| `transport/CompactMeasurement.go`, `Measurement.go` | `CompactModel.v` | flag mapping, decoding, time reconstruction |
| `transport/SignalIndexCache.go` | `CacheModel.v` | everything |
| `transport/DataSubscriber.go` | `FrameModel.v`, `SubscriberModel.v` | command framing, operational modes, connection string, reading packets from a chunked stream, connection validation, all server responses, data packets (compact and TSSC), caches, base times, buffer blocks, cipher keys, notifications, counters, callbacks as trace events |
| `transport/tssc/*.go` | `TsscModel.v` | the complete decoder |
| `transport/SubscriberConnector.go` | `ConnectorModel.v` | retry delay, retry loop, cancellation, timer |
| `thread/Thread.go`, callback locking, `sttp/MeasurementReader.go`, `LookupMetadata` races, shared write buffer, `Unsubscribe` against the reader | `ConcModel.v` | transition systems over all schedules |
| `transport/DataSubscriber.go` (`connect`, `establishConnection`, `Disconnect`, `disconnect`, `runDisconnectThread`, `runCommandChannelResponseThread`, the termination thread), `thread/Thread.go` | `ShutdownModel.v` | goroutines as control points, one shared access for each step; every schedule, with the publisher closing connections; dialled connections without data channel, AutoReconnect off |
| `Subscriber.go` (`Close`), `transport/DataSubscriber.go` (`Dispose`, `disconnect` with joining), `transport/SubscriberConnector.go` (tests of `disposing`) | `CloseModel.v` | calls in goroutines of their own or in callbacks, over `ShutdownModel.v`; every schedule |
| `transport/DataSubscriber.go` (`SendServerCommandWithPayload` against the end of the connection), `thread/Thread.go` (`TryStart`) | `WriteModel.v` | any number of goroutines sending commands, over `ShutdownModel.v`; every schedule, writes that fail or not after the publisher closed |
| `transport/DataSubscriber.go` (`Unsubscribe` against `Disconnect` and lost connections) | `UnsubModel.v` | any number of goroutines calling `Unsubscribe`, over `ShutdownModel.v`; every schedule; no data channel |
| `transport/DataSubscriber.go` (`Subscribe`, `Unsubscribe`, `Disconnect` with a data channel, overlapping) | `OverlapModel.v` | any number of goroutines making calls, disconnect threads, data goroutines; every schedule; the TCP connection and its goroutines left out |
| `data/FilterExpressionParser.go` (a parser asked more than once) | `ReuseModel.v` | texts of the grammar; that a second `Parse` finds the end of the text, and that the error goes to the listener only, is ANTLR's behaviour and taken from its documentation; results after a failed call left open |
| `Subscriber.go`, `transport/DataSubscriber.go`, `transport/SubscriberConnector.go` (`assigningHandlerMutex` of each) | `LocksModel.v` | the locks and the callback fields only, with the sequences in which the functions use them; what an application does in a receiver is any such sequence; of the waiting for goroutines to end only that for the last reconnection; the other mutexes are not part of it (C102, C108, C135) |
| `Subscriber.go` (registrations, `Dial`, `Listen`, handlers), the callback fields of `transport/DataSubscriber.go` and `transport/SubscriberConnector.go` | `RegisterModel.v` | which receiver is called for each event; the messages handlers give meanwhile are events of their own; one goroutine (C138 and C139 for several) |
| `transport/DataSubscriber.go` (`connect` called by several goroutines) | `DialsModel.v` | one attempt each, no disconnection and no listening; the mutex and the atomic flag interleave step by step |
| `transport/DataSubscriber.go`, `transport/SubscriberConnector.go` (the `go` statements that call receivers) | `HeardModel.v` | what happens is given; receivers are heard when they are entered |
| `Subscriber.go` (`loadMeasurementMetadata` called by several goroutines) | `DocsModel.v` | rows are given (C88, C137 for how they are read); one record for each signal (C122 for lookups that overlap); each assignment is one step |
| `transport/DataSubscriber.go` (`readBuffer` and the metadata goroutines that share it) | `BufferModel.v` | a validated connection; a document is read at one moment; decompression is any partial function |
| `transport/SubscriberConnector.go` (`autoReconnect`, `connect`) beside `transport/DataSubscriber.go` (`Listen`, the accept thread, `disconnect`) | `KeepModel.v` | no Dial while the reconnect thread runs; Disconnect and the handler of a reconnection are one step each; refusals are not modelled |
| `MeasurementReader.go` with `Subscriber.go` (`ReadMeasurements`) and the callback lock | `ReadersModel.v` | one delivering goroutine; contexts and `Close` are in `ConcModel.v` (C42) |
| `data/ExpressionTree.go` (`power` of decimals, with `Decimal.Pow` of shopspring/decimal v1.3.1) | `PowModel.v` | the recursion of `Decimal.Pow` with enough fuel for every exponent (`decimal_pow_eq`); int32 overflow of exponents is left out |
| `transport/SignalKind.go` (`SignalTypeAcronym`) | `SigTypeModel.v` | whole function |
| `String` of `data/DataColumn.go`, `DataRow.go`, `DataTable.go`, `DataSet.go`, `DataType.go`, `Constants.go`, `transport/Constants.go`, `SignalKind.go` | `DisplayModel.v` | whole texts; the order of a map is a parameter; numbers outside the enumerations of `data` are left out |
| `transport/DataSubscriber.go` (data channel in `Subscribe`, `Unsubscribe`, `runDisconnectThread`, `runDataChannelResponseThread`), `thread/Thread.go` | `ChannelModel.v` | sockets, goroutines, one call under way at a time; every schedule |
| `transport/DataSubscriber.go` (`runCommandChannelResponseThread`, `readPayloadHeader`, `readPacket` over a whole connection) | `EndModel.v` | the read loop of the TCP connection, each packet handled as in `SubscriberModel.v` |
| `transport/SubscriberConnector.go` (`autoReconnect`, `waitForRetry`, `connect`, `Cancel`, `ResetConnection`), `transport/DataSubscriber.go` (as for `ShutdownModel.v`), `sttp/Subscriber.go` (`handleReconnect`) | `ReconnectModel.v` | goroutines as control points, with automatic reconnection; time, data channel, refused modes and limits on retries left out |
| `transport/DataSubscriber.go` (`Listen`, `runListeningSocketAcceptThread`, `establishConnection`, `Disconnect`, `disconnect`, `runDisconnectThread`, the reader and the termination thread), `thread/Thread.go` | `ListenModel.v` (schedules: `Sched.v`, exploration: `Explore.v`) | goroutines as control points, publishers connecting and closing at any moment; a subscriber that never dialled, one port, no data channel, one publisher waiting at most, callbacks that return |
| `transport/DataSubscriber.go` (`runDataChannelResponseThread`, `handleDataPacket`, `parseCompactMeasurements` against the handlers of cache, base time and key updates and `setupConnection`) | `MixModel.v` | the data goroutine cut at its reads of shared fields, interleaved with any stores; compact and compressed packets; atomic words in program order; settings of the subscription constant |
| `transport/DataSubscriber.go` (`MeasurementPool`, slices in `handleDataPacket`), `Subscriber.go` (`PutMeasurementSlice`) | `PoolModel.v` | headers and arrays by number, any number of decoding goroutines; one write per step; what packets contain is given |
| `ticks/Ticks.go` (`String`, `ShortTime`), `data/DataSet.go` (`DateTimeFormat` and its use), the date/time texts of `DataRow.go` and `ValueExpression.go` | `StampModel.v` | `time.Format` and `time.Parse` of Go 1.22 for the three layouts, written from the documentation and source of the standard library as a list of layout elements; a time has an offset, not a named location |
| `transport/SignalKind.go`, `Constants.go` (signal types), `Subscriber.go` (signal references) | `SignalModel.v` | everything on byte strings |
| `data/ExpressionTree.go`, `ValueExpression.go`, `Constants.go`, `UnaryExpression.go`, `InListExpression.go`, `FunctionExpression.go` | `StrModel.v`, `NumModel.v`, `CalModel.v`, `ExprModel.v` | type derivation, conversions, all operators and functions, evaluation of trees |
| `data/DataRow.go`, `DataTable.go`, `DataSet.go`, `DataColumn.go`, `OrderByTerm.go`, `TableIDFields.go`, `FilterExpressionParser.go` (evaluation of parsed statements) | `TableModel.v` | typed reads and writes, computed columns, row comparison, selection, data sets, filter statements |
| `data/parser/FilterExpressionSyntax.g4` | `LexModel.v`, `ParseModel.v` | tokens by longest match; recursive descent with ANTLR's precedence climbing |
| `data/FilterExpressionParser.go` (listener, text functions), `DataTable.go` (`Select`) | `ParseModel.v`, `TextModel.v` | literals, operators, columns, statements; evaluation, selection and trees from text |
| `xml/XmlDocument.go`, `XmlNode.go`, `data/DataSet.go` (`FromXml`, `ParseXml`, `loadSchema`, `loadRecords`) | `XmlModel.v` | loading the decoded element tree, links, paths, node selection with predicates, schemas, records, field parsing |
| `sttp/Subscriber.go`, `Config.go`, `Settings.go` | `SessionModel.v` | the simplified API over the models above: Dial, Listen, Disconnect, Subscribe, Unsubscribe, RequestMetadata, reconnection, accepted connections, the callbacks and their goroutines as a queue, loading of measurement metadata; one action runs to completion before the next. `Close` (see `CloseModel.v`), message texts, callbacks that call the API back, and a reconnect goroutine racing a new Dial are left out |

### Parameters

Quantified over, with the facts used stated as hypotheses of the theorems that
need them: Unicode case tables (`ascii_tables`: ASCII letters map as expected),
`regexp` (but for `Replace` on ASCII text, see `ReplaceModel.v`), date parsing, `decimal.NewFromFloat`, `math.Pow`, `math.Mod`, AES-CBC, gzip, `sort.Slice`
(hypothesis `sorts`; `TableProofs6.v` shows an instance exists), map iteration
orders, socket chunking, schedules.

### Not modelled

* The ANTLR runtime and the code generated from the grammar: the model follows
  the grammar file itself, and leaves texts outside the grammar undefined (ANTLR
  reports them to a callback and recovers).
* TCP/UDP/TLS themselves, the Go scheduler below the granularity of the
  transition systems, allocation failure, the race detector's notion of race.
* `examples/`, `version/` and logging texts.
* The XML tokenizer of `encoding/xml`.

## 4. Results per property

`proved`: the full statement.  `partial`: what is missing, or where the code
itself falsifies the property (theorem names ending in `_refuted` exhibit the
failure for all or for witness inputs; `_partial` delimit what does hold).

| id | property | status | theorems | what is missing or false |
|----|----------|--------|----------|------|
| C01 | Leap-second flags never disturb the time and read back exactly | proved | `C01_leap_ops_preserve_time`, `C01_leap_marks_read_back` |  |
| C02 | Ticks and Unix nanoseconds round-trip at 100 ns resolution | proved | `C02_unix_round_trip`, `C02_count_since_year1`, `C02_order_preserved`, `C02_ticks_round_trip` |  |
| C03 | Ticks round-trip any time.Time | partial | `C03_FromTime_correct_iff_not_before_epoch`, `C03_FromTime_ToTime_partial`, `C03_FromTime_refuted` | The full property is false of the code: refuted for instants before 1970; exact domain proved. |
| C04 | GUID ordering is a total order consistent with equality | proved | `C04_compare_is_lexicographic`, `C04_compare_total_order`, `C04_equal_iff`, `C04_empty` |  |
| C05 | GUID byte encodings are lossless in both byte orders | proved | `C05_bytes_round_trip`, `C05_opposite_order_swaps_fields`, `C05_error_iff_short`, `C05_argument_unmodified`, `C05_result_owned` |  |
| C06 | HashSet mutators implement set algebra | proved | `C06_call_sequences`, `C06_add_remove_report`, `C06_remove_where_count` | Every legal map iteration order is quantified over, per call. |
| C07 | HashSet set-to-set relations are exact | proved | `C07_set_relations` | The statement already excludes IsProperSupersetOfSet on an empty receiver; that case is refuted under C08. |
| C08 | HashSet relations against slices do not depend on repeated elements | partial | `C08_slice_relations_partial`, `C08_SetEquals_refuted`, `C08_IsSupersetOf_refuted`, `C08_IsProperSupersetOf_empty_refuted`, `C08_SymmetricExceptWith_refuted` | False of the code for slices with repeated elements and for the empty receiver; proved exactly for duplicate-free slices. |
| C09 | Thousands formatting is faithful and grouped by three | proved | `C09_unsigned_faithful`, `C09_signed_faithful` |  |
| C10 | Compact state flags preserve every flag the compact form can carry | proved | `C10_full_to_compact_to_full`, `C10_compact_bit_iff_category`, `C10_full_bit_iff_compact_bit`, `C10_compact_to_full_to_compact` |  |
| C11 | A compact measurement decodes to what the publisher encoded | proved | `C11_decode_wire`, `C11_publisher_round_trip`, `C11_exact_time` |  |
| C12 | A stream of compact measurements is parsed completely and in order | proved | `C12_stream` |  |
| C13 | Truncated or malformed data packets never crash the subscriber | partial | `C13_compact_decode_panics_iff`, `C13_truncated_compact_refuted`, `C13_message_crashes_iff`, `C13_short_packet_refuted`, `C13_encrypted_packet_refuted`, `C13_count_too_small_refuted`, `C13_data_packet_crashes_iff`, `C13_cache_update_crashes_iff`, `C13_cipher_keys_crashes_iff` | False of the code: many malformed packets crash the process. The exact crash condition is proved, in every reachable state, for every message kind. |
| C14 | Signal index cache lookups are mutually consistent | proved | `C14_lookup_by_index`, `C14_lookup_by_signal`, `C14_signal_ids`, `C14_count`, `C14_distinct_records`, `C14_binary_length` |  |
| C15 | Signal index cache decode inverts the publisher's encoding | partial | `C15_decode_wire`, `C15_short_message_rejected`, `C15_truncated_message_refuted`, `C15_bad_source_length_refuted` | Well-formed messages decode exactly and short messages are rejected; but the no-crash part is false: truncated bodies panic. |
| C16 | Command frames are self-delimiting and carry the exact payload | proved | `C16_frame_written`, `C16_sequence_recovered`, `C16_not_connected_sends_nothing` | Sends from one goroutine; concurrent senders are a separate property. |
| C17 | Sending a command never panics | partial | `C17_send_panics_iff`, `C17_long_payload_refuted`, `C17_subscribe_long_filter_refuted` | False of the code: panics exactly when the payload exceeds 32763 bytes. |
| C18 | Received packets are independent of TCP chunking | proved | `C18_chunking_irrelevant`, `C18_whole_packets`, `C18_incomplete_never_processed` | For every packet handler; the loop ends at the first termination request (asynchronous shutdown is not modelled here). |
| C19 | Operational modes advertise exactly the configured options | partial | `C19_fields_partial`, `C19_version_refuted`, `C19_version_five_bits_partial` | All fields except the version are exact; for versions below 10 the compression bits overlap the API's own version mask, so the masked version is wrong. |
| C20 | Subscription connection string contains every setting with its value | partial | `C20_parameters_partial`, `C20_nan_filter_refuted`, `C20_filter_injection_refuted` | False of the code: the NaN filter setting lacks its = sign; all other settings parse back for brace-safe texts. |
| C21 | TSSC code words decode to the command that was written | proved | `C21_codes_round_trip` |  |
| C22 | TSSC adaptive coding chooses a cheapest code and never fails | proved | `C22_adaptation_optimal`, `C22_stable_within_segment`, `C22_never_fails`, `C22_cost_is_bits_written` |  |
| C23 | 7-bit variable length integers decode exactly | proved | `C23_uint32`, `C23_uint64` |  |
| C24 | TSSC decompression is lossless | proved | `C24_lossless`, `C24_encodable` | The encoder is a specification written from the wire format, with any choice of code words per field. |
| C25 | TSSC time-delta history stays sorted and distinct | proved | `C25_deltas` |  |
| C26 | TSSC decoder reads only inside the packet | partial | `C26_refuted`, `C26_panics_iff_cut_short_partial`, `C26_rest_irrelevant_partial`, `C26_stays_inside_partial`, `C26_panics_only_at_end_partial`, `C26_commands_never_refused_partial`, `C26_terminates_partial` | False of the code: a truncated packet panics (Go bounds check). Proved: a call panics exactly when the packet ends inside what it reads, otherwise the position stays inside, nothing that follows matters, and decoding ends. |
| C27 | TSSC sequence numbers gate decoding | partial | `C27_sequencing_partial`, `C27_stray_packet_refuted` | Decoding is gated by sequence numbers and strays leave it undisturbed (proved); but a stray packet still calls the callback with as many stale or zero measurements as it claims. |
| C28 | Only measurements parsed from the packet are delivered | partial | `C28_invented_measurements_refuted`, `C28_exact_partial` | False of the code: the callback gets as many entries as the packet claims. Proved when the claimed count is right. |
| C29 | Total measurement count equals measurements delivered | proved | `C29_total`, `C29_reset` | Modulo 2^64, for all histories between resets. |
| C30 | Buffer blocks are delivered in order exactly once | partial | `C30_payload_refuted`, `C30_reordered_block_refuted`, `C30_duplicate_block_refuted`, `C30_in_order_partial` | False of the code: payloads are never delivered, reordered blocks are lost, a duplicate fills the queue with 2^32 entries. In-order delivery with signal IDs and confirmations is proved. |
| C31 | The active signal index cache is the one the packet selects | proved | `C31_packet_uses_its_cache`, `C31_update_installed`, `C31_active_is_latest` |  |
| C32 | Base time updates apply to the packets that reference them | proved | `C32_base_times` |  |
| C33 | A connection to a non-STTP peer is rejected before any response is processed | partial | `C33_first_connection_refuted`, `C33_reconnection_partial` | False of the code on the first connection (the validated flag starts true); proved for every later connection and packets of at least six bytes. |
| C34 | Subscription state reflects acknowledged commands | proved | `C34_becomes_subscribed`, `C34_becomes_unsubscribed`, `C34_acknowledged`, `C34_disconnected_unsubscribed` |  |
| C35 | Counters start at zero for each connection and count every byte | proved | `C35_counters`, `C35_start_at_zero` | Modulo 2^64. While a connection is being validated a packet of more than 8198 bytes is refused unread; the theorem excludes it. |
| C36 | Retry delay grows exponentially up to the maximum | partial | `C36_delay_is_capped_backoff_partial`, `C36_delay_range`, `C36_delay_not_monotone_refuted`, `C36_delay_overflow_refuted`, `C36_delay_above_max_refuted` | False for some settings: the exponent drops from 13 to 12, the int32 product overflows, and an interval above the maximum is used uncapped. Proved for all settings without these, including the defaults. |
| C37 | Automatic reconnection gives up after MaxRetries | partial | `C37_gives_up_partial`, `C37_connects_within_limit`, `C37_never_more_dials_partial`, `C37_unlimited`, `C37_refusals_bounded`, `C37_lost_connections_restart_count`, `C37_zero_retries_never_dials_refuted`, `C37_second_connect_never_dials_refuted`, `C37_no_interval_never_gives_up_refuted` | Proved for m >= 1, a positive interval and a counter below m; false for MaxRetries = 0, for RetryInterval <= 0 and for the Connect after a sequence that gave up. |
| C38 | Cancelling a pending reconnect terminates | partial | `C38_cancel_can_hang_refuted`, `C38_stopped_wait_hangs_refuted`, `C38_no_other_hang_partial`, `C38_cancel_during_wait_no_dial_partial`, `C38_cancel_forgotten_refuted`, `C38_cancel_after_wait_forgotten_refuted` | False of the code: stopping the retry timer leaves the waiter and Cancel blocked for ever, and a Cancel outside the wait is forgotten. Proved: these are the only failures. |
| C39 | A Thread runs its function exactly once per Start and Join waits for it | partial | `C39_runs_once_per_start`, `C39_thread_never_deadlocks`, `C39_join_waits_partial`, `C39_start_while_executing_partial`, `C39_join_after_start_returns_early_refuted`, `C39_join_returns_during_execution_refuted` | False of the code: Join can return before the function has begun or while it runs. Proved: one run per Start; a Join that saw the running flag waits. |
| C40 | A Thread never runs its function concurrently with itself | proved | `C40_one_execution_at_a_time` |  |
| C41 | Callbacks can report status without deadlock | partial | `C41_report_in_callback_deadlocks_refuted`, `C41_setter_in_callback_always_deadlocks_refuted`, `C41_flat_code_never_deadlocks_partial` | False of the code: the lock is acquired recursively. Proved for code that does not. |
| C42 | MeasurementReader delivers measurements in order, without loss or duplication | partial | `C42_order_no_loss_partial`, `C42_no_nil_until_close_partial`, `C42_completed`, `C42_everything_arrives_partial`, `C42_meets`, `C42_after_close_refuted` | Proved until Close; after Close nil measurements are returned as if received and the next arrival panics. |
| C43 | Metadata lookup yields one shared record per signal | partial | `C43_racing_lookups_differ_refuted`, `C43_registered_record_shared_partial`, `C43_single_goroutine_partial` | False of the code for racing first lookups; proved after registration and for one goroutine. |
| C44 | Signal kind acronyms round-trip | proved | `C44_acronym_round_trip`, `C44_acronyms_documented`, `C44_parse_iff`, `C44_otherwise_unknown`, `C44_unknown_acronym` |  |
| C45 | Signal references decode into acronym, kind and position | partial | `C45_reference_decodes_partial`, `C45_panics_iff`, `C45_position_fits`, `C45_exactly`, `C45_short_type_refuted`, `C45_no_dash_is_angle_refuted` | Well-formed references decode; false of the code for arbitrary strings: it panics exactly when fewer than two bytes follow the last dash. |
| C46 | Operators propagate NULL | proved | `C46_operators`, `C46_unary_and_in`, `C46_null_tests` |  |
| C47 | Filter conditions treat NULL as false | partial | `C47_comparison_with_null_refuted`, `C47_boolean_null_partial`, `C47_like_is_null_partial`, `C47_statement_partial` | False of the code: a comparison with a NULL column makes the selection fail unless both operands are Boolean (or Boolean and String). Proved for the conditions that do yield NULL, which exclude the row. |
| C48 | Expression evaluation is type-sound | partial | `C48_well_typed`, `C48_panics_only_if_partial`, `C48_operator_panics_iff`, `C48_function_panics_iff`, `C48_in_panics_iff`, `C48_unary_never_panics`, `C48_boolean_with_integer_refuted`, `C48_text_functions_refuted` | Values always have their declared dynamic type. False of the code: operations mixing a Boolean with an Int32 panic. Every panic comes from one of a list of operations, and for each operator, function and IN list whose operands have values the exact condition is proved (PanicSpec.v). |
| C49 | Arithmetic promotes to the wider operand type and is commutative in type | proved | `C49_result_type`, `C49_comparison_type`, `C49_bitwise_integers_only` |  |
| C50 | Comparison operators form a consistent order | partial | `C50_operators_agree`, `C50_exact_operators_agree`, `C50_trichotomy_partial`, `C50_derived_operators_partial`, `C50_kelvin_sign_refuted` | Proved for integers and decimals of any types, Booleans, times, GUIDs and ASCII strings. False of the code for strings with non-ASCII letters, whose equality (case folding) and order (upper-casing) disagree. |
| C51 | Integer division or modulus by zero is an error, not a crash | partial | `C51_division_by_zero_refuted`, `C51_other_divisors_partial` | False of the code: every division or remainder by an integer zero panics. Proved for other divisors. |
| C52 | Logical operators follow two-valued logic on non-NULL operands | proved | `C52_and_or_not`, `C52_null`, `C52_not_null`, `C52_only_booleans` |  |
| C53 | IIF returns the branch selected by its condition | partial | `C53_what_iif_does_partial`, `C53_wrong_branch_refuted` | False of the code: the second argument is evaluated as the condition. |
| C54 | Power computes base raised to exponent | partial | `C54_exponent_ignored_refuted`, `C54_exponent_ignored_any_refuted`, `C54_power_2_3_refuted`, `C54_power_partial`, `C54_decimal_total`, `C54_decimal_partial`, `C54_fraction_refuted` | False of the code: the exponent is replaced by the base. Of decimals, whose powers are written out, proved: the result always exists and is the base raised to the whole part of the base (up to 15 digits, not negative); so the fraction of an exponent is dropped. |
| C55 | LIKE matches patterns with leading/trailing wildcards | partial | `C55_like_exact_partial`, `C55_like_partial`, `C55_no_wildcard_refuted`, `C55_empty_pattern_refuted` | Proved for patterns with a wildcard at one or both ends (letter case ignored: ASCII). False of the code for patterns without wildcard, which match nothing, and the empty pattern, which matches everything. |
| C56 | IN list is equivalent to a disjunction of equalities | proved | `C56_in_is_disjunction` |  |
| C57 | Coalesce, MaxOf and MinOf select the documented argument | proved | `C57_coalesce`, `C57_max_min` |  |
| C58 | Bit shifts shift by the given amount | partial | `C58_shift_left`, `C58_shift_right_partial`, `C58_int64_sign_refuted` | False of the code for Int64 >>, which loses the sign. |
| C59 | String functions are consistent with their mathematical definitions | partial | `C59_contains_starts_ends`, `C59_index_of`, `C59_str_count`, `C59_nth_index_of_partial`, `C59_len`, `C59_substr_partial`, `C59_substr_to_end`, `C59_substr_overflow_refuted`, `C59_reverse`, `C59_split_partial`, `C59_split_exact`, `C59_split_absent_refuted`, `C59_split_refuted`, `C59_nth_index_of_empty_refuted` | False of the code: SubStr with a huge length, NthIndexOf of an empty text and Split with overlapping delimiters panic; Split returns an empty piece when the delimiter is absent or leads (C59_split_exact says what it returns whenever delimiters do not overlap). Proved for the remaining cases. |
| C60 | Selection returns exactly the matching rows in table order | proved | `C60_selected_rows`, `C60_selection_succeeds`, `C60_ordered_permutation`, `C60_table_select_limit` |  |
| C61 | TOP with ORDER BY returns the first rows of the ordered result | partial | `C61_top_before_order_refuted`, `C61_first_matches_sorted_partial`, `C61_no_cut_partial` | False of the code: TOP is applied before ORDER BY. Proved: the first n matches in table order are returned, sorted; the property holds when at most n rows match. |
| C62 | ORDER BY uses a consistent ordering with NULLs first | partial | `C62_less_than`, `C62_strict_weak_order_partial`, `C62_null_first`, `C62_nan_refuted`, `C62_boolean_order_refuted`, `C62_exact_match_refuted` | False of the code with NaN values; TRUE sorts before FALSE; the exact-match flag of an order term is inverted. Proved for all rows without NaN. |
| C63 | Multiple filter statements return each matching row once | partial | `C63_selected_rows`, `C63_each_row_once`, `C63_union`, `C63_order_refuted` | Proved except for the order: rows named by identifiers precede the rows of FILTER statements wherever they are written. |
| C64 | Table and column lookups are case-insensitive maps | proved | `C64_table_found`, `C64_tables`, `C64_remove_result`, `C64_letter_case`, `C64_columns`, `C64_column_by_name`, `C64_column_index` |  |
| C65 | Typed row reads return what was written or an error | partial | `C65_assignments`, `C65_assignment_refused_iff`, `C65_wrong_index_or_type`, `C65_typed_read_partial`, `C65_unchecked_value_refuted`, `C65_column_added_later_refuted`, `C65_value_text`, `C65_by_name`, `C65_value_by_name_refuted` | False of the code: a value of another type is stored and the getter then panics; rows created before a column was added panic; ValueByName returns the raw slot of a computed column. Proved for values of the type of their column. |
| C66 | Row filter limits are respected | partial | `C66_limit_zero_refuted`, `C66_limits_partial` | False of the code for limit 0, which returns one row. Proved for every other limit. |
| C67 | XPath-like node selection returns exactly the matching descendants | partial | `C67_selection_partial`, `C67_no_panic_partial`, `C67_path_of_node`, `C67_panic_refuted`, `C67_any_attribute_refuted`, `C67_equals_in_value_refuted`, `C67_empty_value_refuted`, `C67_path_of_root_refuted` | False of the code: an empty predicate panics, [@*] holds of elements without attributes, values that are empty or contain = are compared wrongly, the path of the root finds nothing. Proved for every path of names, wildcards and other predicates. |
| C68 | Parsed XML trees have consistent links | partial | `C68_links_partial`, `C68_path`, `C68_reload_refuted` | False of the code when a second document is loaded into the same XmlDocument: children and depth of the first remain. Proved for the first load of any tree. |
| C69 | Floating-point thousands formatting groups digits without changing the number | partial | `C69_float_grouping`, `C69_values`, `C69_positive_infinity_refuted`, `C69_infinity_refuted` | Proved for every finite number, precision and pair of symbols that are neither digits nor the minus sign, and for every decimal text; the code prints +Inf as +,Inf. |
| C70 | Signal index caches register metadata without overwriting it | proved | `C70_registry`, `C70_registry_any_source`, `C70_lookup` |  |
| C71 | Every installed cache, buffer block and notification is confirmed, once and with its identity | proved | `C71_confirmations` |  |
| C72 | Encryption is transparent | proved | `C72_encryption_transparent` | AES-CBC itself is a parameter of the model. |
| C73 | A new connection starts from a clean decoding state | partial | `C73_stale_state_refuted`, `C73_misattributed_data_refuted`, `C73_fresh_partial` | False of the code: caches, decoders, base times and the block queue survive a reconnection. Proved: nothing else does; whenever packets refer only to tables, base times and blocks sent on the new connection, what the application sees does not depend on the past. |
| C74 | Measurements are delivered only while subscribed | partial | `C74_data_while_unsubscribed_refuted`, `C74_connected_partial`, `C74_disconnected_partial` | False of the code: the subscription state is not consulted when data arrives. Proved: data is delivered only within a connection, after the publisher has answered on it, one delivery for each data packet. |
| C75 | Message contents reach the callbacks unchanged | proved | `C75_messages` | Decompression is a parameter of the model. |
| C76 | Commands sent from several goroutines arrive intact | partial | `C76_concurrent_sends_corrupt_refuted`, `C76_concurrent_sends_mix_refuted`, `C76_one_sender_partial` | False of the code: the send buffer is shared without a lock. |
| C77 | Unsubscribe does not disturb the responses that follow | partial | `C77_unsubscribe_loses_framing_refuted`, `C77_unsubscribe_loses_packet_refuted`, `C77_undisturbed_framing_partial` | False of the code: a header or packet read while Unsubscribe is under way is dropped. |
| C78 | Arithmetic computes the exact values, wrapped to the operand width | proved | `C78_integers`, `C78_decimals` |  |
| C79 | Selecting signal IDs returns exactly the signals the filter stands for | partial | `C79_signal_ids`, `C79_id_list`, `C79_table_spelling_refuted` | False of the code when a FILTER statement does not spell the table exactly as the primary table name. Proved for every selection that succeeds. |
| C80 | Computed columns read as their expression | partial | `C80_computed_value`, `C80_same_type`, `C80_null_becomes_zero_refuted`, `C80_datetime_boolean_refuted`, `C80_self_reference_refuted` | False of the code: NULL reads as the zero value, a DateTime as an inverted Boolean, and a self-referencing column recurses for ever. Proved otherwise. |
| C81 | A cloned row equals the original | proved | `C81_clone` |  |
| C82 | A publisher's refusal is remembered until the next connection | proved | `C82_failure_response`, `C82_refused_iff` | The session theorem asks for a connection that has been validated for the direction from a refusal to the mark, because an unvalidated connection rejects the packet first. |
| C83 | Loading a DataSet from its XML restores tables, columns and rows | partial | `C83_loadable`, `C83_document`, `C83_foreign_attributes`, `C83_schema_table_refuted` | False of the code only for a table called "schema", which gets the schema element as a record. Proved: accepted exactly when loadable, and the tables, columns and rows of every well-formed document. |
| C84 | A field's text reads as the value it stands for | partial | `C84_field_values_partial`, `C84_plain_strings_partial`, `C84_escaped_string_refuted`, `C84_boolean_one_refuted`, `C84_leading_zero_refuted`, `C84_no_value_refuted` | False of the code: escapes are not undone, Boolean "1" reads as FALSE, leading zeros as octal, and texts that are no values as zero or the nearest limit. Proved for decimal integers, true/false and plain strings. |
| C85 | Dial and Listen accept exactly addresses of a host and a port, and Dial goes only there | partial | `C85_targets`, `C85_bad_address`, `C85_busy`, `C85_listen`, `C85_address_unique`, `C85_ipv6_refuted` | False of the code for hosts that contain a colon, which are dialled without brackets. Everything else is proved. |
| C86 | A new connection begins with exactly the configured messages | partial | `C86_first_dial`, `C86_dial`, `C86_reconnect`, `C86_accept`, `C86_after_metadata`, `C86_frames`, `C86_resubscribe_refuted`, `C86_twice_refuted` | False of the code: after a reconnection of protocol 2 the subscription request without metadata is left out, and after a failed Listen a Dial announces and requests twice. The other theorems give the exact frames of every connection, with that request the only one that may be missing. |
| C87 | A subscriber can connect again | partial | `C87_dial_partial`, `C87_after_disconnect_refuted`, `C87_second_dial_refuted` | False of the code after Disconnect and after a Dial that used up its retries. Proved for histories without either. |
| C88 | Received metadata becomes what is known of each signal | proved | `C88_metadata`, `C88_delivery`, `C88_callbacks`, `C88_fresh`, `C88_start_time` | Values of the rows are those of the row functions of DataRow (C65, C80); the XML tokenizer is a parameter. |
| C89 | The settings given to Subscribe reach the publisher | partial | `C89_in_force`, `C89_request_unique`, `C89_sent_partial`, `C89_dropped_refuted` | False of the code between a reconnection and the answer to the operational modes, when the call is dropped. Proved otherwise. |
| C90 | The configuration of a Dial or Listen governs that connection | partial | `C90_no_reconnect_partial`, `C90_sticky_refuted`, `C90_nil_refuted`, `C90_nil_first`, `C86_dial`, `C86_reconnect` | False of the code: nil keeps an earlier configuration and AutoReconnect cannot be switched off again. Proved: the frames follow the configuration given, nil is the default as long as none was given, and no reconnection when every configuration switches it off. |
| C91 | Numeric functions give the number they name | partial | `C91_floor`, `C91_ceiling`, `C91_round`, `C91_abs_partial`, `C91_sqrt`, `C91_unique`, `C91_abs_least_refuted` | False of the code only for Abs of the least Int32 and Int64, which wraps. Everything else is proved. |
| C92 | Date functions follow the civil calendar | partial | `C92_calendar`, `C92_every_date`, `C92_date_part`, `C92_date_add_partial`, `C92_date_diff_months`, `C92_date_diff_partial`, `C92_units_exist`, `C92_unknown_interval`, `C92_date_add_refuted`, `C92_date_diff_refuted`, `C92_date_diff_wraps_refuted`, `C92_date_diff_far_refuted`, `C92_bad_date_refuted` | False of the code: adding hours or shorter intervals wraps beyond an int64 of nanoseconds, DateDiff can count one interval too many when less than a millisecond is missing, wraps for more than 2^31 milliseconds or seconds and counts at most 292 years, and text that is no date counts as the year 1. Proved otherwise. |
| C93 | String functions give the text they name | partial | `C93_trim`, `C93_trim_left_partial`, `C93_trim_right_partial`, `C93_upper_lower`, `C93_replace`, `C93_replace_fold_partial`, `C93_replace_empty`, `C93_replace_empty_fold_partial`, `C93_str_cmp`, `C93_nulls`, `C93_no_break_space_refuted`, `C93_replace_dollar_refuted` | False of the code: TrimLeft and TrimRight keep no-break spaces and remove U+FFFD; in Replace without regard to case a dollar sign before a letter, digit, underscore, brace or dollar sign in the replacement is taken for a group of the regular expression. Upper, Lower and Replace without regard to case are proved for ASCII text, given that the case tables map ASCII letters as usual. |
| C94 | Convert and the type tests agree with the values | partial | `C94_integers_partial`, `C94_booleans`, `C94_decimals`, `C94_doubles`, `C94_same_type`, `C94_null`, `C94_impossible`, `C94_text`, `C94_unknown_type_partial`, `C94_is_null`, `C94_type_tests`, `C94_type_tests_null`, `C94_interval_refuted`, `C94_bad_text_refuted` | False of the code: every name that begins with INT, UINT or FLOAT is taken for a type, texts that read as no value give zero, and a Boolean converted to Int32 holds a value of another Go type. Proved otherwise for whole parts within the range of the type; the texts that values show as and read from are C123 to C125. |
| C95 | Arithmetic on doubles is correctly rounded | proved | `C95_arithmetic`, `C95_order`, `C95_exact_integers` | Go is taken to compute each operation of the specification of float64 (IEEE 754 binary64, round to nearest even) without fusing. |
| C96 | A filter expression has exactly one reading | proved | `C96_tokens`, `C96_one_token_list`, `C96_parse`, `C96_one_reading`, `C96_every_tree` | The model reads the grammar file; the Go code ANTLR generated from it is taken to implement it (longest match, adaptive prediction, precedence by order of alternatives). Texts outside the grammar are rejected here; ANTLR reports them to a callback and recovers, which is not modelled. |
| C97 | Operators group as documented | partial | `C97_two_operators_partial`, `C97_documented_partial`, `C97_not`, `C97_documented_refuted`, `C97_values_refuted`, `C97_is_null_refuted` | False of the code within a group: + and * have one precedence (1+2*3 is 9), AND and OR have one, IS NULL and IN bind tighter than comparisons. Proved: the actual grouping, and that it is the documented one for operators of different groups. |
| C98 | A literal denotes its value | partial | `C98_literal`, `C98_integer`, `C98_string`, `C98_quote_refuted`, `C98_octal_refuted`, `C98_bracket_refuted`, `C98_hexadecimal_refuted`, `C98_plain_guid_refuted`, `C98_top_refuted` | False of the code: doubled quotes stay doubled, a leading zero makes octal, brackets stay part of the name, hexadecimal numbers of 64 bits become text, TOP with a hexadecimal number has no effect. Proved otherwise. |
| C99 | Spaces, comments and letter case of words do not matter | partial | `C99_layout`, `C99_layout_tokens`, `C99_comment_refuted` | Proved for layouts in the sense of LexSpec: a token that could run on is followed by a space, an operator or the end. False of the code for comments that begin like a measurement key (--PPA:12). |
| C100 | A filter expression text evaluates to what it says | proved | `C100_evaluate`, `C100_evaluate_statements`, `C100_select`, `C100_trees`, `C100_row`, `C100_unknown_column`, `C100_column_without_set`, `C100_unexpected` | What the statements select is C60 to C67. Data sets with tables and columns under distinct names are not required. |
| C101 | DataTable.Select selects by condition, order and limit | partial | `C101_select_partial`, `C101_comment_refuted`, `C101_name_refuted` | False of the code for conditions that end with a comment and for tables whose name is not a plain name. Proved otherwise; which rows that are is C60, C61. |
| C102 | Disconnect shuts the connection down once, without blocking or crashing | partial | `C102_disconnect_partial`, `C102_one_call_partial`, `C102_crash_refuted`, `C102_twice_refuted`, `C102_again_refuted` | Proved for every number of callers and every schedule while the publisher keeps the connection: no crash, no blocking, at most 20 steps for each call and 8 more, at rest all is down and closed; exactly one callback for one call. False of the code when the publisher closes the connection meanwhile (nil pointer; two callbacks), for later calls and for calls without a connection (the callback is called again). |
| C103 | A connection lost to the publisher is reported once | partial | `C103_lost_partial`, `C103_once_refuted` | Proved for all schedules: no crash, one or two callbacks, none before the publisher leaves, at rest all is down, and rest can always be reached (all 1079 reachable states are enumerated by the kernel and shown closed under steps). False of the code: the termination thread can run twice and then calls the callback twice. |
| C104 | The end of one connection does not end the next | partial | `C104_after_disconnect_partial`, `C104_after_loss_partial`, `C104_sequential_refuted`, `C104_new_connection_refuted`, `C104_late_run_refuted` | Proved when everything of the last connection has come to rest before Connect is called. False of the code otherwise: Disconnect followed by Connect can close the new connection and leave the old one open; a second run of the termination thread closes the new connection. |
| C105 | A data channel is closed when its subscription ends | partial | `C105_open_partial`, `C105_returns_partial`, `C105_subscribe_twice_refuted`, `C105_disconnect_blocks_refuted`, `C105_leak_refuted`, `C105_callback_refuted`, `C105_two_readers_refuted`, `C105_data_after_unsubscribe_refuted` | Proved for every history and schedule of programs that subscribe only while subscribed or with no channel open and never from the data callback: the open channel is the wanted one, every call returns, goroutines end. False of the code otherwise: Subscribe twice before the answer makes Unsubscribe and Disconnect block for ever or leaks socket and goroutine; Unsubscribe from the callback blocks for ever; a goroutine scheduled late reads the next socket. |
| C106 | What a publisher sends on a connection is what the application receives | proved | `C106_end_to_end`, `C106_over_tcp` | For compressed packets that are encrypted the plaintext is taken unpadded, or padded after an end-of-stream code; see C107. |
| C107 | Padding of encrypted packets is not taken for data | partial | `C107_compact_partial`, `C107_compressed_partial`, `C107_compressed_refuted` | False of the code: padding is not removed, and a compressed packet whose bits fill whole bytes has no end-of-stream code, so its padding is read as measurements; a concrete padded packet crashes the subscriber. Proved for compact packets and for compressed packets that end with the code. |
| C108 | Disconnect ends automatic reconnection | partial | `C108_disconnect_partial`, `C108_waiting_refuted`, `C108_reconnects_refuted`, `C108_crash_refuted` | False of the code in general: Disconnect while the subscriber waits to retry hangs for ever, and Disconnect while the connection is being lost can be followed by a reconnection or crash. Proved for Disconnect calls on a subscriber at rest, after any history of losses as in C109. |
| C109 | A lost connection is made again, however often it is lost | partial | `C109_reconnects_partial`, `C109_deadlock_refuted`, `C109_gives_up_refuted`, `C109_hangs_refuted`, `C109_order_refuted`, `C109_crash_refuted` | False of the code in general: a second run of the termination thread deadlocks with the reconnect thread or makes it crash; with handleReconnect a new connection that is lost at once makes the subscriber give up or hang; the callbacks can come in the wrong order. Proved, for any number of losses and failed attempts, for schedules in which the termination thread sets its flags before the reader reads again and, with handleReconnect, connections last until it has returned. |
| C110 | A listening subscriber takes one publisher after another | partial | `C110_life_partial`, `C110_accepts_partial`, `C110_loss_partial`, `C110_callbacks_partial`, `C110_crash_refuted`, `C110_deaf_refuted`, `C110_callbacks_refuted` | False of the code in general: a publisher that is accepted while its lost connection is still being ended can crash the subscriber or leave two readers on one connection with Disconnect without effect for ever; a quick reader has a loss reported twice. Proved for any history in which such publishers are made to wait, Disconnect is called at rest and Listen at any time once a disconnection asked for has begun, for one application goroutine. |
| C111 | Disconnect ends listening | partial | `C111_disconnect_partial`, `C111_deadlock_refuted`, `C111_ignored_refuted` | False of the code in general: a publisher that connects during Disconnect deadlocks the accept and the disconnect thread; a connection that is lost just then makes Disconnect do nothing. Proved for calls at rest without publishers meanwhile. |
| C112 | Listen can be called again after Disconnect | partial | `C112_listen_partial`, `C112_crash_refuted`, `C112_orphan_refuted`, `C112_deaf_refuted` | False of the code for Listen right after Disconnect: it can crash, leave the port open for ever, or leave a subscriber that cannot be disconnected. Proved otherwise, after any history as in C110: a Listen during a Disconnect that has begun waits for it. |
| C113 | A UDP data packet is decoded consistently while command channel responses are handled | partial | `C113_alone`, `C113_stores`, `C113_new_connection`, `C113_any_stores_partial`, `C113_unrelated_partial`, `C113_torn_refuted`, `C113_crash_refuted`, `C113_compressed`, `C113_compressed_unrelated`, `C113_put` | False of the code in general: base times are read from the shared array for each measurement, so one packet can be decoded with old and new base times; keys are tested and then read again, so a new connection crashes the goroutine. Proved: whatever is stored, as long as the packet's key is not replaced, nothing crashes, one table is used, values and flags are right and each time whose base time is not replaced; with updates that concern nothing the packet refers to everything is right. The steps of the data goroutine are proved to be those of the packet handler of SubscriberModel when alone (C113_alone), the stores those of the response handlers (C113_stores). A compressed packet is decoded as at one moment between the stores (C113_compressed) if its key is not replaced. Words are read and written atomically and in program order. |
| C114 | The text of a timestamp shows its time | partial | `C114_string_exactly`, `C114_one_time`, `C114_distinct_partial`, `C114_short_partial`, `C114_other_time`, `C114_zero_refuted` | False of the code outside 1677-09-21 to 2262-04-11, where another time is shown; the zero timestamp shows as 1754. Proved: the text is right exactly within that span. The text is specified by its fields: decimal digits of fixed width, a calendar date, no zeros at the end of the fraction. |
| C115 | A date and time of a metadata document is read as the instant it writes, and its text reads back | partial | `C115_reads_partial`, `C115_cell_partial`, `C115_exactly`, `C115_zero_time`, `C115_utc_refuted`, `C115_no_zone_refuted`, `C115_text_partial`, `C115_round_trip_partial`, `C115_milliseconds_refuted` | False of the code: texts in UTC with Z and texts without a zone, both valid in XML Schema, are read as the beginning of year 1, and the text of a value is cut to 10 ms. Proved: numeric zones, any number of digits (nanoseconds kept), exactly which texts are read, and the round trip to 10 ms. |
| C116 | The text of an identifier determines it and reads back | partial | `C116_parse`, `C116_string`, `C116_round_trip`, `C116_distinct`, `C116_field`, `C116_field_refuted`, `C116_braces_refuted` | False of the code: a metadata field that is no Guid is read as the empty Guid or as the bytes before the mistake, and 38 bytes with anything in place of the braces are accepted. Proved otherwise, for all identifiers and texts. |
| C117 | A GUID written in a filter expression is that GUID | partial | `C117_plain`, `C117_quotes`, `C117_braces`, `C117_some_dashes_refuted` | False of the code for tokens with some of the dashes, and for 32 digits in braces: parsing the expression fails. Proved otherwise for every GUID and every form. |
| C118 | A floating-point number is shown as its nearest decimal | proved | `C118_text`, `C118_one_nearest`, `C118_exact`, `C118_order`, `C118_determines`, `C118_special`, `C118_expression_text` | strconv.FormatFloat is modelled as exact decimal expansion rounded half to even; its fast paths are not modelled. |
| C119 | The text of state flags names exactly the flags that are set | proved | `C119_text`, `C119_distinct` | All 32 names are in the specification. |
| C120 | The text of a measurement shows its parts | partial | `C120_text`, `C120_value`, `C120_special`, `C120_distinct`, `C120_time_partial`, `C120_time_refuted` | False of the code for timestamps outside 1677 to 2262, in particular 0, which show another time of day (C114). Proved otherwise, with C118_determines for what the text of the value determines. |
| C121 | An adjusted value is the value times the multiplier plus the adder | partial | `C121_linear`, `C121_unregistered`, `C121_default_partial`, `C121_default_refuted`, `C121_written`, `C121_connection_refuted` | False of the code: every connection, also an automatic reconnection, forgets all records; negative zero becomes positive zero. Proved otherwise; a product beyond the greatest double is left out of C121_linear. |
| C122 | A signal has one metadata record | partial | `C122_one_record_partial`, `C122_registered`, `C122_first`, `C122_race_refuted` | False of the code: LookupMetadata ignores what LoadOrStore returns, so goroutines that look up a new signal at the same time get different records and writes to all but one are lost. Proved when they do not, and that a registered record stays the one until a connection is set up. |
| C123 | A number written as text is read as the nearest floating-point number | partial | `C123_field`, `C123_convert`, `C123_literal`, `C123_fits`, `C123_only`, `C123_special`, `C123_no_number_refuted` | False of the code: a field that is no number is read as zero. Proved otherwise for exponents below 100000 (strconv stops counting there); texts with underscores or hexadecimal digits, which Go also accepts, are left out of C123_only. |
| C124 | A number written as text is read exactly as a decimal | partial | `C124_field`, `C124_convert`, `C124_literal`, `C124_only_partial`, `C124_sign_refuted` | False of the code: a sign between point and digits is accepted and shifts the number, and a field that is no number is read as zero. Proved otherwise, for exponents of 32 bits. |
| C125 | A decimal is shown exactly, and its text reads back | proved | `C125_text`, `C125_same`, `C125_round_trip`, `C125_as_double` | The round trip holds for exponents of 32 bits, which is what a Decimal has. |
| C126 | The quotient of decimals is the nearest with sixteen decimals | proved | `C126_quotient`, `C126_exact` | shopspring/decimal with its default DivisionPrecision of 16. |
| C127 | A delivered slice of measurements is the application's until it gives it back | proved | `C127_kept`, `C127_delivered`, `C127_full`, `C127_rule_needed` | Slices the application makes itself have arrays of their own: a part of a delivered slice given back as a slice of its own is not modelled. |
| C128 | Close shuts the subscriber down, and it stays down | partial | `C128_close_partial`, `C128_one_call_partial`, `C128_stays_down`, `C128_early_refuted`, `C128_in_callback_refuted`, `C128_in_terminated_refuted`, `C128_dial_refuted`, `C128_again_refuted` | False of the code: Join does not wait for a thread that has been started but does not run yet, so Close may return with the connection open; called in a callback it deadlocks; a Dial that is under way connects afterwards; after Disconnect the callback is called again. Proved: any number of calls return, within a bound on steps, and leave the subscriber down, a call that waited returns after the end, and no later Dial connects. A publisher that closes the connection meanwhile is left out (C102_crash_refuted), and so is automatic reconnection, where Close may hang (C38, C108). |
| C129 | What is shown of columns, rows, tables, codes and operators tells them | partial | `C129_column`, `C129_column_determined`, `C129_row`, `C129_row_determined_partial`, `C129_row_determined_refuted`, `C129_null_refuted`, `C129_table`, `C129_data_set`, `C129_data_set_repeated_refuted`, `C129_commands`, `C129_responses`, `C129_kinds`, `C129_response_names`, `C129_kind_names`, `C129_command_names_partial`, `C129_command_names_refuted`, `C129_other_codes`, `C129_operators`, `C129_null_tests`, `C129_signs`, `C129_functions`, `C129_names` | False of the code: quotes in strings of a row are not escaped and a missing string shows like the string <NULL>, so different rows can show alike; a data set lists its tables in the order of a map, another one each time; ConfirmUpdateBaseTimes shows as 0x9. The rest is proved; a row determines the texts of its columns where these have no comma. |
| C130 | A command that fails ends its own connection, once | partial | `C130_stays`, `C130_lost_partial`, `C130_once_refuted`, `C130_next_refuted`, `C130_wrong_connection_refuted` | False of the code: a command that fails while the reader fails too ends the connection a second time, or the next connection if the application has connected again; a command begun on one connection can be written to the next. Proved: on a connection that stays every command is written once and nothing ends; after a loss everything comes to an end, with at least one callback and at most two and one for each failed command. |
| C131 | A computed column holds its expression's value in the column's type | partial | `C131_whole`, `C131_wraps`, `C131_boolean`, `C131_boolean_special`, `C131_decimal`, `C131_text`, `C131_float_whole`, `C131_single_of_double`, `C131_float_of_decimal`, `C131_signed_text`, `C131_unsigned_text`, `C131_boolean_text`, `C131_number_text`, `C131_other_text`, `C131_impossible`, `C131_range_refuted`, `C131_panic_refuted`, `C131_single_text_refuted` | False of the code: a number beyond the range of the column reads as the number with the same low bits (C131_range_refuted, exactly which in C131_wraps), NaN and the infinities make the read of a Decimal column panic, and a text in a Single column is rounded twice and can miss the nearest number. Proved otherwise for every pair of types. What a Double beyond the range of an integer column and which decimal a Double gives are parameters; NULL, a date in a Boolean column and a column computed from itself are in C80. |
| C132 | The signal type acronym tells kind and phasor type | proved | `C132_phasors`, `C132_others`, `C132_unknown`, `C132_determines` | unicode.ToUpper as in C44. |
| C133 | Nothing given means the documented defaults | proved | `C133_dial`, `C133_dial_udp`, `C133_subscribe`, `C133_retries`, `C133_reconnects` | The statements give the bytes sent and the times waited. The attempts are fewer than 2^31, as the counter of attempts has 32 bits. The settings text lacks an equals sign after requestNaNValueFilter (C20). |
| C134 | Unsubscribe does not disturb the end of the connection | partial | `C134_stays`, `C134_apart_partial`, `C134_ignored_refuted`, `C134_crash_refuted`, `C134_twice_refuted`, `C134_lost_crash_refuted`, `C134_lost_partial` | Proved: Unsubscribe alone leaves the connection as it was, calls that do not overlap end it properly, and short of a crash a lost connection is always reported and everything ends. False of the code when they overlap: Disconnect is ignored, or a nil pointer is used, or the end is reported twice. |
| C135 | Overlapping calls close the data channel, return and do not crash | partial | `C135_ending_partial`, `C135_heard`, `C135_unsubscribes`, `C135_disconnects`, `C135_crash_refuted`, `C135_leak_refuted`, `C135_port_lost_refuted`, `C135_waits_refuted` | Proved for any number of goroutines that call Unsubscribe and Disconnect: short of a crash all calls return within a bound and the channel is closed; no crash when all call the same; and for any calls, when all have returned the next Disconnect is heard. False of the code otherwise: Unsubscribe beside Disconnect can use a nil pointer, Subscribe beside Disconnect leaves its socket open, after which the port can be lost for the life of the process, and Unsubscribe beside Subscribe can wait for the new channel while Disconnect does nothing. |
| C136 | A filter expression parser can be asked again | partial | `C136_first_partial`, `C136_results_stand`, `C136_trees_stand`, `C136_again_refuted`, `C136_set_refuted` | Proved: the first Evaluate selects what SelectDataRows, SelectDataRowSet and SelectSignalIDSet select, its results stand whatever is asked until the next Evaluate, and ExpressionTrees repeats its answer. False of the code: the text is read once, so every Evaluate after an Evaluate or after ExpressionTrees succeeds and selects nothing; and a set asked for before ExpressionTrees stays empty. |
| C137 | Loading a document into a data set replaces the tables it defines and leaves the others alone | partial | `C137_loads`, `C137_defined`, `C137_others_partial`, `C137_again`, `C137_rows_lost_refuted` | Proved: the load succeeds, the tables the document defines are as in an empty data set, no table disappears or appears otherwise, the others keep their names and columns, and a second load changes nothing. False of the code: a load empties every table of the data set first, so a table the document neither defines nor has records for loses all its rows, and one it has records for gets those. |
| C138 | Connecting, reconnecting, callbacks and registrations do not stop one another | partial | `C138_never_deadlock_partial`, `C138_receivers_that_register_refuted`, `C138_receiver_that_reports_refuted`, `C138_listening_refuted`, `C138_reconnecting_refuted` | Proved when receivers inside the lock of the Subscriber use no lock, those inside the lock of the DataSubscriber only report and register with the Subscriber, no command fails while a listening subscriber is being connected to, and no connection is lost again before the reconnection has ended. False of the code otherwise: receivers that register can stop each other for ever (the locks are taken in both orders), so can one that only reports, and a listening subscriber whose first command fails while a receiver is registered stops by itself, and so does one whose connection is lost again while the reconnection sends a command that fails. |
| C139 | A receiver can be registered at any time | partial | `C139_exclusive`, `C139_no_race_partial`, `C139_subscription_updated_refuted` | Proved for every registration but one, whatever the receivers do. False of the code for SetSubscriptionUpdatedReceiver, which assigns a field of the DataSubscriber in the lock of the Subscriber. |
| C140 | The receiver registered last is the one that is called | partial | `C140_registered`, `C140_receivers`, `C140_reports`, `C140_connected_partial`, `C140_messages_partial`, `C140_connector_partial`, `C140_connected_refuted`, `C140_logger_refuted` | Proved for all receivers and for messages reported through the Subscriber, and for connections unless the subscriber has listened before it dials. False of the code: a logger registered after Dial or Listen gets none of the messages of the library (they go to the one registered before), and after a Listen the connection-established receiver is called twice by every dial and reconnection. |
| C141 | A subscriber has one connection at a time, however many goroutines connect it | partial | `C141_refused`, `C141_one_connection_partial`, `C141_one_connection_refuted` | Calls made after a success are refused under every schedule, and calls that take turns leave one connection at most, the one the subscriber knows. False of the code for calls that overlap: connected is tested before the mutex and not again inside, so any number of goroutines can all connect, and all connections but the last are lost while open. |
| C142 | The application is told everything once, in the order in which it happened | partial | `C142_once`, `C142_order_partial`, `C142_after`, `C142_order_refuted` | Once and never before what is sequenced before it: proved for everything. In order: proved for measurements, buffer blocks, start times and connections made and ended. False of the code for everything else, which is told by a goroutine started for the one call: any order is possible. |
| C143 | What is known of a signal is what the metadata document received last says | partial | `C143_last_partial`, `C143_some`, `C143_last_refuted`, `C143_mixed_refuted` | Proved for documents each of which is loaded before the next arrives; under every schedule each field is as some received document says. False of the code for documents that arrive while another is being loaded: the first can overwrite the second, and one record can hold fields of both. |
| C144 | A metadata document is read as it was received, whatever is received after it | partial | `C144_compressed`, `C144_plain_partial`, `C144_plain_refuted` | Proved for compressed metadata under every schedule, and for plain metadata if only packets without data are received before the document has been read. False of the code otherwise: the goroutine is given a slice of the read buffer, so the next packet can take the place of the document. |
| C145 | After Unsubscribe the publisher is not asked for data until the application asks for it | partial | `C145_silent_partial`, `C145_metadata`, `C145_again`, `C145_silent_refuted` | Proved unless AutoRequestMetadata and AutoSubscribe are both set, and in any configuration as long as no metadata is received. False of the code under the default configuration: any metadata received after Unsubscribe, for instance because the configuration of the publisher changed, is followed by the subscription request again. |
| C146 | A subscriber that listens keeps listening, and dials nobody, until it is told to stop | partial | `C146_plain_partial`, `C146_endless_partial`, `C146_zero_partial`, `C146_dials_partial`, `C146_next`, `C146_stops_refuted`, `C146_twice_refuted`, `C146_noise_refuted` | Proved if the subscriber never dialed with AutoReconnect; it keeps listening also with MaxRetries -1 or 0, accepts one publisher after another while it listens, and dials nobody unless a dial was already under way. False of the code otherwise: if Listen follows a Dial that failed or a connection that was lost, the next loss starts a reconnect thread whose attempts are all refused; it ends by disconnecting the listener (any MaxRetries above 0) or goes on beside a new connection (-1). |
| C147 | Every reader of measurements returns what is received since it was made, and can be given up | partial | `C147_latest_partial`, `C147_read_on`, `C147_replaced_refuted`, `C147_given_up_refuted`, `C147_since_refuted` | Proved for the measurements received while the reader is the last one made, and that all goes on once what is left of a batch has been read. False of the code: a later reader replaces the earlier ones, which return nothing more; and while a measurement waits to be read, the delivering goroutine holds the callback lock, so that no packet is handled, no reader made and no Disconnect completed. |


## 5. Findings: where the code falsifies a property

Transport

* Signal index cache, TSSC, compact and encrypted packets: truncated or
  oversized contents panic the process (C13, C15, C26).
* Commands with payloads over 32763 bytes panic, also `Subscribe` with a long
  filter (C17).  Concurrent sends share one buffer (C76).
* The NaN filter setting is sent without `=` (C20).  A filter expression with
  unbalanced braces injects settings (C20).  The version bits overlap other
  operational modes for versions below 10 (C19).
* A TSSC packet out of sequence still calls the callback with stale or zero
  measurements, as many as the packet claims (C27, C28).
* Buffer blocks: payloads are never set, reordered blocks are dropped though
  confirmed, a duplicate queues 2^32 entries (C30).
* Caches, decoders, base times and queued blocks survive a reconnection (C73).
  The first connection is never validated (C33).  Data is delivered while not
  subscribed (C74).  `Unsubscribe` can drop a header and lose framing (C77).
* Retry delays are not monotone and overflow (C36); `MaxRetries` 0 never dials
  (C37); cancelling a waiting retry hangs for ever (C38).
* `Join` may return early (C39).  Callbacks that report or set callbacks can
  deadlock (C41).  A reader after `Close` returns nil measurements (C42).
  Racing metadata lookups give distinct records (C43).
* `Close` may return with the connection still open, and deadlocks when called
  in a callback (C128).
* A computed value beyond the range of its column reads as another number; NaN in a Decimal column panics; a text in a Single column is rounded twice (C131).
* A command that fails can end a connection twice, or end the next one (C130).
* `DataRow.String` does not escape quotes and shows a missing string like the
  string `<NULL>`; `ServerCommandEnum.String` has no case for
  `ConfirmUpdateBaseTimes` (C129).
* `Replace` without regard to letter case expands dollar signs in the replacement
  as regular expressions do: `$5` becomes nothing (C93).
* Signal references without two bytes after the last dash panic (C45).

Values and formatting

* `FromTime` is wrong before 1970 (C03); hash set relations with slices
  miscount duplicates (C08); `+Inf` is formatted as `+,Inf` (C69).

Expressions and tables

* Operations mixing Boolean and Int32 panic, integer and decimal division by
  zero panic (C48, C51 area); comparisons with NULL make a selection fail (C47).
* `Power` of decimals drops the fraction of the exponent (C54).
* `IIf` tests its second argument, `Power` computes b to the b, `LIKE` without
  wildcard never matches, Int64 `>>` is logical, `Split`, `SubStr` and
  `NthIndexOf` panic on some inputs, for example `Split('aaaa', 'aa', 2)`
  (C48_text_functions_refuted; C52-C59).
* `Abs` of the least integers wraps (C91).  `DateAdd` of hours or less wraps;
  `DateDiff` in days of 100000 days less a nanosecond is 100000, in milliseconds of
  30 days negative, and beyond 292 years always the same; text that is no
  date counts as 0001-01-01 (C92).  The set of characters that `TrimLeft` and
  `TrimRight` remove is written with bytes that are not UTF-8, so no-break
  spaces stay and U+FFFD goes (C93).  `Convert(x, 'Interval')` converts to Int64;
  unparsable text converts to zero (C94).
* TOP is applied before ORDER BY (C61); NaN breaks sorting, TRUE sorts before
  FALSE, the exact-match flag is inverted (C62); identifiers precede filter
  results (C63); `RowsWhere` with limit 0 returns one row (C66).
* `SetValue` accepts values of any type and the getter then panics; rows are
  not extended when columns are added; `ValueByName` does not evaluate computed
  columns (C65).  Table identifier fields are looked up case-sensitively (C79).
  NULL results of computed columns read as zero, DateTime results as inverted
  Booleans, self-referencing columns recurse for ever (C80).

Filter expression texts

* All arithmetic operators have one precedence, and so have AND and OR: `1+2*3`
  is 9, TRUE OR TRUE AND FALSE is FALSE.  `a = b IS NULL` is `a = (b IS NULL)`.
  The grammar's comment documents the usual order (C97).
* `'it''s'` keeps both quotes, `010` is 8, `[Size]` looks for a column with the
  brackets in its name, `0xFFFFFFFFFFFFFFFF` is a text, a GUID without dashes
  reads as a name or number, `TOP 0x10` has no effect (C98).
* `--PPA:12` is a measurement key rather than a comment; `5 --3` is 5 (C99).
* `DataTable.Select` pastes its arguments into a statement: a condition that ends
  with a comment swallows the order, a table name with a space or equal to a
  word of the language gives no statement (C101).
* Syntax errors only reach the callback for syntax errors; evaluation goes on
  with what ANTLR recovered (not modelled).

Simplified API (`sttp/Subscriber.go`)

* A bracketed IPv6 host is dialled without brackets and cannot be reached (C85).
* After `Disconnect` every later `Dial` of the same subscriber fails without
  dialling; so does a `Dial` after one that used up its `MaxRetries` (C87).
* After a reconnection a protocol 2 subscriber configured to subscribe without
  metadata never subscribes; after a failed `Listen`, `Dial` announces the
  connection and requests the metadata twice (C86).
* `Subscribe` between a reconnection and the publisher's answer to the
  operational modes is dropped silently (C89).
* A nil `Config` keeps the previous one; `AutoReconnect` false does not undo an
  earlier true (C90).

XML

* `SelectNodes("a[]")` panics; `[@*]` holds of elements without attributes;
  `[@a='x=y']` holds of every element with attribute a; `[@a='']` never holds;
  a `/` inside a predicate splits the path; the path of the root selects
  nothing (C67).
* Loading a second document into an `XmlDocument` keeps the children and the
  depth of the first (C68).
* `Prefix` depends on the map iteration order when two attributes hold the
  namespace; attributes of equal local name in different namespaces collide.
* A table called "schema" receives the schema element as a record; records
  match tables by exact case although tables are looked up in any case (C83).
* Field texts: escapes such as `&amp;` stay in strings, Boolean "1" reads FALSE,
  "010" reads 8, unparsable numbers read as 0 or the nearest limit, times with
  a zone suffix as the zero time (C84).

### How connections end (ShutdownModel)

* A publisher that closes the connection while the application calls `Disconnect`
  can crash the process: two disconnect threads find the reader's thread non-nil,
  one sets it to nil, the other calls `Join` on nil.  The disconnect thread of a
  lost connection does not take `connectActionMutex` (C102).  Without the crash the
  terminated callback is called twice.
* `Disconnect` on a subscriber that is not connected calls the terminated callback (C102).
* `Thread.Start` marks a thread as running only once its goroutine runs.  The
  reader's loop can therefore start the termination thread a second time: the
  terminated callback is called twice (C103), and if the application has connected
  again meanwhile the new connection is closed although nobody asked (C104).
* For the same reason `Connect` right after `Disconnect` does not wait: the disconnect
  thread can then close the new connection and leave the old one open (C104).

### The UDP data channel (ChannelModel)

* A second `Subscribe` before the publisher has answered the first does not close
  the first channel.  With a fixed port it fails, forgets the first socket, and
  `Unsubscribe` and `Disconnect` then wait for a goroutine nobody stops; with port 0
  the first socket and its goroutine stay for ever (C105).
* `Unsubscribe` from the measurements callback joins its own goroutine: it never
  returns (C105).
* The goroutine takes the socket from the field when it is scheduled, not when it is
  started: it can read the next channel's socket beside the next goroutine, and
  deliver after `Unsubscribe` has returned (C105).
* `Unsubscribe` borrows the flag that tells that a disconnection is under way.  A
  `Disconnect` called meanwhile does nothing; a disconnection during which the flag is
  cleared runs a second time beside itself, which reports the end twice or uses a nil
  pointer (C134).
* `Subscribe` overlapping `Disconnect` opens a UDP socket that nobody closes; the next
  `Subscribe` on that port fails and forgets the socket, so that the port stays in use.
  `Unsubscribe` overlapping `Disconnect` can use a nil pointer; overlapping `Subscribe`
  it can wait as long as the new channel is open, and `Disconnect` does nothing
  meanwhile (C135).
* A `FilterExpressionParser` reads its text once: `Evaluate` after an `Evaluate` or after
  `ExpressionTrees` succeeds and selects nothing.  A set asked for before
  `ExpressionTrees` stays empty though the list is not (C136).
* Loading a document into a data set that has tables already empties every table first:
  one the document neither defines nor has records for keeps its columns and loses all
  its rows (C137).
* The locks of `Subscriber` and `DataSubscriber` are taken in both orders when receivers
  register receivers, which can stop both for ever; a listening subscriber enters the
  lock of the `DataSubscriber` twice when its first command fails and stops for ever if a
  receiver is being registered; the same happens when a connection is lost again while
  the reconnection is sending a command, because the end of the connection waits for the
  reconnection inside the lock (C138).
* `SetSubscriptionUpdatedReceiver` assigns a field of the `DataSubscriber` in the lock of
  the `Subscriber`: a data race with the arrival of a signal index cache (C139).
* `Dial` and `Listen` copy the loggers: one registered later gets none of the library's own
  messages until the next `Dial` or `Listen` (C140).
* `connect` looks at the connected flag before it takes the mutex and not again inside: goroutines
  that connect at once can all succeed, and all their connections but the last stay open and are
  known to nobody (C141).
* Status and error messages, notifications, metadata, signal index caches, configuration changes and
  the end of a historical read are each told by a goroutine of their own: they can arrive in any
  order, and after measurements that followed them (C142).
* Each metadata document is loaded by a goroutine of its own, without a lock: of two received one
  after the other the first can overwrite the second, or a record can hold fields of both (C143).
* Metadata that is not compressed is handed to its goroutine as a slice of the read buffer: the
  packet that follows can overwrite it before it is parsed (C144).
* Under the default configuration `Unsubscribe` lasts only until the next metadata: the handler
  subscribes again, for instance after a change of the publisher's configuration (C145).
* A second `MeasurementReader` replaces the first, which waits for ever; and a reader that is not
  read stops the handling of packets, new registrations and the end of `Disconnect` (C147).
* Every `Unsubscribe` with a data channel reports the closed socket as an error.

### Encrypted packets (EndModel)

* `decipherAES` leaves the padding in place.  A compressed packet is read to the end
  of the data unless it ends with an end-of-stream code, which it does only if its
  bits do not fill whole bytes.  The padding of other packets is decoded as
  measurements; the first packet of a stream, padded as PKCS #7 says, crashes the
  subscriber (C107).

### Automatic reconnection (ReconnectModel)

* `Cancel` stops the retry timer; nothing is ever sent on the channel of a stopped
  timer, so `waitForRetry` never returns and `Cancel` joins its thread for ever:
  `Disconnect` while the subscriber waits to retry leaves it disconnecting for good,
  and every later `Disconnect` returns without effect (C108).
* The reconnect thread clears the cancel flag that a concurrent `Disconnect` has just
  set: `Disconnect` returns and the subscriber connects again (C108).  `Disconnect` and a loss
  at once may both forget the reader's thread: crash (C108).
* A second run of the termination thread (C103) calls `autoReconnect` while the first
  reconnect thread runs: it joins that thread holding the callback lock, which that
  thread needs for writing.  Deadlock (C109).  Or it sets the new reader's thread to nil
  before the reconnect thread starts it: crash (C109).
* `handleReconnect` calls `Disconnect` from the reconnect thread if the new connection
  is gone already: the subscriber gives up although AutoReconnect is on, or hangs
  because `Disconnect` waits for the next reconnect thread's stopped timer (C109).
* The established callback is called after the reader has started: a connection that
  is lost at once is reported terminated first (C109).

### Listening (ListenModel)

* The disconnect thread after a loss takes no lock.  A publisher that is accepted while
  it runs has its new reader's thread set to nil before it is started (crash), or joined
  by that disconnect thread: two goroutines read one connection, `disconnecting` stays
  set and `Disconnect` does nothing from then on (C110).
* `Disconnect` holds the connection lock and joins the accept thread; if that has just
  accepted a publisher it waits for the lock.  Deadlock (C111).
* `Disconnect` at the moment of a loss does nothing: the subscriber keeps listening
  (C111).
* `Join` does not wait for a thread that has not begun to run, so `Listen` right after
  `Disconnect` does not wait for it: it finds its own port taken and sets the listening
  socket to nil, which crashes the accept thread or loses the open socket; or the
  disconnect thread joins the new accept thread and waits for ever (C112).
* `Listen` keeps the reconnect callback of an earlier `Dial` unless `Disconnect` was called in
  between: a loss then starts a reconnect thread whose every attempt is refused because the
  subscriber is listening.  It ends by closing the listener, or never ends (C146).

### The data channel during updates (MixModel)

* `parseCompactMeasurements` passes a pointer to `ds.baseTimeOffsets`, which the command
  channel goroutine overwrites without a lock: measurements of one packet can be decoded
  with different base times (C113).
* `handleDataPacket` tests `ds.keyIVs` and reads it again for its "local copy"; a new
  connection sets it to nil, and a data goroutine left over from the old one (C105) then
  indexes a nil slice and crashes the process (C113).

### Texts of times (StampModel)

* `ToTime` multiplies by 100 in an int64, so timestamps before 1677-09-21 or after
  2262-04-11 are shown as other times; the zero value of `Ticks` shows as
  1754-08-30 22:43:41.128654848 (C114).
* `DateTimeFormat` wants a numeric zone: `2020-01-01T00:00:00Z` and a text without a zone
  are both read as the beginning of year 1, since the error of `time.Parse` is dropped
  (C115).
* The text of a date/time value keeps hundredths of a second only (C115).

### Texts of identifiers and numbers (GoTextModel), records (MeasTextModel)

* `guid.Parse` returns what it has read so far beside its error, and metadata loading and
  `Convert` drop the error: a text with a mistake near its end is read as a Guid filled
  up with zeros; 38 bytes are accepted without looking at the braces (C116).
* The grammar's GUID token allows every dash to be left out; the parser behind it does
  not, so such a literal, even as a quoted text, is an error (C117).
* `format.Float` of positive infinity is `+,Inf` (C69).
* `LookupMetadata` ignores the result of `LoadOrStore` (C122), and the registry is
  replaced whenever a connection is set up, also by an automatic reconnection, so adders
  and multipliers set by the application are forgotten (C121).

### Texts of numbers (NumTextModel)

* `decimal.NewFromString` accepts a sign after a leading point: `.-5` is -0.05 (C124).
* Fields of metadata documents of type xs:double, xs:float and xs:decimal that are no
  numbers are read as zero, and numbers out of range as infinities, because the errors of
  the parsers are dropped (C123, C124).
* A literal with an exponent beyond the range of a double (`1e400`) is a Decimal, with an
  exponent in range a Double.
* `strconv.ParseFloat` also reads underscores and hexadecimal numbers, so `IsNumeric`
  holds of them.
