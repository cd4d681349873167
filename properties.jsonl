{"id": "C01", "title": "Leap-second flags never disturb the time and read back exactly", "statement": "For any 64-bit tick value, applying or setting a leap second (positive or negative direction) and querying it: IsLeapSecond is true afterwards, IsNegativeLeapSecond reads exactly the direction that was last set, and TimestampValue is the same 62-bit value as before any sequence of such operations.", "quantifier": "every 64-bit tick value and every finite sequence of leap-second operations on it", "why_tests_cant": "There are 2^64 tick values and unbounded operation sequences; a test samples a handful.", "anchors": ["sttp/ticks/Ticks.go: Ticks.TimestampValue, IsLeapSecond, SetLeapSecond, ApplyLeapSecond, IsNegativeLeapSecond, SetNegativeLeapSecond, ApplyNegativeLeapSecond, SetLeapSecondDirection"]}
{"id": "C02", "title": "Ticks and Unix nanoseconds round-trip at 100 ns resolution", "statement": "Converting a non-negative Unix nanosecond time to Ticks and back yields that time rounded down to a multiple of 100 ns, conversion preserves order, and converting Ticks (from 1970 on, while the nanosecond count fits in int64) to a Unix nanosecond count and back yields the same timestamp value, whatever the leap-second flag bits.", "quantifier": "every representable time from the Unix epoch to the int64 nanosecond limit, every flag combination", "why_tests_cant": "The domain is ~2^63 instants; truncation and wrap errors hide at boundaries.", "anchors": ["sttp/ticks/Ticks.go: FromUnixNano, FromTime, ToUnixNano, ToTime, ValueMask, UnixBaseOffset"]}
{"id": "C03", "title": "Ticks round-trip any time.Time", "statement": "FromTime followed by ToTime returns the same instant at 100 ns resolution for every time a caller can pass, including instants before 1970.", "quantifier": "every time.Time whose UnixNano is defined (years 1678-2262), including negative Unix times", "why_tests_cant": "The failing region (pre-epoch times) is not exercised by the tests, and only a proof delimits exactly where the law holds.", "anchors": ["sttp/ticks/Ticks.go: FromTime, FromUnixNano, ToTime, ToUnixNano"]}
{"id": "C04", "title": "GUID ordering is a total order consistent with equality", "statement": "Compare is reflexive, antisymmetric, transitive and total over GUIDs, returns 0 exactly for equal GUIDs, returns only -1/0/1, and orders GUIDs exactly as their 16 big-endian bytes compare lexicographically.", "quantifier": "all pairs and triples of 128-bit GUIDs", "why_tests_cant": "2^256 pairs; sorting with a comparator that is inconsistent anywhere is undefined.", "anchors": ["sttp/guid/Guid.go: Guid.Compare, Compare, Guid.Components, Equal"]}
{"id": "C05", "title": "GUID byte encodings are lossless in both byte orders", "statement": "FromBytes of ToBytes with the same byte-order flag returns the same GUID; converting with the opposite flag yields the RFC field-swapped GUID and twice swapping is the identity; FromBytes fails exactly on slices shorter than 16 bytes, ignores bytes after the 16th, and leaves the caller's slice unmodified.", "quantifier": "all 128-bit GUIDs, all byte slices, both byte orders", "why_tests_cant": "2^128 GUIDs and arbitrary slices.", "anchors": ["sttp/guid/Guid.go: FromBytes, Guid.ToBytes, swapGuidEndianness, Guid.Components"]}
{"id": "C06", "title": "HashSet mutators implement set algebra", "statement": "Starting from any set, Add/Remove report whether membership changed, and UnionWithSet, IntersectWithSet, ExceptWithSet, SymmetricExceptWithSet and the slice forms of union, intersection and difference leave exactly the members the mathematical operation prescribes; the argument is not changed.", "quantifier": "all finite sets over any comparable key type, all sequences of operations, any map iteration order", "why_tests_cant": "Set contents and map iteration order are unbounded/nondeterministic.", "anchors": ["sttp/hashset/HashSet.go: HashSet.Add, Remove, Contains, UnionWith, UnionWithSet, IntersectWith, IntersectWithSet, ExceptWith, ExceptWithSet, SymmetricExceptWithSet"]}
{"id": "C07", "title": "HashSet set-to-set relations are exact", "statement": "IsSubsetOfSet, IsProperSubsetOfSet, IsSupersetOfSet, OverlapsSet and SetEqualsSet return true exactly when the mathematical relation between the two sets holds, and IsProperSupersetOfSet agrees with it whenever the receiver is non-empty.", "quantifier": "all pairs of finite sets", "why_tests_cant": "Unbounded sets; off-by-one in length shortcuts shows only for particular sizes.", "anchors": ["sttp/hashset/HashSet.go: IsSubsetOfSet, IsProperSubsetOfSet, IsSupersetOfSet, IsProperSupersetOfSet, OverlapsSet, SetEqualsSet"]}
{"id": "C08", "title": "HashSet relations against slices do not depend on repeated elements", "statement": "SetEquals, IsSupersetOf, IsProperSupersetOf, IsSubsetOf, IsProperSubsetOf, Overlaps and SymmetricExceptWith given a slice behave as if given the set of that slice's elements.", "quantifier": "all sets and all slices, including slices with duplicates and the empty set", "why_tests_cant": "Requires quantifying over duplicate patterns; existing tests only use duplicate-free slices.", "anchors": ["sttp/hashset/HashSet.go: SetEquals, IsSupersetOf, IsProperSupersetOf, IsSubsetOf, IsProperSubsetOf, Overlaps, SymmetricExceptWith"]}
{"id": "C09", "title": "Thousands formatting is faithful and grouped by three", "statement": "Formatting any 64-bit signed or unsigned integer never panics; deleting the group separator from the result gives exactly the decimal text; the separator appears exactly between digit groups of three counted from the right, and the sign is kept.", "quantifier": "every int64 and uint64 value and every separator byte that is not a digit or '-'", "why_tests_cant": "2^64 values, with MinInt64 and power-of-ten boundaries.", "anchors": ["sttp/format/Common.go: formatNumber", "sttp/format/Int.go: Int64With", "sttp/format/UInt.go: UInt64With"]}
{"id": "C10", "title": "Compact state flags preserve every flag the compact form can carry", "statement": "Mapping full flags to compact flags and back sets a category bit in the full flags exactly when some full flag of that category was set; mapping compact flags to full and back is the identity on the mappable compact bits, for all 2^32 full and 2^8 compact values.", "quantifier": "every 32-bit full flag word and every 8-bit compact flag byte", "why_tests_cant": "Finite but 2^32 x 2^8 combinations; a wrong mask bit affects only one of them.", "anchors": ["sttp/transport/CompactMeasurement.go: compactStateFlagsEnum.mapToFullFlags, StateFlagsEnum.mapToCompactFlags", "sttp/transport/Constants.go: StateFlags"]}
{"id": "C11", "title": "A compact measurement decodes to what the publisher encoded", "statement": "For every measurement written in the compact wire layout (flags byte, 4-byte runtime ID, 4-byte value, then 0, 2, 4 or 8 timestamp bytes selected by the base-time and millisecond-resolution flags), Decode returns success, recovers runtime signal ID, value bits, flags and the exact timestamp, and leaves the cursor exactly at the next measurement whatever bytes follow.", "quantifier": "all signal ids, value bits, flags, timestamps, base offsets, time-index/millisecond settings and all following bytes", "why_tests_cant": "Timestamps, base offsets and layouts form an unbounded product space.", "anchors": ["sttp/transport/CompactMeasurement.go: CompactMeasurement.Decode, GetBinaryLength, GetTimestampC2, GetTimestampC4, SetCompactStateFlags, GetCompactStateFlags"]}
{"id": "C12", "title": "A stream of compact measurements is parsed completely and in order", "statement": "Parsing a data packet payload that concatenates any number of compactly encoded measurements delivers exactly these measurements, in order, with none lost or invented.", "quantifier": "every list of measurements, with mixed timestamp layouts", "why_tests_cant": "Unbounded list lengths; needs induction.", "anchors": ["sttp/transport/DataSubscriber.go: parseCompactMeasurements", "sttp/transport/CompactMeasurement.go: Decode"]}
{"id": "C13", "title": "Truncated or malformed data packets never crash the subscriber", "statement": "For arbitrary packet bytes received from the peer, handling a data packet reports an error or ignores the packet; it does not panic.", "quantifier": "all byte strings received from the network in any subscriber state", "why_tests_cant": "All 2^(8n) byte strings; crash inputs are specific truncations.", "anchors": ["sttp/transport/DataSubscriber.go: handleDataPacket, parseCompactMeasurements, parseTSSCMeasurements, processServerResponse", "sttp/transport/CompactMeasurement.go: Decode", "sttp/transport/tssc/Decoder.go: TryGetMeasurement"]}
{"id": "C14", "title": "Signal index cache lookups are mutually consistent", "statement": "After any sequence of added records with distinct runtime indices and distinct signal IDs, looking up an index yields the signal ID, source and key ID added for it, looking up the signal ID yields that index, Count equals the number of records, and lookups of absent keys yield the documented 'not found' values.", "quantifier": "all histories of record additions", "why_tests_cant": "Histories are unbounded.", "anchors": ["sttp/transport/SignalIndexCache.go: addRecord, Contains, SignalID, Source, ID, Record, SignalIndex, Count, SignalIDs"]}
{"id": "C15", "title": "Signal index cache decode inverts the publisher's encoding", "statement": "Decoding a well-formed signal index cache message reproduces the subscriber ID and exactly the records encoded, in order, for any number of records and any source strings; a message shorter than its declared length is rejected with an error without adding records.", "quantifier": "all subscriber ids, record lists and source strings; all truncated messages", "why_tests_cant": "Unbounded record lists and strings.", "anchors": ["sttp/transport/SignalIndexCache.go: decode"]}
{"id": "C16", "title": "Command frames are self-delimiting and carry the exact payload", "statement": "Every command with a payload that fits in the packet buffer is written as a 4-byte big-endian length, the command byte and the payload unchanged, so a reader that follows the length field recovers the sequence of commands and payloads from the concatenated byte stream.", "quantifier": "all sequences of commands and payloads", "why_tests_cant": "Unbounded sequences of arbitrary payloads.", "anchors": ["sttp/transport/DataSubscriber.go: SendServerCommandWithPayload, SendServerCommand, readPayloadHeader, readPacket"]}
{"id": "C17", "title": "Sending a command never panics", "statement": "SendServerCommandWithPayload of any payload size writes the frame or reports an error; it does not panic.", "quantifier": "all payload lengths", "why_tests_cant": "The failing lengths start beyond 32763 bytes, which tests do not send.", "anchors": ["sttp/transport/DataSubscriber.go: SendServerCommandWithPayload", "sttp/transport/Constants.go: maxPacketSize"]}
{"id": "C18", "title": "Received packets are independent of TCP chunking", "statement": "Responses processed from a byte stream depend only on the concatenated bytes, not on how the network splits them into reads.", "quantifier": "all byte streams and all ways of splitting them into segments", "why_tests_cant": "Exponentially many splits.", "anchors": ["sttp/transport/DataSubscriber.go: readPayloadHeader, readPacket, runCommandChannelResponseThread"]}
{"id": "C19", "title": "Operational modes advertise exactly the configured options", "statement": "The operational-modes command carries the configured protocol version in the low byte, UTF-8 encoding, and each compression bit exactly when the corresponding option is enabled, so a publisher decoding the word recovers all options.", "quantifier": "all option combinations and all version bytes", "why_tests_cant": "Bit-field overlap errors show only in some combinations.", "anchors": ["sttp/transport/DataSubscriber.go: sendOperationalModes", "sttp/transport/Constants.go: OperationalModes, CompressionModes"]}
{"id": "C20", "title": "Subscription connection string contains every setting with its value", "statement": "The parameter string sent by Subscribe parses (as key=value; pairs) into exactly the configured settings, for all settings.", "quantifier": "all subscription settings", "why_tests_cant": "A missing separator breaks only certain option combinations.", "anchors": ["sttp/transport/DataSubscriber.go: Subscribe", "sttp/transport/SubscriptionInfo.go: SubscriptionInfo"]}
{"id": "C21", "title": "TSSC code words decode to the command that was written", "statement": "For every per-point command-coding state the decoder can reach, reading the bits emitted by the paired writer for any of the 32 commands yields that command, consumes exactly those bits, and leaves reader and writer in identical coding states, for any sequence of commands.", "quantifier": "every reachable adaptive coding state and every command sequence", "why_tests_cant": "The adaptive statistics have astronomically many states.", "anchors": ["sttp/transport/tssc/PointMetadata.go: WriteCode, ReadCode, updatedCodeStatistics, adaptCommands"]}
{"id": "C22", "title": "TSSC adaptive coding chooses a cheapest code and never fails", "statement": "Re-adaptation always selects a coding mode whose estimated cost is minimal among the four for the observed command statistics, selects the most frequent commands for the short codes, and can never reach its 'coding error' state; statistics counters never overflow.", "quantifier": "all command histories", "why_tests_cant": "Unbounded histories.", "anchors": ["sttp/transport/tssc/PointMetadata.go: adaptCommands, updatedCodeStatistics, min"]}
{"id": "C23", "title": "7-bit variable length integers decode exactly", "statement": "decode7BitUInt32/64 return the value the standard 7-bit encoding wrote, consume exactly the encoded bytes and ignore what follows, for every 32- and 64-bit value.", "quantifier": "all 2^32 / 2^64 values and all following bytes", "why_tests_cant": "2^64 values; each length class has its own code path.", "anchors": ["sttp/transport/tssc/Decoder.go: decode7BitUInt32, decode7BitUInt64"]}
{"id": "C24", "title": "TSSC decompression is lossless", "statement": "For any sequence of measurements (32-bit id, 64-bit timestamp, 32-bit flags, 32-bit value pattern) compressed by a conforming TSSC encoder into any sequence of packets, the decoder returns exactly these measurements in order and reports end of data at the end of every packet.", "quantifier": "all finite lists of measurements, split into packets in any way, starting from reset", "why_tests_cant": "The decoder is a stateful adaptive entropy decoder: correctness depends on the whole history.", "anchors": ["sttp/transport/tssc/Decoder.go: TryGetMeasurement, decodePointID, decodeTimestamp, decodeStateFlags, readBit, readBits4, readBits5", "sttp/transport/tssc/PointMetadata.go: ReadCode"]}
{"id": "C25", "title": "TSSC time-delta history stays sorted and distinct", "statement": "After any history of decoded timestamps the four remembered time deltas are in non-decreasing order and every remembered real delta is one observed between consecutive timestamps; the remembered ones are the smallest distinct ones.", "quantifier": "all decode histories", "why_tests_cant": "Unbounded histories.", "anchors": ["sttp/transport/tssc/Decoder.go: decodeTimestamp"]}
{"id": "C26", "title": "TSSC decoder reads only inside the packet", "statement": "For arbitrary packet bytes the TSSC decoder returns a measurement, end of data or an error and never reads beyond the packet.", "quantifier": "all byte strings and all decoder states", "why_tests_cant": "All byte strings; failing inputs are specific truncations.", "anchors": ["sttp/transport/tssc/Decoder.go: TryGetMeasurement, readBit, decode7BitUInt32"]}
{"id": "C27", "title": "TSSC sequence numbers gate decoding", "statement": "Compressed packets are decoded only when they carry the expected next sequence number (or sequence 0, which resets the decoder); out-of-sequence packets produce no measurements and change no decoder state; after a success the expected number is the successor modulo 65536 skipping zero.", "quantifier": "all sequences of packets with arbitrary sequence numbers", "why_tests_cant": "Unbounded packet histories including rollover.", "anchors": ["sttp/transport/DataSubscriber.go: parseTSSCMeasurements", "sttp/transport/tssc/Decoder.go: SequenceNumber"]}
{"id": "C28", "title": "Only measurements parsed from the packet are delivered", "statement": "For every data packet the measurements passed to the new-measurements callback are exactly those parsed out of that packet.", "quantifier": "all packets, in all subscriber states", "why_tests_cant": "Depends on buffer reuse history.", "anchors": ["sttp/transport/DataSubscriber.go: handleDataPacket, parseTSSCMeasurements, parseCompactMeasurements"]}
{"id": "C29", "title": "Total measurement count equals measurements delivered", "statement": "TotalMeasurementsReceived increases by exactly the number of measurements delivered to the callback for each data packet.", "quantifier": "all packet histories", "why_tests_cant": "Unbounded histories with malformed counts.", "anchors": ["sttp/transport/DataSubscriber.go: handleDataPacket, TotalMeasurementsReceived"]}
{"id": "C30", "title": "Buffer blocks are delivered in order exactly once", "statement": "If the publisher's buffer blocks (numbered consecutively) arrive in any order, with duplicates, the blocks passed to the callback are a prefix of the published sequence in order, each once, with its payload, and all of them once all have arrived; every received block is confirmed.", "quantifier": "all arrival orders and duplications", "why_tests_cant": "Factorially many arrival orders.", "anchors": ["sttp/transport/DataSubscriber.go: handleBufferBlock", "sttp/transport/BufferBlock.go: BufferBlock"]}
{"id": "C31", "title": "The active signal index cache is the one the packet selects", "statement": "A data packet that names cache slot i is decoded with the table last installed in slot i, so with alternating updates a packet written for update k and arriving before update k+2 is decoded with exactly that table; the active cache is the one last installed, an update that cannot be decoded changes no cache, and nothing else changes it.", "quantifier": "all interleavings of cache updates and data packets", "why_tests_cant": "Unbounded interleavings.", "anchors": ["sttp/transport/DataSubscriber.go: handleUpdateSignalIndexCache, handleDataPacket"]}
{"id": "C32", "title": "Base time updates apply to the packets that reference them", "statement": "After an update, a compact measurement whose time-index bit selects base time i is reconstructed with the i-th base time of the latest update.", "quantifier": "all sequences of base-time updates and packets", "why_tests_cant": "Unbounded histories.", "anchors": ["sttp/transport/DataSubscriber.go: handleUpdateBaseTimes, parseCompactMeasurements", "sttp/transport/CompactMeasurement.go: Decode"]}
{"id": "C33", "title": "A connection to a non-STTP peer is rejected before any response is processed", "statement": "If the first packet on a connection is not a plausible STTP packet, the subscriber disconnects and processes none of the peer's responses, on every connection, including the first.", "quantifier": "all byte streams, first and later connections", "why_tests_cant": "Depends on connection history.", "anchors": ["sttp/transport/DataSubscriber.go: readPayloadHeader, NewDataSubscriber, disconnect"]}
{"id": "C34", "title": "Subscription state reflects acknowledged commands", "statement": "IsSubscribed becomes true only after a successful Subscribe response and false after a successful Unsubscribe response or a disconnect, and a disconnected subscriber is never subscribed.", "quantifier": "all response sequences", "why_tests_cant": "Unbounded histories.", "anchors": ["sttp/transport/DataSubscriber.go: handleSucceeded, handleFailed, IsSubscribed, disconnect"]}
{"id": "C35", "title": "Counters start at zero for each connection and count every byte", "statement": "After a connection is set up, TotalCommandChannelBytesReceived equals the number of bytes received on it.", "quantifier": "all packet sequences", "why_tests_cant": "Unbounded packet sequences.", "anchors": ["sttp/transport/DataSubscriber.go: setupConnection, readPayloadHeader, readPacket, TotalCommandChannelBytesReceived"]}
{"id": "C36", "title": "Retry delay grows exponentially up to the maximum", "statement": "For a positive retry interval and maximum, the delay before the n-th reconnection attempt is positive, never above the maximum and non-decreasing in n.", "quantifier": "all retry settings and attempt numbers", "why_tests_cant": "Overflow and cap interactions appear only at specific attempt numbers and settings.", "anchors": ["sttp/transport/SubscriberConnector.go: waitForRetry"]}
{"id": "C37", "title": "Automatic reconnection gives up after MaxRetries", "statement": "With MaxRetries = m >= 0, every Connect to a server that never accepts dials once and retries exactly m times, then reports failure; a server that accepts within those dials is connected to; with MaxRetries = -1 attempts continue until connected or cancelled.", "quantifier": "all settings and failure histories", "why_tests_cant": "Unbounded retry histories.", "anchors": ["sttp/transport/SubscriberConnector.go: connect, autoReconnect, MaxRetries"]}
{"id": "C38", "title": "Cancelling a pending reconnect terminates", "statement": "Cancel, called at any time while the connector waits to retry, makes the waiting reconnect sequence stop and returns.", "quantifier": "all schedules of Cancel against the reconnect thread", "why_tests_cant": "Depends on the goroutine schedule and timer channel semantics.", "anchors": ["sttp/transport/SubscriberConnector.go: Cancel, waitForRetry, autoReconnect"]}
{"id": "C39", "title": "A Thread runs its function exactly once per Start and Join waits for it", "statement": "After Start returns, Join called by the same goroutine returns only when the thread function has finished.", "quantifier": "all goroutine schedules", "why_tests_cant": "Schedules cannot be enumerated by tests.", "anchors": ["sttp/thread/Thread.go: Start, TryStart, Join, run, IsRunning"]}
{"id": "C40", "title": "A Thread never runs its function concurrently with itself", "statement": "However Start and TryStart are called from any number of goroutines, at most one execution of the thread function is in progress at a time.", "quantifier": "all goroutine schedules and call sequences", "why_tests_cant": "Unbounded schedules.", "anchors": ["sttp/thread/Thread.go: Start, TryStart, run"]}
{"id": "C41", "title": "Callbacks can report status without deadlock", "statement": "A callback invoked by the subscriber may call StatusMessage/ErrorMessage while another goroutine registers a new callback, and no schedule deadlocks.", "quantifier": "all schedules of callbacks and setters", "why_tests_cant": "Needs the RWMutex writer-preference schedule.", "anchors": ["sttp/Subscriber.go: beginCallbackSync, endCallbackSync, StatusMessage, ErrorMessage, SetStatusMessageLogger"]}
{"id": "C42", "title": "MeasurementReader delivers measurements in order, without loss or duplication", "statement": "The sequence of measurements returned by NextMeasurement is a prefix of the concatenation of the received batches, whichever contexts end when; a call reports completion only if its context is done.", "quantifier": "all batch sequences, contexts and reader/writer schedules", "why_tests_cant": "Unbounded schedules.", "anchors": ["sttp/MeasurementReader.go: MeasurementReader, receivedNewMeasurements, NextMeasurement, Close"]}
{"id": "C43", "title": "Metadata lookup yields one shared record per signal", "statement": "Any two LookupMetadata calls for the same signal ID, from any goroutines, return the same record, so values stored through one are seen through the other.", "quantifier": "all concurrent lookups", "why_tests_cant": "The violating schedule needs two racing first lookups.", "anchors": ["sttp/transport/DataSubscriber.go: LookupMetadata"]}
{"id": "C44", "title": "Signal kind acronyms round-trip", "statement": "Every signal kind's acronym parses back to that kind, in any letter case and any surrounding white space accepted by the parser, and anything else parses to Unknown.", "quantifier": "all kinds and all strings", "why_tests_cant": "All strings.", "anchors": ["sttp/transport/SignalKind.go: SignalKindEnum.Acronym, ParseSignalKindAcronym"]}
{"id": "C45", "title": "Signal references decode into acronym, kind and position", "statement": "Parsing acronym-KKn (two-letter kind, optional number) yields that kind and number for every acronym, including acronyms containing '-', and parsing any string does not panic.", "quantifier": "all strings", "why_tests_cant": "All strings.", "anchors": ["sttp/transport/MeasurementMetadata.go: ParseSignalReference", "sttp/transport/SignalKind.go"]}
{"id": "C46", "title": "Operators propagate NULL", "statement": "Any arithmetic, bitwise, comparison or logical operator with a NULL operand yields NULL or an error, never a non-NULL value; IS NULL / IS NOT NULL never yield NULL.", "quantifier": "all operators, all operand types and values", "why_tests_cant": "26 operators x 9 x 9 types x unbounded values.", "anchors": ["sttp/data/ExpressionTree.go: evaluateOperator, multiplyOp..orOp, isNullOp", "sttp/data/Constants.go: deriveOperationValueType"]}
{"id": "C47", "title": "Filter conditions treat NULL as false", "statement": "Evaluating a filter whose condition compares a NULL column value excludes the row instead of failing, as documented, so Select succeeds on tables containing NULLs.", "quantifier": "all rows and all comparison conditions", "why_tests_cant": "Quantifies over rows/conditions.", "anchors": ["sttp/data/ExpressionTree.go: Select, SelectWhere, lessThanOp, equalOp, andOp", "sttp/data/Constants.go: deriveBooleanOperationValueType"]}
{"id": "C48", "title": "Expression evaluation is type-sound", "statement": "Evaluating any expression over well-typed rows produces a value whose dynamic type matches its declared value type, and never a type-assertion panic.", "quantifier": "all expressions and all well-typed rows", "why_tests_cant": "Infinitely many expressions.", "anchors": ["sttp/data/ExpressionTree.go: evaluateAs, evaluateOperator", "sttp/data/ValueExpression.go: newValueExpression, Convert, convertFromBoolean"]}
{"id": "C49", "title": "Arithmetic promotes to the wider operand type and is commutative in type", "statement": "The result type of an arithmetic, bitwise or comparison operation on numeric operands is the wider of both operand types, independent of operand order.", "quantifier": "all operator/type combinations", "why_tests_cant": "Finite but large table written as nested switches.", "anchors": ["sttp/data/Constants.go: deriveOperationValueType, deriveArithmeticOperationValueType, deriveIntegerOperationValueType, deriveComparisonOperationValueType"]}
{"id": "C50", "title": "Comparison operators form a consistent order", "statement": "For non-NULL integer, string or GUID operands of compatible types exactly one of <, =, > holds, <= is < or =, >= is > or =, <> is not =, and a<b iff b>a.", "quantifier": "all operand pairs", "why_tests_cant": "Unbounded operands.", "anchors": ["sttp/data/ExpressionTree.go: lessThanOp, lessThanOrEqualOp, greaterThanOp, greaterThanOrEqualOp, equalOp, notEqualOp"]}
{"id": "C51", "title": "Integer division or modulus by zero is an error, not a crash", "statement": "Evaluating x / 0 or x % 0 for integer operands returns an error.", "quantifier": "all integer operands", "why_tests_cant": "Quantifies over all operand values and types.", "anchors": ["sttp/data/ExpressionTree.go: divideOp, modulusOp"]}
{"id": "C52", "title": "Logical operators follow two-valued logic on non-NULL operands", "statement": "AND, OR and NOT over Boolean values obey Boolean algebra, and NULL AND/OR anything is NULL.", "quantifier": "all Boolean expressions", "why_tests_cant": "Arbitrarily nested expressions.", "anchors": ["sttp/data/ExpressionTree.go: andOp, orOp, evaluateUnary", "sttp/data/UnaryExpression.go: applyToBool"]}
{"id": "C53", "title": "IIF returns the branch selected by its condition", "statement": "IIf(c, a, b) evaluates to a when c is true and to b otherwise, for all c, a, b.", "quantifier": "all condition/branch expressions", "why_tests_cant": "All expressions.", "anchors": ["sttp/data/ExpressionTree.go: evaluateIIf, iif"]}
{"id": "C54", "title": "Power computes base raised to exponent", "statement": "Power(b, e) yields b^e.", "quantifier": "all numeric bases and exponents", "why_tests_cant": "All numeric operands.", "anchors": ["sttp/data/ExpressionTree.go: evaluatePower, power"]}
{"id": "C55", "title": "LIKE matches patterns with leading/trailing wildcards", "statement": "x LIKE p is true exactly when x matches p where % or * at the start/end of p matches any text; a pattern without wildcard matches exactly the equal text; NOT LIKE is the negation.", "quantifier": "all strings and patterns", "why_tests_cant": "All strings.", "anchors": ["sttp/data/ExpressionTree.go: likeOp, notLikeOp"]}
{"id": "C56", "title": "IN list is equivalent to a disjunction of equalities", "statement": "x IN (a1..an) equals x=a1 OR ... OR x=an for non-NULL operands, and NOT IN is its negation.", "quantifier": "all lists", "why_tests_cant": "Unbounded lists.", "anchors": ["sttp/data/ExpressionTree.go: evaluateInList", "sttp/data/InListExpression.go"]}
{"id": "C57", "title": "Coalesce, MaxOf and MinOf select the documented argument", "statement": "Coalesce returns its first non-NULL argument; MaxOf/MinOf over integers return an argument that bounds all others.", "quantifier": "all argument lists", "why_tests_cant": "Unbounded argument lists.", "anchors": ["sttp/data/ExpressionTree.go: coalesce, maxOf, minOf"]}
{"id": "C58", "title": "Bit shifts shift by the given amount", "statement": "x << n and x >> n for 0 <= n < width are the two's-complement shifts at the operand width; right shift preserves sign for both integer widths.", "quantifier": "all operands and shift amounts", "why_tests_cant": "All operand values.", "anchors": ["sttp/data/ExpressionTree.go: bitShiftLeftOp, bitShiftRightOp"]}
{"id": "C59", "title": "String functions are consistent with their mathematical definitions", "statement": "Len, SubStr, StrCount, IndexOf, NthIndexOf, Contains, StartsWith, EndsWith, Reverse and Split satisfy their defining laws (e.g. IndexOf returns the first position where the text occurs) and never panic.", "quantifier": "all strings and indices", "why_tests_cant": "All strings and index values.", "anchors": ["sttp/data/ExpressionTree.go: subStr, indexOf, nthIndexOf, findNthIndex, split, splitNthIndex, strCount, contains, startsWith, endsWith, reverse"]}
{"id": "C60", "title": "Selection returns exactly the matching rows in table order", "statement": "Without ORDER BY and TOP, selecting rows returns exactly the rows for which the condition is true, in table order; with TOP n at most n rows, the first n matches.", "quantifier": "all tables and conditions", "why_tests_cant": "Unbounded tables.", "anchors": ["sttp/data/ExpressionTree.go: SelectWhere", "sttp/data/DataTable.go: Select, RowsWhere"]}
{"id": "C61", "title": "TOP with ORDER BY returns the first rows of the ordered result", "statement": "FILTER TOP n ... ORDER BY returns the n smallest matching rows in the specified order.", "quantifier": "all tables, conditions, orders", "why_tests_cant": "Unbounded tables.", "anchors": ["sttp/data/ExpressionTree.go: SelectWhere"]}
{"id": "C62", "title": "ORDER BY uses a consistent ordering with NULLs first", "statement": "The row comparison used for sorting is a strict weak order on every column type, places NULLs before values when ascending, and the sorted result is a permutation of the matching rows.", "quantifier": "all rows and order terms", "why_tests_cant": "Sorting with an inconsistent comparator is undefined; quantifies over all triples of rows.", "anchors": ["sttp/data/DataRow.go: CompareDataRowColumns, nullCompare", "sttp/data/ExpressionTree.go: SelectWhere"]}
{"id": "C63", "title": "Multiple filter statements return each matching row once", "statement": "Evaluating a filter expression of several statements yields every row matched by any statement exactly once, in order of first match.", "quantifier": "all statement lists and tables", "why_tests_cant": "Unbounded statement lists.", "anchors": ["sttp/data/FilterExpressionParser.go: Evaluate, addMatchedRow, initializeSetOperations"]}
{"id": "C64", "title": "Table and column lookups are case-insensitive maps", "statement": "A table/column added under a name is found under any letter case of that name; the most recent addition wins; removal removes it and nothing else; column indices address the same column as names.", "quantifier": "all add/remove histories", "why_tests_cant": "Unbounded histories.", "anchors": ["sttp/data/DataSet.go: AddTable, Table, RemoveTable", "sttp/data/DataTable.go: AddColumn, Column, ColumnByName, ColumnIndex"]}
{"id": "C65", "title": "Typed row reads return what was written or an error", "statement": "A typed getter returns the stored value exactly when the column has that type, reports NULL for unset values, and returns an error for a wrong type or index; computed columns cannot be assigned; by-name reads equal by-index reads.", "quantifier": "all tables, rows, columns", "why_tests_cant": "Unbounded histories.", "anchors": ["sttp/data/DataRow.go: validateColumnType, StringValue..UInt64Value, SetValue, ValueByName"]}
{"id": "C66", "title": "Row filter limits are respected", "statement": "RowsWhere with limit n >= 0 returns at most n rows: the first n satisfying the predicate.", "quantifier": "all tables, predicates, limits", "why_tests_cant": "Unbounded tables.", "anchors": ["sttp/data/DataTable.go: RowsWhere"]}
{"id": "C67", "title": "XPath-like node selection returns exactly the matching descendants", "statement": "SelectNodes with a path of names and wildcards returns exactly the descendants reached by that path in document order; predicates filter by attribute or child value; no query panics.", "quantifier": "all documents and queries", "why_tests_cant": "Unbounded trees and queries.", "anchors": ["sttp/xml/XmlNode.go: SelectNodes, attributeMatch, childValueMatch, valueMatch, removeQuotes"]}
{"id": "C68", "title": "Parsed XML trees have consistent links", "statement": "After loading, every node's level is its depth, Items[name] lists exactly the children of that name in order with Item[name] the first, Previous/Next link adjacent siblings, and MaxDepth is the height of the tree.", "quantifier": "all XML trees", "why_tests_cant": "Unbounded trees.", "anchors": ["sttp/xml/XmlDocument.go: traverse, MaxDepth", "sttp/xml/XmlNode.go: Path"]}
{"id": "C69", "title": "Floating-point thousands formatting groups digits without changing the number", "statement": "Formatting a float with group separators yields the same text as plain formatting once separators are removed, keeps the sign and fraction, and groups integer digits by three; non-finite values are unchanged.", "quantifier": "all finite decimal texts and the non-finite ones", "why_tests_cant": "Unbounded digit strings.", "anchors": ["sttp/format/Float.go: Float64With, Float32With"]}
{"id": "C70", "title": "Signal index caches register metadata without overwriting it", "statement": "After a signal index cache is received every listed signal has metadata; a signal already registered with a source keeps its source and numeric ID; a new one gets those of its first record.", "quantifier": "all registries and cache record lists", "why_tests_cant": "Unbounded record lists and registry histories.", "anchors": ["sttp/transport/SignalIndexCache.go: addRecord", "sttp/transport/DataSubscriber.go: LookupMetadata"]}
{"id": "C71", "title": "Every installed cache, buffer block and notification is confirmed, once and with its identity", "statement": "In response to any message the subscriber sends exactly: one cache-update confirmation if a signal index cache was installed (protocol 2 and later), one confirmation carrying the block's sequence number per buffer block, one carrying the hash per notification, and nothing for any other message.", "quantifier": "all messages in all connected states of all histories", "why_tests_cant": "All messages in all reachable states.", "anchors": ["sttp/transport/DataSubscriber.go: handleUpdateSignalIndexCache, handleBufferBlock, handleNotification, SendServerCommandWithPayload"]}
{"id": "C72", "title": "Encryption is transparent", "statement": "After a cipher key message, a data packet encrypted with the key its cipher-index flag names has the same effects as its plaintext would have had without encryption.", "quantifier": "all keys, initialisation vectors, flags, packets and states", "why_tests_cant": "All keys and packets in all states.", "anchors": ["sttp/transport/DataSubscriber.go: handleUpdateCipherKeys, handleDataPacket", "sttp/transport/Common.go: decipherAES"]}
{"id": "C73", "title": "A new connection starts from a clean decoding state", "statement": "No signal index cache, base time, decoder state or queued buffer block of an earlier connection influences what is delivered on a later one.", "quantifier": "all histories across reconnections", "why_tests_cant": "Unbounded histories over several connections.", "anchors": ["sttp/transport/DataSubscriber.go: setupConnection, connect"]}
{"id": "C74", "title": "Measurements are delivered only while subscribed", "statement": "The new-measurements callback runs only between a successful Subscribe response and the next successful Unsubscribe response or disconnection.", "quantifier": "all histories", "why_tests_cant": "Unbounded histories.", "anchors": ["sttp/transport/DataSubscriber.go: handleDataPacket, IsSubscribed"]}
{"id": "C75", "title": "Message contents reach the callbacks unchanged", "statement": "The metadata callback receives exactly the (decompressed) metadata, the notification callback exactly the text, the data-start-time callback exactly the ticks and the processing-complete callback exactly the message the publisher sent.", "quantifier": "all message contents in all connected states", "why_tests_cant": "All message contents and states.", "anchors": ["sttp/transport/DataSubscriber.go: handleSucceeded, handleMetadataRefresh, handleNotification, handleDataStartTime, handleProcessingComplete"]}
{"id": "C76", "title": "Commands sent from several goroutines arrive intact", "statement": "Commands sent concurrently reach the publisher as whole frames, each exactly once, in some order.", "quantifier": "all numbers of goroutines, commands and schedules", "why_tests_cant": "Needs a schedule interleaving the filling of the send buffer.", "anchors": ["sttp/transport/DataSubscriber.go: SendServerCommandWithPayload, writeBuffer"]}
{"id": "C77", "title": "Unsubscribe does not disturb the responses that follow", "statement": "Whatever the publisher sends around the moment Unsubscribe is called, every packet is processed whole and in order.", "quantifier": "all packet sequences and schedules of Unsubscribe against the reader", "why_tests_cant": "Needs a schedule where a header arrives inside Unsubscribe.", "anchors": ["sttp/transport/DataSubscriber.go: Unsubscribe, readPayloadHeader, readPacket"]}
{"id": "C78", "title": "Arithmetic computes the exact values, wrapped to the operand width", "statement": "Sums, differences, products, quotients, remainders and bitwise combinations of integers are the exact results wrapped to the wider operand width; sums, differences and products involving decimals are exact.", "quantifier": "all integer and decimal operands of all type combinations", "why_tests_cant": "All operand values.", "anchors": ["sttp/data/ExpressionTree.go: addOp, subtractOp, multiplyOp, divideOp, modulusOp, bitwiseAndOp", "sttp/data/ValueExpression.go: Convert"]}
{"id": "C79", "title": "Selecting signal IDs returns exactly the signals the filter stands for", "statement": "SelectSignalIDSet returns each signal ID given, each signal ID of the rows that the given measurement keys and point tags name, and each signal ID of the rows matched by the FILTER statements, once each and no other; table names are matched in any letter case.", "quantifier": "all data sets and statement lists", "why_tests_cant": "Unbounded statement lists and tables.", "anchors": ["sttp/data/FilterExpressionParser.go: SelectSignalIDSet, initializeSetOperations, Evaluate"]}
{"id": "C80", "title": "Computed columns read as their expression", "statement": "Reading a computed column evaluates its expression over the same row and converts the result to the type of the column: a result of that type unchanged, NULL as NULL; every read ends.", "quantifier": "all tables, rows, expressions and column types", "why_tests_cant": "Unbounded expressions and chains of computed columns.", "anchors": ["sttp/data/DataRow.go: getComputedValue, expressionTree, convertFrom*"]}
{"id": "C81", "title": "A cloned row equals the original", "statement": "Cloning a row yields a row with the same values in all columns, whether or not some are computed.", "quantifier": "all tables and rows", "why_tests_cant": "Unbounded tables.", "anchors": ["sttp/data/DataTable.go: CloneRow"]}
{"id": "C82", "title": "A publisher's refusal is remembered until the next connection", "statement": "A failure response to Connect or DefineOperationalModes marks the connection as refused, which keeps the automatic reconnection counting attempts; a failure of another command and every other message leaves the mark alone, a new connection clears it, and every other failure, or a refusal with a text, is reported as an error.", "quantifier": "all failure responses in all connected states; all sessions", "why_tests_cant": "Unbounded sessions of arbitrary messages.", "anchors": ["sttp/transport/DataSubscriber.go: handleFailed, setupConnection, connect"]}
{"id": "C83", "title": "Loading a DataSet from its XML restores tables, columns and rows", "statement": "FromXml succeeds exactly on documents whose schema element (in the XML Schema namespace) carries the name of the root as id; the DataSet then holds exactly the tables of the schema, each with its columns and types in order and one row per record of the table, in order, with NULL for absent fields; otherwise it reports an error, and no document makes it panic.", "quantifier": "all documents, schemas and records", "why_tests_cant": "Unbounded schemas and record lists.", "anchors": ["sttp/data/DataSet.go: FromXml, ParseXml, ParseXmlDocument, loadSchema, loadRecords", "sttp/data/DataTable.go: AddColumn, AddRow"]}
{"id": "C84", "title": "A field's text reads as the value it stands for", "statement": "The value of a field is the one its XML Schema text denotes in the type of its column: integers of every width, Booleans and strings with their escapes undone; a text that denotes no value reads as NULL.", "quantifier": "all column types and field texts", "why_tests_cant": "Unbounded texts.", "anchors": ["sttp/data/DataSet.go: loadRecords"]}
{"id": "C85", "title": "Dial and Listen accept exactly addresses of a host and a port, and Dial goes only there", "statement": "Dial and Listen accept exactly texts host:port or [host]:port with a port from 1 to 65535, on a subscriber that is neither connected nor listening; anything else returns an error and changes nothing. Every connection a subscriber opens in any history goes to the host and port of the address given to some Dial, in a form net.Dial reads as that host and port.", "quantifier": "all address texts; all histories", "why_tests_cant": "Unbounded texts and histories.", "anchors": ["sttp/Subscriber.go: Dial, Listen, connect, listen", "sttp/transport/SubscriberConnector.go: connect"]}
{"id": "C86", "title": "A new connection begins with exactly the configured messages", "statement": "On every connection, dialled, re-established or accepted, the subscriber announces the connection once and sends the operational modes of its configuration, then the metadata request with the configured filters if that is configured, and otherwise the subscription request if that is configured; received metadata is followed by the subscription request if both are configured; nothing else is sent unless a call asks for it.", "quantifier": "all histories and configurations", "why_tests_cant": "Unbounded histories over several connections.", "anchors": ["sttp/Subscriber.go: handleConnect, handleReconnect, handleMetadataReceived, RequestMetadata, connect, listen", "sttp/transport/DataSubscriber.go: establishConnection, sendOperationalModes"]}
{"id": "C87", "title": "A subscriber can connect again", "statement": "Dial on a subscriber that is neither connected nor listening dials until the publisher accepts or the configured number of retries is used up, whatever happened to the subscriber before.", "quantifier": "all histories", "why_tests_cant": "Unbounded histories.", "anchors": ["sttp/Subscriber.go: Dial, Disconnect, connect", "sttp/transport/SubscriberConnector.go: Connect, Cancel, ResetConnection", "sttp/transport/DataSubscriber.go: Disconnect"]}
{"id": "C88", "title": "Received metadata becomes what is known of each signal", "statement": "Each metadata response is parsed and handed to the user once, and nothing else is; afterwards the record of each signal holds what the last row about it in the table of measurements says (key, tag, reference, type, description, time), absent columns and absent signals keep their values. On a new connection nothing is known of any signal at first. The data start time is given to the user as the time the publisher sent.", "quantifier": "all documents, prior records and histories", "why_tests_cant": "Unbounded documents and histories.", "anchors": ["sttp/Subscriber.go: handleMetadataReceived, loadMeasurementMetadata, MetadataReceiver", "sttp/transport/DataSubscriber.go: handleMetadataRefresh, LookupMetadata"]}
{"id": "C89", "title": "The settings given to Subscribe reach the publisher", "statement": "Subscribe on a connection sends a subscription request that carries exactly its filter and settings (nil for the defaults); from then to the next call of Subscribe every subscription request, also after reconnections, carries these.", "quantifier": "all settings and histories", "why_tests_cant": "Unbounded histories.", "anchors": ["sttp/Subscriber.go: Subscribe", "sttp/Settings.go: NewSettings", "sttp/transport/DataSubscriber.go: Subscribe"]}
{"id": "C90", "title": "The configuration of a Dial or Listen governs that connection", "statement": "A connection uses the configuration given to the Dial or Listen that made it, the default one for nil; with AutoReconnect off a lost connection is not re-established.", "quantifier": "all histories and configurations", "why_tests_cant": "Unbounded histories.", "anchors": ["sttp/Subscriber.go: Dial, Listen, connect", "sttp/Config.go: NewConfig"]}
{"id": "C91", "title": "Numeric functions give the number they name", "statement": "Floor, Ceiling, Round and Abs give the greatest integer not above, the least integer not below, the nearest integer (halves away from zero) and the absolute value, in the type of the argument; Sqrt gives the double nearest to the exact square root.", "quantifier": "all integers, decimals and finite doubles", "why_tests_cant": "All numbers.", "anchors": ["sttp/data/ExpressionTree.go: floor, ceiling, round, abs, sqrt"]}
{"id": "C92", "title": "Date functions follow the civil calendar", "statement": "DatePart gives the named part of a date (year, month, day, day of the year, week, weekday, hour, minute, second, millisecond) in the Gregorian calendar, DateAdd the moment that many intervals later, DateDiff the number of years and months between the calendar months or of whole shorter intervals in the difference; interval names are read in any letter case and between blanks, other names and texts that are no dates are errors.", "quantifier": "all dates, intervals and amounts", "why_tests_cant": "All days of an unbounded calendar.", "anchors": ["sttp/data/ExpressionTree.go: datePart, dateAdd, dateDiff", "sttp/data/Constants.go: ParseTimeInterval"]}
{"id": "C93", "title": "String functions give the text they name", "statement": "Trim, TrimLeft and TrimRight remove exactly the white space at the ends, Upper and Lower change the case of letters, Replace replaces the occurrences from left to right, in any letter case if so asked, StrCmp compares, with NULL after every text; of NULL the others are NULL.", "quantifier": "all texts", "why_tests_cant": "Unbounded texts.", "anchors": ["sttp/data/ExpressionTree.go: trim, trimLeft, trimRight, upper, lower, replace, strCmp, strCount"]}
{"id": "C94", "title": "Convert and the type tests agree with the values", "statement": "Convert to a type given by name keeps the value as far as the type can hold it (numbers their whole part, text what it reads as), keeps NULL, and is an error for impossible conversions, names of no type and texts that do not read as a value; IsNull(x, y) is x or, if that is NULL, y; IsNumeric, IsInteger, IsDate and IsGuid hold exactly of values of the type and texts that read as one.", "quantifier": "all values, types and names", "why_tests_cant": "All values and names.", "anchors": ["sttp/data/ExpressionTree.go: convert, isNull, isNumeric, isInteger, isDate, isGuid", "sttp/data/ValueExpression.go: Convert"]}
{"id": "C95", "title": "Arithmetic on doubles is correctly rounded", "statement": "Sums, differences, products and quotients of doubles, or of a double and an integer, are the double nearest to the exact result (ties to even; an infinity beyond the range), and comparisons hold as for the real numbers.", "quantifier": "all finite doubles and all integers", "why_tests_cant": "All pairs of doubles.", "anchors": ["sttp/data/ExpressionTree.go: addOp, subtractOp, multiplyOp, divideOp, lessThanOp", "sttp/data/ValueExpression.go: Convert"]}
{"id": "C96", "title": "A filter expression has exactly one reading", "statement": "The text is cut into the longest tokens, the first kind winning among equals, with comments up to their first end; a text is accepted exactly if its tokens follow the grammar, and then the grammar gives it one sequence of statements and one tree each; every tree can be written, with parentheses, and is read back as that tree.", "quantifier": "all texts, token lists and trees", "why_tests_cant": "Unbounded texts and nesting.", "anchors": ["sttp/data/FilterExpressionSyntax.g4", "sttp/data/FilterExpressionParser.go: NewFilterExpressionParser, visitParseTreeNodes"]}
{"id": "C97", "title": "Operators group as documented", "statement": "Of two operators in a row the one that comes first in the documented order of precedence takes its operands first, from left to right among equals; NOT takes a whole comparison but only one side of AND and OR.", "quantifier": "all operands and operators", "why_tests_cant": "Unbounded operands.", "anchors": ["sttp/data/FilterExpressionSyntax.g4: expression, predicateExpression, valueExpression"]}
{"id": "C98", "title": "A literal denotes its value", "statement": "A whole number without a leading zero evaluates to that number as the narrowest of Int32, Int64 and Decimal, hexadecimal digits likewise, numbers with a point to the decimal, with an exponent to the double; text in single quotes to that text, TRUE and FALSE in any letter case to the Boolean, GUIDs and dates to the value they read as; a doubled quote stands for one, and a name in brackets for that name.", "quantifier": "all literals", "why_tests_cant": "Unbounded texts.", "anchors": ["sttp/data/FilterExpressionParser.go: ExitLiteralValue, parseNumericLiteral, EvaluateExpression", "sttp/data/FilterExpressionSyntax.g4"]}
{"id": "C99", "title": "Spaces, comments and letter case of words do not matter", "statement": "Two texts made of the same tokens, with words in any letter case and with any white space and comments between the tokens, have the same effect in every function that takes a filter expression.", "quantifier": "all token lists and layouts", "why_tests_cant": "Unbounded texts.", "anchors": ["sttp/data/FilterExpressionSyntax.g4: SPACES, SINGLE_LINE_COMMENT, MULTILINE_COMMENT", "sttp/data/FilterExpressionParser.go: EvaluateExpression, SelectDataRows, SelectDataRowSet, SelectSignalIDSet, GenerateExpressionTrees, EvaluateDataRowExpression"]}
{"id": "C100", "title": "A filter expression text evaluates to what it says", "statement": "EvaluateExpression gives the value of the first expression of the text; SelectDataRows, SelectDataRowSet and SelectSignalIDSet give what the statements of the text select; GenerateExpressionTrees one tree for each; EvaluateDataRowExpression the value of the first on that row; a text that names an absent column, or any column where there is no data set, or begins with an unexpected character is an error.", "quantifier": "all texts of the grammar, data sets and rows", "why_tests_cant": "Unbounded texts and tables.", "anchors": ["sttp/data/FilterExpressionParser.go: EvaluateExpression, SelectDataRows, SelectDataRowSet, SelectSignalIDSet, GenerateExpressionTrees, EvaluateDataRowExpression, ExitColumnName, EnterFilterStatement"]}
{"id": "C101", "title": "DataTable.Select selects by condition, order and limit", "statement": "Select with a condition, an order and a limit, each given as text, gives the rows that satisfy the condition, in that order, at most as many as the limit (all for a limit of zero or less, every row for an empty condition).", "quantifier": "all tables, conditions, orders and limits", "why_tests_cant": "Unbounded texts and tables.", "anchors": ["sttp/data/DataTable.go: Select", "sttp/data/FilterExpressionParser.go: GenerateExpressionTree", "sttp/data/ExpressionTree.go: Select"]}
{"id": "C102", "title": "Disconnect shuts the connection down once, without blocking or crashing", "statement": "Whatever number of goroutines call Disconnect on a connected subscriber, in any interleaving with the goroutines of the library and with the publisher closing the connection: nothing crashes, no call blocks, after boundedly many steps all is at rest, the socket is closed, the subscriber is disconnected, and the connection-terminated callback has been called exactly once.", "quantifier": "all numbers of callers and all schedules", "why_tests_cant": "Interleavings.", "anchors": ["sttp/transport/DataSubscriber.go: Disconnect, disconnect, runDisconnectThread, runCommandChannelResponseThread", "sttp/thread/Thread.go: Start, TryStart, Join, run"]}
{"id": "C103", "title": "A connection lost to the publisher is reported once", "statement": "When the publisher closes the connection and the application does nothing, then under every schedule nothing crashes, the subscriber can always come to rest, is then disconnected with its socket closed, and has called the connection-terminated callback exactly once; while the publisher keeps the connection it is never called.", "quantifier": "all schedules", "why_tests_cant": "Interleavings.", "anchors": ["sttp/transport/DataSubscriber.go: readPayloadHeader, dispatchConnectionTerminated, disconnect, runDisconnectThread", "sttp/thread/Thread.go: TryStart, Start, run"]}
{"id": "C104", "title": "The end of one connection does not end the next", "statement": "A connection made by Connect stays open until its publisher closes it or the application calls Disconnect after it was made, whatever is still under way for earlier connections, and the earlier connection does get closed.", "quantifier": "all schedules and histories of connecting and disconnecting", "why_tests_cant": "Interleavings.", "anchors": ["sttp/transport/DataSubscriber.go: connect, establishConnection, disconnect, runDisconnectThread", "sttp/thread/Thread.go: Join, TryStart"]}
{"id": "C105", "title": "A data channel is closed when its subscription ends", "statement": "With a UDP data channel, Subscribe, Unsubscribe and Disconnect return; when no call is under way at most the channel of the last successful Subscribe is open, none after Unsubscribe or Disconnect; after the channel is closed its goroutine ends, and no measurement of it is delivered after Unsubscribe returned.", "quantifier": "all histories of calls, publisher answers and datagrams, and all schedules", "why_tests_cant": "Interleavings and unbounded histories.", "anchors": ["sttp/transport/DataSubscriber.go: Subscribe, Unsubscribe, disconnect, runDisconnectThread, runDataChannelResponseThread", "sttp/thread/Thread.go: Start, Join, run"]}
{"id": "C106", "title": "What a publisher sends on a connection is what the application receives", "statement": "After a connection is made and its first response validates it, and whatever happened on earlier connections: if the publisher sends a signal table for a slot before data in that slot, numbers the packets of each TSSC stream, and uses the base times and keys as it has last sent them, then nothing crashes, the connection is not given up, and the measurements delivered are those the publisher put into its data packets, packet by packet and in order, with the signals of its table: exactly for TSSC, for compact packets up to the flag categories and the agreed time resolution. Data packets may come over TCP or UDP, Subscribe and Unsubscribe may be called meanwhile, and the TCP stream may be cut anywhere by the network and end anywhere.", "quantifier": "all earlier histories, publications (packets of any number and size, both slots, compact and compressed, encrypted or not), calls, and divisions of the stream", "why_tests_cant": "Unbounded histories.", "anchors": ["sttp/transport/DataSubscriber.go: processServerResponse, handleDataPacket, parseTSSCMeasurements, parseCompactMeasurements, handleUpdateSignalIndexCache, handleUpdateBaseTimes, handleUpdateCipherKeys, readPacket, readPayloadHeader", "sttp/transport/tssc/Decoder.go: TryGetMeasurement", "sttp/transport/CompactMeasurement.go: Decode"]}
{"id": "C107", "title": "Padding of encrypted packets is not taken for data", "statement": "When a data packet is encrypted, its plaintext is padded to whole blocks; the measurements delivered are those before the padding, for compact and for compressed packets.", "quantifier": "all measurements, keys and paddings", "why_tests_cant": "Unbounded packets.", "anchors": ["sttp/transport/DataSubscriber.go: handleDataPacket, decipherAES, parseTSSCMeasurements", "sttp/transport/tssc/Decoder.go: TryGetMeasurement"]}
{"id": "C108", "title": "Disconnect ends automatic reconnection", "statement": "After an application calls Disconnect on a subscriber with AutoReconnect on, whatever the subscriber is doing at that moment (connected, losing its connection, waiting to retry, dialling), the subscriber comes to rest disconnected, nothing is left that could connect again, and the terminated callback is called once for the connection that was open, if any.", "quantifier": "all histories of losses, retries and reconnections, all moments of the call, all schedules of the goroutines", "why_tests_cant": "Depends on the moment of the call and the interleaving of five kinds of goroutines.", "anchors": ["sttp/transport/DataSubscriber.go: Disconnect, disconnect, runDisconnectThread", "sttp/transport/SubscriberConnector.go: Cancel, waitForRetry, autoReconnect, connect", "sttp/thread/Thread.go: Start, TryStart, Join"]}
{"id": "C109", "title": "A lost connection is made again, however often it is lost", "statement": "With AutoReconnect on and no limit on retries, a subscriber whose connection is lost comes to be connected again once the publisher accepts, without crash, deadlock or a dropped open connection, however often the connection is lost and however often dialling fails; each loss has one terminated callback and each new connection one established callback, in turn.", "quantifier": "all numbers of losses and failed attempts, all schedules of the goroutines", "why_tests_cant": "Unbounded histories and interleavings.", "anchors": ["sttp/transport/SubscriberConnector.go: autoReconnect, waitForRetry, connect", "sttp/transport/DataSubscriber.go: disconnect, runDisconnectThread, runCommandChannelResponseThread, connect, establishConnection", "sttp/Subscriber.go: handleReconnect", "sttp/thread/Thread.go: Start, TryStart, Join"]}
{"id": "C110", "title": "A listening subscriber takes one publisher after another", "statement": "From a successful Listen until Disconnect the subscriber accepts publishers: one that connects while there is none becomes the connection in use and is reported established; one that connects while there is another is turned away without disturbing it; after a connection is lost it is reported terminated once and the next publisher is accepted, any number of times, without crash, deadlock or a dropped open connection.", "quantifier": "all histories of publishers connecting and losing connections, all schedules of the goroutines", "why_tests_cant": "Unbounded histories and interleavings of the accept thread, the reader, the termination and the disconnect threads.", "anchors": ["sttp/transport/DataSubscriber.go: Listen, runListeningSocketAcceptThread, establishConnection, disconnect, runDisconnectThread, runCommandChannelResponseThread", "sttp/thread/Thread.go: Start, TryStart, Join"]}
{"id": "C111", "title": "Disconnect ends listening", "statement": "After Disconnect on a listening subscriber, with or without a publisher, the subscriber comes to rest with the listening socket and the connection closed, no goroutine left and the terminated callback called once, whatever publishers do meanwhile.", "quantifier": "all earlier histories, all moments of the call, all schedules, all moments at which publishers connect or close", "why_tests_cant": "Depends on the interleaving of the call with publishers and four kinds of goroutines.", "anchors": ["sttp/transport/DataSubscriber.go: Disconnect, disconnect, runDisconnectThread, runListeningSocketAcceptThread", "sttp/thread/Thread.go: Join"]}
{"id": "C112", "title": "Listen can be called again after Disconnect", "statement": "Listen on a subscriber that is not listening, in particular right after Disconnect, makes it listen, with one goroutine accepting on the open listening socket, and Disconnect still works afterwards; Listen on one that listens changes nothing.", "quantifier": "all earlier histories of Listen, Disconnect and publishers, all schedules", "why_tests_cant": "Depends on how far an earlier Disconnect has been carried out in the background.", "anchors": ["sttp/transport/DataSubscriber.go: Listen, Disconnect, disconnect, runDisconnectThread, runListeningSocketAcceptThread", "sttp/thread/Thread.go: Join"]}
{"id": "C113", "title": "A UDP data packet is decoded consistently while command channel responses are handled", "statement": "With a UDP data channel, data packets are decoded by one goroutine while another handles the responses that replace keys, signal index caches and base times. Every packet must be decoded as if it had been handled at one moment: never crash the process, one table, one key and one set of base times for the whole packet; and updates that concern nothing the packet refers to must not change its measurements.", "quantifier": "all packets a publisher can encode, all updates handled meanwhile, all interleavings of the two goroutines", "why_tests_cant": "A data race between two goroutines: which reads see which stores depends on the schedule, and a test cannot choose it.", "anchors": ["sttp/transport/DataSubscriber.go: runDataChannelResponseThread, handleDataPacket, parseCompactMeasurements, handleUpdateBaseTimes, handleUpdateSignalIndexCache, handleUpdateCipherKeys, setupConnection", "sttp/transport/CompactMeasurement.go: Decode"]}
{"id": "C114", "title": "The text of a timestamp shows its time", "statement": "String of a timestamp is the date and time it stands for, to the 100 ns, whatever its leap-second marks, so that different times have different texts; ShortTime is its time of day, cut to the millisecond.", "quantifier": "all 2^64 timestamps", "why_tests_cant": "The texts depend on the calendar, on the padding and on the wrapping of 64-bit arithmetic for each of 2^62 times; examples near today do not show for which times it wraps.", "anchors": ["sttp/ticks/Ticks.go: TimeFormat, ShortTimeFormat, String, ShortTime, ToTime"]}
{"id": "C115", "title": "A date and time of a metadata document is read as the instant it writes, and its text reads back", "statement": "A field of type xs:dateTime is read as the instant its text denotes in XML Schema, with a numeric zone, with Z or without a zone; and the text of a date/time value, as ValueAsString and filter expressions show it, is that of its instant and reads back as it.", "quantifier": "all dates from year 0 to 9999, all times of day with any number of digits of the second, all zones", "why_tests_cant": "The texts are infinitely many, and a parser that drops its error gives a value for every text.", "anchors": ["sttp/data/DataSet.go: DateTimeFormat, loadRecords", "sttp/data/DataRow.go: convertFromDateTime, stringValueFromDateTime", "sttp/data/ValueExpression.go: String"]}
{"id": "C116", "title": "The text of an identifier determines it and reads back", "statement": "String of a Guid is its sixteen bytes in order as lower-case hexadecimal digits, with dashes and in braces; Parse accepts exactly the four usual forms (plain, in braces, as urn:uuid, and 32 digits) in either case and gives the Guid they write; Parse of String gives the Guid back, and different Guids have different texts. A field of a metadata document that is such a text is read as that Guid, and one that is not is not taken for a Guid.", "quantifier": "all 2^128 identifiers and all texts", "why_tests_cant": "Both sets are far too large to try; a parser that drops its error gives a value for every text.", "anchors": ["sttp/guid/Guid.go: Parse, String", "sttp/data/DataSet.go: loadRecords"]}
{"id": "C117", "title": "A GUID written in a filter expression is that GUID", "statement": "In a filter expression a GUID with its dashes denotes that GUID, plain, in braces or in single quotes, in either case; nothing else that the grammar takes for a GUID ends in an error.", "quantifier": "all GUIDs in all the forms of the grammar's GUID token", "why_tests_cant": "The forms times 2^128 values.", "anchors": ["sttp/data/FilterExpressionParser.go: parseGuidLiteral, ExitLiteralValue", "sttp/data/FilterExpressionSyntax.g4: GUID_LITERAL"]}
{"id": "C118", "title": "A floating-point number is shown as its nearest decimal", "statement": "Wherever a number is shown with a fixed number of decimals (values of measurements, of cells and of expressions, format.Float) the text is the decimal with so many digits that is nearest to the number, ties to even, with its sign; a number that is such a decimal is shown exactly; a greater number never has a smaller text; and equal texts mean equal signs and equal nearest decimals. Infinities and NaN are shown as such.", "quantifier": "all 2^64 doubles and all precisions", "why_tests_cant": "Rounding errors show for few numbers.", "anchors": ["sttp/format/Float.go: Float", "sttp/data/ValueExpression.go: String", "sttp/data/DataRow.go: stringValueFromSingle, stringValueFromDouble", "sttp/transport/Measurement.go: String"]}
{"id": "C119", "title": "The text of state flags names exactly the flags that are set", "statement": "String of state flags is the names of the flags that are set, from the least significant, separated by commas, or Normal if none is set; different flags have different texts.", "quantifier": "all 2^32 values", "why_tests_cant": "2^32 values.", "anchors": ["sttp/transport/Constants.go: StateFlagsEnum.String"]}
{"id": "C120", "title": "The text of a measurement shows its parts", "statement": "String of a measurement shows its signal identifier, time of day, value to three decimals and flags; the value shown is that of the float32 received; measurements with equal texts have the same identifier, flags, time of day to the millisecond and value to three decimals.", "quantifier": "all measurements", "why_tests_cant": "Unbounded values.", "anchors": ["sttp/transport/Measurement.go: String", "sttp/transport/CompactMeasurement.go: Decode"]}
{"id": "C121", "title": "An adjusted value is the value times the multiplier plus the adder", "statement": "AdjustedValue of a measurement is its value times the multiplier plus the adder of its signal's record, each operation rounded to the nearest double; a signal without a record, and one whose record has not been changed, keeps its value; what an application sets in a record stays in force, also after the connection is lost and made again.", "quantifier": "all values, adders, multipliers and histories", "why_tests_cant": "Depends on rounding and on the history of connections.", "anchors": ["sttp/transport/DataSubscriber.go: AdjustedValue, LookupMetadata, establishConnection", "sttp/transport/MeasurementMetadata.go: MeasurementMetadata"]}
{"id": "C122", "title": "A signal has one metadata record", "statement": "All goroutines that look up the metadata of a signal get the same record, so that what one of them sets is seen by the others and by AdjustedValue.", "quantifier": "all schedules of any number of goroutines looking up and changing records", "why_tests_cant": "Interleavings.", "anchors": ["sttp/transport/DataSubscriber.go: LookupMetadata, Metadata, AdjustedValue"]}
{"id": "C123", "title": "A number written as text is read as the nearest floating-point number", "statement": "The text of a number - digits with or without sign, point and exponent - read as a field of type xs:double or xs:float, by Convert to Double or as a literal of a filter expression, gives the number of that format nearest to what is written, ties to even, and an infinity if that is out of range; inf, infinity and nan in any case are read as such; no other text is taken for a number.", "quantifier": "all texts", "why_tests_cant": "Unboundedly many digits; errors in the last place show for few numbers.", "anchors": ["sttp/data/DataSet.go: loadRecords", "sttp/data/ValueExpression.go: convertFromString", "sttp/data/FilterExpressionParser.go: ExitLiteralValue"]}
{"id": "C124", "title": "A number written as text is read exactly as a decimal", "statement": "The text of a number read as a field of type xs:decimal, by Convert to Decimal, or as a literal with a point or of more than 64 bits, is exactly the number written; Convert to Int64 gives its whole part; no other text is taken for a decimal.", "quantifier": "all texts", "why_tests_cant": "Unboundedly many digits.", "anchors": ["sttp/data/DataSet.go: loadRecords", "sttp/data/ValueExpression.go: convertFromString", "sttp/data/FilterExpressionParser.go: ExitLiteralValue, parseNumericLiteral"]}
{"id": "C125", "title": "A decimal is shown exactly, and its text reads back", "statement": "The text of a decimal, as Convert to String and ValueAsString give it, is exactly its number without superfluous zeros; decimals have the same text if and only if they are the same number; the text reads back as that number; as a Double a decimal is the nearest one.", "quantifier": "all decimals", "why_tests_cant": "Unboundedly many digits and exponents.", "anchors": ["sttp/data/ValueExpression.go: String, convertFromDecimal", "sttp/data/DataRow.go: stringValueFromDecimal, ColumnValueAsString"]}
{"id": "C126", "title": "The quotient of decimals is the nearest with sixteen decimals", "statement": "Dividing when an operand is a decimal gives the multiple of 10^-16 nearest to the exact quotient, halves away from zero; a quotient with no more decimals is exact.", "quantifier": "all decimals and integers, divisor not zero", "why_tests_cant": "All operand values.", "anchors": ["sttp/data/ExpressionTree.go: divideOp"]}
{"id": "C127", "title": "A delivered slice of measurements is the application's until it gives it back", "statement": "What an application sees in a slice of measurements that its callback received stays as it is, whatever packets are decoded meanwhile by whatever goroutines, until the application itself changes the slice or gives it back with PutMeasurementSlice; a callback never receives a slice the application still holds, and what it receives are the measurements of its own packet - provided the application gives back and changes only slices it holds.", "quantifier": "all packets, all interleavings of decoding goroutines, of the application and of the garbage collector emptying the pool, all choices of the pool", "why_tests_cant": "Schedules are unbounded, and which slice the pool returns is not under a test's control.", "anchors": ["sttp/transport/DataSubscriber.go: handleDataPacket", "sttp/Subscriber.go: PutMeasurementSlice"]}
{"id": "C128", "title": "Close shuts the subscriber down, and it stays down", "statement": "Close ends the connection and calls the connection-terminated callback once, and has done so when it returns; it always returns, also when several goroutines close or disconnect at once and when it is called in a callback; once Close has been called, no Dial connects any more.", "quantifier": "all schedules of any number of calls of Close, Disconnect and Dial, in goroutines of their own or in callbacks, with the goroutines of the subscriber", "why_tests_cant": "Interleavings; the ten milliseconds that Close sleeps hide the failures of most runs.", "anchors": ["sttp/Subscriber.go: Close", "sttp/transport/DataSubscriber.go: Dispose, disconnect, runDisconnectThread", "sttp/transport/SubscriberConnector.go: connect", "sttp/thread/Thread.go: Join"]}
{"id": "C129", "title": "What is shown of columns, rows, tables, codes and operators tells them", "statement": "The text shown for a column gives its name, its type and whether it is computed; for a row the values of its columns in their order, NULL and strings being recognisable; for a table its name, columns and number of rows; for a data set the names of all its tables, the same text each time; commands, responses, kinds of signals, types, functions and operators show under different names, their own, and an operator or function as it is written in expressions.", "quantifier": "all columns, rows with any cells, tables, data sets, codes and operators", "why_tests_cant": "Which texts collide depends on all names and cells there may be.", "anchors": ["sttp/data/DataColumn.go: String", "sttp/data/DataRow.go: String", "sttp/data/DataTable.go: String", "sttp/data/DataSet.go: String", "sttp/data/Constants.go: String", "sttp/data/DataType.go: String", "sttp/transport/Constants.go: String", "sttp/transport/SignalKind.go: String"]}
{"id": "C130", "title": "A command that fails ends its own connection, once", "statement": "Commands sent by any number of goroutines never end a connection that works, and each is written to it once; when the publisher closes the connection and writing a command fails, the subscriber comes to rest disconnected, with the socket closed, no goroutine left and the terminated callback called once, whether or not the reader notices too; a command that was begun or failed on one connection never affects a later one.", "quantifier": "any number of goroutines sending any number of commands, all moments at which the publisher closes, all schedules", "why_tests_cant": "A failing command races the reader and the termination thread; each interleaving would have to be forced.", "anchors": ["sttp/transport/DataSubscriber.go: SendServerCommandWithPayload, dispatchConnectionTerminated, disconnect, runDisconnectThread", "sttp/thread/Thread.go: TryStart, Start"]}
{"id": "C131", "title": "A computed column holds its expression's value in the column's type", "statement": "Reading a computed column gives the value of its expression in the column's type: in a column of integers the number without its fraction, in one of floating-point numbers the nearest number of that format, in a Boolean one whether the number is other than zero, in a decimal one the same number, in a text one the text the value shows in its own type; a text is read as a number, truth value, GUID or date of the column's type; what the column's type cannot hold is an error and never another value, and no value makes the read panic.", "quantifier": "all computed columns, all values of their expressions, all types of columns", "why_tests_cant": "There are nine types of values, fifteen types of columns and unboundedly many values of each; tests convert a few.", "anchors": ["sttp/data/DataRow.go: getComputedValue, convertFromBoolean, convertFromInt32, convertFromInt64, convertFromDecimal, convertFromDouble, convertFromString, convertFromGuid, convertFromDateTime"]}
{"id": "C132", "title": "The signal type acronym tells kind and phasor type", "statement": "SignalTypeAcronym gives the documented four letters for every kind of signal, for angles and magnitudes those of a voltage when the phasor type is V or v and those of a current otherwise; NULL for a number that is no kind; and different kinds, voltages and currents never share an acronym.", "quantifier": "all numbers as kinds, all runes as phasor types", "why_tests_cant": "There are 65536 kinds and a million runes; tests try a few.", "anchors": ["sttp/transport/SignalKind.go: SignalTypeAcronym"]}
{"id": "C133", "title": "Nothing given means the documented defaults", "statement": "The first Dial without configuration announces version 2, UTF-8 text and compressed metadata, cache and (unless the subscription is by UDP) payload, then asks for all metadata; while attempts are refused it keeps trying, waiting one second and then twice as long each time up to thirty seconds, and a lost connection is made again the same way; Subscribe without settings sends exactly the documented default settings with the filter expression.", "quantifier": "all calls before the first Dial, all addresses, all numbers of refused attempts, all filter expressions, all states of a connection", "why_tests_cant": "How often a publisher refuses and what was called before are not bounded.", "anchors": ["sttp/Config.go: NewConfig; sttp/Settings.go: NewSettings; sttp/Subscriber.go: Dial, Subscribe"]}
{"id": "C134", "title": "Unsubscribe does not disturb the end of the connection", "statement": "Whatever other goroutines call Unsubscribe meanwhile: Disconnect ends the connection, a connection that ends is reported once, and nothing crashes; and Unsubscribe itself never ends a connection.", "quantifier": "all numbers of goroutines and calls, all schedules, publishers that close the connection at any moment", "why_tests_cant": "The flag that Unsubscribe borrows is set for microseconds; only certain schedules of four goroutines show what comes of it.", "anchors": ["sttp/transport/DataSubscriber.go: Unsubscribe, Disconnect, disconnect, runDisconnectThread, readPayloadHeader"]}
{"id": "C135", "title": "Overlapping calls close the data channel, return and do not crash", "statement": "With a UDP data channel, whatever goroutines call Subscribe, Unsubscribe and Disconnect at the same time: every call returns, nothing crashes, and when no call is under way a subscriber that was disconnected has no socket open and no goroutine reading.", "quantifier": "all numbers of goroutines and calls, all schedules, datagrams and answers arriving at any moment", "why_tests_cant": "What is shared is read twice or written between other accesses for microseconds; only certain schedules show what comes of it.", "anchors": ["sttp/transport/DataSubscriber.go: Subscribe, Unsubscribe, Disconnect, disconnect, runDisconnectThread, runDataChannelResponseThread", "sttp/thread/Thread.go: Start, Join"]}
{"id": "C136", "title": "A filter expression parser can be asked again", "statement": "Whatever was asked of a FilterExpressionParser before, Evaluate selects what the filter expression selects from the data set as it is then, ExpressionTrees gives the trees of the text, and the results stand until the next Evaluate, the sets holding what the lists hold.", "quantifier": "all filter expression texts of the grammar, data sets and histories of calls and settings", "why_tests_cant": "Tests use a parser once; what a call leaves behind shows only in some order of calls.", "anchors": ["sttp/data/FilterExpressionParser.go: NewFilterExpressionParserForDataSet, ExpressionTrees, Evaluate, FilteredRows, FilteredRowSet, FilteredSignalIDs, FilteredSignalIDSet, visitParseTreeNodes, initializeSetOperations", "sttp/data/parser/filterexpressionsyntax_parser.go: Parse"]}
{"id": "C137", "title": "Loading a document into a data set replaces the tables it defines and leaves the others alone", "statement": "Loading a document into a data set that has tables already succeeds when the document loads into an empty one; the tables the document defines are then as in an empty data set, whatever was there under these names in any letter case; the other tables keep their names, columns and rows; and loading the document again changes nothing.", "quantifier": "all data sets made by the API, all documents and all table names", "why_tests_cant": "Tests load each document into a new data set; what a load leaves of an earlier one depends on both and on every name in them.", "anchors": ["sttp/data/DataSet.go: ParseXml, ParseXmlDocument, loadSchema, loadRecords, AddTable, Table", "sttp/data/DataTable.go: InitRows, AddRow"]}
{"id": "C138", "title": "Connecting, reconnecting, callbacks and registrations do not stop one another", "statement": "Any number of goroutines may dial, listen, reconnect, receive, register receivers and report messages at the same time, with receivers that register and report themselves, and all come to their end under every schedule.", "quantifier": "all numbers of goroutines, sequences of calls, receivers and schedules", "why_tests_cant": "Three locks are taken in turns; a deadlock needs one particular interleaving of two or more goroutines.", "anchors": ["sttp/Subscriber.go: Dial, Listen, StatusMessage, ErrorMessage, SetStatusMessageLogger, SetNewMeasurementsReceiver, handleConnect, handleMetadataReceived", "sttp/transport/DataSubscriber.go: BeginCallbackAssignment, BeginCallbackSync, dispatchErrorMessage, establishConnection, runDisconnectThread, handleDataPacket", "sttp/transport/SubscriberConnector.go: autoReconnect, connect, dispatchErrorMessage, BeginCallbackAssignment, BeginCallbackSync"]}
{"id": "C139", "title": "A receiver can be registered at any time", "statement": "Registering a receiver or logger, dialing and listening never assign a callback while another goroutine reads or assigns it, whatever the subscriber is doing and whatever the receivers do.", "quantifier": "all numbers of goroutines, sequences of calls, receivers and schedules", "why_tests_cant": "A data race shows only when a registration meets a dispatch, and then often has no effect that a test can see.", "anchors": ["sttp/Subscriber.go: SetStatusMessageLogger, SetErrorMessageLogger, SetMetadataReceiver, SetSubscriptionUpdatedReceiver, SetDataStartTimeReceiver, SetConfigurationChangedReceiver, SetNewMeasurementsReceiver, SetNewBufferBlocksReceiver, SetNotificationReceiver, SetHistoricalReadCompleteReceiver, SetConnectionEstablishedReceiver, SetConnectionTerminatedReceiver, Dial, Listen", "sttp/transport/DataSubscriber.go: BeginCallbackAssignment, BeginCallbackSync, handleUpdateSignalIndexCache, handleDataPacket"]}
{"id": "C140", "title": "The receiver registered last is the one that is called", "statement": "Whatever was registered, dialed and listened before, everything that happens goes to the receiver or logger registered last for it, once, and to no other.", "quantifier": "all histories of registrations, dials and listens, all kinds of events", "why_tests_cant": "Callbacks are copied between three objects at different moments; which copy an event finds depends on the whole history.", "anchors": ["sttp/Subscriber.go: NewSubscriber, Dial, Listen, StatusMessage, ErrorMessage, SetStatusMessageLogger, SetErrorMessageLogger, SetMetadataReceiver, SetSubscriptionUpdatedReceiver, SetDataStartTimeReceiver, SetConfigurationChangedReceiver, SetNewMeasurementsReceiver, SetNewBufferBlocksReceiver, SetNotificationReceiver, SetHistoricalReadCompleteReceiver, SetConnectionEstablishedReceiver, SetConnectionTerminatedReceiver, handleConnect, handleReconnect", "sttp/transport/DataSubscriber.go: establishConnection, dispatchStatusMessage, dispatchErrorMessage", "sttp/transport/SubscriberConnector.go: dispatchErrorMessage"]}
{"id": "C141", "title": "A subscriber has one connection at a time, however many goroutines connect it", "statement": "Whatever number of goroutines call Connect or Dial and however they are scheduled, at most one connection is open, it is the one the subscriber knows, and a call made once another has returned nil returns an error.", "quantifier": "all numbers of goroutines, all lists of calls and answers of the publisher, all schedules", "why_tests_cant": "The state of the connection is looked at outside the mutex: what comes of it depends on the schedule, and tests see few.", "anchors": ["sttp/transport/DataSubscriber.go: Connect, connect, establishConnection", "sttp/Subscriber.go: Dial, connect", "sttp/transport/SubscriberConnector.go: Connect, connect"]}
{"id": "C142", "title": "The application is told everything once, in the order in which it happened", "statement": "However goroutines are scheduled, each message, notification, metadata document, signal index cache, configuration change, start time, measurement packet and buffer block is told once, and what happens in one goroutine is told in the order in which it happens.", "quantifier": "all sequences of events in any number of goroutines, all schedules", "why_tests_cant": "Receivers are called by goroutines of their own; the order in which those run is the scheduler's, and tests see few.", "anchors": ["sttp/transport/DataSubscriber.go: dispatchStatusMessage, dispatchErrorMessage, handleMetadataRefresh, handleDataStartTime, handleProcessingComplete, handleUpdateSignalIndexCache, handleConfigurationChanged, handleDataPacket, handleBufferBlock, handleNotification, establishConnection, disconnect", "sttp/transport/SubscriberConnector.go: dispatchErrorMessage", "sttp/Subscriber.go: handleConnect"]}
{"id": "C143", "title": "What is known of a signal is what the metadata document received last says", "statement": "However many metadata documents are received and however the goroutines that load them are scheduled, in the end every field of a signal's metadata is as the last document that has it says, and no record mixes documents otherwise.", "quantifier": "all sequences of metadata documents, all moments at which they arrive, all schedules", "why_tests_cant": "Each document is loaded by a goroutine of its own without a lock; what is left depends on the schedule.", "anchors": ["sttp/Subscriber.go: handleMetadataReceived, loadMeasurementMetadata", "sttp/transport/DataSubscriber.go: handleMetadataRefresh, LookupMetadata"]}
{"id": "C144", "title": "A metadata document is read as it was received, whatever is received after it", "statement": "Whatever packets follow a metadata document and whenever the goroutine that loads it runs, the document that is parsed and given to the application is byte for byte the one that was received.", "quantifier": "all sequences of packets, all documents, all sizes of buffers, all schedules", "why_tests_cant": "Whether the goroutine reads before the next packet overwrites the buffer depends on the scheduler and the network.", "anchors": ["sttp/transport/DataSubscriber.go: runCommandChannelResponseThread, readPayloadHeader, readPacket, processServerResponse, handleSucceeded, handleMetadataRefresh", "sttp/transport/Common.go: decompressGZip", "sttp/Subscriber.go: handleMetadataReceived"]}
{"id": "C145", "title": "After Unsubscribe the publisher is not asked for data until the application asks for it", "statement": "Once Unsubscribe has been called, and until the application calls Subscribe or a connection is made anew, no frame sent to the publisher asks for data, whatever is received and whatever else the application calls.", "quantifier": "all histories, all later packets, calls and callbacks, all configurations", "why_tests_cant": "Subscription requests are also sent by callbacks that run later; which ones do depends on the configuration and on everything received after the call.", "anchors": ["sttp/Subscriber.go: Unsubscribe, Subscribe, RequestMetadata, handleMetadataReceived, handleConfigurationChanged, handleConnect", "sttp/Config.go: AutoRequestMetadata, AutoSubscribe", "sttp/transport/DataSubscriber.go: Unsubscribe, Subscribe, processServerResponse"]}
{"id": "C146", "title": "A subscriber that listens keeps listening, and dials nobody, until it is told to stop", "statement": "Once Listen has succeeded, the subscriber goes on listening and dials no publisher until the application calls Disconnect, whatever it dialed before and however often publishers connect and are lost.", "quantifier": "all histories of dials, listens, connections and losses, all schedules of the reconnect thread, all MaxRetries", "why_tests_cant": "Whether a reconnect thread of an earlier dial is still at work, and where, depends on the history and the scheduler.", "anchors": ["sttp/Subscriber.go: Dial, Listen, handleReconnect", "sttp/transport/SubscriberConnector.go: autoReconnect, connect, Cancel, ResetConnection", "sttp/transport/DataSubscriber.go: connect, Listen, disconnect, runDisconnectThread, runListeningSocketAcceptThread"]}
{"id": "C147", "title": "Every reader of measurements returns what is received since it was made, and can be given up", "statement": "A MeasurementReader returns the measurements received since ReadMeasurements made it, in order and each once, whatever other readers are made; and when the application stops reading, packets are still handled, other readers can be made and Disconnect completes.", "quantifier": "all sequences of packets, readers and calls, all batches, all schedules", "why_tests_cant": "What a reader misses, and whether a measurement waits for it, depends on when packets arrive between the calls.", "anchors": ["sttp/MeasurementReader.go: newMeasurementReader, NextMeasurement", "sttp/Subscriber.go: ReadMeasurements, SetNewMeasurementsReceiver, Disconnect", "sttp/transport/DataSubscriber.go: handleDataPacket, BeginCallbackAssignment, BeginCallbackSync, runDisconnectThread"]}
