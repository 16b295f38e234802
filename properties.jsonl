{"id": "C01", "title": "Constructor/getter round trip for scalar elements", "statement": "For every key and every Go value accepted by EC.Double, String, Binary(WithSubtype), Undefined, ObjectID, Boolean, DateTime, Null, Regex, DBPointer, JavaScript, Symbol, Int32, Timestamp, Int64, MinKey, MaxKey, the element returned reports the same key from Key(), the right Type(), and its typed getter (and OK variant) returns exactly the value that was passed in, without panicking.", "quantifier": "all keys (any bytes, total element size below 2^31), all values of each type (NUL-free regex parts)", "why_tests_cant": "The value space (strings of any length, all 2^64 integers and float bit patterns) cannot be enumerated; a single wrong offset shows only for some lengths.", "anchors": ["constructor.go: ElementConstructor.*", "value.go: Value getters", "elements/elements.go: *.Element"]}
{"id": "C02", "title": "Decimal128 survives construction and access", "statement": "EC.Decimal128(k, d).Value().Decimal128() returns d for every decimal128 value d.", "quantifier": "all pairs of 64-bit halves", "why_tests_cant": "A test with equal halves or zero passes; only a universally quantified statement distinguishes the two halves.", "anchors": ["constructor.go: ElementConstructor.Decimal128", "value.go: Value.Decimal128", "elements/elements.go: Decimal128NS.Encode"]}
{"id": "C03", "title": "Validate size equals bytes written", "statement": "For every document assembled from the constructors (any nesting), Document.Validate succeeds with size n, MarshalBSON succeeds, returns exactly n bytes, and the first four bytes are n in little endian while the last is NUL.", "quantifier": "all finite trees of documents, arrays, code-with-scope and scalars with NUL-free keys whose size is below 2^31", "why_tests_cant": "Size computation and writing are separate recursive passes; agreement must hold at every depth and width.", "anchors": ["document.go: Validate, MarshalBSON, writeByteSlice", "element.go: Validate, writeByteSlice", "array.go: Validate, writeByteSlice", "value.go: validate"]}
{"id": "C04", "title": "MarshalBSON produces the BSON encoding of the document", "statement": "The bytes MarshalBSON returns for a constructed document are exactly the encoding bsonspec.org assigns to the tree of keys and values it was built from.", "quantifier": "all constructed document trees (unbounded depth and width)", "why_tests_cant": "Interoperability with any other BSON reader needs every tree, not samples.", "anchors": ["document.go: MarshalBSON", "element.go: writeByteSlice", "array.go: writeByteSlice", "elements/elements.go"]}
{"id": "C05", "title": "Marshal/read round trip", "statement": "ReadDocument(d.MarshalBSON()) succeeds for every constructed document d, and reading the result through the API (keys in order, types, typed getters, recursively through MutableDocument/MutableArray) yields the same tree as d.", "quantifier": "all constructed document trees with NUL-free keys", "why_tests_cant": "The round trip must hold for every tree; bugs hide in combinations of nesting and order.", "anchors": ["document.go: ReadDocument, UnmarshalBSON, MarshalBSON", "iterator.go: readerIterator", "value.go"]}
{"id": "C06", "title": "Read/marshal byte fidelity", "statement": "For every byte string that is a well-formed BSON document, ReadDocument succeeds and MarshalBSON of the result is that same byte string.", "quantifier": "all well-formed BSON byte strings (any depth)", "why_tests_cant": "The set of well-formed documents is infinite, and lossiness would show only on particular nestings.", "anchors": ["document.go: ReadDocument, MarshalBSON", "reader.go", "element.go: writeByteSlice"]}
{"id": "C07", "title": "BSON encoding is injective and self-delimiting", "statement": "Two document trees with the same bytes are the same tree, and no document's encoding is a proper prefix of another's, so concatenated documents split uniquely.", "quantifier": "all pairs of document trees", "why_tests_cant": "A statement over all pairs of unbounded trees.", "anchors": ["document.go: MarshalBSON", "elements/elements.go"]}
{"id": "C08", "title": "Arrays are encoded with keys 0..n-1", "statement": "Whatever keys the values of an Array carry, the array is written with the decimal indices 0,1,...,n-1 as keys in order, and its Validate size accounts for exactly those keys.", "quantifier": "all arrays of any length and values", "why_tests_cant": "Key width changes at every power of ten; a bug can appear first at index 10, 100, 10^6.", "anchors": ["array.go: Validate, writeByteSlice"]}
{"id": "C09", "title": "Reader.Validate accepts every well-formed document", "statement": "Reader(b).Validate returns (len(b), nil) for every well-formed BSON document b, also when b is followed by arbitrary bytes.", "quantifier": "all well-formed BSON byte strings and all suffixes", "why_tests_cant": "Unbounded input space.", "anchors": ["reader.go: Validate, readElements"]}
{"id": "C10", "title": "Reading terminates without panic on every input", "statement": "ReadDocument and Reader.Validate return a document or an error on every byte slice: they never panic and never loop forever.", "quantifier": "all byte slices", "why_tests_cant": "Hostile inputs are unbounded; fuzzing cannot show the absence of a loop or panic.", "anchors": ["document.go: UnmarshalBSON", "iterator.go: newReaderIterator, Next", "reader.go: readElements", "value.go: validate"]}
{"id": "C11", "title": "A validated element can be read safely", "statement": "If Element.Validate succeeds for an element obtained from a byte slice then the getter of its type returns without panicking.", "quantifier": "all byte slices and element positions", "why_tests_cant": "Requires the validator and the accessors to agree on every byte pattern.", "anchors": ["value.go: validate and getters"]}
{"id": "C12", "title": "Encoders stay inside their window", "statement": "Each elements.X.Encode/Element(start, buf, v) either reports ErrTooSmall or writes exactly n bytes at [start, start+n), returns n, and leaves every other byte of buf unchanged; it reports ErrTooSmall whenever the encoding does not fit.", "quantifier": "all buffers, start positions and values", "why_tests_cant": "Frame conditions over arbitrary surrounding memory.", "anchors": ["elements/elements.go"]}
{"id": "C13", "title": "OK getters never panic on type mismatch", "statement": "Each XxxOK getter returns ok=true exactly when the value is initialised and of type Xxx, and then returns what Xxx returns; otherwise it returns ok=false. Each Xxx panics when OK would be false.", "quantifier": "all values, including nil and uninitialised ones", "why_tests_cant": "Quantifies over all values of all types, including corrupted ones.", "anchors": ["value.go: *OK"]}
{"id": "C14", "title": "Equal is byte-semantic equality", "statement": "On constructed or well-formed values Value.Equal and Element.Equal are an equivalence relation, and hold exactly when keys, types and encoded contents are the same, no matter whether a subdocument is held as bytes or as a Document.", "quantifier": "all pairs and triples of well-formed values", "why_tests_cant": "A relational property over all pairs/triples and both representations.", "anchors": ["value.go: Equal, docToBytes", "x_value.go: checkEqualVal", "x_core.go: readValue", "element.go: Equal"]}
{"id": "C15", "title": "Document operations refine an ordered association list", "statement": "After any sequence of Append, Set, Delete, Extend and Reset, the keys and values seen by Iterator, Len, ElementAt, LookupElement and Search equal those of an ordered list on which Set replaces the first match or appends, Delete removes the first match, Append adds at the end and Reset empties.", "quantifier": "all operation sequences of any length from the empty document", "why_tests_cant": "History-quantified: all interleavings of operations with duplicate keys.", "anchors": ["document.go: Append, Set, Delete, Extend, Reset, ElementAt", "x_document.go: LookupElement"]}
{"id": "C16", "title": "Document.Map reflects the current document", "statement": "After any sequence of document operations, Map() maps each key to the first element with that key in the current document and contains no other key.", "quantifier": "all operation histories interleaved with Map calls", "why_tests_cant": "A stale cache shows only after particular histories.", "anchors": ["unmarshal.go: Map, refreshCache", "document.go: Set, Delete, Append, UnmarshalBSON"]}
{"id": "C17", "title": "Search follows a path", "statement": "Document.Search(k1..kn) returns the element reached by taking the first element with key k1, then descending into documents by first key match and arrays by index; it returns an error iff no such path exists.", "quantifier": "all documents and key paths", "why_tests_cant": "Unbounded depth and mixed nesting.", "anchors": ["document.go: Search", "array.go: findElementForStrKey"]}
{"id": "C18", "title": "Sorted is an ordered stable permutation", "statement": "Document.Sorted returns a permutation of the elements ordered by key and keeps the relative order of elements that compare equal; the source document is unchanged.", "quantifier": "all documents", "why_tests_cant": "All permutations of all documents.", "anchors": ["x_document.go: Sorted, Elements.Less"]}
{"id": "C19", "title": "Copies are isolated", "statement": "Mutating the document returned by Document.Copy with Append, Set, Delete or Reset never changes what the original document shows, and vice versa.", "quantifier": "all documents and operation sequences on either copy, with arbitrary slice capacities", "why_tests_cant": "Aliasing through slice capacity appears only in certain histories.", "anchors": ["document.go: Copy, Append, Set, Delete, Reset"]}
{"id": "C20", "title": "Array operations refine a list of values", "statement": "Any sequence of Append, Set, Delete, Extend and Reset on an Array shows through Len, Lookup and Iterator the list obtained by the same list operations; Set out of range panics, Delete out of range returns nil and changes nothing.", "quantifier": "all operation sequences and indices", "why_tests_cant": "History and index quantification.", "anchors": ["array.go"]}
{"id": "C21", "title": "Stream reading consumes exactly one document", "statement": "Document.ReadFrom and NewFromIOReader, applied to a stream starting with a well-formed document, consume exactly its bytes and deliver it, however the stream chops its reads; repeated calls recover a concatenation of documents in order and then report EOF.", "quantifier": "all streams, all document sequences, all read chunkings", "why_tests_cant": "All chunkings of all streams.", "anchors": ["document.go: ReadFrom", "reader.go: NewFromIOReader"]}
{"id": "C22", "title": "ObjectID text forms round trip", "statement": "FromHex(id.Hex()) = id for every id; FromHex accepts exactly the 24-digit hex strings; the JSON form of an id decodes back to it.", "quantifier": "all 2^96 ids and all strings", "why_tests_cant": "2^96 values; all strings.", "anchors": ["types/objectid.go: Hex, FromHex, MarshalJSON, UnmarshalJSON"]}
{"id": "C23", "title": "Generated ObjectIDs are unique", "statement": "Ids generated by one process are pairwise distinct under any interleaving of concurrent callers as long as fewer than 2^24 are generated within one second, and carry the generation second in their first four bytes.", "quantifier": "all schedules of concurrent NewObjectID calls", "why_tests_cant": "Schedules and counter wrap-around cannot be covered by tests.", "anchors": ["types/objectid.go: NewObjectID, putUint24"]}
{"id": "C24", "title": "Decimal128 text round trip", "statement": "ParseDecimal128(d.String()) = d for every finite canonical decimal128 value d, and NaN/Inf map to themselves.", "quantifier": "all coefficients below 10^34 and all exponents", "why_tests_cant": "About 2^127 values.", "anchors": ["types/decimal.go: String, ParseDecimal128, divmod, muladd"]}
{"id": "C25", "title": "Decimal128 digit arithmetic is exact", "statement": "The 128-bit division by 10^9 used to print, and the multiply-add used to parse, compute the exact quotient/remainder and the exact product plus addend, reporting overflow exactly when the result does not fit 128 bits.", "quantifier": "all 128-bit operands", "why_tests_cant": "2^128 operands; carries are rare.", "anchors": ["types/decimal.go: divmod, muladd"]}
{"id": "C26", "title": "JSON strings round trip", "statement": "Every string written by the JSON writer is a valid JSON string literal and the JSON parser reads it back to the same string.", "quantifier": "all byte strings that are valid UTF-8", "why_tests_cant": "All strings; escapes and surrogate pairs interact.", "anchors": ["jsonx/write.go: writeJSONString", "jsonx/internal/gjson.go: unescape, parseString"]}
{"id": "C27", "title": "JSON documents round trip", "statement": "For every jsonx document, MarshalJSON yields valid JSON and parsing it gives an equal document.", "quantifier": "all jsonx documents", "why_tests_cant": "All trees and keys.", "anchors": ["jsonx/marhsal.go", "jsonx/unmarshal.go", "jsonx/write.go", "jsonx/internal/gjson.go"]}
{"id": "C28", "title": "Wire messages round trip", "statement": "For each wire protocol message built by the constructors with well-formed documents and NUL-free namespaces, parsing Serialize() gives back a message with the same fields.", "quantifier": "all field values, documents and section lists", "why_tests_cant": "All documents and list lengths.", "anchors": ["x/mrpc/mongowire/wire_*.go", "x/mrpc/mongowire/message.go"]}
{"id": "C29", "title": "Wire header size equals serialized length", "statement": "The messageLength in the header of every constructed message equals the length of Serialize() and is what the header's first four bytes encode.", "quantifier": "all messages", "why_tests_cant": "Length bookkeeping must agree for every message shape.", "anchors": ["x/mrpc/mongowire/wire_*.go", "x/mrpc/mongowire/header.go"]}
{"id": "C30", "title": "Wire parsing never panics", "statement": "Parsing any header and body returns a message or an error and never panics.", "quantifier": "all header values and body bytes", "why_tests_cant": "Hostile peers choose all bytes.", "anchors": ["x/mrpc/mongowire/message.go", "x/mrpc/mongowire/wire_*.go", "x/mrpc/mongowire/wireutil.go"]}
{"id": "C31", "title": "ReadMessage frames exactly one message", "statement": "ReadMessage on a stream beginning with a complete message consumes exactly that message, for every way the network splits it.", "quantifier": "all streams, all splittings", "why_tests_cant": "All packetisations.", "anchors": ["x/mrpc/mongowire/sock.go"]}
{"id": "C32", "title": "SendMessage writes the whole message", "statement": "SendMessage either returns an error or has written exactly Serialize() to the writer, in order, for every sequence of partial writes.", "quantifier": "all messages and partial-write behaviours", "why_tests_cant": "All partial-write schedules.", "anchors": ["x/mrpc/mongowire/sock.go: SendMessage"]}
{"id": "C33", "title": "Namespace helpers split and join consistently", "statement": "NamespaceToDB and NamespaceToCollection split at the first dot, rejoin to the namespace when a dot is present, and NamespaceIsCommand holds exactly for collection $cmd.", "quantifier": "all strings", "why_tests_cant": "All strings including empty, leading and trailing dots.", "anchors": ["x/mrpc/mongowire/namespace.go"]}
{"id": "C34", "title": "Operation registry is a map with context fallback", "statement": "Get returns the handler registered for the exact scope, else the one registered without context, else none; Add accepts a scope exactly when it validates, the handler is non-nil and the scope is new; concurrent Add/Get calls are linearizable.", "quantifier": "all histories and schedules of Add and Get", "why_tests_cant": "Histories and schedules.", "anchors": ["x/mrpc/registry.go", "x/mrpc/mongowire/scope.go"]}
{"id": "C35", "title": "FTDC integer deltas round trip", "statement": "For every sequence of samples with the same schema, decoding the chunk written by the collector restores for every integer-typed metric the exact 64-bit values of every sample.", "quantifier": "all sample matrices of any size, including wrap-around differences and all zero-run patterns", "why_tests_cant": "Zero-run-length state crosses metric boundaries; values range over 2^64.", "anchors": ["x/ftdc/collector_better.go: getPayload", "x/ftdc/read.go: readChunks", "x/ftdc/util.go"]}
{"id": "C36", "title": "FTDC doubles round trip", "statement": "Decoding a chunk restores the float64 value of every sample of every double metric.", "quantifier": "all float64 sequences", "why_tests_cant": "Needs all sequences; a one-sample test passes.", "anchors": ["x/ftdc/bson_extract.go: extractDelta", "x/ftdc/util.go: undeltaFloats", "x/ftdc/read.go"]}
{"id": "C37", "title": "FTDC structured read restores the documents", "statement": "ReadStructuredMetrics over a collector's output returns the added documents with non-metric fields removed, in order.", "quantifier": "all document sequences with a common schema", "why_tests_cant": "All schemas and lengths.", "anchors": ["x/ftdc/bson_restore.go", "x/ftdc/bson_metric.go", "x/ftdc/iterator_chunk.go"]}
{"id": "C38", "title": "Batch collectors partition samples", "statement": "A batch collector keeps every accepted sample exactly once, in order, in chunks of at most maxSamples, and Info().SampleCount is the number of accepted samples.", "quantifier": "all sequences of Add calls and all positive chunk sizes", "why_tests_cant": "All histories.", "anchors": ["x/ftdc/collector_batch.go", "x/ftdc/collector_better.go"]}
{"id": "C39", "title": "Dynamic collectors chunk by schema", "statement": "A dynamic collector never puts samples with different metric keys in one chunk, and consecutive samples with the same schema share chunks until full.", "quantifier": "all sequences of documents", "why_tests_cant": "All histories of schema changes; hash collisions.", "anchors": ["x/ftdc/collector_dynamic.go", "x/ftdc/bson_hash.go"]}
{"id": "C40", "title": "Streaming collectors lose nothing", "statement": "For a writer that accepts everything, the bytes written plus the buffered samples account for every accepted sample exactly once and in order.", "quantifier": "all sequences of Add and Flush", "why_tests_cant": "All histories.", "anchors": ["x/ftdc/collector_streaming.go"]}
{"id": "C41", "title": "Synchronized collectors are linearizable", "statement": "Every concurrent execution of a synchronized collector is equivalent to some sequential order of its calls consistent with real time.", "quantifier": "all schedules of all client threads", "why_tests_cant": "Schedules.", "anchors": ["x/ftdc/collector_sync.go"]}
{"id": "C42", "title": "Buffered collector delivers in order without panics", "statement": "Samples accepted by a buffered collector reach the underlying collector once each and in order, and no schedule of Add calls and context cancellation panics.", "quantifier": "all schedules of producers, the consumer and cancellation", "why_tests_cant": "The failing schedule needs a precise race.", "anchors": ["x/ftdc/collector_buffered.go"]}
{"id": "C43", "title": "Sampling collector respects its interval", "statement": "A sampling collector forwards a sample only when at least the minimum interval passed since the previously forwarded one, and always forwards when it has passed.", "quantifier": "all clocks (monotone) and Add sequences", "why_tests_cant": "All timings.", "anchors": ["x/ftdc/collector_sample.go"]}
{"id": "C44", "title": "Performance events round trip and accumulate", "statement": "Performance.UnmarshalDocument(MarshalDocument(p)) restores p, and the cumulative collectors store running sums of counters and timers.", "quantifier": "all field values and event sequences", "why_tests_cant": "All 64-bit values; all sequences.", "anchors": ["x/ftdc/events/performance.go", "x/ftdc/events/collector.go"]}
{"id": "C45", "title": "Recorders never block forever", "statement": "Under every schedule of the interval recorder's methods, its background worker and cancellation, every method call eventually gets the lock.", "quantifier": "all schedules", "why_tests_cant": "Deadlock needs a specific interleaving.", "anchors": ["x/ftdc/events/recorder_performance_interval.go"]}
{"id": "C46", "title": "Parallel metric generation terminates", "statement": "CollectOptions.generate returns for every set of collectors, with and without RunParallelCollectors, and includes each collector's document exactly once.", "quantifier": "all collector sets and schedules", "why_tests_cant": "Schedules; blocking on a never-closed channel.", "anchors": ["x/ftdc/metrics/metrics.go: generate"]}
{"id": "C47", "title": "Integer convenience constructors preserve values", "statement": "EC.Int(k,i), and EC.Interface for every Go integer type, produce an element whose Int() is the original integer, or Null exactly when it exceeds int64.", "quantifier": "all integers of each Go integer type", "why_tests_cant": "2^64 values; failures only beyond 2^31.", "anchors": ["x_constructor.go: ElementConstructor.Int", "constructor.go: Interface"]}
{"id": "C48", "title": "Times survive to the millisecond", "statement": "EC.Time(k,t).Value().Time() is t truncated to milliseconds for every time whose millisecond count fits in int64.", "quantifier": "all times", "why_tests_cant": "All instants, including negative ones with fractional parts.", "anchors": ["constructor.go: Time", "value.go: Time"]}
{"id": "C49", "title": "Reader lookups agree with the document", "statement": "Reader.ElementAt(i) is the i-th element and Reader.RecursiveLookup follows first-match keys, agreeing with the Document obtained from the same bytes.", "quantifier": "all well-formed documents, indices and key paths", "why_tests_cant": "All documents and paths.", "anchors": ["reader.go: ElementAt, RecursiveLookup"]}
{"id": "C50", "title": "DocumentMap conversions keep one element per key", "statement": "DocumentMap.MarshalDocument contains each element of the map exactly once, UnmarshalDocument/UnmarshalBSON keep the last element for each key of the source and leave other keys alone.", "quantifier": "all maps, documents and iteration orders", "why_tests_cant": "Go map iteration order is arbitrary.", "anchors": ["unmarshal.go"]}
{"id": "C51", "title": "DocumentMap.Validate checks keys and elements", "statement": "DocumentMap.Validate returns nil exactly when every element validates and is stored under its own key.", "quantifier": "all maps and iteration orders", "why_tests_cant": "All maps of all elements.", "anchors": ["unmarshal.go: Validate"]}
{"id": "C52", "title": "Reading from a hostile stream", "statement": "Document.ReadFrom and NewFromIOReader applied to any stream of bytes return a document or an error, never panic.", "quantifier": "all byte streams and chunkings", "why_tests_cant": "All byte strings.", "anchors": ["document.go: ReadFrom", "reader.go: NewFromIOReader"]}
{"id": "C53", "title": "ObjectID.UnmarshalJSON accepts only JSON of ids", "statement": "ObjectID.UnmarshalJSON succeeds exactly on the JSON string of an id's 24 hexadecimal digits and on objects holding one under $oid, sets the id to it, and leaves the id unchanged when it fails.", "quantifier": "all JSON texts and previous ids", "why_tests_cant": "All texts.", "anchors": ["types/objectid.go: UnmarshalJSON"]}
{"id": "C54", "title": "Decimal128.String is the scientific string", "statement": "String of a finite canonical decimal128 is the to-scientific-string of its coefficient and exponent as the General Decimal Arithmetic specification gives it.", "quantifier": "all canonical 128-bit values", "why_tests_cant": "2^128 values.", "anchors": ["types/decimal.go: String"]}
{"id": "C55", "title": "ParseDecimal128 yields the number written", "statement": "ParseDecimal128 of a well-formed numeral either fails or yields the decimal128 equal to the number written, and succeeds whenever that number has at most 34 digits and an exponent in range.", "quantifier": "all strings", "why_tests_cant": "All strings.", "anchors": ["types/decimal.go: ParseDecimal128, muladd"]}
{"id": "C56", "title": "Decimal128 text functions are total", "statement": "String returns for every 128-bit pattern and ParseDecimal128 returns a value or an error for every string: no index panics, no endless loop.", "quantifier": "all 128-bit patterns, all strings", "why_tests_cant": "All bit patterns and strings.", "anchors": ["types/decimal.go: String, ParseDecimal128"]}
{"id": "C57", "title": "The moreToCome flag of an OP_MSG is sent", "statement": "A message built by NewOpMessage(true, ...) carries the moreToCome flag bit on the wire, one built with false does not.", "quantifier": "all document lists and flag values", "why_tests_cant": "All messages.", "anchors": ["x/mrpc/mongowire/op_msg.go: NewOpMessage"]}
{"id": "C58", "title": "A parsed message keeps the header it arrived with", "statement": "For every wire message the size, request id, response-to and op code in the header of the parsed message equal those in the bytes.", "quantifier": "all messages of all kinds", "why_tests_cant": "All messages.", "anchors": ["x/mrpc/mongowire/header.go: Parse", "x/mrpc/mongowire/op_msg.go: parseMsgBody"]}
{"id": "C59", "title": "Document sequence sizes follow the MongoDB wire format", "statement": "The size written for a kind 1 section of an OP_MSG counts the size field, the identifier with its terminator and the documents, as the MongoDB wire protocol defines it, so that other implementations can parse it.", "quantifier": "all identifiers and document lists", "why_tests_cant": "All sections.", "anchors": ["x/mrpc/mongowire/op_msg.go: OpMessagePayloadType1"]}
{"id": "C60", "title": "IsEmpty and AppendOmitEmpty single out the zero values", "statement": "Value.IsEmpty is true exactly of the zero value of each type (and of undefined), and Document.AppendOmitEmpty appends exactly the elements that are not empty, in order.", "quantifier": "all values, documents and histories", "why_tests_cant": "All values of all types.", "anchors": ["value.go: IsEmpty", "document.go: AppendOmitEmpty"]}
{"id": "C61", "title": "FTDC metadata comes back with the samples", "statement": "The document given to SetMetadata of a collector is, after Resolve and reading, the \"doc\" field of the metadata of the chunk; without SetMetadata there is no metadata.", "quantifier": "all metadata documents and sample histories", "why_tests_cant": "All documents and histories.", "anchors": ["x/ftdc/collector_better.go: SetMetadata, Resolve", "x/ftdc/read.go: readChunks", "x/ftdc/ftdc.go: GetMetadata"]}
{"id": "C62", "title": "Flattened metric names are full paths", "statement": "The key of a metric of a chunk is the dotted path from the top of the sample document to the value, so distinct values have distinct keys.", "quantifier": "all sample documents of any depth", "why_tests_cant": "All nesting depths.", "anchors": ["x/ftdc/bson_metric.go: metricForType, metricForDocument", "x/ftdc/ftdc.go: Metric.Key"]}
{"id": "C63", "title": "FTDC flattened read restores the samples", "statement": "ReadMetrics yields, for each accepted sample in order, a flat document with every metric of the sample under its path, with its value and type.", "quantifier": "all sample histories and stream chunkings", "why_tests_cant": "All histories.", "anchors": ["x/ftdc/iterator.go: ReadMetrics", "x/ftdc/bson_restore.go: restoreFlat", "x/ftdc/iterator_chunk.go: Iterator"]}
{"id": "C64", "title": "FTDC matrix read transposes the samples", "statement": "The matrix form of a chunk is a document with one array per metric, in order, holding the value of that metric in each accepted sample.", "quantifier": "all sample histories", "why_tests_cant": "All histories.", "anchors": ["x/ftdc/bson_matrix.go: rehydrateMatrix", "x/ftdc/ftdc.go: export"]}
{"id": "C65", "title": "Reading FTDC data never panics", "statement": "ReadChunks over any byte stream yields chunks and then ends, with or without error, without panicking, whatever the counts, reference documents and deltas in it are.", "quantifier": "all byte streams", "why_tests_cant": "All hostile streams.", "anchors": ["x/ftdc/read.go: readChunks, readBufMetrics", "x/ftdc/util.go: unpackDelta, decodeSeries"]}
{"id": "C66", "title": "Streaming dynamic collectors lose nothing and chunk by schema", "statement": "For a writer that accepts everything, the chunks written plus the buffered samples are the accepted samples in order, samples with different metric keys are never in one chunk, and consecutive samples of one schema share chunks until full.", "quantifier": "all sequences of Add and Flush over documents of changing schema", "why_tests_cant": "All histories of schema changes.", "anchors": ["x/ftdc/collector_streaming.go: streamingDynamicCollector", "x/ftdc/bson_hash.go"]}
{"id": "C67", "title": "Streaming collectors survive failing writers", "statement": "Whatever number of bytes and errors the writer returns, the samples whose Add returned nil are in complete chunks in the output, once and in order, or still buffered.", "quantifier": "all sequences of Add and Flush and all behaviours of the writer", "why_tests_cant": "All failure points.", "anchors": ["x/ftdc/collector_streaming.go: FlushCollector, Add"]}
{"id": "C68", "title": "Uncompressed collectors write the documents themselves", "statement": "An uncompressed BSON collector accepts documents of the width of the first up to its size, and Resolve is the concatenation of the encodings of the metadata and the accepted documents.", "quantifier": "all sequences of documents", "why_tests_cant": "All histories.", "anchors": ["x/ftdc/collector_uncompressed.go"]}
{"id": "C69", "title": "Streaming uncompressed collectors accept without bound", "statement": "A streaming uncompressed collector writes its batch when it is full and accepts the next document, so Add only fails when the schema or the writer does.", "quantifier": "all sequences of Add and Flush", "why_tests_cant": "All histories.", "anchors": ["x/ftdc/collector_uncompressed.go: NewStreamingUncompressedCollectorBSON", "x/ftdc/collector_streaming.go: Add"]}
{"id": "C70", "title": "Reset gives back a collector of the same kind", "statement": "After Reset every collector behaves like a new one of the same kind, with the same treatment of metadata.", "quantifier": "all collectors, documents and histories", "why_tests_cant": "All collectors and histories.", "anchors": ["x/ftdc/collector_batch.go: Reset", "x/ftdc/collector_dynamic.go: Reset", "x/ftdc/collector_streaming.go: Reset", "x/ftdc/collector_better.go: Reset"]}
{"id": "C71", "title": "Buffered collectors resolve what they accepted", "statement": "A Resolve of a buffered collector that begins after Adds returned nil covers those samples, and never overlaps another use of the underlying collector.", "quantifier": "all schedules of Add, Resolve and the background goroutine", "why_tests_cant": "Needs a schedule between the channel and the goroutine.", "anchors": ["x/ftdc/collector_buffered.go"]}
{"id": "C72", "title": "A service starts the registered handler for every message", "statement": "For each message received on a connection the service starts the handler registered for its scope, on that message, in order, however the connection cuts the bytes; a message without a handler ends the connection with an error.", "quantifier": "all registries, message sequences and ways of cutting them", "why_tests_cant": "All chunkings and message sequences.", "anchors": ["x/mrpc/service.go: dispatchRequest", "x/mrpc/registry.go", "x/mrpc/mongowire/sock.go: ReadMessage", "x/mrpc/mongowire/wire_message.go: Scope"]}
{"id": "C73", "title": "EndTest persists what was recorded", "statement": "EndTest writes a point that has everything recorded through the recorder since the last EndTest or Reset, reports the collector's errors since then, and starts afresh.", "quantifier": "all sequences of recorder calls, clocks and answers of the collector, for the single, raw, grouped and interval recorders", "why_tests_cant": "All call sequences.", "anchors": ["x/ftdc/events/recorder.go", "x/ftdc/events/recorder_performance_single.go", "x/ftdc/events/recorder_performance_raw.go", "x/ftdc/events/recorder_performance_grouped.go", "x/ftdc/events/recorder_performance_interval.go"]}
{"id": "C74", "title": "The interval recorder counts everything once", "statement": "However calls, background ticks and cancellation interleave, what the calls add to the counters is in the persisted points or in the current point, each exactly once, except for what Reset, or EndTest on a point without a time, drops.", "quantifier": "all schedules of any number of callers, workers, ticks and cancellation", "why_tests_cant": "Lost updates need particular interleavings.", "anchors": ["x/ftdc/events/recorder_performance_interval.go"]}
{"id": "C75", "title": "Grouped recorders persist at most once per interval", "statement": "Between two points persisted at the end of iterations by a grouped recorder at least the interval passes.", "quantifier": "all intervals, clocks and call sequences", "why_tests_cant": "All timings.", "anchors": ["x/ftdc/events/recorder_performance_grouped.go", "x/ftdc/events/recorder_histogram_grouped.go"]}
{"id": "C76", "title": "JSON texts are read as what they stand for", "statement": "Every JSON text (RFC 8259), however it uses whitespace, escapes, nesting and number notation, is accepted, and the document, array or value made of it is the one the text stands for; integer literals of 64 bits are read exactly.", "quantifier": "all JSON texts and the trees they stand for", "why_tests_cant": "The parser finds the end of strings, numbers, arrays and objects by scanning ahead; all nestings and escapes interact.", "anchors": ["jsonx/unmarshal.go: getValueForResult", "jsonx/constructor.go", "jsonx/internal/gjson.go: Parse, ForEach, Array, squash, parseString, unescape"]}
{"id": "C77", "title": "The JSON reader returns on any bytes and accepts only JSON", "statement": "For every byte string, reading a JSON document, array or value returns a value or an error, without panic and without looping for ever, and it returns a value only if the bytes are JSON.", "quantifier": "all byte strings", "why_tests_cant": "All byte strings, of any length and nesting.", "anchors": ["jsonx/internal/gjson.go: validpayload and the functions it calls", "jsonx/unmarshal.go"]}
{"id": "C78", "title": "MarshalJSON writes the document's extended JSON", "statement": "Document.MarshalJSON returns the extended JSON of the document: JSON that has one member per element, in order, with the element's key and value; types JSON does not have are objects whose key names the type.", "quantifier": "all documents, built or read from bytes, of any depth", "why_tests_cant": "All trees of values; keys, strings and numbers need all byte values.", "anchors": ["x_json_marshal.go", "jsonx/marshal.go"]}
{"id": "C79", "title": "Documents survive extended JSON", "statement": "UnmarshalJSON of what MarshalJSON wrote appends elements equal to those of the document.", "quantifier": "all documents of any depth", "why_tests_cant": "All trees of values and all byte values of keys and strings.", "anchors": ["x_json_marshal.go", "x_json_unmarshal.go", "jsonx/marshal.go", "jsonx/unmarshal.go"]}
{"id": "C80", "title": "UnmarshalJSON returns on any bytes", "statement": "Document, Array and Value UnmarshalJSON return, with an error if need be, and do not panic, whatever the bytes.", "quantifier": "all byte strings", "why_tests_cant": "All byte strings.", "anchors": ["x_json_unmarshal.go: UnmarshalJSON, convertJSONElements"]}
{"id": "C81", "title": "Plain JSON becomes the corresponding document", "statement": "UnmarshalJSON of a JSON object without extended forms appends one element per member, in order, with the member's key and the member's value: null, booleans, strings, integers, doubles, arrays and documents.", "quantifier": "all JSON objects of any depth without extended forms", "why_tests_cant": "All JSON texts and trees.", "anchors": ["x_json_unmarshal.go: UnmarshalJSON, convertJSONElements", "x_constructor.go: Int"]}
{"id": "C82", "title": "WriteCSV writes every sample once, under the metrics' names", "statement": "WriteCSV writes the names of the metrics and one record per sample, in order, whose cells are the metrics' values; it returns an error if the metrics of the samples change or if a write fails, and nil otherwise.", "quantifier": "all sequences of chunks, of any number of samples and metrics, and all ways the writer can fail", "why_tests_cant": "All sequences of chunks and all points at which a write can fail.", "anchors": ["x/ftdc/csv.go: WriteCSV, getFieldNames, getRecord"]}
{"id": "C83", "title": "DumpCSV starts a new file when the number of metrics changes", "statement": "DumpCSV writes every sample once and in order; consecutive chunks with the same number of metrics go to one file, which starts with the names of the metrics of the first, and every change starts a new file.", "quantifier": "all sequences of chunks and all ways the files can fail", "why_tests_cant": "All sequences of chunks and all points at which an operation on files can fail.", "anchors": ["x/ftdc/csv.go: DumpCSV, getCSVFile"]}
{"id": "C84", "title": "ConvertFromCSV keeps every record", "statement": "ConvertFromCSV writes FTDC data that reads back as one document per record, in order, with the integers of the record under the names in the header; a record with another number of fields is the header of the following ones; an error of the input or the output is returned.", "quantifier": "all headers and records and all ways the reader and the writer can fail", "why_tests_cant": "All tables and all cells; whether samples share a chunk depends on all of them.", "anchors": ["x/ftdc/csv.go: ConvertFromCSV"]}
{"id": "C85", "title": "CollectJSONStream saves every document of the input", "statement": "CollectJSONStream turns each line of its input into one sample; the files it writes, read in order, hold the documents of the lines in order, once each, and all of them when it returns nil. When a line is not a document or writing fails it returns an error.", "quantifier": "all inputs, all orders of arriving lines, timer ticks and cancellation, and all failures of reading and writing", "why_tests_cant": "All inputs, schedules of the timer and the channels, and points of failure.", "anchors": ["x/ftdc/metrics/json.go: CollectJSONStream, getSource, follow"]}
{"id": "C86", "title": "CollectRuntime saves the samples it generates", "statement": "The files CollectRuntime writes, read in order, hold the samples it generated, in order and once each: all of them when it returns nil, which it does only after a cancellation, and all but at most SampleCount+2 of the latest otherwise. An error is that of the generation of a sample, that the metrics changed, or that of an operation on a file.", "quantifier": "all sequences of samples, timer ticks and cancellation, and all failures of file operations", "why_tests_cant": "All histories of the process and all points at which a file operation can fail.", "anchors": ["x/ftdc/metrics/metrics.go: CollectRuntime, CollectOptions", "x/ftdc/collector_streaming.go: FlushCollector"]}
{"id": "C87", "title": "Documents sent as requests and responses arrive as they were", "statement": "A document turned into a request or a response message of any kind, serialized, and read from a stream by the other side, is given back by RequestMessageToDocument or ResponseMessageToDocument with the same content; and these functions return for every message that can be read.", "quantifier": "all documents that fit a message, all kinds of messages, all ways in which a stream hands the bytes over", "why_tests_cant": "All documents, and all messages a peer may send.", "anchors": ["x/mrpc/shell/util.go: RequestToMessage, ResponseToMessage, RequestMessageToDocument, ResponseMessageToDocument"]}
{"id": "C88", "title": "The responses of the shell survive their documents", "statement": "Every response (error, isMaster, whatsmyuri, buildInfo, getLog) read from its document, made locally or read from bytes, is the response it was made from, whatever it is read into; and SuccessOrError is nil exactly if there is no error message and the response is ok.", "quantifier": "all responses with ints that EC.Int keeps (C47)", "why_tests_cant": "All field values, and all targets of the unmarshalling.", "anchors": ["x/mrpc/shell/io.go: ErrorResponse, isMasterResponse, whatsMyURIResponse, buildInfoResponse, getLogResponse"]}
{"id": "C89", "title": "A service with the shell's handlers answers the shell's commands", "statement": "Adding the shell's handlers to a service gives it a handler for each of the ten commands and two kinds of message and changes no other, in whatever order they are added, or fails and removes none; a request for such a command, as RequestToMessage makes it, starts that command's handler, and the client reads its documented response.", "quantifier": "all services without handlers for these commands, all iteration orders, all request documents and pieces in which they arrive", "why_tests_cant": "All map iteration orders, registries and requests.", "anchors": ["x/mrpc/shell/service.go: MakeShellService, NewShellService, registerHandlers", "x/mrpc/service.go: dispatchRequest", "x/mrpc/registry.go"]}
{"id": "C90", "title": "Any Go value becomes the BSON it stands for", "statement": "EC.Interface gives an element with the key asked for and the BSON value that the Go value stands for, to whatever depth maps, slices, documents and marshalers nest, and null when there is none; DC.MapInterface and DC.Interface give the document. They return for every value.", "quantifier": "all Go values of the types listed in EC.Interface, nested at will, all iteration orders of maps, all keys", "why_tests_cant": "All nestings of maps and slices and all orders in which maps are ranged over.", "anchors": ["constructor.go: EC.Interface", "x_constructor.go: DC.MapInterface, DC.Interface, EC.SliceString and the other slices"]}
{"id": "C91", "title": "The error-returning conversions refuse what they cannot convert", "statement": "ECE.Interface, DCE.MapInterface and DCE.Interface give what EC.Interface, DC.MapInterface and DC.Interface give when the value and everything in it can be converted, and an error otherwise: never a value with null in place of what could not be converted, and never one that cannot be written.", "quantifier": "all Go values, nested at will", "why_tests_cant": "All nestings, and all places in them where a value that cannot be converted may stand.", "anchors": ["constructor.go: ECE.Interface", "x_constructor.go: DCE.MapInterface, DCE.Interface, ECE.SliceInterface"]}
{"id": "C92", "title": "ExportMap has every field of the document", "statement": "Document.ExportMap gives a map with one entry for each key of the document, holding the Go value of the last field of that name, to whatever depth documents and arrays nest; Value.Interface gives the Go value of a value.", "quantifier": "all documents, built or read from bytes", "why_tests_cant": "All documents and nestings.", "anchors": ["x_document.go: ExportMap", "value.go: Interface", "x_array.go: Interface"]}
{"id": "C93", "title": "Documents survive the conversion to a map and back", "statement": "DC.MapInterface of doc.ExportMap() is a document with the fields of doc, in some order, at every depth.", "quantifier": "all documents, all iteration orders of the maps", "why_tests_cant": "All documents and map iteration orders.", "anchors": ["x_document.go: ExportMap", "x_constructor.go: DC.MapInterface", "value.go: Interface", "constructor.go: EC.Interface"]}
{"id": "C94", "title": "Custom points are kept, marshalled and read back", "statement": "Custom.Add keeps every point whose value is a number, bool, time or slice of them, in the order of the calls, and refuses all others; MarshalBSON writes all points added, sorted by key with the order of equal keys kept, so that it does not depend on the order of the calls; UnmarshalBSON appends the points of the document, and reading back what was written gives points that are written alike.", "quantifier": "all sequences of calls to Add, all points, all documents", "why_tests_cant": "All sequences of calls and values.", "anchors": ["x/ftdc/events/custom.go: MakeCustom, Add, MarshalDocument, MarshalBSON, UnmarshalBSON, Sort, Len, Less, Swap"]}
{"id": "C95", "title": "Unmarshalling a document into a Go value fills it with the fields", "statement": "Document.Unmarshal into a map[string]any or map[any]any gives each key of the document the Go value of its last field and leaves the other entries; into a map[string]string it does so for the strings; a BSON unmarshaler gets exactly the bytes of the document; other targets are refused.", "quantifier": "all documents, built or read from bytes, all targets and previous contents", "why_tests_cant": "All documents and maps.", "anchors": ["document.go: Unmarshal"]}
{"id": "C96", "title": "Linked-list documents act as lists of fields", "statement": "After any history of Append, AppendOmitEmpty, Prepend, Set, Delete and Validate a linked-list document holds the fields a list of fields would hold, and each call answers as the list would; Len gives the number of fields.", "quantifier": "all histories of calls, all elements", "why_tests_cant": "All histories.", "anchors": ["x/blist/blist.go: Append, AppendOmitEmpty, Prepend, Set, Delete, Len, Validate"]}
{"id": "C97", "title": "Counters of the Go runtime: totals, deltas and rates", "statement": "Every collection reports for mallocs, frees, garbage collections and cgo calls the total, what was gained since the collection before, of whatever kind, or that divided by the time between; the deltas add up to the total; the pause is that of the last garbage collection; the document has the twelve fields of the struct.", "quantifier": "all sequences of collections of all kinds, all readings of the clock and the runtime", "why_tests_cant": "All sequences of collections and clocks.", "anchors": ["x/ftdc/metrics/golang_info.go: CollectGoStatsTotals, CollectGoStatsCurrent, CollectGoStatsDeltas, CollectGoStatsRates, CollectBasicGoStats, GoRuntimeInfo.MarshalDocument"]}
{"id": "C98", "title": "Histogram points hold every value reported", "statement": "The point a histogram recorder hands over at EndTest has in each of its six histograms exactly the values reported in the test for it, in order, that are within its range, with the last id and gauges; each value out of range and each error of the collector is an error of EndTest; the recorder is then as new but for its gauges. The points of the interval recorder together have every value once. The document of a point has the fields announced.", "quantifier": "all sequences of calls and of ticks of the worker, all clocks, all answers of the collector, all values", "why_tests_cant": "All sequences of calls, clocks and interleavings with the worker.", "anchors": ["x/ftdc/events/histogram.go: NewHistogramMillisecond, MarshalDocument, setTimestamp", "x/ftdc/events/recorder_histogram.go", "x/ftdc/events/recorder_histogram_single.go", "x/ftdc/events/recorder_histogram_grouped.go", "x/ftdc/events/recorder_histogram_interval.go", "x/ftdc/hdrhist/snapshot.go: MarshalDocument"]}
{"id": "C99", "title": "Synchronized recorders and event collectors are linearizable", "statement": "Calls from any number of goroutines on a synchronized recorder or collector of events take effect one at a time between their start and end, as the recorder or collector inside would; when all have returned it is left as by the calls in some order, so that nothing recorded is lost; a call under way can always go on.", "quantifier": "all concurrent histories, all recorders and collectors inside", "why_tests_cant": "All interleavings.", "anchors": ["x/ftdc/events/recorder_wrapper_sync.go: NewSynchronizedRecorder", "x/ftdc/events/collector.go: NewSynchronizedCollector"]}
{"id": "C100", "title": "A shim recorder runs the benchmark timer", "statement": "A shim recorder passes every call on to the recorder inside, resets the timer at Reset, starts it when an iteration begins and stops it when one ends.", "quantifier": "all sequences of calls", "why_tests_cant": "All sequences of calls.", "anchors": ["x/ftdc/events/recorder_wrapper_stdlib.go: NewShimRecorder"]}
{"id": "C101", "title": "GetModel has the content of the message", "statement": "GetModel gives for every message, built or parsed, the structure of its kind with the message's names, numbers, documents and flags as the protocol defines them, and the kind.", "quantifier": "all messages of all kinds, built by the constructors or parsed from bytes of the format", "why_tests_cant": "All messages, flag words and section lists.", "anchors": ["x/mrpc/mongowire/message.go: GetModel", "x/mrpc/mongowire/wire_message.go: Name, Documents", "x/mrpc/model/model.go"]}
{"id": "C102", "title": "HasResponse tells whether a message is answered", "statement": "HasResponse is true exactly for the messages the protocol answers: queries, get-mores, commands and OP_MSGs that do not announce more messages.", "quantifier": "all messages of all kinds, built or parsed, all flag words", "why_tests_cant": "All messages and flag words.", "anchors": ["x/mrpc/mongowire: HasResponse of every message type"]}
{"id": "C103", "title": "What validation of bytes accepts", "statement": "Reader.Validate returns no error exactly for the byte strings of a fixed grammar: a length not larger than what there is, and elements with a NUL-terminated key and a value of the size its type asks for, up to a NUL where a type is due, the documents and arrays inside being of that grammar too. What follows that NUL changes nothing. Value.Validate of an element also finds strings, code and symbols terminated, documents and arrays valid, and code with scope made of a terminated code and a valid document.", "quantifier": "all byte strings below 2^31-16 bytes, of any nesting, and all elements in them", "why_tests_cant": "unit tests validate a handful of good and broken documents; which byte strings are accepted is a statement about all of them", "anchors": ["reader.go:Reader.Validate", "reader.go:readElements", "reader.go:validateKey", "value.go:validate"]}
{"id": "C104", "title": "Ranging over an FTDC iterator", "statement": "In every schedule, a loop over the iterator of ReadChunks is given the chunks of the stream in order, all of them unless it is left early, and Metadata is then the last metadata document; the loop always ends and no goroutine is left behind; Close after the loop reports the error of the stream, and nothing when the loop was left early.", "quantifier": "all streams of documents and final errors, all interleavings of the two goroutines and the caller, all moments at which the caller leaves the loop", "why_tests_cant": "a test runs one schedule; the order of closing a channel and storing an error is decided by the scheduler", "anchors": ["x/ftdc/iterator_chunk.go:ReadChunks", "x/ftdc/read.go:readDiagnostic", "x/ftdc/read.go:readChunks", "x/ftdc/iterator.go:ReadMetrics", "x/ftdc/iterator.go:Iterator.Close"]}
{"id": "C105", "title": "Ranging over a Reader", "statement": "A loop over Reader.Iterator is given the elements of the bytes in order and then the error that ended the reading, if any; a loop that is left early is given the first of them and nothing more; looping again over the sequence gives the same again.", "quantifier": "all byte strings, all turns in which the loop is left, all numbers of loops over one sequence", "why_tests_cant": "all byte strings and all ways of leaving the loop cannot be listed", "anchors": ["reader.go:Reader.Iterator", "iterator.go:newReaderIterator", "iterator.go:readerIterator.Next"]}
{"id": "C106", "title": "Reports on all processes, and on a process and its children", "statement": "CollectAllProcesses returns exactly one report for each process the system listed, whatever its goroutines do in whatever order, and always returns. CollectProcessInfoWithChildren returns a report on the process first and then exactly one on each of its descendants.", "quantifier": "all lists of processes and all schedules of the goroutines; all tables of processes", "why_tests_cant": "Tests see the processes of one machine and the schedules the runtime happens to choose; a report lost or doubled by a race, or a table with a cycle, would not show.", "anchors": ["x/ftdc/metrics/process_info.go:CollectAllProcesses", "x/ftdc/metrics/process_info.go:CollectProcessInfoWithChildren", "x/ftdc/metrics/process_info.go:getChildrenRecursively"]}
{"id": "C107", "title": "Documents, elements and values that share parts, and copies of them", "statement": "Making and copying documents, elements and values, and looking into a sub-document or array with MutableDocument or MutableArray, changes no other document. An edit of a document, element or value shows in every document that holds it, at any depth, and in no other. Edits of what was made since never show in what was there. Value.Copy, Element.Copy and Document.Copy are independent of the original.", "quantifier": "all histories of reading, making, copying, nesting and editing; all documents and depths", "why_tests_cant": "Tests follow a few histories; whether a copy is independent depends on what was done to the original before, and sharing arises from combinations of calls at any distance.", "anchors": ["value.go:Value.Copy", "value.go:Value.Set", "value.go:Value.MutableDocument", "value.go:Value.MutableArray", "element.go:Element.Copy", "element.go:convertValueToElem", "element.go:elemsFromValues", "document.go:Document.Copy", "document.go:Document.Extend", "constructor.go:ElementConstructor.SubDocument", "x_element.go:Element.SetValue"]}
{"id": "C108", "title": "Looping over a document or array while it is edited", "statement": "A loop over Document.Iterator or Array.Iterator ends after as many elements as there were when it began, whatever the body does. A body that adds to the document, or edits other documents, leaves what is yielded alone: the elements it had at the start, in order, each once. A body that replaces elements is given each as it is at that moment. Deleting every element of a document while looping over a copy of it leaves it empty. A body may delete or Reset too.", "quantifier": "all documents, all capacities and growths of the backing slices, all bodies (any operations chosen from what was yielded so far, left at any point)", "why_tests_cant": "What a loop yields depends on the body and on whether the backing array was moved, which depends on capacities; tests run one body over one document.", "anchors": ["document.go:Document.Iterator", "array.go:Array.Iterator", "iterator.go:newArrayIterator", "document.go:Document.Append", "document.go:Document.Set", "document.go:Document.Delete", "document.go:Document.Reset", "document.go:Document.Copy"]}
{"id": "C109", "title": "Results never share memory with the buffer pools", "statement": "Calls that borrow buffers from the package's pools (reading a document or a Reader from a stream, marshalling or printing an array, resolving a collector) may run at the same time in any number. What each hands to its caller is the value it was to return, and stays so: no later or concurrent call changes it, and what its holder writes into it reaches no other result and no other call. No call waits for another, and each hands out its result once.", "quantifier": "all sets of concurrent calls, all interleavings of their steps, all choices of the pool (which buffer, how large, kept or dropped), all writes of callers into what they hold", "why_tests_cant": "A buffer put back while still in use shows only when another call is given that buffer at the wrong moment; tests run one call at a time and the pool rarely reuses.", "anchors": ["document.go:Document.ReadFrom", "reader.go:NewFromIOReader", "array.go:Array.MarshalBSON", "array.go:Array.String", "x/ftdc/collector_dynamic.go:dynamicCollector.Resolve", "x/ftdc/collector_better.go:betterCollector.Resolve", "x/ftdc/util.go:compressBuffer"]}
{"id": "C110", "title": "Checking a value returns for any bytes", "statement": "Value.Validate and Element.Validate of a value found in any bytes return, with an error or without; in particular for every element of a document that Reader.Validate accepts.", "quantifier": "all values in byte strings below 2^31-16 bytes", "why_tests_cant": "Which bytes make a check index outside its data depends on every length field and its place; tests try a few short values.", "anchors": ["value.go:Value.Validate", "value.go:Value.validate", "element.go:Element.Validate", "reader.go:Reader.Validate"]}
{"id": "C111", "title": "Reports on the machine and the series they make", "statement": "A report on the machine has every number the machine gave, under a key made from its name; a source that fails changes nothing about the others; and in reports taken one after the other, each series follows one thing.", "quantifier": "all machines: all numbers, names, numbers of devices and partitions, failing sources, and orders in which a Go map is gone through", "why_tests_cant": "Which devices are there, which calls fail and the order of a map loop are the machine's and the runtime's choice; a test sees one machine and mostly one device.", "anchors": ["x/ftdc/metrics/system_info.go:MakeSystemInfo", "x/ftdc/metrics/system_info.go:CollectSystemInfo", "x/ftdc/metrics/system_info.go:SystemInfo.MarshalDocument", "x/ftdc/metrics/birch_builders.go:marshalCPU", "x/ftdc/metrics/birch_builders.go:marshalNetStat"]}
{"id": "C112", "title": "Files cut short by a crash", "statement": "When a file of documents or FTDC chunks is cut after any number of bytes, reading it gives every document or chunk that is wholly there, in order, and nothing else; what a streaming collector had written before is never lost; the reader is told if part of something follows; and documents appended later can be read.", "quantifier": "all documents, all calls to a streaming collector, all numbers of bytes that arrived, all ways the reader splits what it delivers, all documents appended later", "why_tests_cant": "A crash can leave any prefix of the file; a test tries a few.", "anchors": ["document.go:Document.ReadFrom", "x_constructor.go:DC.ReadFrom", "x_constructor.go:DCE.ReadFrom", "x/ftdc/read.go:readDiagnostic", "x/ftdc/read.go:readChunks", "x/ftdc/iterator_chunk.go:ReadChunks", "x/ftdc/collector_streaming.go:streamingCollector.Add", "x/ftdc/collector_streaming.go:FlushCollector"]}
{"id": "C113", "title": "Reports on a process and the series they make", "statement": "A report on a process has every number the system gave about it, under a key made from its name; a source that fails changes nothing about the others and can be told from one that says zero; reports on one process taken one after the other have the same series; and a report says which process it is about.", "quantifier": "all processes: all numbers, commands, numbers of interfaces, and sources that fail", "why_tests_cant": "Which calls fail and what they say is the system's choice; a test sees the processes of one machine.", "anchors": ["x/ftdc/metrics/process_info.go:MakeProcessInfo", "x/ftdc/metrics/process_info.go:CollectProcessInfo", "x/ftdc/metrics/process_info.go:ProcessInfo.MarshalDocument", "x/ftdc/metrics/platform_linux.go:marshalMemExtra"]}
{"id": "C114", "title": "Printing documents, arrays and their bytes with String", "statement": "String returns for every document, array and reader of well-formed BSON, with one entry per field in order giving its type, key and value; equal documents print alike whether built or read, and the bytes of a document print as the document does; printing a Reader of any bytes does not panic; different documents print differently; and what is missing from damaged bytes shows in the text.", "quantifier": "all documents, arrays and byte strings; every text fmt and strconv.Quote give for a Go value", "why_tests_cant": "The text depends on the keys, on how each value was stored and on nesting without bound; tests print a few documents.", "anchors": ["document.go:Document.String", "element.go:Element.String", "array.go:Array.String", "reader.go:Reader.String", "bsontype/bsontype.go:Type.String"]}
{"id": "C115", "title": "The bytes of embedded documents, arrays, scopes and other values", "statement": "ReaderDocument, ReaderArray and ReaderJavaScriptWithScope return the BSON of the document, array or scope that the value holds, the same bytes it has in the document around it, whether the value was built or read and whether or not it was looked into; and Reader returns the payload of any initialized value that is not corrupt without panicking.", "quantifier": "all well-formed values of any nesting, built or read, before and after MutableDocument, MutableArray and MutableJavaScriptWithScope", "why_tests_cant": "The answer depends on how the value was made and what it holds; tests compare a few literals that were read.", "anchors": ["value.go:Value.Reader", "value.go:Value.getReader", "value.go:Value.ReaderDocument", "value.go:Value.ReaderArray", "value.go:Value.ReaderJavaScriptWithScope"]}
{"id": "C116", "title": "Which options CollectRuntime accepts, and what it then samples", "statement": "Validate accepts exactly the options that keep to the stated limits and otherwise reports every limit broken, each once; the options of NewCollectOptions are accepted; rejected options take no sample; the samples of accepted options have one field per collector under its name, do not depend on the order in which the collectors were listed, and are taken.", "quantifier": "all options, collectors, names and stable sorting functions", "why_tests_cant": "The limits combine and the names and orders of collectors are unbounded; tests validate a few option values.", "anchors": ["x/ftdc/metrics/metrics.go:CollectOptions.Validate", "x/ftdc/metrics/metrics.go:NewCollectOptions", "x/ftdc/metrics/metrics.go:CollectRuntime", "x/ftdc/metrics/metrics.go:Collectors.Less"]}
{"id": "C117", "title": "Looking up a key in a document", "statement": "LookupElement, Lookup, LookupElementErr and LookupErr give the first element with the key, the one the document holds, and nil or ElementNotFound exactly when no field at the top level has the key; Search with the one key agrees with them, and Lookup on the bytes of the document finds a value of the same key, type and bytes; a null that is there differs from a key that is not.", "quantifier": "all well-formed documents of any nesting, built or read, with repeated keys, and all keys", "why_tests_cant": "The fields, repeated keys and nesting are unbounded and six functions must agree; tests look up a few keys.", "anchors": ["x_document.go:Document.LookupElement", "x_document.go:Document.Lookup", "x_document.go:Document.LookupElementErr", "x_document.go:Document.LookupErr", "document.go:Document.Search", "reader.go:Reader.Lookup"]}
{"id": "C118", "title": "What UnmarshalJSON leaves in the document it is called on", "statement": "Document and Array UnmarshalJSON leave the elements that were there at their places, and add after them elements that depend on the text alone; a text that is not JSON, or is JSON of another kind, adds nothing; if an error is returned, nothing was added.", "quantifier": "all byte strings as texts, all documents and arrays read into, of any length", "why_tests_cant": "All texts and all earlier contents of the document; tests read a few texts into empty documents.", "anchors": ["x_json_unmarshal.go:Document.UnmarshalJSON", "x_json_unmarshal.go:Array.UnmarshalJSON", "x_json_unmarshal.go:convertJSONElements"]}
{"id": "C119", "title": "Copies of jsonx documents are independent", "statement": "Copy of a jsonx document or array gives a new one that shows the same tree and leaves the original as it was; whatever is then appended to the copy, or read with UnmarshalJSON into its values, is not seen in the original, what is appended to the original is not seen in the copy, and the same holds for the documents and arrays inside.", "quantifier": "all heaps of documents, arrays and values with any sharing, all trees of any depth, all sequences of edits of the copy", "why_tests_cant": "Sharing can be at any depth and the edits after the copy are any sequence; a test looks at one tree after one edit.", "anchors": ["jsonx/juniper.go:Document.Copy", "jsonx/juniper.go:Array.Copy", "jsonx/juniper.go:Element.Copy", "jsonx/juniper.go:Value.Copy", "jsonx/juniper.go:Document.Append", "jsonx/unmarshal.go:Value.UnmarshalJSON"]}
