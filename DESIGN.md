# Formal model of tychoish/birch

The model is written in Rocq (Coq 8.16.1), in `rocq/theories`, and uses only the
standard library. The code in `/repo` is read as text. Nothing is extracted or run.

## Method

* Go functions become total, computable Gallina functions, one per Go function.
  Each definition cites the file and lines it models, and says where it simplifies.
* Bytes are `Z` values in 0..255, byte slices are `list Z`. Machine arithmetic is
  explicit (`u32`, `i32`, `u64`, `i64` wrap functions).
* A call has three outcomes: `Ret x` (returned, errors being values in `x`), `Panic p`
  and `Fuel`. Loops that need not terminate take fuel. No theorem is about `Fuel`
  except those that show a loop never ends or always ends.
* Specifications are separate from the model. The main one is `bval`, a tree type for
  BSON values, with an encoder `enc_doc` written from bsonspec.org. It shares no
  function with the model of the Go encoders apart from the list and integer basics.
* Concurrent code (synchronized and buffered collectors, the registry, ObjectID
  counters, the interval recorder, `generate`) is modelled as a labelled transition
  system whose steps are the atomic actions of the Go code (lock, channel operation,
  atomic add). Theorems quantify over all reachable states.
* When a property is false of the code, the theorem is named `..._refuted` and exhibits
  a witness. The strongest true version is proved beside it with the missing
  hypothesis explicit. Such a property has status `partial` in the manifest.

Wrong programs are tried in a scratch copy and recorded in `seeded/LOG.jsonl`. `failed` names the step at which the build of
each file stopped. `theorems_failed` names the theorems of the property at stake that are such a step or whose proofs rest on
one, as found from the names the proofs use; coqc stops at the first error of a file, so further theorems may fail. A failed
lemma shows that the proofs above it no longer stand, not that each theorem above it became false. Earlier versions of the
log listed every theorem of the property in a file that did not build, which claimed too much; the entries were recomputed.
Where no theorem of the property rested on the failed step the edit was tried again past that step.
An entry with `invalid` is an edit after which the model itself did not compile. It tested
nothing, and names the entry that tried the same bug again.

## Plan per property

| Property | Model | Proof |
| --- | --- | --- |
| C01 constructor/getter | `constructor.go`, `elements.go`, getters of `value.go` | computation on list lemmas, little-endian inverse |
| C02 Decimal128 | same | expected to be refuted (halves swapped); swapped identity proved |
| C03 sizes | `validate`, `writeByteSlice` recursion | nested induction over value trees |
| C04 encoding | same, against `enc_doc` | representation relation between Go values and `bval` |
| C05 round trip | `readerIterator`, `ReadDocument`, getters | representation relation, induction on trees |
| C06 byte fidelity | same | from C04/C05 for bytes `enc_doc t` |
| C07 injectivity | specification encoder | prefix-freeness by mutual induction |
| C08 array keys | `Array.Validate`, `writeByteSlice` | part of the representation proof, decimal printing spec |
| C09 Reader.Validate | `readElements` | induction on trees |
| C10 termination/panic | all readers | refuted in general; proved under explicit hypotheses |
| C11 validated implies readable | `validate`, getters | case analysis per type, refutations where false |
| C12 encoder window | `elements.go` | frame lemmas on lists |
| C13 OK getters | `value.go` | case analysis |
| C14 Equal | `Equal`, `docToBytes`, `readValue` | representation relation |
| C15 Document operations | `document.go` | refinement over operation lists |
| C16 Map cache | `refreshCache` and mutators | invariant; refuted for Set/Delete/UnmarshalBSON |
| C17 Search | `Search`, array lookup | induction on path |
| C18 Sorted | `Less`, stable sort | insertion sort as specification of `sort.Stable` |
| C19 Copy isolation | heap model of slices | separation invariant on backing arrays |
| C20 Array operations | `array.go` | refinement |
| C21 streams | `ReadFrom`, `NewFromIOReader` over a chunked stream | induction on chunks |
| C22 ObjectID text | `objectid.go` | hex digit inverse |
| C23 ObjectID unique | transition system with atomic counter | invariant |
| C24, C25 Decimal128 | `decimal.go` | integer arithmetic, digit induction |
| C26, C27, C76, C77 JSON | `jsonx` writer, parser and the checker before it, against the grammar of RFC 8259 in `JsonSpec.v` | induction on strings, trees and derivations; refuted in part |
| C78-C81 extended JSON | `x_json_marshal.go`, `x_json_unmarshal.go` between the documents of the codec and the JSON values; time formatting and parsing are parameters | induction on trees and on JSON values; refuted in part |
| C82, C83, C84 CSV | `x/ftdc/csv.go` over chunks, records and files that may fail at any call | induction over chunks and records; C84 by C66; refuted in part |
| C85 CollectJSONStream | scanner, source, main loop as a run over events, `WriteFile` with any answers | invariant over runs, each file by C39; refuted in part |
| C86 CollectRuntime | main loop as a run over events, files with any answers of Write, Close and Create | invariant over runs, each file by C40, failing writers simulated by the full one |
| C87 requests and responses | `x/mrpc/shell/util.go` over the wire model | C28 and C31 for the messages that carry them; refuted in part |
| C88 responses of the shell | `x/mrpc/shell/io.go` | representation relation of the documents; refuted for getLog |
| C89 shell service | `x/mrpc/shell/service.go`, registry, dispatch | induction over registrations in any order, C72, C87, C88 |
| C90-C93 Go values | `EC.Interface`, `ECE.Interface`, the map and slice constructors, `Value.Interface`, `ExportMap`, over an inductive type of the Go values they tell apart | induction on Go values and on trees; refuted in part |
| C94 custom points | `events/custom.go` over the conversions of C91 and C92, sort by contract | induction on points; refuted in part |
| C95 unmarshalling | `Document.Unmarshal` with maps as entry lists | induction on fields; refuted for nil maps |
| C96 linked-list documents | `x/blist` with `dt.List` by contract | refinement to a list of fields over all histories; refuted for Len and Set |
| C97 runtime counters | `golang_info.go` over arbitrary readings | induction on runs; refuted in part |
| C98 histogram points | `histogram.go`, the four histogram recorders, `hdrhist` by contract | invariant on runs of calls and ticks; refuted in part |
| C99 synchronized recorders | a mutex without defer around any steps | simulation by the deferred one of C41; refuted for panics |
| C100 shim recorder | its methods, with those of the embedded interface | induction; refuted |
| C101 GetModel | GetModel by kind of message, over the messages of C28 | from C28's content relation; flags as exact characterisations, refuted |
| C102 HasResponse | the methods, by kind | cases; exact characterisation for OP_MSG, refuted |
| C28, C29, C30 wire | `mongowire` | byte-level round trip per message |
| C31, C32 framing | `sock.go` over chunked streams | induction on chunks |
| C33 namespaces | `namespace.go` | induction on strings |
| C34 registry | `registry.go` as map and as transition system | invariant, linearization |
| C35, C36, C37 FTDC codec | `getPayload`, `readChunks`, extract/restore | induction over zero-run state; doubles with SpecFloat |
| C38, C39, C40 collectors | state machines | invariants over histories |
| C41, C42, C71 concurrency | `Lin.v`: calls under a readers-writer lock in any number of small steps; `Sync.v`: channel, goroutine and clients | linearization of all histories; invariants over schedules; refuted in part |
| C43 sampling | state machine with clock | invariant |
| C44 events | `Events.v`: `performance.go`, the collectors of events over a memory of shared points | round trip of documents; invariant over histories; refuted in part |
| C45 blocking recorder | `Events.v`: the interval recorder's lock, workers and clients | invariants over schedules; refuted: a state no schedule leaves |
| C46 generate | `Metrics.v`: sequential mode; parallel mode as a transition system | induction; invariant and measure; refuted in part |
| C73, C75 recorders | `Events.v`: single, raw, grouped, interval recorders call by call | induction on call sequences; refuted in part |
| C74 interval recorder | the transition system of C45 | conservation invariant over schedules |
| C47, C48 convenience constructors | `x_constructor.go`, `Time` | arithmetic |
| C49 Reader lookups | `reader.go` | induction on elements |
| C50 DocumentMap | `unmarshal.go` with arbitrary iteration order | permutation reasoning |
| C51, C52 | `unmarshal.go` Validate, streams of hostile bytes | case analysis; refuted in part |
| C53 ObjectID JSON | `objectid.go` UnmarshalJSON | case analysis; refuted in part |
| C54, C55, C56 Decimal128 text | `decimal.go` | digit induction against a separate scientific-string specification |
| C57, C58, C59 OP_MSG details | `mongowire` | byte-level; refuted in part |
| C61 metadata, C62 names, C63 flattened, C64 matrix | `read.go`, `bson_metric.go`, `bson_restore.go`, `bson_matrix.go` | the chunk read back is described once, and each reading of it derived; refuted in part |
| C65 hostile FTDC | `read.go` | any bytes: what the size-only validation of reading gives for each element, induction over the depth of the reference document, case analysis per document; refuted in part |
| C66 streaming dynamic, C67 failing writers, C68, C69 uncompressed, C70 Reset | `collector_*.go` state machines with a writer | invariants over histories; refuted in part |
| C72 dispatch | `service.go` dispatchRequest, `scope.go` | induction on the connection; refuted in part |
| C60 empty values | `IsEmpty`, `AppendOmitEmpty` | representation relation |
| C103 what Validate accepts | `rd_validate` against a grammar of bytes: two mutual inductive predicates and a table of sizes per type (ValidProps.v) | soundness by induction on fuel and over the loop, completeness by the mutual induction of the grammar; refuted as a check of well-formedness |
| C104 ranging over an FTDC iterator | the goroutines of ReadChunks as a transition system with rendezvous channels, cancellation and error collector (Pipe.v); documents and what they stand for as parameters, linked to FtdcRaw.v | invariant over runs; a decreasing measure and progress; schedules built by induction on the stream for the refutations |
| C105 ranging over a Reader | Reader.Iterator with the state kept between loops (RdIter.v), on rd_step of Value.v | induction on fuel against iter_loop; refuted for second loops |
| C106 process reports | `Procs.v`: the goroutines and channels of CollectAllProcesses as a transition system; the recursion over children | invariant (where each process is) and measure; induction on the recursion |
| C107 sharing and copies | `Alias.v`: documents, elements and values as a heap; every operation that makes, copies, nests or edits; what is written for a document, by levels | well-formedness of reached heaps; what an edited heap shows is the old one with the part grafted in; frames by reachability; refutations with general witnesses |
| C108 loops over edited documents | `LoopDoc.v`: a loop with any body over the slice header taken at its start, on the heap model of `DocOps.v` | what each operation leaves of a backing array, by induction over the operations; loop invariants; refutations for every document of three or more elements |
| C109 buffer pools | `Pool.v`: calls as programs over buffers of a shared pool, run in any interleaving, with callers writing into results | each array has one owner (pool, variable of a call, result); one step keeps it; refinement to independent values by induction over the events |
| C110 checking values | the validation of `Value.v` on values in any bytes | case analysis over types, with the totality of Reader.Validate for what is inside; refutations for every key and all such lengths |
| C111 machine reports | `SysInfo.v`: collection from an arbitrary machine and the document | equality with a separate list of keys and values; series through the metrics of `Ftdc.v`; refutations for every machine with two devices that differ |
| C112 files after a crash | `Crash.v` and the stream, chunk and streaming collector models, on any prefix of what was written | induction over the documents for every cut; invariant of the collector for what is safe; refutations for all files |
| C113 process reports | `ProcInfo.v`: collection from an arbitrary process and the document | equality with a separate list of keys and values; series through the metrics of `Ftdc.v`; refutations for every process with an interface |
| C114 printing | `Text.v`: the String methods over Value.Interface of `Iface.v` | induction over the fields against a separate relation between fields and text; refutations for all keys, subtypes, permutations and cuts |
| C115 payload bytes | `Payload.v`: Reader; the others in `Api.v` | case analysis of how a value is held, over the codec refinement; refutations for all keys, items and integers |
| C116 collect options | `Options.v`: Validate, NewCollectOptions, the start of CollectRuntime | case analysis against a separate list of complaints; uniqueness of stable sorts |
| C117 lookup | `Lookup.v`: the four lookups; Search and Reader lookup from `Search.v` and `ReaderOps.v` | induction over the fields against the position of the first field with the key |
| C118 what UnmarshalJSON leaves | `ExtJson.v` | induction over the parsed elements with the document read into as accumulator; the grammar of `JsonSpec.v` for texts that are refused |
| C119 copies of jsonx documents | `JCopy.v`: Copy, Append and UnmarshalJSON of values over a heap | the copy and its edits only extend the heap the original is in; a document that shows a finite tree is not inside itself |

## Findings

Behaviour of the code that contradicts a property. Each has a `_refuted` theorem.

* C02: `Value.Decimal128` returns the halves swapped.
* C10, C11: a negative length in a string, binary or similar element makes the readers loop
  for ever; lengths near 2^31 or below zero panic; a string of declared length 0 passes
  `Validate` and panics when read.
* C16: `Map` returns stale elements after a replacing `Set`.
* C18: with NaN doubles `Less` is not an order.
* C23: a stalled `NewObjectID` call can repeat an id.
* C25, C55: the multiply-add of `ParseDecimal128` misses overflows; exponents of long whole
  numbers are not checked.
* C47: `EC.Int` truncates on 32-bit boundaries.
* C51: `DocumentMap.Validate` does not check the keys.
* C52: streams declaring a length below 4 panic; for any other stream ReadFrom returns
  (`C52_read_from_partial`).
* C53: `ObjectID.UnmarshalJSON` takes any twelve bytes for an id and may change the id and
  then fail.
* C30: hostile reply, kill-cursors, command and OP_MSG bodies panic. `WireHostileProps.v` proves
  that, without negative string or code lengths in the body, the causes it lists are the only ones.
* C30: two codes with scope whose strings have negative lengths make `Document.Validate` report the
  size 0; an insert or reply message with such a document is parsed for ever (`C30_loop_refuted`).
* C31: `ReadMessage` reads into the next message, fails on short first reads, and drops
  bytes that come with `io.EOF`.
* C33: every namespace with a `$` in the collection is a command.
* C57: `NewOpMessage` never sets moreToCome. C58: OP_MSG loses the header size. C59:
  document sequence sizes count the kind byte.
* C60: every ObjectID counts as empty.
* C35: the seconds of timestamps are multiplied by a thousand in the reference value only;
  dates past 2262 wrap. C36: doubles come back as differences from the second sample on.
  C37: so do the documents.
* C62: the keys of documents three levels deep lose their middle parts, and may collide.
* C65: a chunk with short data, or data that is not binary, panics in the reader goroutine.  So does a reference
  document with an invalid subdocument (`ReadFrom` checks sizes only, and `MutableDocument` panics), and a binary of
  subtype 2 whose inner length is wrong.  (Not formalised: `make([]int64, ndeltas)` allocates up to 32 GB for a file of
  a few bytes, before any delta is read.)
* C39: the dynamic collector compares every sample with the keys of the first one ever, so
  samples with other keys share a chunk and same ones do not; `{a:{b:1}}` and `{a:1,b:1}`
  have the same hash. C66: after the first change of keys the streaming dynamic collector
  writes every sample alone.
* C38: with maxSamples of 0 or less a batch collector never resolves (excluded there).
* C69: a full streaming uncompressed collector refuses every further Add. C70: Reset keeps
  the metadata in some collectors and drops it in others, and turns an uncompressed
  streaming dynamic collector into a compressed one.

* C42: an Add that overlaps cancellation may send on the closed channel and panic. C71:
  Resolve may miss accepted samples, and uses the collector while the goroutine does.
* C34: `Get(nil)` panics. C72: because of C31 the service may skip messages.
* C44: `UnmarshalDocument` restores neither the id nor the operations (it looks for `opts`)
  nor the time below a millisecond. The cumulative collectors keep and change the caller's
  first point, so that reusing a point doubles it; sampling with n = 0 panics.
* C45: the interval recorders' worker returns with the lock held when it is cancelled between
  its tick and the lock: every later call blocks for ever. Any EndTest can do that.
* C46: with RunParallelCollectors, sample generation never returns: `elems` is not closed.
  A collector that panics ends its worker; when all workers have ended so, the collectors
  still waiting are not run.
* C73: the raw, grouped and interval recorders drop, in silence, what was recorded when the
  point has no time; the grouped one what comes after a persisted iteration; the raw one
  writes its last point twice; the interval one does not count iterations. C75: the grouped
  histogram recorder ignores its interval.

* C27: keys are written without escapes, so that one element can be written like two; NaN and
  the infinities are written as text that is not JSON; integral floats come back as ints; a
  nil document inside another makes MarshalJSON panic. C76: an unpaired surrogate escape
  swallows the escape after it. C77: `-e5` is accepted and read as 0.
* C78: MarshalJSON exchanges the halves of decimals, and writes the subtype of a binary value
  for its data. C79: the JSON of binary values makes UnmarshalJSON panic; dates lose their
  milliseconds; int64s below the int32s lose their high bits (also C81); an embedded
  document whose first key is, say, `$minKey` comes back as that type. C80: `{"a":{"$oid":5}}`
  makes UnmarshalJSON panic.
* C82: WriteCSV detects only a change in the number of metrics, so that other metrics are
  written under the first names; doubles are written as the integers of their bits. C84:
  after a record with another number of fields, all records of that number are taken for
  headers and lost, in silence, and one with the first number is an error; the error of the
  final flush is dropped.
* C85 (`C85_*_refuted`): `CollectJSONStream` does not look at the scanner's error, so a line
  of 64 KiB or a read error ends the input in silence and nil is returned; after a
  cancellation the documents of a file may be dropped and nil returned; a line that makes
  `DCE.JSONX` panic (C80) ends the process, as the recovering function sends on a channel
  that was closed before; an error returns without saving the samples since the last flush;
  with `Follow` the scanner keeps the end of the file as its error, so nothing written after
  the first event is seen. C86 (`C86_loss_case`): when the metrics change, `CollectRuntime`
  returns without saving the pending samples.
* C87 (`C87_*_refuted`): `ResponseMessageToDocument` panics on a reply without documents,
  which any peer can send; an empty request of a kind other than OP_MSG makes the receiver
  panic; `RequestMessageToDocument` refuses the query that `RequestToMessage` made until it
  has been sent. C88 (`C88_get_log_refuted`): the getLog response looks for its lines under
  "version" but writes them under "log", so that no line is ever read.
* C90 (`C90_*_refuted`): `EC.Interface` of an `*Element` ignores the key it is given; an
  `*Array` becomes an embedded document; `[]byte`, ObjectIDs, regexes, DBPointers, code and
  decimals become null, though `Value.Interface` gives just these types; a nil in a `[]*Value`
  or `[]*Element` panics. C91 (`C91_*_refuted`): `ECE.Interface` refuses only the outermost
  value, inside a map or slice the same value becomes null; a nil `*Document` becomes an
  element whose document cannot be opened without a panic; the bytes of an `*Element` are
  taken for those of a document; a `*Value` that is null is refused. C93: eleven types do not
  survive `ExportMap` and `MapInterface`.
* C94 (`C94_refuted`): `Custom.Add` accepts `[]bool`, `[]uint32`, `[]uint64` and unsigned
  values above `MaxInt64`, for which there is no BSON; one of them makes the marshalling of
  the whole `Custom` fail. C95 (`C95_nil_refuted`): `Document.Unmarshal` into a nil map
  panics. C96 (`C96_len_refuted`, `C96_set_refuted`): `Len` of a linked-list document calls
  itself for ever; `Set` of an absent key does nothing.
* C97 (`C97_deltas_refuted`, `C97_rates_refuted`): two collections of runtime counters within
  one tick of the clock lose what was counted between them; the integer rates are events per
  nanosecond, that is zero for anything slower than 10^9 events a second.

* C98 (`C98_time_refuted`, `C98_range_refuted`, `C98_interval_total_refuted`, `C98_interval_refuted`):
  all points a histogram recorder hands over in a test carry the time of the first iteration; the
  documentation promises counters up to a million and timers up to twenty minutes where the
  histograms reach ten thousand and one minute, and larger values are lost with an error at EndTest;
  the interval recorder reports the total of the last iteration twice, and drops what is reported
  after a tick of its worker when no iteration begins or ends before EndTest.
* C99 (`C99_panic_refuted`): the methods of a synchronized recorder unlock without defer. After one
  panic of the recorder inside (or of its collector), even if recovered, no later call returns.
* C100 (`C100_refuted`): a shim recorder never starts or stops the timer. Its methods `Begin` and
  `End` do not override `BeginIteration` and `EndIteration` of the embedded recorder.

* C101 (`C101_msg_flags_refuted`, `C101_reply_flags_refuted`, `C101_names_refuted`,
  `C101_kinds_refuted`, `C101_empty_body_refuted`): GetModel switches on the value of the flag word.
  Every OP_MSG without flags is said to have a checksum, a checksummed one is said to be followed by
  more, one followed by more is said not to be; every successful reply is said to have lost its
  cursor. The database, collection and operation of an OP_MSG are always empty. Get-more,
  kill-cursors and command-reply messages give nil. An OP_MSG with an empty body panics.
* C102 (`C102_msg_refuted`): HasResponse of an OP_MSG compares the flag word with 1, so that it is
  false for every plain request and true for one that announces more messages.
- C103: Reader.Validate does not check three things its name suggests. A document may end before its declared length, with anything in between. A string need not end with NUL (Value.Validate does check it). Code with scope may hold anything. Each is a theorem over all contents.
- C104: the goroutines behind ReadChunks close their channel (deferred) before they store their error, so for every stream there is a schedule in which the loop ends and Close returns nil. ReadMetrics, ReadStructuredMetrics, ReadMatrix and ReadSeries copy the errors at that moment and so lose them for good. A loop left early can make Close return context.Canceled. Metadata() may already be that of documents after the chunk at hand.
- C105: the sequence of Reader.Iterator keeps its position and error: a second loop starts where the first ended, for every document; after an error, a second loop that is left early panics (range function continued iteration).
- C106: getChildrenRecursively does not return if a process is listed among its own
  descendants.
- C107: Value.Copy ("an entirely new value object") and Element.Copy ("entirely independent") share the
  sub-document once MutableDocument or MutableArray has been called, or if it was made with
  EC.SubDocument or EC.Array; before that they are independent. Element.SetValue(VC.Int32(1)) leaves the
  element with the empty key. d.Append(EC.SubDocument(k, d)) makes Validate and MarshalBSON
  recurse without end.
- C108: for e := range d.Iterator() { d.Delete(e.Key()) } never reaches the second element of a
  document of three or more elements with different keys, and leaves it; the last one is yielded
  again instead. d.Reset() in a loop makes it yield nil pointers. Looping over d.Copy() is right.
- C110: the check that is to find malformed values panics on some: v.data[v.offset+4:v.offset+8] is
  taken for code with scope before its length is compared with 8 (value.go:428), and negative lengths
  are converted to uint32 and used as indexes.
- C111: MakeSystemInfo appends the devices in the order of a loop over a Go map (system_info.go:121-123) and
  ftdc names series by index, so iostat.0.readCount changes devices from one sample to the next. Failed
  sources are recorded in Errors, which MarshalDocument does not write. percent[0] is not guarded. uint64
  numbers from 2^63 on become negative. Keys commitedas and hugepagessize are misspelt.
- C112: io.ReadFull returns io.EOF, not io.ErrUnexpectedEOF, when no byte of the body can be read, so in a file
  that ends right after a document's length ReadFrom reports io.EOF (document.go ReadFrom), DC.ReadFrom returns nil
  and ReadChunks reports no error: the loss of the last chunk goes unnoticed. There are no sync markers, so
  documents appended after a cut are swallowed.
- C113: when NetIOCounters fails the array net is empty (process_info.go:216), ten series per interface go missing
  and a collector of samples with one schema refuses the report or starts a new chunk. MakeProcessInfo forgets the pid when
  NewProcess fails (137-141), so that the document is about pid 0; Errors are not written.
- C114: Element.String prints the key unescaped between quotation marks (element.go:293), so a key can imitate
  further elements and two different documents have one text. Reader.String drops the error of readElements (reader.go:208):
  a Reader cut short prints as bson.Reader{}.
- C115: ReaderArray on an array that was built marshals its items as a Document (value.go:576-592), so every key is
  empty and looking up an index in the result fails. Value.Reader takes the first four bytes of any payload for its length:
  it panics on null, booleans and most 32-bit integers, although documented to panic only on uninitialized or corrupt values.
- C116: CollectOptions.Validate has a value receiver but sorts the collectors of the caller in place, also when it
  rejects the options (metrics.go:157). It accepts repeated collector names and the name runtime, so samples can hold two
  fields of one key, and it accepts intervals that its error texts exclude.
- C118: Document.UnmarshalJSON of `{"a":"x","b":{"$oid":"zz"}}` returns an error and leaves the element a in the document; the same holds for any plain members before one that cannot be converted. Calling it again with a corrected text repeats a. Array.UnmarshalJSON likewise.
- C119: jsonx Value.Copy copies the pointer of a nested document or array, so Document.Copy is shallow: appending to a document inside the copy changes the original.

## Trusted base

* Coq's kernel (8.16.1), including `vm_compute` for closed witnesses.
* `Print Assumptions` of every property theorem prints "Closed under the global context":
  no axiom is used. The checker lists seven `Coq.ssr.ssrunder.Under_rel` constants; they
  belong to the standard library's ssreflect files, loaded by `Lia`, and no theorem
  depends on them.
* The reading of Go semantics described under Method and the correspondence between each
  definition and the lines it cites.
* Behaviour of packages outside `/repo`, assumed as contracts and stated at the definition
  that uses them: `sort.Stable` returns a stable sorted permutation; `io.ReadFull` is the
  loop of the standard library (modelled); `encoding/hex` and `strconv.Itoa` (modelled);
  `encoding/json.Unmarshal` is a parameter constrained only where stated; the buffer pools give out what was put back, or new buffers (`Pool.v`); `irt`,
  `compress/zlib` is a pair of functions of which only `codec_ok` is assumed (it decompresses
  what it compressed, without growing it beyond twice its size and 100 bytes); the bits of a
  NaN result of a double subtraction are a parameter; `strconv.ParseFloat` and `FormatFloat`
  are parameters, `fmt`'s `%f` and `strconv.ParseInt` are modelled;
  `encoding/csv` is the list of its records; `bufio.Scanner` with `ScanLines` is modelled;
  `erc` and `stw` helpers behave as plain slices, iterators, error lists and maps; Go map
  iteration is an arbitrary permutation.

## What is modelled

| Go | Rocq |
| --- | --- |
| `elements.go`, `value.go`, `element.go` | `Elements`, `Value`, `Api` |
| `constructor.go`, `x_constructor.go` | `Api` |
| `reader.go`, `iterator.go` | `ReaderOps`, `Value`, `Stream` |
| `document.go`, `array.go` | `DocOps`, `Search`, `Sort` |
| `unmarshal.go` | `DocMap` |
| `types/objectid.go`, `types/decimal.go` | `Oid`, `Dec128` |
| `x/mrpc/mongowire` | `Wire` |
| `x/ftdc`: `util.go`, `bson_*.go`, `collector_better.go`, `read.go`, `iterator*.go`, `ftdc.go` | `Ftdc`; on raw bytes `FtdcRaw` (only the fields the code looks at) |
| `x/ftdc`: `collector_uncompressed.go`, `collector_batch.go`, `collector_dynamic.go`, `collector_streaming.go`, `collector_sample.go`, `bson_hash.go`, `writer.go` | `Collect` |
| `x/ftdc`: `collector_sync.go`, `collector_buffered.go` | `Lin`, `Sync` |
| `x/mrpc/mongowire/scope.go`, `x/mrpc/registry.go`, `dispatchRequest` of `x/mrpc/service.go` | `Registry`, `Lin` |
| `x/ftdc/events`: `performance.go`, `collector.go`, `recorder_performance_*.go`, the interval check of `recorder_histogram_grouped.go` | `Events` |
| `x/ftdc/metrics`: `generate` of `metrics.go` | `Metrics` |
| `jsonx`: values, `write.go`, `marhsal.go`, `unmarshal.go`; `jsonx/internal/gjson.go`: the checker, Parse, ForEach and Array | `Json` |
| `x_json_marshal.go`, `x_json_unmarshal.go` | `ExtJson` |
| `x/ftdc/csv.go` | `Csv` |
| `x/ftdc/metrics`: `json.go` without option checks, `CollectRuntime` of `metrics.go` | `Drivers` |
| `x/mrpc/shell`: `io.go`, `util.go` without `WriteResponse`, `service.go` | `Shell` |
| `EC.Interface`, `ECE.Interface` of `constructor.go`, the maps, slices and `Interface` of `x_constructor.go`, `Value.Interface`, `x_document.go`, `x_array.go` | `Iface` |
| `x/ftdc/events/custom.go` | `Custom` |
| `Document.Unmarshal` of `document.go` for maps and marshalers | `Into` |
| `x/blist/blist.go` | `Blist` |
| `x/ftdc/metrics/golang_info.go` without the floating-point rates | `GoStats` |
| `x/ftdc/events`: `histogram.go`, `recorder_histogram*.go`; `x/ftdc/hdrhist/snapshot.go` | `Hist` |
| `x/ftdc/events`: `recorder_wrapper_*.go`, the synchronized collector of `collector.go` | `SyncRec` |
| `x/mrpc/mongowire` `GetModel` and `HasResponse`, `x/mrpc/model` | `Model` |
| x/ftdc/iterator.go, iterator_chunk.go, read.go:17-49 (concurrency) | Pipe.v: one step per channel operation, cancellation and push; the work on a document is one step; io.Reader returns at once; erc.Collector is the list of its errors |
| reader.go:183-198, iterator.go:52-128 | RdIter.v |
| `jsonx/juniper.go`: Copy and Append with sharing | `JCopy` |
| `document.go`, `array.go`, `element.go`, `value.go`: sharing and copies; loops over a document that is edited | `Alias`, `LoopDoc` |
| the buffer pools of `document.go` and `x/ftdc/collector_better.go` | `Pool` |
| `x/ftdc/metrics`: `system_info.go`, `birch_builders.go`, `process_info.go`, `platform_linux.go` | `SysInfo`, `Procs`, `ProcInfo` |
| `x/ftdc/metrics/metrics.go`: the options of `CollectRuntime` | `Options` |
| `DC.ReadFrom` over a file | `Stream`, `Crash` |
| the `String` methods of documents, elements, arrays, readers and `bsontype.Type` | `Text` |
| `Value.Reader` of `value.go` | `Payload` |
| the lookups of `x_document.go` | `Lookup` |

Not modelled: the other `jsonx` accessors, the paths of gjson, `hdrhist` itself, accepting TCP connections, the
`_test.go` files, `make*` tooling, and the convenience layers whose functions only forward
to modelled ones. Garbage collection, allocation failure, stack depth and integer widths
other than 64 bits are outside the model.
