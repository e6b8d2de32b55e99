# Design: a Rocq model of RR32CanLibrary

## What is modelled

All functions of `lib/RR32Can` and `lib/RR32CanEngineDb` are modelled one by one as executable Gallina
(Coq's standard library only).

* C integers are `Z`, with an explicit `mod 2^8 / 2^16 / 2^32` wherever the C++ stores into an unsigned type.
* `char` and `uint8_t` arrays are `list Z` of the array's length.
* Undefined behaviour is an outcome of its own, `UB reason`, of a result monad: null dereference, access
  out of bounds, read of an uninitialised member, shift too wide, dangling pointer. Loops run on fuel; fuel
  exhaustion is a further reason and is proved not to occur. A last one, `TooDeep`, occurs in `Reentry.v` only
  and marks that the given nesting of calls was exhausted.
* Virtual calls to objects the library does not own become events of a trace: transmit, system, engine,
  accessory, config data, consumer and end-of-stream callbacks, and console output (`printf`, `Serial.print`).
* All objects live in one `world`: stations, config data parsers (of the library or of the user), consumers
  (engine, list, or user) and engines. They refer to each other by index, so sharing and aliasing of whole
  objects is expressed. `run lw ops w` performs any sequence of API calls.
* In `World.v` callbacks return without calling back. In `Reentry.v` they answer with arbitrary code that
  observes everything and calls any operation, to any nesting depth; C61 proves that the two have the same
  outcomes, undefined behaviour included, for callbacks that do nothing. What a call was given by reference (a frame, a name) is not changed by callbacks
  while the call runs; what they do to the library's own objects, and when, is arbitrary.

Model files (`rocq/theories`):

| file | models |
|---|---|
| `CBase.v` | result monad, unsigned wrap, array read and write |
| `CString.v` | the libc functions called: strlen, strncpy, strncmp, memcpy, memset, memmove, strtoul, strtol, printf conversions |
| `CTypes.v` | types/*.h, types/*.cpp, Constants.h, Constants.cpp, util/utils.h |
| `Messages.v` | messages/*: Identifier, Data, CanFrame, SystemMessage, TurnoutPacket, S88Event |
| `Frames.v` | util/constexpr.h |
| `Loco.v` | Locomotive.h, Locomotive.cpp |
| `Buffer.v` | util/BufferManager.h, util/BufferManager.cpp |
| `Crc.v` | util/Crc.h, util/Crc.cpp |
| `TextParser.v` | util/TextParser.h, util/TextParser.cpp |
| `World.v` | LocoConsumer, LocoListConsumer, ConfigDataStreamParser, callback/*, Station |
| `Query.v` | the member functions that only report state: getEngine, isValid, isStreamComplete, getStreamOffset, getNumEnginesKnownByMaster, getEngineInfos, getStreamState |
| `Reentry.v` | the same calls, with callbacks that call back |
| `Meddle.v` | the text parser, with consumers that change the buffers they are handed |
| `Touch.v` | user code that calls the library and changes parsers' buffers, over `Reentry.v` |
| `LoggedTouch.v` | the same for the logging builds, over `LoggedReentry.v` |
| `Moved.v` | programs over `Shared.v` that also move BufferManager objects |
| `MovedParser.v` | programs that construct, use, move and end TextParser objects, over the memory of `Shared.v` |
| `Shared.v` | BufferManager and TextParser once more, with pointers into arrays that several buffers may share |
| `Own.v` | Locomotive.h's setters with pointers into engines, and SendPacket with the caller's frame |
| `Arith.v` | every arithmetic expression of the code, operator by operator, for an int of any width |
| `SpecNet.v` | the environment of C67-C70: several stations on a broadcast bus with per-station queues (not code of the repository) |
| `Logged.v` | every `#if (LOG_...)` section, for any logging setting |
| `LoggedReentry.v` | the same sections, with callbacks that call back |
| `RepoTests.v` | the project's own unit tests, replayed on the model by computation |

Each topic has a specification `SpecX.v` (definitions only, independent of the model's helpers where the model
is not itself the subject), proofs `ProofsX.v`, and `PropsX.v` with the property theorems: only
`Theorem ... Proof. exact ... Qed.`, `Print Assumptions`, and `Example`s showing that concrete cases meet the
hypotheses. Topics: Codec (C01-C10, C13, C55), Buffer (C40-C44), Loco (C45-C48), Crc (C29-C32), Text (C34-C39),
Station (C11, C12, C14-C24), Reach (C56), Stream (C25-C28, C33, C54), Consumer (C49-C53), Safe (C57),
Reentry (C58-C61), Frames (C62-C63), Rsafe (C64),
Logged (C65-C66), Net (C67-C70), Ends (C71), Channel (C72-C74), Console (C75-C79), Values (C80-C82), Number (C83), LogText (C84-C86), Life (C87-C90), Recover (C91), Query (C92-C94), Work (C95), Catalog (C96-C98), Bus (C99-C100), Protocol (C101), Meddle (C102-C104), Retry (C105-C107), Shared (C108-C112), Exact (C113-C114), Again (C115), Own (C116-C117), Inside (C118), Arith (C119), Uuid (C120), Resume (C121), Length (C122), Apart (C123-C124), Fatal (C125), Talk (C126, C127), Late (C128), Chain (C129), Touch (C130-C132), TouchLog (C133), Pages (C134), Moved (C135), Copy (C136), MovedParser (C137).
Names ending in `_refuted` prove that the natural stronger statement is false, by a witness.

## Per-property plan
* **C01** Identifier fields are independent. Method: arithmetic reading of fields (div/mod 2^k), bit-level proof via Z.testbit.
* **C02** Identifier wire round trip. Method: positional value of bytes; decomposition by div/mod.
* **C03** Loco/accessory id round trip in the payload. Method: Data as dlc + 9 bytes; set/get and frame conditions.
* **C04** Turnout packet round trip. Method: field setters as payload transformers; all orders of writes via commuting lemmas.
* **C05** S88 event round trip. Method: same, with explicit truncation mod 2^16 / 2^8.
* **C06** System message round trip. Method: same.
* **C07** Human and machine addresses convert back and forth. Method: arithmetic mod 2^32.
* **C08** Attaching a protocol keeps the numeric address and is recognised. Method: low 10 bits / high bits via Z.land lemmas; range check.
* **C09** Protocol classification of turnout addresses is the published range table. Method: interval arithmetic.
* **C10** A turnout address is recoverable from its protocol and numeric part exactly outside the upper DCC half. Method: positive theorem on three ranges and negative theorem on 0x3C00-0x3FFF.
* **C11** Send-receive agreement for engine and accessory commands. Method: compose op of station A with HandlePacket of station B in the World model; exact call trace.
* **C12** Every frame a station transmits is well formed and carries its hash. Method: case analysis over all send/request operations, event trace predicate.
* **C13** Sender hash. Method: bit arithmetic; iff for collisions.
* **C14** Engine list request. Method: exact trace for all offsets; decimal printing by the stdlib's Decimal.
* **C15** Engine request frames. Method: exact payloads via padding spec; iff for equal frames.
* **C16** Engine requests are dropped without any effect while one is running or when the name is unknown. Method: world unchanged, trace empty.
* **C17** Dispatch depends only on command, response flag and payload. Method: equality of results of HandlePacket.
* **C18** Receiving never transmits and never modifies the station. Method: frame condition over HandlePacket.
* **C19** Exact condition under which receiving a frame is safe with missing callbacks. Method: iff characterisation of UB NullDeref.
* **C20** Received engine commands are decoded faithfully. Method: exact call traces.
* **C21** Received system commands are decoded faithfully. Method: exact call traces.
* **C22** Config data is forwarded only while a request is processing. Method: exact call traces.
* **C23** Unknown commands have no effect. Method: exact traces incl. console bytes.
* **C24** begin() aborts the running request on the old consumer and installs hash and callbacks. Method: exact resulting station + reset of old consumer.
* **C25** A stream completes exactly when all announced bytes arrived and the checksum matches. Method: induction over data frames; ghost: bytes received so far.
* **C26** A stream whose announced length is not a multiple of 8 never ends by itself. Method: invariant remaining mod 8 <> 0, induction.
* **C27** Malformed frames abort the stream once. Method: case analysis.
* **C28** At most one end notification per started stream. Method: automaton over traces, induction over calls.
* **C29** The checksum is the CRC-16/CCITT polynomial remainder. Method: bit-serial register = carry-less division; carry-less product spec on Z, induction over bytes; uniqueness.
* **C30** Burst errors are detected. Method: linearity + x invertible mod G + degree.
* **C31** Odd numbers of bit errors are detected. Method: parity homomorphism.
* **C32** Double bit errors up to 32766 bits apart are detected; three-bit errors always. Method: order of x by computation (finite sweep lifted).
* **C33** A corrupted download is never reported complete. Method: C25 + C30/C31.
* **C34** Tokenising does not depend on how the text is cut into packets. Method: refinement of processBuffer to a character automaton, by induction on fuel.
* **C35** Parsing inverts printing. Method: run the automaton on rendered documents, then C34.
* **C36** Exact token length limits. Method: automaton + C34.
* **C37** Parse errors are sticky. Method: direct.
* **C38** The text parser is memory safe and terminates. Method: absence of UB from the refinement.
* **C39** Reported tokens are NUL terminated exactly below full length. Method: buffer invariant: zero fill beyond length.
* **C40** The buffer manager behaves like a bounded byte queue. Method: abstraction function to a list queue, simulation for each op, induction over op lists.
* **C41** findFirstOf finds the first match. Method: loop invariant.
* **C42** Sub-buffers are in-range windows. Method: direct.
* **C43** set() stores the longest prefix that leaves room for a terminator. Method: direct.
* **C44** Indexing is clamped to the content exactly when it is non-empty. Method: direct + UB case.
* **C45** Function bits are independent. Method: Z.testbit.
* **C46** Engine names are truncated, terminated and compared correctly. Method: string lemmas.
* **C47** Protocol strings of 8 or more characters are not terminated. Method: strlen UB characterisation.
* **C48** Direction changes. Method: case analysis.
* **C49** Exactly which config lines set engine attributes. Method: prefix characterisation of strncmp.
* **C50** Engine download end to end. Method: composition of C11-style station run, C25, C35 and strtoul correctness.
* **C51** Engine list download. Method: fold over lines.
* **C52** A parse error does not prevent completion. Method: C25 with the parser in the error state.
* **C53** Re-using a parser for a second request loses the consumer unless the first was finished. Method: history theorem in World.
* **C54** Frame builders and the receiving parser agree on the stream format. Method: direct + C25.
* **C55** Frame and packet equality are equivalence relations that ignore bytes beyond the length. Method: memcmp characterisation.
* **C56** Stations do not interfere. Method: frame conditions for each op.
* **C57** Library-wide absence of undefined behaviour under stated preconditions. Method: world invariant, induction over ops.
* **C58** Finishing a request from inside its end notification. Method: re-entrant model with user code answering callbacks; induction on the nesting depth for the endless case, on m for the bounded one; for the end of a stream, factoring the frame into the passive step followed by the user code.
* **C59** A request made from inside an abort notification is lost. Method: inversion of the re-entrant execution of reset(): its last writes do not depend on the callbacks.
* **C60** A request made while a config line is delivered can be reported complete without an answer. Method: witness execution computed from fresh objects.
* **C61** Callbacks may send, and callbacks that do not call back change nothing. Method: simulation between the re-entrant and the passive model, operation by operation, for callbacks that keep the state.
* **C62** The frame builders make exactly the documented frames. Method: one enumeration of all builder calls with a table of wire forms; payload transformers computed, then the reception theorem of C20/C21.
* **C63** The address helpers select a protocol. Method: disjoint bit fields add; the refuted case by a witness.
* **C64** Absence of undefined behaviour when callbacks call back. Method: invariant of the objects that also holds in the middle of an operation (a text buffer partly read, a checksum partly computed); a Hoare logic over the re-entrant model with one rule per callback; induction on the nesting depth and the user code.
* **C65** Logging changes only the console. Method: refinement between logged and plain actions: equal results, traces related by insertion of console output; compositional rules for sequencing and branching.
* **C66** When logging introduces undefined behaviour. Method: two-sided: a logging action follows the plain one unless a full line reaches a library consumer, and such a line makes it undefined; induction on histories with the invariant of C57.
* **C67** On a bus every frame is handled once and in order, and callbacks are told exactly that. Method: the bus is modelled in SpecNet.v: a broadcast step appends to the queue of every station but the sender. Invariant: others' frames = handled ++ queue, notices = what handled says; needs that no call except handling gives notices and that calls keep callbacks.
* **C68** Commands reach every other station, in one common order. Method: refines C67: every command is one frame that conveys it (C11, C12); completion by induction on the queues.
* **C69** Other traffic does not disturb a download. Method: frames other than config data change nothing (C20, C23) so they commute out of the run; induction on the frames.
* **C70** Answers to config requests are not addressed. Method: C17 for whole streams; a computed two-station run as witness.
* **C71** Over any history every stream ends at most once, and consumers are called only for streams. Method: potential argument: a predicate on actions (ends + open parsers after <= open parsers before + startStream calls; no consumer calls when nothing is open), closed under the combinators, lifted to histories by induction.
* **C72** Lost frames are never reported as a complete download, and cost the next one. Method: C25 for fewer frames, then C27 for the next frame.
* **C73** A doubled data frame. Method: C25 and the criterion of C32.
* **C74** Two neighbouring data frames in the wrong order. Method: the difference of the texts is (y+z)(x^64+1) shifted; x^64+1 = (x+1)^64 and the cofactor is prime to x+1 (explicit Bezout identity), so the criterion does not depend on the position.
* **C75** Numbers on the console. Method: the standard library's numerals are the positional digits; their value, and C49 for reading back.
* **C76** The console text of every received frame. Method: case analysis on the command and subcommand.
* **C77** Printing engines and engine lists. Method: unfolding; c_str is defined iff there is a NUL.
* **C78** The parser's complaints. Method: case analysis on the parser state.
* **C79** All other calls are silent. Method: a syntactic predicate on actions closed under the combinators; induction over histories.
* **C80** Commands and subcommands cannot be confused. Method: distinctness of the literal codes and C01/C03.
* **C81** Address ranges do not overlap. Method: arithmetic over the ranges and C08.
* **C82** Engine objects remember exactly the last values set. Method: refinement of an abstract record, induction over the history.
* **C83** Every value text is read as one definite number. Method: an inductive reading of texts; strtoul/strtol of the model agree with it by induction over the text; arithmetic for the platforms.
* **C84** The log of outgoing commands is exact. Method: bit arithmetic for the number shown; case analysis.
* **C85** The log of received frames is exact. Method: case analysis over the commands, on top of C76.
* **C86** The log of a download is exact. Method: induction over the data frames with an invariant for the parser, the running checksum and the consumer.
* **C87** Which object points to which after any call. Method: table of pointers per call; case analysis over all calls with frame lemmas, induction over histories.
* **C88** Objects nobody points to are never touched. Method: non-interference: simulation of the run with the objects of the set replaced by arbitrary others.
* **C89** When the objects of a download may be destroyed. Method: instance of C88 after the pointer table of C87; witnesses by computation.
* **C90** Separate installations do not influence each other. Method: two uses of C88 per call; induction over the interleaving.
* **C91** Every history can be recovered from. Method: soundness invariant of C57 over the history, effect of finishing and resetting from any sound state, then the downloads of C50 and C51; witnesses by computation.
* **C92** Consumers and engines are what their history makes of them. Method: every action keeps the books: its effect on consumers and engines is the fold of its events; induction over the history.
* **C93** The answers of a list consumer. Method: fold of the deeds projected to one list consumer.
* **C94** The answers of an engine consumer. Method: fold of the deeds projected to consumer pointers and availability marks; witness by computation.
* **C95** One call does a bounded amount of work. Method: cost bounds per action composed over sequencing; potential argument on the line automaton (two characters per report); induction over histories; witnesses by computation.
* **C96** Reading a master's list of names in pages. Method: the master and the user's program are specified in SpecCatalog.v and run against the model; one page is computed exactly from the state the requests leave (Recover) and the stream theorems, then induction over pages; a serving master is constructed for every printable catalogue.
* **C97** Reading one engine from a master. Method: the request frames are read back as the first 16 characters of the name; exact effect of the download; witness with two names sharing 16 characters.
* **C98** Copying a master's whole catalogue. Method: induction over the catalogue with C96 and C97; witness with equal names.
* **C99** Delivering frames from inside the transmit callback. Method: calls that transmit several frames only transmit frames no station reacts to; all others transmit last; so the re-entrant model with delivering callbacks and the plain model with a queue agree, by one simulation over all calls (ProofsPassive generalised) and induction over the calls.
* **C100** Repeaters on a direct bus never return. Method: induction over the depth for sending and handling together; witness for the overtaking.
* **C101** Parsers depend only on the messages addressed to them. Method: a receiver machine in SpecProtocol.v that sees only messages; simulation of every parser object by its receiver for every call, with the consumer notifications of each message bracketed, by induction over the calls.
* **C102** The parser withstands consumers that change the buffers they are handed. Method: Meddle.v: the parser's functions once more with the consumer as a parameter; consumers perform the operations of SpecBuffer.v; operations keep buffers zero-padded, so the ideal queues describe them; simulation by the automaton of SpecMeddle.v; equal to TextParser.v for a consumer that changes nothing.
* **C103** Harmless changes are invisible. Method: relation between the automaton with the consumer and without, by induction over characters and calls; counterexamples for both restrictions.
* **C104** What a consumer's change does to the rest of a document. Method: induction over the document, with the section and value text left behind as parameters.
* **C105** A disturbed page of names is recognised. Method: SpecRetry.v: the conversation of SpecCatalog.v with a mask of lost frames per attempt; the parser's machine of C101 for an arbitrary subset of the frames: the announced length is reached exactly if nothing is lost, and before that consumers only receive lines; the line limits are a hypothesis (loss_tolerant), proved of a concrete master by a sweep over all subsets.
* **C106** A disturbed engine description is recognised. Method: as C105, with the engine consumer; a failed attempt leaves an engine object that differs from a sound one only in its protocol and flags, which reset() repairs.
* **C107** Copying a catalogue over a bus that loses frames. Method: induction over the attempts, pages and names using C105 and C106; a concrete master and mask whose losses join lines to a 26-character value as counterexample.
* **C108** Buffers sharing an array. Method: Shared.v: BufferManagers as pointers into a heap of arrays; simulation of the queue model of C40 for buffers with disjoint windows, with a frame condition on all other bytes; two overlapping buffers as counterexample.
* **C109** Sub-buffers are live views. Method: SpecShared.v: what part_of a queue a sub-buffer shows; memcpy on overlapping memory is undefined behaviour in Shared.v; induction over histories, and the window of a view as a function of the memory alone.
* **C110** Writing through a sub-buffer. Method: the owner's window after each operation on a view, as a function of its window before.
* **C111** Setting a buffer from memory. Method: strncpy on overlapping memory is undefined behaviour in Shared.v; the erasure at the start of set() makes the buffer's own strings empty; cases by the position of the pointer.
* **C112** The text parser needs no copies. Method: Shared.v: the text parser over the heap; simulation of TextParser.v function by function, arrays outside the parser unchanged; the value buffer fed to its own parser as counterexample.
* **C113** Exactly which messages lead to undefined behaviour. Method: SpecExact.v: the fatal lines and ends of streams, with numbers that are not ended; exact case analysis of strtoul, strtol, strcmp, strncpy and the prints on unterminated buffers, then of the consumers, the stream parser and the station; each operation is undefined if and only if the condition holds.
* **C114** Exactly which histories lead to undefined behaviour. Method: induction over the history with C113 and preservation of initialised objects.
* **C115** Every defined history can be recovered from. Method: the proof of C91 with the invariant of C113, which does not restrict the lines of the history, instead of that of C57.
* **C116** Strings that are inside the engine. Method: Own.v: strings as pointers into engines; the string functions on the erased engine, exact case analysis over the position of the pointer.
* **C117** SendPacket and the caller's frame. Method: Own.v: SendPacket returning the changed frame; induction over the sends.
* **C118** Calling back from inside a line. Method: Reentry.v: the text functions agree with the passive ones up to the first report; after a callback that leaves the text parser fresh the rest of the frame has no effect; then the end of addMessage is computed.
* **C119** The arithmetic has a meaning. Method: Arith.v transcribes the expressions operator by operator, SpecArith.v evaluates them by the rules of C++; one lemma per operator for values that are not negative, composed for each expression; for the widths, powers of two.
* **C120** Hashes and UUIDs influence nothing but hashes. Method: a relation between two runs (worlds equal up to the hashes of stations, events equal up to the hashes of frames) shown to be respected by every combinator of World.v and of Reentry.v, then by every operation, histories by induction, interactive programs by induction on depth and code; the converse by one SendSystemGo.
* **C121** Whatever callbacks do, the library can be brought back to work. Method: the triples of ProofsRsafe.v, proved for every function of the re-entrant model, give an initialised world with the same objects; the recovery theorems of C91 continue from it.
* **C122** Frames whose length field may be anything. Method: the exact boundary of C113 is extended case by case: a payload longer than 8 can never be one of its cases, every branch that prints the bytes is undefined exactly above 9, all others are safe.
* **C123** Objects that neither program nor callbacks use are never touched, at any depth of re-entrance. Method: the independence lemmas of C88 for single steps, lifted through the re-entrant model: values read before a callback stay outside the set because nothing outside ever refers into it.
* **C124** The library uses only the objects it was given, whatever callbacks do. Method: the lifting of C123 for two equal executions, in which user code may look at everything.
* **C125** What happens last before undefined behaviour when callbacks call back. Method: triples over the re-entrant model whose undefined outcomes record the last events and the state of the consumer at that moment; the consumers' own code is discharged by the exact boundary of C113.
* **C126** Logging changes only the console, whatever callbacks do. Method: LoggedReentry.v: the sections of Logged.v at their places in Reentry.v; simulation between the two, function by function, with worlds equal and traces equal up to console output; equality for settings without sections; a two-sided simulation with Logged.v for callbacks that do nothing; a callback that counts events as counterexample.
* **C127** What happens last before undefined behaviour in a logging build when callbacks call back. Method: the triples of C125 once more over LoggedReentry.v; each logging section is shown to be defined from initialised objects except the printing of an overfull line.
* **C128** Callbacks that are called last can be moved out of the library. Method: relation between the re-entrant run and the run with passive callbacks, function by function: the two agree until the last event, and the reaction to it is run on the final state; then induction on depth and code; a reacting accessory callback as counterexample.
* **C129** A program driven by its end callback copies all engines. Method: each answer is split into all frames but the last and the last, whose last event is the completion; with C128 the callback's request runs on the state after it; induction over the jobs with the world before each request as invariant.
* **C130** User code that changes the parsers' buffers as well. Method: Touch.v adds buffer operations to the user code of Reentry.v and reuses its library functions; buffer operations keep the invariant of C125 (with C40-C44 for the buffers), so its triples apply; congruence of all library functions for the last part.
* **C131** After user code has changed buffers, a reset is enough. Method: C130 gives an initialised world with the same objects; C115 from there.
* **C132** A download read by a consumer that changes its parser's buffers. Method: simulation between the text parser of Reentry.v running such a consumer and the one of Meddle.v, function by function; C102's automaton for the latter; induction over the data frames; C104's documents.
* **C133** Logging builds with user code that changes the parsers' buffers. Method: LoggedTouch.v combines the library functions of LoggedReentry.v with the user code of Touch.v; buffer operations keep the invariant of C127, so its triples apply; the simulations of C126 and C127 with buffer operations on both sides; congruence of all library functions for code that leaves the buffers alone.
* **C134** A master's list read by the end callback. Method: the last frame of each answer is split off the run of the list consumer (as in C129), the callback then runs at the end of that call (C125), and the pages are chained by induction on the number of pages left.
* **C135** Moving buffer managers. Method: Moved.v adds the two defaulted move operations to the programs of Shared.v; a ghost manager stays with each memory area, managers that hold a queue equal its ghost (a simulation), and the ghosts run by C109.
* **C136** Copying a catalogue from end callbacks alone. Method: the nested-call model of Reentry.v with two end callbacks sharing one parser; the traced downloads of C129 and C134 chained by induction over the remaining pages and engines, with the completions counted from the history.
* **C137** Text parsers that are moved. Method: MovedParser.v: parser objects with their own arrays in the heap of Shared.v; a move copies arrays and pointers; an invariant names, for each object, the object in whose arrays its parser lives, apart from all others; C112 carries each use over to the automaton of SpecText.v; ended arrays have no bytes, so the first access is undefined; swapping and moving back by computation.

## Simplifications

Each is also stated at the definition concerned.

* Configuration: logging off, as in the template `_RR32Can_config.h`, everywhere except in `Logged.v` (C65, C66), which
  covers all logging settings; there `LOG_PING` stays off, since with it on `Station.cpp` does not compile (it names an
  undeclared variable). The tests' own `RR32Can_config.h` leaves the stream level macros undefined, which enables all
  stream logging. `ARDUINO` is not defined.
* `int` has 32 bits. C119 evaluates every arithmetic expression of the code by the integer rules of C++ and proves that
  the model computes the same, and that the library cannot be compiled for an `int` of less than 26 or more than 32 bits.
  `long` is a parameter (`lw`, 32 or 64) where it matters (strtoul); `size_t` has at least 32 bits.
* `Station::begin` takes the callbacks by reference and copies them; the model takes their values at the copy.
* printf output is modelled for the conversions used; its return value is not used by the code.
* User consumers do not modify the buffers handed to `consumeConfigData`, except in `Meddle.v` (C102-C104), which models
  the text parser alone with consumers that do, and in `Touch.v` and `LoggedTouch.v` (C130-C133), where any user code does, over all objects.
  Not modelled there: writing through `data()` behind the content (below the length it is what `at()` does, which is
  covered) and moving one of the parser's BufferManager objects. `Moved.v` (C135) models moves of buffer managers by themselves.
  `MovedParser.v` (C137) models moves of whole text parsers; in it consumers do not react, and the text is in memory of the caller.
  (A ConfigDataStreamParser moves its text parser in the same way; the stream parser is not modelled there.)
* In `Buffer.v` and `TextParser.v` every buffer has an array of its own, and sub-buffers are copies. `Shared.v` has neither
  simplification; C108 and C112 prove that they make no difference for buffers without common bytes.
* In `Loco.v` the string arguments are not inside the engine, and in `World.v` the frame handed to `SendPacket` is a
  value. `Own.v` has neither simplification; C116 and C117 prove when they make no difference.
* No object is created or destroyed while an operation is running; dangling pointers are modelled for
  operations on objects that do not exist.
* The table of a list consumer is a C array (`LocomotiveShortInfo[kEngineBrowserEntries]`); the model takes any size.
* Padding and object layout are not modelled; `memcmp` and `memcpy` in the code act on byte arrays only.

## Trusted base

* The kernel of Coq 8.16.1 (including `vm_compute`, used for finite sweeps and examples).
* `Print Assumptions` says "Closed under the global context" for every property theorem: no axioms at all.
  `coqchk -o` lists `Coq.ssr.ssrunder.Under_rel.*` as axioms of the loaded standard library (a sealed module
  loaded with `ssreflect` by `Lia` and `Zify`); no theorem depends on them.
* The reading of the C++ sources (each definition cites file and lines) and of the C standard for libc.
* Not modelled: threads and interrupts (the library is documented as not thread safe), the CAN and serial drivers,
  the Arduino build, `classmaker.py` and the build files.
