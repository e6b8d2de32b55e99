{"id": "C01", "title": "Identifier fields are independent", "statement": "Setting the command, the hash or the response flag of a CAN identifier makes the corresponding getter return exactly the value set and leaves every other field (priority and the top bits included) untouched.", "quantifier": "every 32-bit identifier value, every command byte, every 16-bit hash, both flag values", "why_tests_cant": "2^32 x 2^24 combinations of old identifier and new field", "anchors": ["lib/RR32Can/messages/Identifier.h: Identifier::setCommand/setHash/setResponse/getCommand/getHash/getPriority/isResponse"]}
{"id": "C02", "title": "Identifier wire round trip", "statement": "The identifier decoded from the four big-endian bytes a LAN gateway delivers is the number those bytes spell, and every 29-bit identifier equals priority*2^25 + command*2^17 + response*2^16 + hash of its own getters, so no information is lost or invented by decoding.", "quantifier": "every 4-byte buffer; every 29-bit identifier", "why_tests_cant": "2^32 buffers", "anchors": ["lib/RR32Can/messages/Identifier.cpp: Identifier::GetIdentifier", "lib/RR32Can/messages/Identifier.h: makeIdentifier"]}
{"id": "C03", "title": "Loco/accessory id round trip in the payload", "statement": "Writing a 32-bit id into a payload and reading it back yields the same id; it is stored big-endian in bytes 0..3 and nothing else in the payload (length, bytes 4..8) changes.", "quantifier": "every payload content and every 32-bit id", "why_tests_cant": "2^32 ids x arbitrary previous payload", "anchors": ["lib/RR32Can/messages/Data.h: Data::getLocid/setLocid"]}
{"id": "C04", "title": "Turnout packet round trip", "statement": "In an accessory payload the address, direction and power fields read back exactly what was last written to them, regardless of the order of writes and of the previous content, and a freshly initialised packet has length 6 and all other bytes zero.", "quantifier": "every payload, address, direction byte, power value", "why_tests_cant": "unbounded combination of previous content and field values", "anchors": ["lib/RR32Can/messages/TurnoutPacket.h"]}
{"id": "C05", "title": "S88 event round trip", "statement": "Device id, contact id, old/new state and time of an S88 payload read back what was written modulo 2^16 (ids, time) and modulo 2^8 (states), the fields do not overlap, and the subtype read after setting it is the subtype set.", "quantifier": "every payload and every field value, including out-of-range 32-bit addresses", "why_tests_cant": "the 32-bit address space is silently truncated; tests use small addresses", "anchors": ["lib/RR32Can/messages/S88Event.h"]}
{"id": "C06", "title": "System message round trip", "statement": "Subcommand and id of a system message read back what was written, do not disturb each other, and an initialised message has length 5.", "quantifier": "every payload, subcommand byte and id", "why_tests_cant": "2^40 combinations", "anchors": ["lib/RR32Can/messages/SystemMessage.h"]}
{"id": "C07", "title": "Human and machine addresses convert back and forth", "statement": "Converting a turnout or locomotive address from human (1-based) to machine (0-based) form and back is the identity on all 32-bit values, both ways; human address 0 maps to machine address 2^32-1 and no two addresses collide.", "quantifier": "every 32-bit address", "why_tests_cant": "the wrap at 0 and 2^32-1", "anchors": ["lib/RR32Can/types/TurnoutTypes.cpp", "lib/RR32Can/types/LocomotiveTypes.cpp"]}
{"id": "C08", "title": "Attaching a protocol keeps the numeric address and is recognised", "statement": "After setProtocol with a known protocol the numeric part (address mod 1024) of a turnout or loco address is unchanged (with the unknown protocol only its low 8 bits survive, because the unknown mask is not aligned to 1024), any previously attached protocol is gone, and a turnout packet carrying that address reports the protocol class asked for (MM1/MM2/MFX as MM1, SX1/SX2 as SX1, DCC as DCC, unknown as unknown).", "quantifier": "every 32-bit address and every protocol", "why_tests_cant": "2^32 addresses", "anchors": ["lib/RR32Can/types/TurnoutTypes.h: setProtocol/getNumericAddress", "lib/RR32Can/types/LocomotiveTypes.h", "lib/RR32Can/messages/TurnoutPacket.h: getRailProtocol"]}
{"id": "C09", "title": "Protocol classification of turnout addresses is the published range table", "statement": "getRailProtocol returns SX1 exactly on 0x2800-0x2BFF, MM1 exactly on 0x3000-0x33FF, DCC exactly on 0x3800-0x3FFF and UNKNOWN elsewhere.", "quantifier": "every 32-bit id in a payload", "why_tests_cant": "2^32 ids; boundary errors", "anchors": ["lib/RR32Can/messages/TurnoutPacket.h: getRailProtocol", "lib/RR32Can/Constants.h"]}
{"id": "C10", "title": "A turnout address is recoverable from its protocol and numeric part exactly outside the upper DCC half", "statement": "Splitting a turnout address into protocol and numeric address and reattaching the protocol gives the original address back for SX1, MM and the lower 1024 DCC addresses; for the upper 1024 DCC addresses (0x3C00-0x3FFF), which the library classifies as DCC, it gives a different address.", "quantifier": "every turnout address in a known range", "why_tests_cant": "needs the whole range; the tests only use small numeric addresses", "anchors": ["lib/RR32Can/types/TurnoutTypes.h: getNumericAddress/setProtocol", "lib/RR32Can/types/TurnoutTypes.cpp"]}
{"id": "C11", "title": "Send-receive agreement for engine and accessory commands", "statement": "If station A sends a direction, speed, function, emergency stop, system stop/go or accessory command and the very frame A hands to its transmit callback is fed to station B, then B makes exactly one callback, with exactly the values A was given (speed limited to 1000, response flag false), and transmits nothing.", "quantifier": "every engine id, value, station hash, callback table with the receiving callback present, and state of B", "why_tests_cant": "product of all argument domains with all station states", "anchors": ["lib/RR32Can/Station.cpp: Send*/Handle*", "lib/RR32Can/util/constexpr.h"]}
{"id": "C12", "title": "Every frame a station transmits is well formed and carries its hash", "statement": "Every frame handed to the transmit callback by a send or request operation has the station's own sender hash, the response flag cleared, priority 0, the command of that operation, a length of at most 8 and zero bytes after the payload; SendPacket overwrites only the hash.", "quantifier": "every operation, argument and station state", "why_tests_cant": "quantifies over all arguments and states", "anchors": ["lib/RR32Can/Station.cpp", "lib/RR32Can/util/constexpr.h"]}
{"id": "C13", "title": "Sender hash", "statement": "The sender hash of a 16-bit station id is (id div 2^11)*256 + id mod 128; so two station ids collide exactly when they agree in bits 0-6 and 11-15. For a 32-bit id the hash is the xor of both halves of that packed number.", "quantifier": "every station id, every pair of station ids", "why_tests_cant": "collision classes over 2^32 pairs", "anchors": ["lib/RR32Can/util/utils.h: computeSenderHash", "lib/RR32Can/Station.cpp: Station::begin"]}
{"id": "C14", "title": "Engine list request", "statement": "Requesting the engine list at an offset transmits exactly two frames, 'loknamen' and '<offset> 2' in decimal, for every offset; the oversized-packet abort branch is never taken; the stream of the given consumer is started exactly once, before the frames, after the previous request's consumer was reset.", "quantifier": "every 8-bit offset, every station state, any consumer", "why_tests_cant": "all 256 offsets x all states", "anchors": ["lib/RR32Can/Station.cpp: Station::RequestEngineList"]}
{"id": "C15", "title": "Engine request frames", "statement": "An accepted engine request transmits exactly three 8-byte frames: 'lokinfo' zero padded, and the first 16 characters of the name zero padded over two frames; two names yield the same frames exactly when their first 16 characters agree.", "quantifier": "every stored engine name, every station state", "why_tests_cant": "all names up to 32 characters", "anchors": ["lib/RR32Can/Station.cpp: Station::RequestEngine"]}
{"id": "C16", "title": "Engine requests are dropped without any effect while one is running or when the name is unknown", "statement": "RequestEngine with an empty engine, or while the station's current config consumer is processing, changes no state, calls nothing and sends nothing.", "quantifier": "every station and consumer state", "why_tests_cant": "all states", "anchors": ["lib/RR32Can/Station.cpp: Station::RequestEngine"]}
{"id": "C17", "title": "Dispatch depends only on command, response flag and payload", "statement": "Two received frames that agree in command, response flag and payload have exactly the same effects (callbacks, state, output) whatever their priority and hash; the response flag matters only for system and accessory commands.", "quantifier": "every pair of frames, every station state", "why_tests_cant": "pairs of 2^32 identifiers", "anchors": ["lib/RR32Can/Station.cpp: Station::HandlePacket"]}
{"id": "C18", "title": "Receiving never transmits and never modifies the station", "statement": "Handling any received frame never calls the transmit callback and never changes the station's own hash or callback table (only the config consumer it forwards to may change).", "quantifier": "every frame, every state", "why_tests_cant": "all frames and histories", "anchors": ["lib/RR32Can/Station.cpp: HandlePacket and all Handle*"]}
{"id": "C19", "title": "Exact condition under which receiving a frame is safe with missing callbacks", "statement": "Handling a frame with length at most 9 dereferences a null callback exactly when no engine callback is registered and the frame is a 5-byte direction frame with direction 1..3 or a 6-byte function frame; every other frame that is not config data is safe with any subset of callbacks missing, and config data dereferences no null pointer (what else it can do is the subject of C57 and C113).", "quantifier": "every frame, every subset of null callbacks", "why_tests_cant": "all frames x all callback subsets; the direction and function handlers lack the null check their siblings have", "anchors": ["lib/RR32Can/Station.cpp: HandleLocoDirection, HandleLocoFunction, HandleLocoSpeed, HandleSystemCommand, HandleAccessoryPacket"]}
{"id": "C20", "title": "Received engine commands are decoded faithfully", "statement": "A received speed frame of length 6 calls the engine callback once with the big-endian id and speed and other lengths call nothing; direction frames of length 5 with direction 1, 2 call set-direction, with 3 change-direction, other values or lengths nothing; function frames of length 6 call set-function with on iff byte 5 is nonzero.", "quantifier": "every payload", "why_tests_cant": "all payloads of all lengths", "anchors": ["lib/RR32Can/Station.cpp: HandleLocoSpeed/HandleLocoDirection/HandleLocoFunction"]}
{"id": "C21", "title": "Received system commands are decoded faithfully", "statement": "Stop/Go report system off/on with the response flag, Halt sets velocity 0 for all engines, emergency stop sets velocity 0 of exactly the addressed engine; every other subcommand and any message shorter than 5 bytes calls nothing.", "quantifier": "every payload and response flag", "why_tests_cant": "all payloads", "anchors": ["lib/RR32Can/Station.cpp: HandleSystemCommand"]}
{"id": "C22", "title": "Config data is forwarded only while a request is processing", "statement": "A config-data frame is given to the registered config consumer exactly once, unmodified, if the consumer is processing, and otherwise has no effect other than console output.", "quantifier": "every payload and state", "why_tests_cant": "all states", "anchors": ["lib/RR32Can/Station.cpp: HandleConfigDataStream"]}
{"id": "C23", "title": "Unknown commands have no effect", "statement": "A frame whose command is not one of the handled ones calls nothing and changes nothing; for debug text the console shows exactly the payload characters.", "quantifier": "every frame with a command outside the handled set; every debug text payload", "why_tests_cant": "all 256 commands x payloads", "anchors": ["lib/RR32Can/Station.cpp: HandlePacket"]}
{"id": "C24", "title": "begin() aborts the running request on the old consumer and installs hash and callbacks", "statement": "After begin the station uses the hash of the given id and exactly the given callbacks; a request running on the previously registered config consumer is reset first.", "quantifier": "every previous station state, id, callback table", "why_tests_cant": "all prior histories", "anchors": ["lib/RR32Can/Station.cpp: Station::begin"]}
{"id": "C25", "title": "A stream completes exactly when all announced bytes arrived and the checksum matches", "statement": "After a header announcing 8*n bytes (n>0) and checksum c, data frames are consumed; nothing is reported before the n-th; at the n-th the consumer gets 'complete' if the CRC of all 8*n received bytes is c and 'aborted' otherwise, exactly once.", "quantifier": "every n, every payload, every checksum, every parser history before startStream", "why_tests_cant": "unbounded stream length", "anchors": ["lib/RR32CanEngineDb/util/ConfigDataStreamParser.cpp: addMessage"]}
{"id": "C26", "title": "A stream whose announced length is not a multiple of 8 never ends by itself", "statement": "If the announced length is not a multiple of 8, then after any number of 8-byte data frames the parser is still waiting for data and has reported neither completion nor abortion.", "quantifier": "every such 32-bit length and every finite number of data frames", "why_tests_cant": "unbounded: wrap-around of the 32-bit counter after 2^29 frames", "anchors": ["lib/RR32CanEngineDb/util/ConfigDataStreamParser.cpp: remainingBytes_"]}
{"id": "C27", "title": "Malformed frames abort the stream once", "statement": "A header frame with length other than 6 or 7, or a data frame with length other than 8, aborts the stream: the consumer is told exactly once, the parser forgets the consumer, returns to idle and ignores everything until restarted.", "quantifier": "every payload in every waiting state", "why_tests_cant": "all payloads and histories", "anchors": ["lib/RR32CanEngineDb/util/ConfigDataStreamParser.cpp: addMessage", "lib/RR32CanEngineDb/util/ConfigDataStreamParser.h: reset"]}
{"id": "C28", "title": "At most one end notification per started stream", "statement": "In any sequence of start, consumer change, message and reset calls, between two successive stream starts the consumers receive at most one end notification (complete or aborted) in total, and none before the first start.", "quantifier": "every finite call sequence", "why_tests_cant": "all histories", "anchors": ["lib/RR32CanEngineDb/util/ConfigDataStreamParser.h", "lib/RR32CanEngineDb/util/ConfigDataStreamParser.cpp"]}
{"id": "C29", "title": "The checksum is the CRC-16/CCITT polynomial remainder", "statement": "The running checksum after any byte string is the unique 16-bit R with message*x^16 + 0xFFFF*x^n = R modulo x^16+x^12+x^5+1 over GF(2).", "quantifier": "every byte string of any length", "why_tests_cant": "unbounded inputs", "anchors": ["lib/RR32CanEngineDb/util/Crc.cpp: updateCrc", "lib/RR32CanEngineDb/util/Crc.h"]}
{"id": "C30", "title": "Burst errors are detected", "statement": "Two byte strings of the same length that differ, with all differing bits inside a window of 16 consecutive bits anywhere, never have the same checksum.", "quantifier": "every byte string, every burst position and pattern", "why_tests_cant": "unbounded length", "anchors": ["lib/RR32CanEngineDb/util/Crc.cpp"]}
{"id": "C31", "title": "Odd numbers of bit errors are detected", "statement": "Two byte strings of the same length differing in an odd number of bits never have the same checksum.", "quantifier": "every pair of byte strings", "why_tests_cant": "unbounded", "anchors": ["lib/RR32CanEngineDb/util/Crc.cpp"]}
{"id": "C32", "title": "Double bit errors up to 32766 bits apart are detected; three-bit errors always", "statement": "Two equal-length byte strings differing in exactly two bits less than 32767 positions apart have different checksums; at distance 32767 they have the same one.", "quantifier": "every byte string and pair of positions", "why_tests_cant": "order of x modulo the polynomial", "anchors": ["lib/RR32CanEngineDb/util/Crc.cpp"]}
{"id": "C33", "title": "A corrupted download is never reported complete", "statement": "If a stream would complete with some payload, then the same header followed by a payload of the same length that differs only by a burst of at most 16 bits, or in an odd number of bits, ends in 'aborted', not 'complete'.", "quantifier": "every payload, every such corruption", "why_tests_cant": "unbounded streams and corruptions", "anchors": ["lib/RR32CanEngineDb/util/ConfigDataStreamParser.cpp", "lib/RR32CanEngineDb/util/Crc.cpp"]}
{"id": "C34", "title": "Tokenising does not depend on how the text is cut into packets", "statement": "Feeding a text to the text parser in any sequence of chunks of 0..30 characters yields the same events and the same parser state as feeding it character by character, as long as no parse error occurs; whether a parse error occurs at all, and the events before it, are independent of the cutting too.", "quantifier": "every text, every two ways of cutting it", "why_tests_cant": "unbounded texts and cuttings", "anchors": ["lib/RR32CanEngineDb/util/TextParser.cpp: addText/processBuffer/findToken"]}
{"id": "C35", "title": "Parsing inverts printing", "statement": "For any list of sections with key/value lines (tokens without delimiters, sections and keys up to 11, values up to 26 characters), feeding the text '[s]\\n .k=v\\n...' in any cutting reports exactly those (section, key, value) triples in order; a key line without '=' is reported with an empty value.", "quantifier": "every document and every cutting", "why_tests_cant": "unbounded documents", "anchors": ["lib/RR32CanEngineDb/util/TextParser.cpp", "lib/RR32CanEngineDb/util/TextParser.h"]}
{"id": "C36", "title": "Exact token length limits", "statement": "A section or key of up to 11 and a value of up to 26 characters is accepted; one more character is a parse error. (The declared constants kSectionLength, kKeyLength, kValueLength are one smaller.)", "quantifier": "every token", "why_tests_cant": "boundary for all contents", "anchors": ["lib/RR32CanEngineDb/util/TextParser.h: kSectionLength/kKeyLength/kValueLength", "lib/RR32CanEngineDb/util/TextParser.cpp: findToken"]}
{"id": "C37", "title": "Parse errors are sticky", "statement": "After a parse error the parser stays in the error state; each later non-reset text call reports exactly one ('ERROR','ERROR','ERROR') triple and nothing else, until reset, after which the parser behaves like a new one.", "quantifier": "every text sequence after an error", "why_tests_cant": "all histories", "anchors": ["lib/RR32CanEngineDb/util/TextParser.cpp: reportParseError/addText/reset"]}
{"id": "C38", "title": "The text parser is memory safe and terminates", "statement": "For every sequence of valid text buffers the parser never accesses memory outside its buffers, never indexes an empty buffer and its loops terminate having consumed the entire input.", "quantifier": "every history", "why_tests_cant": "all inputs; loops with 8-bit counters", "anchors": ["lib/RR32CanEngineDb/util/TextParser.cpp", "lib/RR32CanEngineDb/util/BufferManager.cpp"]}
{"id": "C39", "title": "Reported tokens are NUL terminated exactly below full length", "statement": "A reported section, key or value is a NUL-terminated C string equal to the token iff it is shorter than its buffer (11, 11, 26) or contains a NUL; at exactly full length it is not terminated inside its buffer.", "quantifier": "every reported triple", "why_tests_cant": "boundary over all contents", "anchors": ["lib/RR32CanEngineDb/util/TextParser.cpp", "lib/RR32CanEngineDb/util/BufferManager.cpp: push_back"]}
{"id": "C40", "title": "The buffer manager behaves like a bounded byte queue", "statement": "Under any sequence of push_back, pop_front, set, erase, move_back and at-writes, the visible content equals that of an ideal queue with the same capacity: push_back appends the longest prefix that fits and returns its length, pop_front drops a prefix, bytes are never lost, reordered or duplicated, length never exceeds capacity, and memory outside the buffer is never touched.", "quantifier": "every operation sequence, capacity 1..255 and content", "why_tests_cant": "all histories and capacities, 8-bit arithmetic", "anchors": ["lib/RR32CanEngineDb/util/BufferManager.cpp", "lib/RR32CanEngineDb/util/BufferManager.h"]}
{"id": "C41", "title": "findFirstOf finds the first match", "statement": "findFirstOf returns the smallest index at or after the offset whose character is in the set, and npos exactly when there is none.", "quantifier": "every content, set of characters (up to 255) and offset", "why_tests_cant": "all contents", "anchors": ["lib/RR32CanEngineDb/util/BufferManager.cpp: findFirstOf"]}
{"id": "C42", "title": "Sub-buffers are in-range windows", "statement": "A sub-buffer never reaches outside its parent's storage: its data is the parent's memory starting at the clamped start offset, its length and capacity are the clamped differences.", "quantifier": "every parent, start and end offset", "why_tests_cant": "all offsets incl. inverted and oversized ones", "anchors": ["lib/RR32CanEngineDb/util/BufferManager.cpp: subBufferManager"]}
{"id": "C43", "title": "set() stores the longest prefix that leaves room for a terminator", "statement": "set(str) stores the first capacity-1 characters of str followed by a NUL; with capacity 0 it is undefined behaviour.", "quantifier": "every string and capacity", "why_tests_cant": "all lengths", "anchors": ["lib/RR32CanEngineDb/util/BufferManager.cpp: set"]}
{"id": "C44", "title": "Indexing is clamped to the content exactly when it is non-empty", "statement": "operator[] and at() access the requested character if it exists and the last character otherwise; on an empty buffer they access index 255, which is out of bounds for every smaller buffer.", "quantifier": "every buffer and index", "why_tests_cant": "all states; the empty buffer case is not tested", "anchors": ["lib/RR32CanEngineDb/util/BufferManager.h: limitIndex"]}
{"id": "C45", "title": "Function bits are independent", "statement": "Setting function f<32 makes getFunction(f) return that value and leaves all other functions unchanged; for f>=32 both operations are undefined behaviour (over-wide shift).", "quantifier": "every bit field, every pair of function numbers", "why_tests_cant": "2^32 x 256 x 256", "anchors": ["lib/RR32Can/Locomotive.h: setFunction/getFunction"]}
{"id": "C46", "title": "Engine names are truncated, terminated and compared correctly", "statement": "setName stores the first 32 characters, always NUL terminated, marks the name known and clears all other data of a full locomotive; setNameConditional changes the engine iff it was empty or the name differs in its first 32 characters, and says so.", "quantifier": "every name and engine state", "why_tests_cant": "unbounded names", "anchors": ["lib/RR32Can/Locomotive.h: setName/setNameConditional"]}
{"id": "C47", "title": "Protocol strings of 8 or more characters are not terminated", "statement": "setProtocolString stores at most 8 characters; the stored string is NUL terminated iff the input has fewer than 8 characters, and printing a fully known engine whose protocol string has 8 or more characters reads out of bounds.", "quantifier": "every protocol string and engine", "why_tests_cant": "boundary", "anchors": ["lib/RR32Can/Locomotive.h: setProtocolString", "lib/RR32Can/Locomotive.cpp: Locomotive::print"]}
{"id": "C48", "title": "Direction changes", "statement": "changeDirection and switchDirection exchange forward and reverse and are involutions on them; changeDirection leaves other values alone, switchDirection maps them to unknown.", "quantifier": "every direction value", "why_tests_cant": "all enum values including invalid casts", "anchors": ["lib/RR32Can/Locomotive.h: changeDirection", "lib/RR32Can/types/LocomotiveTypes.cpp: switchDirection"]}
{"id": "C49", "title": "Exactly which config lines set engine attributes", "statement": "A (section,key,value) line changes the engine being downloaded iff section is a prefix of 'lokomotive' (the empty prefix included) and key is a prefix of 'uid', 'typ' or 'adresse' (first match wins, empty key counts as uid); it then sets exactly that attribute from the value and nothing else.", "quantifier": "every NUL-free section, key, value and engine state", "why_tests_cant": "unbounded strings; prefix matching is invisible to exact-match tests", "anchors": ["lib/RR32CanEngineDb/LocoConsumer.cpp: consumeConfigData"]}
{"id": "C50", "title": "Engine download end to end", "statement": "For every engine description (uid, address, protocol up to 7 characters, other lines in between) sent as a stream with a correct checksum to a station whose engine request was accepted, the engine ends with exactly that uid, address and protocol, is marked fully known, other engines are untouched, completion is reported once and the console shows the engine as it then is, and nothing else.", "quantifier": "every uid, address, protocol string, extra lines and initial state", "why_tests_cant": "composition over unbounded documents", "anchors": ["lib/RR32CanEngineDb/LocoConsumer.cpp", "lib/RR32CanEngineDb/util/ConfigDataStreamParser.cpp", "lib/RR32Can/Station.cpp"]}
{"id": "C51", "title": "Engine list download", "statement": "The first two names of the 'loknamen' section go to the two table entries in order, further ones are dropped, 'numloks/wert' sets the count modulo 256, and an aborted stream clears the whole table. The console tells, line by line, which names were stored, which found no free entry and which sections were of no interest.", "quantifier": "every sequence of reported lines and initial table", "why_tests_cant": "unbounded line sequences", "anchors": ["lib/RR32CanEngineDb/LocoListConsumer.cpp", "lib/RR32CanEngineDb/LocoListConsumer.h"]}
{"id": "C52", "title": "A parse error does not prevent completion", "statement": "If the text contains an over-long token but length and checksum are right, the stream is still reported complete: the engine is marked fully known although lines after the error were discarded.", "quantifier": "every stream with a parse error", "why_tests_cant": "all streams", "anchors": ["lib/RR32CanEngineDb/util/ConfigDataStreamParser.cpp", "lib/RR32CanEngineDb/util/TextParser.cpp"]}
{"id": "C53", "title": "Re-using a parser for a second request loses the consumer unless the first was finished", "statement": "If the station still refers to a parser from an earlier request, then setting a consumer on it and requesting again detaches that consumer before the stream starts: nothing is ever delivered to it; calling FinishCurrentConfigRequest before setting the consumer avoids this.", "quantifier": "every earlier history, consumer, request and later traffic", "why_tests_cant": "needs histories of two requests", "anchors": ["lib/RR32Can/Station.cpp: RequestEngine/RequestEngineList/FinishCurrentConfigRequest", "lib/RR32CanEngineDb/util/ConfigDataStreamParser.h: startStream/reset"]}
{"id": "C54", "title": "Frame builders and the receiving parser agree on the stream format", "statement": "The header built for a length and checksum is decoded to the same length and checksum, and the data frames built from 8-byte pieces deliver exactly those bytes.", "quantifier": "every 32-bit length, 16-bit checksum and data", "why_tests_cant": "2^48 headers", "anchors": ["lib/RR32Can/util/constexpr.h: Config_Data_Stream", "lib/RR32CanEngineDb/util/ConfigDataStreamParser.cpp"]}
{"id": "C55", "title": "Frame and packet equality are equivalence relations that ignore bytes beyond the length", "statement": "Data equality holds iff lengths are equal and the first length bytes agree; for lengths up to 9 it is reflexive, symmetric and transitive; comparing longer ones reads out of bounds.", "quantifier": "every pair/triple of payloads", "why_tests_cant": "all payloads", "anchors": ["lib/RR32Can/messages/Data.h: operator==", "lib/RR32Can/messages/CanFrame.h", "lib/RR32Can/messages/TurnoutPacket.cpp: operator=="]}
{"id": "C56", "title": "Stations do not interfere", "statement": "An operation on one station never changes another station, nor parsers, consumers or engines it has no pointer to, and makes no callback of another station's callback objects.", "quantifier": "every world with any number of stations, every operation", "why_tests_cant": "all interleavings of operations on several stations", "anchors": ["lib/RR32Can/Station.h", "lib/RR32Can/Station.cpp"]}
{"id": "C57", "title": "Library-wide absence of undefined behaviour under stated preconditions", "statement": "Starting from initialised objects with a transmit and an engine callback, no sequence of station operations and received frames of length at most 8 causes undefined behaviour, provided the configuration data contains no value of 26 or more characters, no protocol name of 8 or more characters for the engine consumer and no section name of 11 characters that the list consumer does not know. Each of these limits and each callback or setter requirement is needed: without it some history does cause undefined behaviour.", "quantifier": "every operation sequence", "why_tests_cant": "all histories", "anchors": ["lib/RR32Can/Station.cpp", "lib/RR32CanEngineDb/*"]}
{"id": "C58", "title": "Finishing a request from inside its end notification", "statement": "If a callback told of the end of a download finishes the request (notifyConfigStreamReceived, finish or abort): on completion and on checksum failure this is safe and has exactly the effect of finishing afterwards, because the notification is the last thing the frame does. On an abort (finish, abort, begin, a new list request, reset, or a malformed frame) the callback is told of the same abort again, from inside: a callback that finishes m times is told m+1 times, and one that always finishes recurses until every given stack depth is exhausted.", "quantifier": "every world in which a download is waiting or in progress, every way of aborting it, every recursion depth, every number of repetitions", "why_tests_cant": "unbounded recursion and every callback behaviour", "anchors": ["lib/RR32Can/Station.h: notifyConfigStreamReceived", "lib/RR32Can/Station.cpp: FinishCurrentConfigRequest", "lib/RR32CanEngineDb/util/ConfigDataStreamParser.h: reset"]}
{"id": "C59", "title": "A request made from inside an abort notification is lost", "statement": "Whatever callbacks do while they are told of an abort, once the aborting operation has returned, the parser is idle and has no consumer, and after finishing a request the station has none: a request through the same parser made from inside the notification has transmitted its frames but its answer will be ignored.", "quantifier": "every callback behaviour that returns, every way of aborting", "why_tests_cant": "quantifies over all callback code", "anchors": ["lib/RR32Can/Station.cpp: FinishCurrentConfigRequest", "lib/RR32CanEngineDb/util/ConfigDataStreamParser.h: reset"]}
{"id": "C60", "title": "A request made while a config line is delivered can be reported complete without an answer", "statement": "That a request reported complete has been answered by at least one frame does not hold when the request was made by a consumer from inside the delivery of a config line: the new request is reported complete as soon as the frame containing that line has been dealt with.", "quantifier": "existence of an execution from fresh objects", "why_tests_cant": "a negative claim about interleavings of calls", "anchors": ["lib/RR32CanEngineDb/util/ConfigDataStreamParser.cpp: addMessage", "lib/RR32CanEngineDb/util/TextParser.cpp: addText"]}
{"id": "C61", "title": "Callbacks may send, and callbacks that do not call back change nothing", "statement": "With callbacks that only send (any of the send and request operations that need no answer parser, by any station), every sequence of operations that is defined without them stays defined, leaves all objects in the same state and produces the same events in the same order up to the additional transmissions. With callbacks that do nothing it is exactly the behaviour without re-entrant calls, at every stack depth: the same histories are defined, with the same final state and the same events, and the same histories are undefined.", "quantifier": "every operation sequence, every callback code restricted to sending, every stack depth", "why_tests_cant": "quantifies over all callback code and all histories", "anchors": ["lib/RR32Can/Station.cpp", "lib/RR32Can/callback/*.h", "lib/RR32CanEngineDb/util/ConfigDataStreamParser.cpp"]}
{"id": "C62", "title": "The frame builders make exactly the documented frames", "statement": "Each frame builder (accessory, S88 event, system stop/go/halt/status, engine emergency stop, speed, direction, function, stream header, config data request) returns the frame with priority and hash 0, its command, the given response flag and exactly the payload of the protocol (ids and numbers most significant byte first, speeds limited to 1000, S88 ids modulo 2^16, the old contact state opposite to the new one when not given), and a receiving station reports exactly the command it was built from. A config data request carries the first min(8, length modulo 256) characters, so a text of 256 characters gives an empty request; an unterminated text is read past its end.", "quantifier": "every argument of every builder, every receiving station", "why_tests_cant": "2^32 ids x 2^16 values; the modulo boundary is not tested", "anchors": ["lib/RR32Can/util/constexpr.h: Turnout/S88Event/System_Stop/System_Go/System_Halt/System_GetStatus/System_LocoEmStop/LocoSpeed/LocoDirection/LocoFunction/Request_Config_Data", "lib/RR32Can/Station.cpp: HandlePacket"]}
{"id": "C63", "title": "The address helpers select a protocol", "statement": "For addresses below 1024 the turnout helpers (MM2, DCC, SX1) and the engine helpers (DCC, SX1, MFX) give the address that setProtocol gives, the numeric address can be read back, and an accessory frame built with it reports that protocol; the MM2 engine helper differs from setProtocol(MM2) for every address; larger addresses can land in another protocol's range. The decoder base address is the address rounded down to a multiple of 4 and two addresses share it iff they belong to the same group of four.", "quantifier": "every address", "why_tests_cant": "2^32 addresses", "anchors": ["lib/RR32Can/util/constexpr.h: MM2/DCC/SX1/MFX, DecoderBaseAddress", "lib/RR32Can/types/TurnoutTypes.h", "lib/RR32Can/types/LocomotiveTypes.h"]}
{"id": "C64", "title": "Absence of undefined behaviour when callbacks call back", "statement": "Starting from initialised objects with a transmit and an engine callback, let the program make any calls with valid arguments, and let every callback (transmit, system, engine, accessory, config data, consumer, end of stream) answer by making any such calls itself, to any depth. Then no undefined behaviour occurs and all objects stay initialised, unless the callbacks recurse until the stack is exhausted or a library consumer is handed a line beyond the limits of C57. With consumers of the user's own there is no limit on lines. The limits are needed.", "quantifier": "every program, every callback code, every nesting depth", "why_tests_cant": "quantifies over all callback code at all points of the library where it can run", "anchors": ["lib/RR32Can/Station.cpp", "lib/RR32Can/callback/*.h", "lib/RR32CanEngineDb/util/ConfigDataStreamParser.cpp", "lib/RR32CanEngineDb/util/TextParser.cpp", "lib/RR32CanEngineDb/LocoConsumer.cpp", "lib/RR32CanEngineDb/LocoListConsumer.h"]}
{"id": "C65", "title": "Logging changes only the console", "statement": "Whatever compile-time logging setting is chosen (stream level, stream dump, outgoing and incoming message logs), any sequence of calls that is defined in the logging build leaves all objects as the build without logging does and makes the same callbacks, consumer calls and transmissions in the same order; the only difference is additional console output. A setting that enables no logging section behaves exactly like the template setting.", "quantifier": "every logging setting, every sequence of operations, every state", "why_tests_cant": "the tests are built with one setting; all settings x all histories", "anchors": ["lib/RR32Can/_RR32Can_config.h", "lib/RR32Can/Station.cpp", "lib/RR32CanEngineDb/util/ConfigDataStreamParser.cpp", "lib/RR32CanEngineDb/LocoConsumer.cpp", "lib/RR32CanEngineDb/LocoListConsumer.cpp"]}
{"id": "C66", "title": "When logging introduces undefined behaviour", "statement": "From initialised objects and with valid arguments, an operation of a logging build has undefined behaviour exactly if it has without logging, or the setting prints config lines (stream level 2 or more) and the operation makes a parser hand one of the library's consumers a line whose section or key has 11 characters or whose value has 26: such a text has no terminating NUL and is printed as a string. So logging is not harmless: there are streams that are received correctly without logging and read out of bounds with it.", "quantifier": "every logging setting, every initialised state, every operation and history with valid arguments", "why_tests_cant": "all histories and lines; the boundary length is not tested", "anchors": ["lib/RR32Can/_RR32Can_config.h", "lib/RR32CanEngineDb/LocoConsumer.cpp: consumeConfigData", "lib/RR32CanEngineDb/LocoListConsumer.cpp: consumeConfigData", "lib/RR32CanEngineDb/util/ConfigDataStreamParser.cpp: addMessage"]}
{"id": "C67", "title": "On a bus every frame is handled once and in order, and callbacks are told exactly that", "statement": "Several stations share a bus that hands every frame to all stations but its sender. Whatever the applications call (except begin and the handlers of received frames), whatever foreign devices send and however handling is scheduled: the frames of others on the bus are, for each station, exactly those it has handled followed by those waiting, and its system, engine and accessory callbacks have been called exactly as the handled frames say, in bus order. So there is no echo, no loss, no duplication and no spontaneous notification.", "quantifier": "every number of stations, every schedule of calls, foreign frames and deliveries", "why_tests_cant": "all interleavings of several stations", "anchors": ["lib/RR32Can/Station.cpp: HandlePacket and all sending operations", "lib/RR32Can/Station.h"]}
{"id": "C68", "title": "Commands reach every other station, in one common order", "statement": "If stations send commands (stop, go, emergency stop, velocity, direction, function, accessory) under any schedule, no undefined behaviour occurs, no library object changes and each station has been told a prefix of the commands of the others, in the order of sending; every schedule can be completed, and then every station has been told all commands of all others in the same order.", "quantifier": "every number of stations, every schedule of commands and deliveries, every argument", "why_tests_cant": "all interleavings", "anchors": ["lib/RR32Can/Station.cpp: Send*, HandlePacket"]}
{"id": "C69", "title": "Other traffic does not disturb a download", "statement": "After any calls, handling a sequence of frames in which the frames of a config stream are mixed with any other frames changes all objects and notifies consumers exactly as handling the frames of the stream alone; the other frames are reported to their callbacks. In particular an engine download (C50) succeeds among other traffic.", "quantifier": "every state, history of calls and sequence of frames of at most 8 bytes", "why_tests_cant": "all interleavings of stream and traffic", "anchors": ["lib/RR32Can/Station.cpp: HandlePacket/HandleConfigDataStream", "lib/RR32CanEngineDb/util/ConfigDataStreamParser.cpp"]}
{"id": "C70", "title": "Answers to config requests are not addressed", "statement": "How a station handles the frames of a stream does not depend on their identifiers; so an answer is taken by every station that waits for one, whoever asked. That a completed engine request has been answered does not hold: if two stations ask at the same time, the list of engines sent for one marks the engine requested by the other as fully known.", "quantifier": "every state and stream; existence of a schedule", "why_tests_cant": "needs two stations and a schedule", "anchors": ["lib/RR32Can/Station.cpp: HandlePacket/HandleConfigDataStream", "lib/RR32CanEngineDb/LocoConsumer.cpp: setStreamComplete"]}
{"id": "C71", "title": "Over any history every stream ends at most once, and consumers are called only for streams", "statement": "Whatever is called on any number of stations, parsers and consumers: the end notifications (complete or aborted) given to consumers so far plus the streams still open are at most the streams that were open at the beginning plus the streams started since, and the user's end callbacks are called at most once per end notification. While no stream is open and none is started, no consumer and no end callback is called at all.", "quantifier": "every sequence of operations from every state", "why_tests_cant": "all histories over several stations and parsers", "anchors": ["lib/RR32CanEngineDb/util/ConfigDataStreamParser.h: startStream/reset", "lib/RR32CanEngineDb/util/ConfigDataStreamParser.cpp: addMessage", "lib/RR32CanEngineDb/LocoConsumer.cpp: setStreamComplete/setStreamAborted", "lib/RR32CanEngineDb/LocoListConsumer.cpp: setStreamComplete/setStreamAborted", "lib/RR32Can/Station.cpp"]}
{"id": "C72", "title": "Lost frames are never reported as a complete download, and cost the next one", "statement": "If any data frames of a stream are lost, no end is reported while the rest arrives; the next frame of another length (such as the header of the next stream) aborts the download once, and that header and everything after it is ignored. If the header is lost, the first data frame aborts the download.", "quantifier": "every stream, every set of lost frames, every later traffic, every parser state", "why_tests_cant": "all loss patterns", "anchors": ["lib/RR32CanEngineDb/util/ConfigDataStreamParser.cpp: addMessage", "lib/RR32CanEngineDb/util/ConfigDataStreamParser.h: reset"]}
{"id": "C73", "title": "A doubled data frame", "statement": "If a data frame arrives twice, the stream ends with its last-but-one frame; it is reported complete exactly if the bytes received by then differ from the bytes sent by a multiple of the checksum polynomial, and aborted otherwise; doubling the last frame is harmless. That doubling is always noticed is false.", "quantifier": "every stream, position and parser state", "why_tests_cant": "all streams and positions", "anchors": ["lib/RR32CanEngineDb/util/ConfigDataStreamParser.cpp: addMessage", "lib/RR32CanEngineDb/util/Crc.cpp"]}
{"id": "C74", "title": "Two neighbouring data frames in the wrong order", "statement": "A stream in which two neighbouring data frames are exchanged is reported complete exactly if the two frames differ by a multiple of the checksum polynomial divided by x+1, wherever in the stream they are, and aborted otherwise; in particular an exchange is noticed if they differ within 15 neighbouring bits. That it is always noticed is false.", "quantifier": "every stream, position and parser state", "why_tests_cant": "2^128 pairs of frames at every position", "anchors": ["lib/RR32CanEngineDb/util/ConfigDataStreamParser.cpp: addMessage", "lib/RR32CanEngineDb/util/Crc.cpp"]}
{"id": "C75", "title": "Numbers on the console", "statement": "Every number printed is its numeral: decimal with a minus sign for negative numbers (so different numbers never look the same), or hexadecimal with the given minimal width, the prefix 0x (none for zero) and filled with zeros or blanks; a 32-bit number printed in hexadecimal and sent back as config text is read as the same number. Addresses are printed as signed numbers, so those from 2^31 on do not read back.", "quantifier": "every number and width", "why_tests_cant": "2^32 values and every width", "anchors": ["lib/RR32Can/Locomotive.cpp: print", "lib/RR32Can/messages/TurnoutPacket.cpp: printAll", "lib/RR32Can/messages/Identifier.cpp: printAll", "lib/RR32Can/messages/Data.cpp"]}
{"id": "C76", "title": "The console text of every received frame", "statement": "The text printed while a frame is handled is determined by its command and payload alone, as given by a table: system commands by name, accessory packets with address, human address, position and power, debug text verbatim, unknown commands as a dump of command and payload, config data nobody waits for as text, and nothing for speed, direction, function, ping and config requests.", "quantifier": "every frame, every state of station and callbacks", "why_tests_cant": "all commands x payloads x states; tests do not look at the console", "anchors": ["lib/RR32Can/Station.cpp: HandlePacket and handlers", "lib/RR32Can/messages/TurnoutPacket.cpp: printAll", "lib/RR32Can/messages/Data.h: printAsHex/printAsText"]}
{"id": "C77", "title": "Printing engines and engine lists", "statement": "Printing an engine shows its name, and uid, address, velocity, direction, functions and protocol if it is fully known; it is defined exactly if the texts to be shown contain a NUL. Printing a list shows the count and every entry, and changes nothing.", "quantifier": "every engine and table", "why_tests_cant": "all engines", "anchors": ["lib/RR32Can/Locomotive.cpp: print", "lib/RR32CanEngineDb/LocoListConsumer.cpp: printAll"]}
{"id": "C78", "title": "The parser's complaints", "statement": "While a parser handles a config frame it prints one of its five messages, determined by its state and the frame's length, exactly if it does not accept the frame; it prints nothing for accepted frames (texts of the library's consumers aside, see C50-C52).", "quantifier": "every parser state, frame and consumer", "why_tests_cant": "all states x lengths", "anchors": ["lib/RR32CanEngineDb/util/ConfigDataStreamParser.cpp: addMessage"]}
{"id": "C79", "title": "All other calls are silent", "statement": "No call other than the handlers of received frames and packets, the parser's addMessage and printAll prints anything, in any state; neither does any sequence of such calls.", "quantifier": "every state and sequence of calls", "why_tests_cant": "all histories", "anchors": ["lib/RR32Can/Station.cpp", "lib/RR32CanEngineDb/*"]}
{"id": "C80", "title": "Commands and subcommands cannot be confused", "statement": "Every command and system subcommand enumerator has its documented code; stored in any identifier or payload it is read back as itself and as no other enumerator.", "quantifier": "all pairs of enumerators, identifiers and payloads", "why_tests_cant": "all 2^32 identifiers and all payloads", "anchors": ["lib/RR32Can/Constants.h: Command", "lib/RR32Can/Constants.h: SystemSubcommand", "lib/RR32Can/messages/Identifier.h", "lib/RR32Can/messages/SystemMessage.h"]}
{"id": "C81", "title": "Address ranges do not overlap", "statement": "The ten documented address ranges are pairwise disjoint and have their documented sizes; selecting a protocol puts any turnout or locomotive id inside that protocol's range at the id's own place (modulo 1024); two such ids are equal exactly if range and place are; no turnout id is a locomotive id.", "quantifier": "all ids and protocols", "why_tests_cant": "all pairs of ids", "anchors": ["lib/RR32Can/Constants.h", "lib/RR32Can/types/TurnoutTypes.h", "lib/RR32Can/types/LocomotiveTypes.h"]}
{"id": "C82", "title": "Engine objects remember exactly the last values set", "statement": "After reset() or setName() in any program state, followed by any sequence of calls on the engine object, every query (name, isFree, isNameKnown, isNameOnlyKnown, isFullDetailsKnown, uid, masked uid, velocity, direction, address, all 32 functions, protocol text) answers what the calls say: a setter changes its attribute only, naming clears all others, a conditional naming with the same name changes nothing.", "quantifier": "every program state and call history", "why_tests_cant": "unbounded histories over 32 independent functions and arbitrary texts", "anchors": ["lib/RR32Can/Locomotive.h", "lib/RR32Can/Locomotive.cpp"]}
{"id": "C83", "title": "Every value text is read as one definite number", "statement": "Every value text has exactly one reading as a hexadecimal number (uid and address lines) and as a decimal number (engine counts): leading white space, an optional sign, an optional 0x, the longest run of digits, anything after it ignored. The engine's uid and address become that number, saturated to the platform's long and negated if signed, modulo 2^32; counts likewise. Platforms with 32 and 64 bit long agree on the uid exactly for the numbers given in the theorem (every number of 32 bits among them), not for all.", "quantifier": "every text, every width of long", "why_tests_cant": "arbitrary texts, overflow and malformed numbers", "anchors": ["lib/RR32CanEngineDb/LocoConsumer.cpp: LocoConsumer::consumeConfigData", "lib/RR32CanEngineDb/LocoListConsumer.cpp: LocoListConsumer::consumeConfigData"]}
{"id": "C84", "title": "The log of outgoing commands is exact", "statement": "In every logging build a turnout command prints exactly one line before its frame is sent, if outgoing logging is on: the uid without bits 12 and 13 in decimal, RED or GREEN, (ON) or (OFF). That number is the address for MM2 and MFX but 2048 more for DCC and SX. A dropped engine request prints why it was dropped (no name, or busy); an accepted one prints nothing.", "quantifier": "every logging setting, station, address, protocol, direction and power, every state of the requested engine", "why_tests_cant": "the text depends on every bit of the address and on the whole configuration space", "anchors": ["lib/RR32Can/Station.cpp: Station::SendAccessoryPacket", "lib/RR32Can/Station.cpp: Station::RequestEngine"]}
{"id": "C85", "title": "The log of received frames is exact", "statement": "In every logging build handlePacket prints exactly: the identifier line if raw logging is on, then the text of the template's build; for config data requests and config data the additional texts of the highest level; then what the handler or the parser prints.", "quantifier": "every logging setting, identifier and payload, every state of the station", "why_tests_cant": "arbitrary frames times arbitrary settings", "anchors": ["lib/RR32Can/Station.cpp: Station::HandlePacket", "lib/RR32Can/Station.cpp: Station::HandleConfigDataStream"]}
{"id": "C86", "title": "The log of a download is exact", "statement": "For every logging setting, every consumer and every number of frames, the console text of a whole download is determined: the header line with length and checksums, for each data frame its content, the lines handed to the consumer as they complete, the bytes remaining and the running checksum of the bytes received so far, and at the end either the completion line with what the consumer prints or the checksum error with both checksums. Rejected frames print the same text in every build.", "quantifier": "every setting, consumer, document and stream length", "why_tests_cant": "unbounded streams, with a running checksum over everything received", "anchors": ["lib/RR32CanEngineDb/util/ConfigDataStreamParser.cpp: ConfigDataStreamParser::addMessage", "lib/RR32CanEngineDb/LocoConsumer.cpp: LocoConsumer::consumeConfigData", "lib/RR32CanEngineDb/LocoListConsumer.cpp: LocoListConsumer::consumeConfigData"]}
{"id": "C87", "title": "Which object points to which after any call", "statement": "After every call on every station, parser, consumer or engine list, the pointers held by the objects (station to its callbacks and parser, parser to its consumer, consumer to its engine and end callback) are exactly those given by a table of the calls; a pointer always was the argument of some earlier call or was there at the beginning. Receiving the last frame of a stream releases nothing: station and parser keep their pointers after completion.", "quantifier": "every operation in every state, every sequence of operations", "why_tests_cant": "unbounded histories over any number of objects", "anchors": ["lib/RR32Can/Station.h: Station::begin", "lib/RR32Can/Station.cpp: Station::RequestEngine/RequestEngineList/FinishCurrentConfigRequest", "lib/RR32CanEngineDb/util/ConfigDataStreamParser.h: startStream", "lib/RR32CanEngineDb/LocoConsumer.h: setEngine"]}
{"id": "C88", "title": "Objects nobody points to are never touched", "statement": "If no object outside a set points into it and the program names no object of the set in its calls, the set is never read, changed or called, whatever else happens: the run is defined, and has the same effects outside, even if the objects of the set have been destroyed. So an application may destroy exactly the objects that are no longer referred to.", "quantifier": "every set of objects, state and sequence of operations", "why_tests_cant": "all sets of objects x histories", "anchors": ["lib/RR32Can/Station.cpp", "lib/RR32CanEngineDb/util/ConfigDataStreamParser.cpp", "lib/RR32CanEngineDb/util/TextParser.cpp", "lib/RR32CanEngineDb/LocoConsumer.cpp"]}
{"id": "C89", "title": "When the objects of a download may be destroyed", "statement": "Once a station has called FinishCurrentConfigRequest, all objects (parser, consumer, engine, end callback) to which at most that station and its parser referred may be destroyed: as long as no call names them, everything that follows has the same outcome, calls and effects as if they still existed. Destroying the parser when the download is reported complete is not safe (the next config data frame is undefined behaviour), nor is destroying the consumer before finishing the request.", "quantifier": "every state, set of objects and later sequence of operations; existence of executions for the negative claims", "why_tests_cant": "a use after free shows only for particular later traffic", "anchors": ["lib/RR32Can/Station.cpp: FinishCurrentConfigRequest/HandleConfigDataStream", "lib/RR32Can/Station.h: FinishCurrentConfigRequest"]}
{"id": "C90", "title": "Separate installations do not influence each other", "statement": "If two sets of objects do not point to each other and no call names objects of both, any interleaving of the calls on them leaves each set as its own calls alone would and causes the same callbacks on it in the same order, and the interleaving is defined if both are. There is no hidden shared state.", "quantifier": "every pair of separate sets, every interleaving of every two call sequences", "why_tests_cant": "all interleavings", "anchors": ["lib/RR32Can/Station.h", "lib/RR32Can/RR32Can.h", "lib/RR32CanEngineDb/util/ConfigDataStreamParser.h"]}
{"id": "C91", "title": "Every history can be recovered from", "statement": "No history can make the library unusable. From initialised objects, after any valid calls and frames that report no excessive line (C57), FinishCurrentConfigRequest on the station followed by reset of the parser is defined, changes no engine and reports no completion. A download with that station, parser and engine consumer then fills in uid, address and protocol exactly as the answer says, marks the engine fully known and is reported complete once. With a list consumer that is also reset, the table of n entries then holds the first n names and the count is the last one given. If the station uses that parser, finishing alone is enough. In general neither call may be left out: without finishing, the consumer is lost; without the reset, the rest of a broken line can corrupt the next download although completion is reported.", "quantifier": "every initial set of initialised objects, every valid history, every answer; existence of histories for the negative claims", "why_tests_cant": "recovery has to work from every reachable state of parser, station and consumers", "anchors": ["lib/RR32Can/Station.cpp: FinishCurrentConfigRequest/RequestEngine/RequestEngineList", "lib/RR32CanEngineDb/util/ConfigDataStreamParser.h: reset", "lib/RR32CanEngineDb/util/TextParser.h: reset", "lib/RR32CanEngineDb/LocoListConsumer.cpp: reset"]}
{"id": "C92", "title": "Consumers and engines are what their history makes of them", "statement": "After any history of calls that is defined, the state of every consumer and engine object is obtained from its initial state by going through the user's calls and the notifications in the order they happened: a reported line changes one attribute of the engine the notified consumer fills, one table entry or the count of the notified list; completion marks that engine as fully known or that list as complete; abortion empties that list; a setter changes its object. Nothing else ever changes them: no other call, frame or notification, and no notification of another consumer.", "quantifier": "every initial state, every sequence of calls and frames, every consumer and engine", "why_tests_cant": "the effect of a frame depends on the state of parser and consumers, which depends on the whole history", "anchors": ["lib/RR32Can/Locomotive.h", "lib/RR32CanEngineDb/LocoConsumer.cpp", "lib/RR32CanEngineDb/LocoListConsumer.cpp: consumeConfigData/reset/clear", "lib/RR32CanEngineDb/LocoListConsumer.h: setStreamComplete/setStreamAborted", "lib/RR32CanEngineDb/util/ConfigDataStreamParser.cpp: addMessage"]}
{"id": "C93", "title": "The answers of a list consumer", "statement": "After any history isStreamComplete() is true if the last of completion, abortion and reset() was a completion and false otherwise; it is an uninitialised read exactly until the first of them. getStreamOffset() is the offset last set, 0 after an abortion or reset. getNumEnginesKnownByMaster() is the last count reported (modulo 256), 0 after an abortion or reset. The table holds the names reported since it was last emptied, in order, in the entries that were free. A true isStreamComplete() does not mean that no download is running: it keeps the previous answer until the next stream ends.", "quantifier": "every initial state, every sequence of calls and frames; existence of a history for the negative claim", "why_tests_cant": "the answer is a function of an unbounded history", "anchors": ["lib/RR32CanEngineDb/LocoListConsumer.h: isStreamComplete/getStreamOffset/setStreamOffset/getNumEnginesKnownByMaster/getEngineInfos", "lib/RR32CanEngineDb/LocoListConsumer.cpp"]}
{"id": "C94", "title": "The answers of an engine consumer", "statement": "getEngine() is the engine last set with setEngine(). isValid() is true exactly if an engine is set and it is marked as fully known; it is false if none is set or the engine is not fully known. An engine becomes fully known in a call if a consumer that fills it is told that a stream is complete, or by setAvailability; it stays so until it is renamed, reset or marked otherwise. So a consumer becomes valid only by a completed download into its engine, by being given a fully known engine, or by setAvailability on it. A valid consumer may show a mixture: during a second download of an engine isValid() stays true while the uid is already the new one and the address still the old one.", "quantifier": "every state, every call, every sequence of calls and frames; existence of a history for the negative claim", "why_tests_cant": "completion arrives through frames whose meaning depends on the history; several consumers may fill one engine", "anchors": ["lib/RR32CanEngineDb/LocoConsumer.h: getEngine/setEngine/isValid", "lib/RR32CanEngineDb/LocoConsumer.cpp: setStreamComplete", "lib/RR32Can/Locomotive.h: setAvailability/isFullDetailsKnown/setName/reset"]}
{"id": "C95", "title": "One call does a bounded amount of work", "statement": "In every reachable state a call makes at most a fixed number of calls to other objects and sends at most a fixed number of frames, given by a table for each API call and never more than 16: three frames for an engine request, two for a list request, sixteen for all functions, one for every other sending call, none for the rest. A received frame is never answered, causes at most four reported lines, at most one end-of-stream notification and at most seven calls in all; no other call reports lines; an engine request never ends a stream. A history costs at most the sum of its calls. The bounds are attained.", "quantifier": "every reachable state, every call, every frame content, every sequence of calls; existence of states for the attained bounds", "why_tests_cant": "the number of lines a frame completes depends on its content and on the parser state left by all previous frames", "anchors": ["lib/RR32Can/Station.cpp", "lib/RR32CanEngineDb/util/ConfigDataStreamParser.cpp: addMessage", "lib/RR32CanEngineDb/util/TextParser.cpp: addText"]}
{"id": "C96", "title": "Reading a master's list of names in pages", "statement": "For every master that answers each name request with a proper stream holding the names asked for and the number of its engines, asking for names two at a time until the reported number is reached yields exactly the first max(2, n rounded up to even) names of the catalogue in order, n being the catalogue's size modulo 256; so precisely the catalogues of up to 255 engines are read completely. No engine object changes and the objects can be used again.", "quantifier": "every catalogue of fewer than 2^31 engines, every master serving it (any framing, gaps, document layout, further sections), every sound state of the program, any station, parser and list consumer with at least two entries", "why_tests_cant": "a whole conversation of up to 128 requests and answers with the state each leaves behind; the failing sizes start at 256", "anchors": ["lib/RR32Can/Station.cpp: RequestEngineList", "lib/RR32CanEngineDb/LocoListConsumer.cpp: consumeConfigData", "lib/RR32CanEngineDb/util/ConfigDataStreamParser.cpp: addMessage", "lib/RR32CanEngineDb/util/TextParser.cpp: addText"]}
{"id": "C97", "title": "Reading one engine from a master", "statement": "For every master that describes the engine of a requested name, setting an engine object's name and requesting it stores the unique id, address and protocol of the engine whose name is the first 16 characters of the name given, marks the object fully known under the first 32 characters of that name and changes no other engine. For names of up to 16 characters, all different, that is the engine's own entry; for longer names it can be another engine's.", "quantifier": "every catalogue, every master serving it, every name without NUL, every sound state of the program", "why_tests_cant": "the request is a function of the name split into two frames, the answer any document in any framing; long names sharing a beginning are needed to see the failure", "anchors": ["lib/RR32Can/Station.cpp: RequestEngine", "lib/RR32CanEngineDb/LocoConsumer.cpp: consumeConfigData, setStreamComplete", "lib/RR32Can/Locomotive.h: setName"]}
{"id": "C98", "title": "Copying a master's whole catalogue", "statement": "For every catalogue of up to 255 engines with different names of at most 16 characters and every master serving it, reading all names and then each engine yields the catalogue itself - every name, unique id, address and protocol in order - and only the engine object used for reading is changed. With two engines of the same name the second is lost.", "quantifier": "every such catalogue, every master serving it, every sound state of the program, any station, parser, list consumer, engine consumer and engine", "why_tests_cant": "an end-to-end conversation of hundreds of requests through sending, framing, checksums, parsing and storing", "anchors": ["lib/RR32Can/Station.cpp: RequestEngine, RequestEngineList, HandlePacket", "lib/RR32CanEngineDb/LocoListConsumer.cpp", "lib/RR32CanEngineDb/LocoConsumer.cpp", "lib/RR32CanEngineDb/util/ConfigDataStreamParser.cpp"]}
{"id": "C99", "title": "Delivering frames from inside the transmit callback", "statement": "A transmit callback that hands each frame to the listening stations at once, from inside the call, has exactly the same effect as one that keeps the frames until the call of the library has returned: the same objects, the same callbacks, frames and console output in the same order. Commands on such a bus never go wrong, change no object and have been heard by every listening station when the call returns.", "quantifier": "every sequence of public calls, every number of stations, every choice of who listens to whom (senders themselves included), every state, every history", "why_tests_cant": "the transmit callback re-enters the library in the middle of an operation; which operations touch objects after transmitting has to be known for every call and every state", "anchors": ["lib/RR32Can/Station.cpp: SendPacket, SendSystemStop, RequestEngineList, RequestEngine, RequestEngineAllFunctions, HandlePacket", "lib/RR32Can/callback/TxCbk.h: SendPacket"]}
{"id": "C100", "title": "Repeaters on a direct bus never return", "statement": "If the transmit callbacks deliver at once and every station answers every accessory packet by sending an accessory packet, the first packet starts a recursion that ends at no depth of the call stack: with n nested calls allowed, (n+1)/2 packets are sent and the stack is exhausted. With direct delivery an answer can reach a station before the question.", "quantifier": "every depth of the call stack, every number of stations at least one of which hears each, every packet sent in answer, every state", "why_tests_cant": "unbounded recursion: a test sees only that one stack was exhausted, or that one was large enough", "anchors": ["lib/RR32Can/Station.cpp: HandleAccessoryPacket, SendAccessoryPacket, HandlePacket", "lib/RR32Can/callback/AccessoryCbk.h"]}
{"id": "C101", "title": "Parsers depend only on the messages addressed to them", "statement": "For every history of calls and arriving frames, on any stations, parsers and consumers in any order, a config-data parser behaves as one small machine: idle, waiting for a header, receiving (bytes announced, checksum announced, bytes received), finished. Consumers are told exactly what that machine says (the lines of the text as they are completed, completion, abortion), right after the message concerned and nothing else; getStreamState() of a parser is a function of the messages addressed to that parser alone.", "quantifier": "every sequence of public calls and valid frames, every number of stations and parsers, several stations feeding one parser, user-defined parser objects among them, every state reachable from new parsers", "why_tests_cant": "unbounded histories and interleavings of several stations, parsers and consumers; frames of any length in any phase", "anchors": ["lib/RR32CanEngineDb/util/ConfigDataStreamParser.cpp: startStream, addMessage, reset", "lib/RR32Can/Station.cpp: HandleConfigDataStream, RequestEngine, RequestEngineList, AbortCurrentConfigRequest", "lib/RR32Can/callback/ConfigDataCbk.h: getStreamState"]}
{"id": "C102", "title": "The parser withstands consumers that change the buffers they are handed", "statement": "consumeConfigData hands section, key and value to the consumer as modifiable buffers. Whatever operations of the buffer class the consumer performs on them and on buffers of its own, chosen freely from all it has been told, every history of addText, reset and setConsumer calls is free of undefined behaviour, and the parser's state and all its reports are those of a character automaton that takes over what the consumer left. reset() makes the parser as new.", "quantifier": "every consumer, every sequence of calls and texts, every sequence of buffer operations in every report, any buffers of the consumer's own", "why_tests_cant": "all consumers and all histories; what a consumer does to a buffer in one report acts on later ones", "anchors": ["lib/RR32CanEngineDb/util/TextParser.cpp: addText, processBuffer, findToken, reportParseError, reset", "lib/RR32CanEngineDb/util/TextParser.h: TextParserConsumer", "lib/RR32CanEngineDb/util/BufferManager.h"]}
{"id": "C103", "title": "Harmless changes are invisible", "statement": "A consumer that leaves the section as it is and an empty value empty - while doing what it likes with the key, with the value of a line that has one, and so on - receives exactly the reports it would receive if it changed nothing, in every history. Neither restriction can be dropped.", "quantifier": "every consumer of that kind, every sequence of calls and texts", "why_tests_cant": "all consumers and all histories", "anchors": ["lib/RR32CanEngineDb/util/TextParser.cpp: processBuffer, reportParseError", "lib/RR32CanEngineDb/util/TextParser.h: TextParserConsumer"]}
{"id": "C104", "title": "What a consumer's change does to the rest of a document", "statement": "For every document, however it is cut into texts, and every consumer: a changed section name holds until the next section line, what the consumer leaves in the value of a line without value appears in front of the next value, and every other change is forgotten. The parser enters the error state exactly if a value becomes longer than 26 characters that way.", "quantifier": "every document within the length limits, every cutting into texts of at most 30 characters, every consumer", "why_tests_cant": "unbounded documents, all cuttings and all consumers", "anchors": ["lib/RR32CanEngineDb/util/TextParser.cpp: processBuffer", "lib/RR32CanEngineDb/util/TextParser.h: TextParserConsumer"]}
{"id": "C105", "title": "A disturbed page of names is recognised", "statement": "Whatever frames of a master's answer to a request for names get lost - any of them, the length announcement included - reading continues without undefined behaviour, no engine changes, everything can be used again, and afterwards isStreamComplete() of the list consumer is true exactly if no frame was lost; in that case the table holds the names asked for and getNumEngines() the size of the catalogue modulo 256.", "quantifier": "every catalogue, every master serving it whose answers stay within the consumers' line limits whatever is lost of them, every set of lost frames, every page, every sound state of the program", "why_tests_cant": "all subsets of the frames of answers of unbounded length; lost frames glue unrelated lines together", "anchors": ["lib/RR32Can/Station.cpp: RequestEngineList, HandleConfigDataStream", "lib/RR32CanEngineDb/LocoListConsumer.cpp: consumeConfigData", "lib/RR32CanEngineDb/LocoListConsumer.h: isStreamComplete, reset", "lib/RR32CanEngineDb/util/ConfigDataStreamParser.cpp: addMessage"]}
{"id": "C106", "title": "A disturbed engine description is recognised", "statement": "Whatever frames of a master's answer to a request for an engine get lost, there is no undefined behaviour, no other engine changes, and afterwards isValid() of the engine consumer is true exactly if no frame was lost. Then the engine object shows the engine's name, unique id, address and protocol; otherwise resetting the engine object makes everything usable again.", "quantifier": "every catalogue, every such master, every set of lost frames, every requested name in the catalogue, every sound state of the program", "why_tests_cant": "all subsets of the frames of answers of unbounded length; values assembled from pieces of different lines", "anchors": ["lib/RR32Can/Station.cpp: RequestEngine, HandleConfigDataStream", "lib/RR32CanEngineDb/LocoConsumer.cpp: consumeConfigData, setStreamComplete", "lib/RR32CanEngineDb/LocoConsumer.h: isValid", "lib/RR32Can/Locomotive.h: reset", "lib/RR32CanEngineDb/util/ConfigDataStreamParser.cpp: addMessage"]}
{"id": "C107", "title": "Copying a catalogue over a bus that loses frames", "statement": "A program that repeats every request until its consumer says that the answer is complete either obtains the catalogue itself, every entry in order, or runs out of attempts; it never ends with a wrong or partial copy. It runs out of attempts only if fewer of them were undisturbed than the catalogue needs requests, so enough undisturbed attempts suffice whatever is lost in the others. If lost frames can make a value of exactly 26 characters, losing frames of a correct answer can be undefined behaviour.", "quantifier": "every catalogue of up to 255 engines with different names of at most 16 characters, every such master, every sequence of attempts with every set of lost frames in each, every sound state of the program", "why_tests_cant": "an unbounded conversation under every pattern of losses", "anchors": ["lib/RR32Can/Station.cpp: RequestEngine, RequestEngineList, HandlePacket", "lib/RR32CanEngineDb/LocoListConsumer.cpp", "lib/RR32CanEngineDb/LocoConsumer.cpp", "lib/RR32CanEngineDb/util/ConfigDataStreamParser.cpp"]}
{"id": "C108", "title": "Buffers sharing an array", "statement": "Any number of buffers whose memory has no byte in common, in the same or in different arrays, behave under every sequence of operations like independent bounded queues (C40): no undefined behaviour, the contents and returned numbers of the queues, and not a single byte outside the buffers changes. With a common byte this is false.", "quantifier": "every memory, every arrangement of buffers without common bytes, every sequence of push, move, pop, erase, set and at operations on them", "why_tests_cant": "all arrangements in memory and all interleaved operation sequences; a stray write is only visible if a test looks at exactly that byte", "anchors": ["lib/RR32CanEngineDb/util/BufferManager.h", "lib/RR32CanEngineDb/util/BufferManager.cpp: erase, pop_front, push_back, set, move_back"]}
{"id": "C109", "title": "Sub-buffers are live views", "statement": "A sub-buffer shows at every later time the bytes its owner has at that place then, also behind the owner's content, where there are zeros. Pushing a part of a buffer onto another or onto itself appends the part; it is undefined behaviour exactly if a buffer pushes a part of itself that overlaps the place behind its content, which cannot happen for a part of the content.", "quantifier": "every memory, every arrangement, every history of operations including pushes of parts, every start and end offset", "why_tests_cant": "offsets range over all positions relative to content and capacity, and views outlive arbitrary later histories", "anchors": ["lib/RR32CanEngineDb/util/BufferManager.cpp: subBufferManager, push_back(const BufferManager&)", "lib/RR32CanEngineDb/util/BufferManager.h: subBufferManager"]}
{"id": "C110", "title": "Writing through a sub-buffer", "statement": "BufferManager.h warns that modifying a sub-buffer has surprising results. They are exactly these: erase() and pop_front() on the sub-buffer clear the owner's memory from the end of what remains of the sub-buffer up to the owner's capacity, at() assigns the owner's byte, push_back overwrites the owner's bytes behind the sub-buffer up to the owner's capacity; the owner's length() does not change, and no byte before the sub-buffer does. So the owner can end up with NULs in its content or with remains behind it.", "quantifier": "every memory, every buffer, every start and end offset, every operation and argument", "why_tests_cant": "all combinations of offsets, lengths and contents", "anchors": ["lib/RR32CanEngineDb/util/BufferManager.h: subBufferManager, at, push_back", "lib/RR32CanEngineDb/util/BufferManager.cpp: subBufferManager, erase, pop_front, push_back"]}
{"id": "C111", "title": "Setting a buffer from memory", "statement": "set(p) with a string that has no byte in common with the buffer stores the string, cut to the capacity less one, and changes no other byte. With a pointer into the buffer itself (for instance b.set(b.data())) it is undefined behaviour, except for a pointer to the buffer's last byte, which gives the empty string. With a string that starts before the buffer in the same array and runs into it, it is undefined behaviour exactly if the distance is less than the capacity less one.", "quantifier": "every memory, every buffer, every pointer and string", "why_tests_cant": "pointers at all distances from the buffer and strings of all lengths", "anchors": ["lib/RR32CanEngineDb/util/BufferManager.cpp: set"]}
{"id": "C112", "title": "The text parser needs no copies", "statement": "addText() and reset(), which work with sub-buffers that share memory with the parser's buffers and with the text, give the same parser state and the same calls of the consumer as if every buffer and sub-buffer were a copy of its own, and change no other memory, provided the text is not in one of the parser's own arrays. If the text is one of the parser's own buffers, which consumers receive by reference, the result differs from that for a copy: the parser can feed itself until it reports an error.", "quantifier": "every memory, every state of the parser, every text in another array", "why_tests_cant": "all parser states and all texts; aliasing only shows for particular buffer contents", "anchors": ["lib/RR32CanEngineDb/util/TextParser.cpp: addText, processBuffer, findToken, reportParseError, reset", "lib/RR32CanEngineDb/util/BufferManager.cpp: subBufferManager, push_back"]}
{"id": "C113", "title": "Exactly which messages lead to undefined behaviour", "statement": "With initialised objects and valid arguments an operation is undefined behaviour exactly if it hands an 8-byte payload to a parser that makes a complete line of one of these kinds for the parser's consumer: for an engine consumer with an engine, a uid or address of 26 characters that is white space, a sign, 0x and hexadecimal digits to its end; for a list consumer, a name of 26 characters without NUL while a table entry is free, a count of 26 characters that is white space, a sign and digits to its end, or a section of 11 characters without NUL that is neither loknamen nor numloks; or if it ends a stream successfully (also an empty one) whose engine then has a protocol string of 8 characters, which is printed. It is always a read out of bounds. Otherwise the objects stay initialised. setProtocolString() may have been called with strings of any length.", "quantifier": "every width of long, every set of initialised objects, every operation with valid arguments", "why_tests_cant": "an over-read by one byte usually has no visible effect, and the exact condition ranges over all parser states and texts", "anchors": ["lib/RR32CanEngineDb/LocoConsumer.cpp: consumeConfigData", "lib/RR32CanEngineDb/LocoListConsumer.cpp: consumeConfigData", "lib/RR32CanEngineDb/util/ConfigDataStreamParser.cpp: addMessage", "lib/RR32Can/Locomotive.cpp: setProtocolString, print", "lib/RR32Can/Station.cpp: HandleConfigDataStream, HandlePacket"]}
{"id": "C114", "title": "Exactly which histories lead to undefined behaviour", "statement": "A history of operations with valid arguments on initialised objects is undefined behaviour exactly if one of its operations is, in the state that the operations before it lead to, by C113; otherwise the objects are initialised at the end.", "quantifier": "every width of long, every set of initialised objects, every history of operations", "why_tests_cant": "all histories of unbounded length", "anchors": ["lib/RR32CanEngineDb/LocoConsumer.cpp: consumeConfigData", "lib/RR32CanEngineDb/LocoListConsumer.cpp: consumeConfigData", "lib/RR32Can/Station.cpp: HandlePacket"]}
{"id": "C115", "title": "Every defined history can be recovered from", "statement": "C91 holds for every history that was defined, whatever lines were reported and whatever protocol strings were set: FinishCurrentConfigRequest on the station followed by reset of the parser is defined, changes no engine and reports no completion, and a following download of an engine or a list gives exactly what the answer says.", "quantifier": "every set of initialised objects, every defined history with valid arguments, every answer", "why_tests_cant": "all histories of unbounded length, including overlong lines and texts that happen to be harmless", "anchors": ["lib/RR32CanEngineDb/util/ConfigDataStreamParser.cpp: reset, startStream, addMessage", "lib/RR32Can/Station.cpp: FinishCurrentConfigRequest, RequestEngine, RequestEngineList", "lib/RR32CanEngineDb/LocoConsumer.cpp", "lib/RR32CanEngineDb/LocoListConsumer.cpp"]}
{"id": "C116", "title": "Strings that are inside the engine", "statement": "setName(), setNameConditional() and setProtocolString() use a string that is outside the engine, also the name or protocol string of another engine, by value. With a string inside the engine itself: setName() erases the engine before it reads the string, so the engine's own protocol string gives an engine with an empty name and no data, and its own name is undefined behaviour (overlapping strncpy), except from the last byte of the name field (which always is NUL) on, which gives an empty name and no data; setNameConditional() with the own name changes nothing and returns false if the engine is not free (and the pointer is to the beginning of the name, or the name is empty), and does as setName() otherwise; with the own protocol string it changes nothing if that is the name, is undefined behaviour if the protocol string is not ended and the name begins with it, and otherwise loses both; setProtocolString() with the own name copies its first eight characters, and with the own protocol string it is always undefined behaviour. In every case that is defined the name stays terminated.", "quantifier": "every set of engines, every engine, every string argument: outside the engines, or any position of the name or protocol string of any engine", "why_tests_cant": "aliasing arguments are rarely tested and overlapping copies usually seem to work; all positions, all names and all states of the engine", "anchors": ["lib/RR32Can/Locomotive.h: LocomotiveShortInfo::setName, setNameConditional, getName, Locomotive::setProtocolString, getProtocolString, reset"]}
{"id": "C117", "title": "SendPacket and the caller's frame", "statement": "SendPacket() transmits the caller's frame with the hash of the station and leaves the caller's frame equal to the one transmitted: nothing but the hash is changed. So frames can be sent again, any number of times and through any stations: each time what is transmitted is the frame as it was first built, with the hash of the station that sends it.", "quantifier": "every frame, every set of stations with transmit callbacks, every sequence of sends of any variables", "why_tests_cant": "the frame is an in-out parameter; histories of sends of unbounded length through several stations", "anchors": ["lib/RR32Can/Station.cpp: SendPacket", "lib/RR32Can/messages/Identifier.h: setHash"]}
{"id": "C118", "title": "Calling back from inside a line", "statement": "A user consumer that is handed a line while a data frame is processed may call back into the library. If it finishes the request of its station (or resets the parser), that line is the last it is handed, even if the frame completes more lines; it is told once that the stream was aborted, nobody is told of a complete stream, and the parser is left in the state of a completed stream, without a consumer. If it goes on to request the engine list through the same parser, for any list or user consumer (also itself), that consumer is told the stream is complete as soon as the frame has been dealt with, although no frame of its stream has arrived: the list consumer keeps the entries it had and counts as complete.", "quantifier": "every state in which a user consumer is receiving, every data frame that completes at least one line, passed on by a station or handed to the parser, every nesting depth, every offset and target consumer", "why_tests_cant": "what the text parser does after the callback depends on where in the frame the line ends; all parser states and all frames", "anchors": ["lib/RR32CanEngineDb/util/ConfigDataStreamParser.cpp: addMessage", "lib/RR32CanEngineDb/util/ConfigDataStreamParser.h: reset, startStream", "lib/RR32CanEngineDb/util/TextParser.cpp: addText, processBuffer, findToken", "lib/RR32Can/Station.cpp: FinishCurrentConfigRequest, RequestEngineList"]}
{"id": "C119", "title": "The arithmetic has a meaning", "statement": "Every arithmetic expression of the library, read by the integer rules of C++ (promotion to int, conversion to a common type, wrap-around of unsigned types, no meaning for signed overflow, shifts out of range and narrowing between braces), has a meaning on a platform whose int has 32 bits, for all values of its operands; only reading or changing an engine function numbered 32 or more has none. The value is the one the other properties describe: identifiers, payload fields, frames made by the helpers, addresses, function bits, checksum, buffer lengths and indices, bytes missing from a download. With an int of fewer than 26 or more than 32 bits the library has no meaning: below, the masks of the identifier cannot be computed; above, combining two addresses is a narrowing between braces.", "quantifier": "all identifiers, payloads, addresses, accumulators, bytes, buffers (also with a length above the capacity), function numbers; all widths of int from 16 bits on", "why_tests_cant": "undefined intermediate results are invisible in tests on one compiler; all operand values and all widths", "anchors": ["lib/RR32Can/messages/Identifier.h: Identifier", "lib/RR32Can/messages/Identifier.cpp: GetIdentifier", "lib/RR32Can/messages/Data.h: getLocid, setLocid", "lib/RR32Can/messages/S88Event.h: S88Event", "lib/RR32Can/util/utils.h: computeSenderHash", "lib/RR32Can/util/constexpr.h: LocoSpeed, Config_Data_Stream, limitToCANDataLength, DecoderBaseAddress", "lib/RR32Can/types/TurnoutTypes.h: MachineTurnoutAddress", "lib/RR32Can/types/LocomotiveTypes.h: MachineLocomotiveAddress", "lib/RR32Can/Locomotive.h: setFunction, getFunction, getUidMasked", "lib/RR32CanEngineDb/util/Crc.cpp: updateCrc", "lib/RR32CanEngineDb/util/BufferManager.h: limitIndex, capacity_remaining", "lib/RR32CanEngineDb/util/ConfigDataStreamParser.cpp: addMessage"]}
{"id": "C120", "title": "Hashes and UUIDs influence nothing but hashes", "statement": "The library never acts on a hash. Take two histories of calls that differ at most in the UUIDs given to begin() and in the hashes of the frames and identifiers passed in, with callbacks that may call back but do not look at hashes: either both are undefined in the same way, or they make the same calls on the user's objects, in the same order, with the same console output, and leave all objects in the same state, except for the hashes of the frames handed to the transmitter. Two UUIDs given to a station that can transmit behave alike for ever exactly if they agree in bits 0 to 6 and 11 to 15.", "quantifier": "all pairs of histories and interactive callbacks that differ only in UUIDs and hashes, all nesting depths, all pairs of UUIDs", "why_tests_cant": "relates two runs of unbounded length; a test compares single frames of single runs", "anchors": ["lib/RR32Can/Station.cpp: begin, SendPacket, HandlePacket, RequestEngine, RequestEngineList", "lib/RR32Can/Station.h: senderHash_", "lib/RR32Can/messages/Identifier.h: setHash, getCommand, isResponse", "lib/RR32Can/util/utils.h: computeSenderHash"]}
{"id": "C121", "title": "Whatever callbacks do, the library can be brought back to work", "statement": "Take initialised objects, any program of valid calls, and callbacks that themselves make any valid calls, at any point and to any depth, such that the program gets through and the library's consumers are handed no excessive line. Then there are still the same objects, all initialised, and finishing the station's request and resetting the parser reports no completion, changes no engine, and makes the next download work: the engine is filled in as described (or the list holds the first names sent) and its completion is reported exactly once. This holds even where callbacks have led the library to report an engine complete that was never described.", "quantifier": "all programs, all interactive callbacks, all nesting depths, all states they lead to, all descriptions and lists downloaded afterwards", "why_tests_cant": "quantifies over interactive programs of unbounded length and depth and then over a second, complete download", "anchors": ["lib/RR32Can/Station.cpp: FinishCurrentConfigRequest/RequestEngine/RequestEngineList", "lib/RR32CanEngineDb/util/ConfigDataStreamParser.h: reset/addMessage", "lib/RR32CanEngineDb/util/TextParser.h: reset", "lib/RR32CanEngineDb/LocoListConsumer.cpp: reset"]}
{"id": "C122", "title": "Frames whose length field may be anything", "statement": "The length field of a frame is a byte, CAN allows length codes up to 15, and the payload array has 9 bytes. Handling a frame of any length is undefined exactly in the cases of C113 or if the length exceeds 9 and the library prints the bytes: debug text, a command it does not know, or config data while no stream is being processed. Every other frame of any length is handled and leaves all objects initialised; in particular a parser handed an over-long payload directly always copes. The same holds for whole histories.", "quantifier": "all initialised worlds, all frames with any length byte, all histories of operations with valid arguments and such frames", "why_tests_cant": "the boundary depends on the command, the length and the state of the parser after an arbitrary history", "anchors": ["lib/RR32Can/messages/Data.cpp: printAsHex/printAsText", "lib/RR32Can/Station.cpp: HandlePacket/HandleConfigDataStream", "lib/RR32CanEngineDb/util/ConfigDataStreamParser.h: addMessage"]}
{"id": "C123", "title": "Objects that neither program nor callbacks use are never touched, at any depth of re-entrance", "statement": "Let no other object refer to a set of objects, and let neither the program nor its callbacks, which may call the library in turn, name or look at them. Then the library reads, changes and calls none of them: whatever they contain, or if they have been destroyed, the program ends in the same way, defined or not, after the same calls and with the same effect on all other objects. In particular a program and callbacks that use one of two separate installations behave the same whatever the other is doing, and leave it as it is.", "quantifier": "all sets of objects nobody else refers to, all programs and callbacks that do not use them, all worlds, all depths of re-entrance", "why_tests_cant": "independence compares every pair of executions that differ in the untouched objects, with arbitrary user code called from inside the library", "anchors": ["lib/RR32Can/Station.cpp: all operations", "lib/RR32CanEngineDb/util/ConfigDataStreamParser.h: addMessage/reset", "lib/RR32CanEngineDb/LocoConsumer.cpp: setStreamComplete", "lib/RR32CanEngineDb/LocoListConsumer.h: setStreamAborted"]}
{"id": "C124", "title": "The library uses only the objects it was given, whatever callbacks do", "statement": "If the pointers of a set of objects do not lead out of it and all calls, of the program and of its callbacks at any depth, name objects of the set only, then the library calls, changes and comes to point to objects of the set only, whatever user code looks at and even in runs that end in undefined behaviour. In particular every pointer the library holds was there before or leads to an object some call has named.", "quantifier": "all sets of objects closed under pointers, all programs and callbacks, all worlds, all depths of re-entrance", "why_tests_cant": "the claim is about every pointer and every call in every execution, with arbitrary user code called from inside the library", "anchors": ["lib/RR32Can/Station.cpp: all operations", "lib/RR32CanEngineDb/util/ConfigDataStreamParser.h: setConsumer/reset", "lib/RR32CanEngineDb/LocoConsumer.h: setEngine"]}
{"id": "C125", "title": "What happens last before undefined behaviour when callbacks call back", "statement": "From initialised objects, whatever valid calls the program makes and whatever valid calls its callbacks make from inside the library, a run either is defined and leaves all objects initialised, or exhausts the stack, or reads memory out of bounds. In the last case the very last thing that happened is one of two: a library consumer was handed a line it reads beyond the end of (a number of 26 characters without end, a name of 26 characters while a table entry is free, a section of 11 characters), or an engine consumer whose stream is complete began to print an engine whose 8-character protocol string has no terminator. There is no null or dangling pointer, no uninitialised variable, no bad shift and no endless parser loop, and with the user's own consumers only the stack remains.", "quantifier": "all initialised worlds, all programs and callbacks making valid calls, all points and depths of re-entrance", "why_tests_cant": "the claim names the only causes of undefined behaviour over all histories in which arbitrary user code runs inside the library", "anchors": ["lib/RR32Can/Station.cpp: all operations", "lib/RR32CanEngineDb/util/ConfigDataStreamParser.cpp: addMessage", "lib/RR32CanEngineDb/util/TextParser.cpp: addText", "lib/RR32CanEngineDb/LocoConsumer.cpp: consumeConfigData/setStreamComplete", "lib/RR32CanEngineDb/LocoListConsumer.cpp: consumeConfigData", "lib/RR32Can/Locomotive.cpp: print"]}
{"id": "C126", "title": "Logging changes only the console, whatever callbacks do", "statement": "For every combination of logging settings, every program and every set of callbacks that call back into the library but do not look at the console: a logging build ends exactly as the build of the template does, with the same objects and the same calls in the same order, only console output inserted; or it stops with undefined behaviour, having done up to then what the plain build does. Any two settings whose runs end give the same objects and the same calls. A setting that enables nothing gives the plain build exactly, for any callbacks, and callbacks that do nothing give exactly the runs, output included, that the claims about logging without re-entrance (C65, C66, C84 to C86) speak about, in both directions: with such callbacks the same histories end, with the same objects and output, and the same histories have undefined behaviour. (A callback that does look at the console can of course behave differently.)", "quantifier": "all logging settings, all programs and callbacks that ignore the console, all starting states, all points and depths of re-entrance", "why_tests_cant": "debug output is compiled in exactly when something is being investigated; that it disturbs nothing is a claim about every program run in two builds", "anchors": ["lib/RR32Can/Station.cpp: #if LOG sections", "lib/RR32CanEngineDb/util/ConfigDataStreamParser.cpp: #if LOG sections", "lib/RR32CanEngineDb/LocoConsumer.cpp: #if LOG sections", "lib/RR32CanEngineDb/LocoListConsumer.cpp: #if LOG sections", "lib/RR32Can/_RR32Can_config.h: LOG_..."]}
{"id": "C127", "title": "What happens last before undefined behaviour in a logging build when callbacks call back", "statement": "As the claim about the plain build (C125), for every logging setting: from initialised objects, with valid calls by program and callbacks, a run is defined and leaves the objects initialised, or exhausts the stack, or reads memory out of bounds; and then the last thing but for console output is a line its consumer reads beyond, or the printing of an engine whose protocol string is not terminated, or, only in builds that print the lines of config data, a line of which section, key or value fills its buffer, handed to one of the library's consumers. No setting adds a null or dangling pointer or an uninitialised variable (the checksums printed are always set), and with the user's own consumers only the stack remains. For programs and callbacks that do not look at the console this is all a setting can change: either the run ends as that of the plain build, with the same objects and only output added, or lines are printed and it stops where a line that fills a buffer was to be printed; a build that prints no lines never behaves differently.", "quantifier": "all logging settings, all initialised worlds, all programs and callbacks making valid calls, all points and depths of re-entrance", "why_tests_cant": "the claim names the only causes of undefined behaviour over all builds and all histories in which arbitrary user code runs inside the library", "anchors": ["lib/RR32Can/Station.cpp: all operations", "lib/RR32CanEngineDb/util/ConfigDataStreamParser.cpp: addMessage", "lib/RR32CanEngineDb/LocoConsumer.cpp: consumeConfigData/setStreamComplete", "lib/RR32CanEngineDb/LocoListConsumer.cpp: consumeConfigData", "lib/RR32Can/Locomotive.cpp: print"]}
{"id": "C128", "title": "Callbacks that are called last can be moved out of the library", "statement": "For every set of user objects that call the library only when told of a received system or engine command, or that a download is complete: the run is in every respect - objects, calls, console output, undefined behaviour and its kind - the run in which the user objects only take note and the program makes their calls after the call of the library has returned. A call of the library first does everything it does with callbacks that do nothing. The accessory callback does not belong to them (when a packet is handled a newline is printed after it), nor do the callbacks for an aborted download, for a line of data or for a frame to send.", "quantifier": "all programs, all such user objects, all starting states, all depths of re-entrance, all outcomes", "why_tests_cant": "whether a callback may call the library directly or has to set a flag for the main loop is a question about every state in which it may be called", "anchors": ["lib/RR32Can/Station.cpp: handlePacket/handleSystemCommand/handleLocoDirection/handleLocoSpeed/handleLocoFunction/handleConfigDataStream", "lib/RR32CanEngineDb/util/ConfigDataStreamParser.cpp: addMessage", "lib/RR32CanEngineDb/LocoConsumer.cpp: setStreamComplete", "lib/RR32CanEngineDb/LocoListConsumer.cpp: setStreamComplete"]}
{"id": "C129", "title": "A program driven by its end callback copies all engines", "statement": "Given a list of jobs (an engine object and a name the master knows), an end callback that asks for the next job from inside the call that completes the previous one, and a main loop that only passes on what the master answers: for any number of jobs every engine object ends up fully known with its engine's details, no other engine is touched, the end callback is told exactly once per job, and the calls never nest deeper than two. A catalogue with different names of at most 16 characters is copied exactly. One level of calls is not enough, and an object used for two jobs keeps only the last.", "quantifier": "all catalogues and masters that answer as they should, all lists of jobs, all initialised worlds with station, parser and engine consumer, all word sizes of at least 32 bits", "why_tests_cant": "whether asking for the next engine inside the callback works for the whole list, without the stack growing with it, is an induction over the history of the main loop", "anchors": ["lib/RR32Can/Station.cpp: RequestEngine/FinishCurrentConfigRequest/HandlePacket", "lib/RR32CanEngineDb/util/ConfigDataStreamParser.cpp: addMessage/reset", "lib/RR32CanEngineDb/LocoConsumer.cpp: setStreamComplete", "lib/RR32Can/Locomotive.cpp: setName"]}
{"id": "C130", "title": "User code that changes the parsers' buffers as well", "statement": "A user consumer is handed the section, key and value as references to buffers inside the parser. For user code that, between its calls into the library and at whatever depth, also performs any operations of class BufferManager on these buffers, of any parser: the run is defined and leaves all objects initialised; or the stack was exhausted; or memory was read out of bounds, and then the last thing that happened is that a library consumer was handed a line it reads beyond, or printed an engine without terminated protocol string. With the user's own consumers only, there is nothing but the stack. Code that leaves the buffers alone does exactly what it does without this possibility.", "quantifier": "all initialised worlds, all user code (any tree of valid calls and of buffer operations whose arguments the class accepts, depending on all it observes), all behaviours of the callbacks, all depths; writing through data() and move assignment of a manager are outside the model", "why_tests_cant": "the references give user code access to the parser's internal state at every point of every run, so every function has to work with buffers it did not write itself", "anchors": ["lib/RR32CanEngineDb/util/TextParser.h: Consumer::consumeConfigData", "lib/RR32CanEngineDb/util/TextParser.cpp: addText/processBuffer", "lib/RR32CanEngineDb/util/BufferManager.h", "lib/RR32Can/Station.cpp"]}
{"id": "C131", "title": "After user code has changed buffers, a reset is enough", "statement": "After any defined run of user code that called the library and changed buffers of parsers, finishing the station's request and resetting the parser reports no completion and changes no engine, and then a download of a correct description fills in the engine, or of a list the list consumer, and is reported complete exactly once.", "quantifier": "all runs of C130 that are defined, all stations, parsers, consumers and engines, all descriptions and lists, all gaps and ways of cutting", "why_tests_cant": "whether some leftover in a buffer survives the reset depends on the entire history of calls and buffer operations", "anchors": ["lib/RR32CanEngineDb/util/ConfigDataStreamParser.cpp: reset/startStream/addMessage", "lib/RR32CanEngineDb/util/TextParser.cpp: reset", "lib/RR32Can/Station.cpp: FinishCurrentConfigRequest"]}
{"id": "C132", "title": "A download read by a consumer that changes its parser's buffers", "statement": "Whatever buffer operations a user consumer performs on the section, key and value it is handed during a download: the run is defined, nothing but the parser changes, and whether the end is reported as success depends on the bytes received only. The lines handed out are determined: a changed section stays until the next section line, what is left in the value of a line without value comes in front of the next value, everything else is forgotten. A consumer that does neither is called exactly like one that leaves the buffers alone. Starting the next stream does not clear what is left.", "quantifier": "all consumers (any operations, depending on all lines so far), all parser states reachable, all documents, all streams of up to 2^32 bytes, all depths of calls", "why_tests_cant": "the consumer runs in the middle of the loop over the characters of each frame, so the claim relates all consumers, all texts and all cuts into frames", "anchors": ["lib/RR32CanEngineDb/util/TextParser.cpp: addText/processBuffer/findToken", "lib/RR32CanEngineDb/util/ConfigDataStreamParser.cpp: addMessage", "lib/RR32CanEngineDb/util/BufferManager.h"]}
{"id": "C133", "title": "Logging builds with user code that changes the parsers' buffers", "statement": "The claims about logging builds hold for user code that also changes the section, key and value buffers of parsers, at whatever depth. The run is defined and leaves all objects initialised; or the stack was exhausted; or memory was read out of bounds by a consumer reading or, in builds that print lines, printing a line, or printing an engine. For user code that does not look at the console a logging build ends as the plain one does, with the same objects and calls, unless it was to print a line a part of which fills its buffer - which user code can bring about by filling the buffer itself. A setting that enables no section changes nothing.", "quantifier": "all logging settings, all initialised worlds, all user code (any tree of valid calls and buffer operations, depending on all it observes or, for the comparison, on all but the console), all behaviours of the callbacks, all depths", "why_tests_cant": "the log sections read the buffers as C strings at points between the user's accesses to them; every setting, run and buffer content has to be considered", "anchors": ["lib/RR32CanEngineDb/util/TextParser.cpp: addText/processBuffer", "lib/RR32CanEngineDb/LocoConsumer.cpp: consumeConfigData", "lib/RR32CanEngineDb/util/BufferManager.h", "lib/RR32Can/Station.cpp"]}
{"id": "C134", "title": "A master's list read by the end callback", "statement": "A program asks the master for the first two names of its list of engines. Its end callback, from inside the call that completes such a page, reads the names from the list consumer, gives them to the program's next engine objects, and asks for the next page if the consumer has been told of more engines; the main loop does nothing but pass on what the master answers. For every list of at most 255 engines and as many different engine objects, two levels of calls suffice, every object ends up with its own name and is known by name only, no other engine object is touched, and the end callback is told exactly once per page. One level of calls is not enough, and with 256 engines the program stops after the first page.", "quantifier": "all catalogues of at most 255 engines, all masters that answer properly, all lists of different engine objects, all initialised worlds and states of station, parser and consumer to start from, all settings", "why_tests_cant": "callbacks that reset and restart the very objects that are calling them must work page after page, for every list and every starting state", "anchors": ["lib/RR32CanEngineDb/LocoListConsumer.cpp", "lib/RR32CanEngineDb/util/ConfigDataStreamParser.cpp", "lib/RR32Can/Station.cpp: RequestEngineList", "lib/RR32Can/Locomotive.h: setName"]}
{"id": "C135", "title": "Moving buffer managers", "statement": "BufferManager objects can be moved, by assignment or construction. In every history of buffer operations and moves in which no manager is used between being moved from and being assigned to again, every manager behaves like the bounded queue it has taken over: no undefined behaviour, the same contents and results, no byte outside the buffers changes, and the memory of a manager that was assigned to keeps its content. A move copies pointer, length and capacity only, so std::swap exchanges any two managers without touching memory; a manager that was moved from still refers to the memory, and using it changes what the other shows.", "quantifier": "all histories of operations and moves over any number of managers, all arrangements of separate buffers in memory, all contents and capacities", "why_tests_cant": "aliasing between managers depends on the whole history of moves; tests see single sequences", "anchors": ["lib/RR32CanEngineDb/util/BufferManager.h: BufferManager(BufferManager&&), operator=", "lib/RR32CanEngineDb/util/BufferManager.cpp"]}
{"id": "C136", "title": "Copying a catalogue from end callbacks alone", "statement": "A program can copy everything a master knows about its engines without knowing any name beforehand and without doing anything in its main loop but passing on what arrives: the end callback of the list consumer gives the names of each page to engine objects and asks for the next page, and after the last page for the first engine's details; the end callback of the engine consumer asks for the next engine's details. For at most 255 engines with different names of at most 16 characters this needs two levels of nested calls, ends, leaves every object holding the master's entry, fully known, changes no other engine and calls the callbacks once per page and once per engine. With equal names the later objects get the details of the first.", "quantifier": "all catalogues of up to 255 engines with different short names, all masters that answer properly, all engine objects in any order, all prior states of the other objects", "why_tests_cant": "the program runs inside the library's own callbacks, over a chain as long as the catalogue, with two consumers sharing a parser; tests try one or two engines", "anchors": ["lib/RR32CanEngineDb/LocoListConsumer.h: setStreamComplete", "lib/RR32CanEngineDb/LocoConsumer.cpp: setStreamComplete", "lib/RR32Can/Station.cpp: RequestEngineList, RequestEngine, HandleConfigDataStream, FinishCurrentConfigRequest"]}
{"id": "C137", "title": "Text parsers that are moved", "statement": "A text parser can be moved (construction or assignment from std::move). For every program that constructs, feeds, resets, moves and ends text parsers: as long as it does not use an object it moved from, and neither ends nor overwrites an object in which a parser was constructed that another object now stands for, it is defined and every consumer is told exactly what the parsers would tell if they had never been moved. But the object moved from must outlive the one moved to: once it has ended, any text of at least one character and any reset() is undefined behaviour. And std::swap does not work: two swapped parsers end up with the position of the one and the text of the other; moving a parser away and back loses the text in between.", "quantifier": "all programs over any number of parser objects, all texts of up to 255 characters and all cuts, all orders of moves, ends, resets and changes of consumer", "why_tests_cant": "moving works in every test that keeps the old object, and fails only through the memory of an object that is no longer looked at; the claim ranges over all orders of moves and texts", "anchors": ["lib/RR32CanEngineDb/util/TextParser.h: TextParser (implicit move constructor and assignment), rawbuffer, buffer", "lib/RR32CanEngineDb/util/BufferManager.h: BufferManager(BufferManager&&), operator=(BufferManager&&)", "lib/RR32CanEngineDb/util/ConfigDataStreamParser.h: ConfigDataStreamParser (textParser_)"]}
