{"id": "C01", "title": "Frames are delimited unambiguously", "statement": "Every byte string produced by Message.Encode starts and ends with the delimiter 0x7e and contains 0x7e nowhere else, so a receiver can cut a TCP stream at delimiters.", "quantifier": "all messages, bodies, headers and checksums for which Encode succeeds", "why_tests_cant": "A test can only sample bodies; the escape rule must hold for each of the 2^8n payloads and for the checksum byte too.", "anchors": ["protocol/message.go: Message.Encode, write, computeChecksum", "protocol/const.go"]}
{"id": "C02", "title": "Escaping is lossless", "statement": "For every header||body payload, decoding the frame Encode emits recovers exactly that payload: the escape bytes 0x7d 0x01 / 0x7d 0x02 and the escaped checksum are undone, whatever the payload contains.", "quantifier": "all byte strings of any length as payload", "why_tests_cant": "Interaction of payload ending, escape pairs and an escaped checksum byte is a corner that random tests rarely hit.", "anchors": ["protocol/message.go: Message.Encode, Message.Decode, write"]}
{"id": "C03", "title": "Checksum is verified and catches every single-byte error", "statement": "Message.Decode succeeds only if the XOR of the unescaped header||body equals the transmitted checksum, and any frame whose payload differs from an encoded one in exactly one byte is rejected with the check-sum error.", "quantifier": "all payloads, all positions, all replacement byte values", "why_tests_cant": "Needs every (payload, position, value) triple.", "anchors": ["protocol/message.go: Message.Decode"]}
{"id": "C04", "title": "Accepted frames are exactly the well-formed ones", "statement": "If Message.Decode accepts a frame without interior delimiters then the frame is the escaping of some header||body and its checksum (the only liberty being an unescaped 0x7d checksum byte); no two different payloads are read from one frame.", "quantifier": "all byte strings given to Message.Decode", "why_tests_cant": "A universally quantified converse of the round trip; it cannot be sampled.", "anchors": ["protocol/message.go: Message.Decode"]}
{"id": "C05", "title": "Decoding arbitrary network bytes never crashes", "statement": "Message.Decode returns a message or an error, but never panics, for any bytes a peer can send.", "quantifier": "all byte strings, all key settings", "why_tests_cant": "A single crafted length can panic; only an exhaustive argument excludes (or finds) it.", "anchors": ["protocol/message.go: Message.Decode", "protocol.go: readFromBuffer", "session_handler.go: HandleSession"]}
{"id": "C06", "title": "Body decoders never crash", "statement": "For each registered message ID, decoding any body bytes returns an entity or an error and never panics (no out-of-range index, slice or nil dereference), whatever lengths and counts the bytes claim.", "quantifier": "all 65 message types, all body byte strings", "why_tests_cant": "Hostile counts/lengths are unbounded combinations.", "anchors": ["protocol/register.go: entityMapper", "protocol/t808_*.go: Decode", "protocol/extra/*.go: Decode", "protocol/bufio.go: Reader"]}
{"id": "C07", "title": "Message round trip", "statement": "Encoding a message and decoding the bytes returns the same header fields (message ID, terminal number, serial number, packet sum/seq, flags, body size) and an equal body, for every message whose fields fit the wire format.", "quantifier": "all messages of all types with terminal number 1..10^12-1, body at most 1023 bytes, consistent packet flag", "why_tests_cant": "Round trip over an infinite message space; the unit tests use one literal per type.", "anchors": ["protocol/message.go: Encode, Decode", "protocol/header.go: Encode, Decode"]}
{"id": "C08", "title": "Terminal numbers survive the header", "statement": "A terminal number (IccID) is written as 12 BCD digits and read back unchanged exactly when it is between 1 and 10^12-1; 0 cannot be decoded and larger numbers do not come back as themselves.", "quantifier": "all 64-bit terminal numbers", "why_tests_cant": "2^64 values; the boundary cases (0, 10^12) are exactly what samples miss.", "anchors": ["protocol/header.go: Header.Encode, Header.Decode", "protocol/helpers.go: stringToBCD, bcdToString"]}
{"id": "C09", "title": "Oversized bodies are refused", "statement": "Message.Encode fails with the body-too-long error whenever the encoded body exceeds the 10-bit length field (1023 bytes), and otherwise writes the true length into the header.", "quantifier": "all bodies of any length", "why_tests_cant": "Wrap-around of the 16-bit length conversion shows only for bodies of 65536 bytes and more.", "anchors": ["protocol/message.go: Message.Encode", "protocol/property.go: SetBodySize, GetBodySize"]}
{"id": "C10", "title": "Header property fields are independent", "statement": "Setting the body size never changes the encryption/packet/other flags, setting a flag never changes the size, and reading returns what was set.", "quantifier": "all 16-bit property values, all sizes", "why_tests_cant": "Bit-field independence over all values and operations sequences.", "anchors": ["protocol/property.go"]}
{"id": "C11", "title": "Bit helpers", "statement": "SetBitX(v,i,b) makes bit i read as b and leaves every other bit unchanged; offsets at or beyond the width are ignored on set and read as false; a negative offset panics and nothing else does.", "quantifier": "all values, all offsets, all three widths", "why_tests_cant": "Every (value, offset, offset') triple.", "anchors": ["protocol/bit.go"]}
{"id": "C12", "title": "Every message body round-trips", "statement": "For each of the 65 built-in message types, decoding the bytes produced by its Encode yields an equal entity for all field values representable in the type's wire format (counts and length-prefixed fields below their limits, text the GB18030 codec can represent).", "quantifier": "all message types and all representable field values, all list lengths up to the wire limit", "why_tests_cant": "Unit tests fix one literal per type.", "anchors": ["protocol/t808_*.go: Encode, Decode"]}
{"id": "C13", "title": "Coordinates keep sign and micro-degree precision", "statement": "A location (latitude, longitude) encoded in a position report decodes to the coordinate truncated to six decimals with the same sign, for every coordinate below 4294.967296 degrees in magnitude, when the hemisphere flags were not already set.", "quantifier": "all decimals, all status words with the hemisphere bits clear", "why_tests_cant": "Unbounded decimal values and exponents.", "anchors": ["protocol/t808_0x0200.go: Encode, Decode", "protocol/helpers.go: getGeoPoint"]}
{"id": "C14", "title": "A position entity can be reused", "statement": "After a position entity has been encoded, changing its coordinates and encoding again transmits the new coordinates.", "quantifier": "all sequences of coordinate updates on one entity", "why_tests_cant": "History-dependent: needs every order of signs.", "anchors": ["protocol/t808_0x0200.go: Encode, SetSouthLatitude, SetWestLongitude"]}
{"id": "C15", "title": "Areas keep the sign of every vertex", "statement": "Rectangles and polygons (0x8602, 0x8604) decode with each vertex's latitude and longitude sign preserved.", "quantifier": "all vertex lists", "why_tests_cant": "Depends on sign combinations across vertices.", "anchors": ["protocol/t808_0x8602.go", "protocol/t808_0x8604.go"]}
{"id": "C16", "title": "Extra items of a position report are transported", "statement": "Any list of the twelve built-in extra items attached to a position report is decoded to the same items with the same values in the same order; items of unknown type are skipped without disturbing the others.", "quantifier": "all lists of extras, any mix with unknown items", "why_tests_cant": "All list lengths and interleavings of known/unknown items.", "anchors": ["protocol/t808_0x0200.go: Encode, Decode", "protocol/extra/*.go"]}
{"id": "C17", "title": "A decoded position report can be forwarded", "statement": "Re-encoding a position report that was obtained by decoding gives bytes that decode to the same report, including the extra items.", "quantifier": "all decodable position report bodies", "why_tests_cant": "Second-generation behaviour over all inputs; tests only encode freshly built entities.", "anchors": ["protocol/t808_0x0200.go", "protocol/extra/*.go: Data, Decode"]}
{"id": "C18", "title": "Timestamps survive BCD encoding", "statement": "A timestamp written as BCD[6] YYMMDDhhmmss is read back as the same second for every local time of the century 2000-2099.", "quantifier": "all seconds of 2000-01-01..2099-12-31, all fixed zone offsets", "why_tests_cant": "3.1 billion seconds; failures are confined to specific years.", "anchors": ["protocol/helpers.go: toBCDTime, fromBCDTime, bcdToString"]}
{"id": "C19", "title": "BCD digit strings round-trip", "statement": "A decimal digit string without leading zeros and of at most 2n digits, packed into n BCD bytes, is read back unchanged; the packed form always has exactly n bytes.", "quantifier": "all digit strings and field widths", "why_tests_cant": "All lengths and contents.", "anchors": ["protocol/helpers.go: stringToBCD, bcdToString"]}
{"id": "C20", "title": "CAN receive time round-trips", "statement": "The receive time of a CAN upload (0x0705) between 0 and 24h with millisecond precision is read back unchanged.", "quantifier": "all durations", "why_tests_cant": "Whole ranges (the first hour, the value 24h) behave differently.", "anchors": ["protocol/t808_0x0705.go"]}
{"id": "C21", "title": "Terminal parameters are typed storage", "statement": "GetX after SetX on a Param returns the value and id that were set; the getters fail with an error, never a panic, on values that are too short; later changes to the caller's slice do not change the parameter.", "quantifier": "all ids and values, all byte strings", "why_tests_cant": "All values and all serialized lengths.", "anchors": ["protocol/params.go"]}
{"id": "C22", "title": "Lists too long for their count field are not silently corrupted", "statement": "Encoding an entity whose list or text exceeds the one-byte/two-byte count on the wire reports an error instead of emitting a body that decodes to something else.", "quantifier": "all list and text lengths", "why_tests_cant": "Only lengths past the wrap point expose it.", "anchors": ["protocol/t808_0x8003.go", "protocol/t808_0x0104.go", "protocol/t808_0x8103.go", "protocol/t808_0x8601.go"]}
{"id": "C23", "title": "Encoding is repeatable", "statement": "Encoding the same entity twice yields the same bytes, so one entity can be sent to several sessions (Broadcast).", "quantifier": "all entities", "why_tests_cant": "Needs the state left behind by the first Encode for every entity.", "anchors": ["protocol/t808_*.go: Encode", "server.go: Broadcast"]}
{"id": "C24", "title": "Encryption is transparent", "statement": "With matching RSA keys a body of any length encrypted in chunks by Encode is decrypted by Decode to the same body; without a private key an encrypted message is rejected, never delivered as plain text.", "quantifier": "all bodies, all key pairs satisfying the RSA-OAEP contract", "why_tests_cant": "Chunk boundaries for every length; key behaviour is an assumption on all keys.", "anchors": ["protocol/helpers.go: EncryptOAEP, DecryptOAEP, bytesSplit", "protocol/message.go"]}
{"id": "C25", "title": "A session with a public key encrypts", "statement": "After Session.SetPublicKey, messages sent with Session.Send are encrypted.", "quantifier": "all sessions, keys and entities", "why_tests_cant": "Universal over entities and histories.", "anchors": ["session.go: Send, SetPublicKey", "protocol.go: ProtocolCodec.Send"]}
{"id": "C26", "title": "Reassembly does not depend on TCP segmentation", "statement": "However the byte stream of valid frames is cut into reads, successive Receive calls return exactly the transmitted messages, each once, in order.", "quantifier": "all message sequences and all chunkings of their concatenated frames", "why_tests_cant": "Exponentially many segmentations.", "anchors": ["protocol.go: ProtocolCodec.Receive, readFromBuffer"]}
{"id": "C27", "title": "Receive buffer is bounded", "statement": "The receive buffer never holds more than 65535 bytes plus one read (128 bytes); a peer that never sends a closing delimiter gets an error instead of exhausting memory, and valid frames are never refused for size.", "quantifier": "all input streams and chunkings", "why_tests_cant": "Unbounded streams.", "anchors": ["protocol.go: ProtocolCodec.Receive"]}
{"id": "C28", "title": "Receive makes progress past bad input", "statement": "After Receive reports a malformed frame or leading garbage, at least one buffered byte has been discarded, and following well-formed frames are still delivered by later Receive calls.", "quantifier": "all garbage prefixes and following frames", "why_tests_cant": "All garbage contents, in particular garbage containing delimiters.", "anchors": ["protocol.go: readFromBuffer"]}
{"id": "C29", "title": "A malformed body is isolated", "statement": "A frame with valid checksum and header but an unknown message ID, a body of the wrong length, or a body its decoder rejects is still delivered with its header and no body; it neither fails the connection nor yields a partially filled body.", "quantifier": "all frames with valid header and checksum", "why_tests_cant": "All body contents and claimed lengths.", "anchors": ["protocol/message.go: Message.Decode", "session_handler.go"]}
{"id": "C30", "title": "Serial numbers", "statement": "Every serial number handed out by a session is between 1 and 255, never 0, increases by one cyclically, and any 255 consecutive ones are distinct, under any interleaving of concurrent senders.", "quantifier": "all schedules of any number of concurrent senders, any number of sends", "why_tests_cant": "All interleavings of lock-free CAS loops.", "anchors": ["session.go: nextID, Send"]}
{"id": "C31", "title": "A request callback runs at most once and only for its serial number", "statement": "In every history each callback registered by Request is invoked at most once, and only with an answer quoting the serial number its request was sent with.", "quantifier": "all histories of requests and incoming messages", "why_tests_cant": "All histories, including answers that are duplicated, stale or unsolicited.", "anchors": ["session.go: Request, addRequestContext, takeRequestContext, message"]}
{"id": "C32", "title": "An answer reaches the request it answers", "statement": "The callback of a request is only invoked with the answer to that very request.", "quantifier": "all histories, in particular those with more than 255 sends", "why_tests_cant": "Requires serial-number wrap-around in combination with unanswered requests.", "anchors": ["session.go: nextID, takeRequestContext"]}
{"id": "C33", "title": "No answer is lost", "statement": "If a terminal answers a request, the callback passed to Request is invoked.", "quantifier": "all interleavings of the requesting goroutine with the receiving goroutine, all request histories", "why_tests_cant": "A race window between sending and registering.", "anchors": ["session.go: Request, addRequestContext"]}
{"id": "C34", "title": "Pending requests are bounded per message type", "statement": "A session holds at most one pending request per request message ID; a newer request of the same ID replaces the older one.", "quantifier": "all histories of requests and answers", "why_tests_cant": "Invariant over all histories.", "anchors": ["session.go: addRequestContext, takeRequestContext"]}
{"id": "C35", "title": "Countdown timer fires exactly the expired keys", "statement": "At each tick with the clock at now, the callback is invoked once for every key whose last Update lies at least the timeout in the past and was not removed since, and for no other key, in order of deadline; internal heap indices never go out of range.", "quantifier": "all sequences of Update/Remove/SetExpiration/tick operations and clock readings", "why_tests_cant": "All operation sequences over an indexed binary heap.", "anchors": ["timer.go: CountdownTimer, expirationQueue"]}
{"id": "C36", "title": "Removed or refreshed keys do not fire early", "statement": "After Remove(key) the key never fires until updated again; after Update(key) it does not fire before the timeout has elapsed since that update, even with concurrent updates.", "quantifier": "all histories and all interleavings of Update calls", "why_tests_cant": "Race between the two critical sections of Update.", "anchors": ["timer.go: Update, Remove, checkExpirationQueue"]}
{"id": "C37", "title": "Any traffic keeps a session alive", "statement": "A session that keeps sending valid messages within the keepalive interval is not closed by the read timeout.", "quantifier": "all message sequences and handler registrations", "why_tests_cant": "Depends on which handlers are registered and on message kinds.", "anchors": ["server.go: dispatchMessage, handleReadTimeout", "session_handler.go"]}
{"id": "C38", "title": "Each message is dispatched exactly once and in order", "statement": "For every received message that has a body, the handler registered for its message ID (if any) is called exactly once, in arrival order, after any pending request callback; messages without handler cause no call; a panicking handler does not stop later messages.", "quantifier": "all message sequences, all handler tables", "why_tests_cant": "All sequences.", "anchors": ["session_handler.go: HandleSession", "server.go: dispatchMessage, AddHandler"]}
{"id": "C39", "title": "Unsupported messages are answered", "statement": "A message that cannot be decoded into a body is answered with exactly one general response with result 3 quoting its message ID and serial number, and is never dispatched.", "quantifier": "all message sequences", "why_tests_cant": "All sequences and headers.", "anchors": ["session_handler.go: HandleSession", "session.go: Reply"]}
{"id": "C40", "title": "Multipart completeness test", "statement": "IsFull returns true exactly when every part 1..Sum has been written for this terminal, message ID and tag, regardless of the order or repetition of writes and of parts belonging to other uploads.", "quantifier": "all histories of Write calls for any terminals/messages/tags, all Sum up to 65535", "why_tests_cant": "All write histories.", "anchors": ["multipart.go: IsFull, walkParts, Write"]}
{"id": "C41", "title": "Merged file is the concatenation of the parts", "statement": "After a complete upload Merge yields exactly part 1, part 2, ..., part Sum in order.", "quantifier": "all part contents, write orders and earlier uploads", "why_tests_cant": "Depends on leftovers of earlier uploads under the same tag.", "anchors": ["multipart.go: Merge"]}
{"id": "C42", "title": "Uploads do not interfere", "statement": "Writing parts of one upload never changes what IsFull and Merge report for an upload with another terminal, message ID or tag.", "quantifier": "all pairs of uploads and all histories", "why_tests_cant": "Requires injectivity of the textual file names.", "anchors": ["multipart.go: rootDir, Write, walkParts"]}
{"id": "C43", "title": "A complete multipart message is delivered", "statement": "With AutoMergePacket, once all packets of a multipart message have arrived, in any order, the handler is called exactly once with the whole data.", "quantifier": "all arrival orders and duplicates", "why_tests_cant": "All permutations of packets.", "anchors": ["session_handler.go: HandleSession", "multipart.go"]}
{"id": "C44", "title": "Multipart queries are total", "statement": "IsFull and Merge can be called at any time and answer false / an error when nothing was written.", "quantifier": "all file-system states", "why_tests_cant": "The missing-directory state is never reached by the tests.", "anchors": ["multipart.go: walkParts"]}
{"id": "C45", "title": "Session registry", "statement": "GetSession(id) finds exactly the sessions that have been accepted and not closed; Broadcast attempts each of them once and returns the number of successful sends.", "quantifier": "all histories of connects, closes and broadcasts", "why_tests_cant": "All histories.", "anchors": ["server.go: GetSession, Broadcast, handleClose", "session_handler.go"]}
{"id": "C46", "title": "Closed sessions are forgotten", "statement": "Every session that is closed, by whichever side and at whatever moment, is removed from the registry and the timer and its close handler runs exactly once.", "quantifier": "all interleavings of session set-up with close", "why_tests_cant": "Race between registration and AddCloseCallback.", "anchors": ["session_handler.go: HandleSession", "server.go: handleClose"]}
{"id": "C47", "title": "RSA public key messages round-trip", "statement": "0x0A00/0x8A00 transport every 1024-bit modulus and every exponent below 2^32 unchanged, and refuse missing or differently sized keys.", "quantifier": "all moduli and exponents", "why_tests_cant": "2^1024 moduli, including those with leading zero bytes.", "anchors": ["protocol/t808_0x0a00.go", "protocol/t808_0x8a00.go"]}
{"id": "C48", "title": "Compressed uploads are all or nothing", "statement": "Decoding 0x0901 yields exactly the data that was compressed, or an error if the compressed stream is damaged.", "quantifier": "all gzip streams, all positions of a read error", "why_tests_cant": "All stream error positions.", "anchors": ["protocol/t808_0x0901.go"]}
{"id": "C49", "title": "The message registry is consistent", "statement": "Every built-in message ID creates an entity that reports the same message ID; unregistered IDs give the not-registered error.", "quantifier": "all 65536 message IDs", "why_tests_cant": "All IDs (finite but never enumerated by tests).", "anchors": ["protocol/register.go", "protocol/message.go: decode"]}
{"id": "C50", "title": "Decode reports how much it consumed", "statement": "The count returned by an entity's Decode equals the length of the part of the input that determines the entity.", "quantifier": "all message types and inputs", "why_tests_cant": "All inputs.", "anchors": ["protocol/t808_*.go: Decode"]}
{"id": "C51", "title": "Replies are addressed to the terminal", "statement": "Every message a session sends carries the terminal number of the last message received from that terminal.", "quantifier": "all message sequences, including the first message of a connection", "why_tests_cant": "Depends on which code path the first message takes.", "anchors": ["session.go: Send, message", "session_handler.go"]}
{"id": "C52", "title": "Server options", "statement": "NewServer uses the given keepalive if positive and 60 otherwise, and refuses private keys that are not 1024 bits.", "quantifier": "all option values", "why_tests_cant": "All integers.", "anchors": ["server.go: NewServer"]}
{"id": "C53", "title": "Distinct messages have distinct encodings", "statement": "Two messages whose fields fit the wire format and that encode to the same bytes are equal.", "quantifier": "all pairs of messages", "why_tests_cant": "All pairs.", "anchors": ["protocol/message.go", "protocol/header.go"]}
{"id": "C54", "title": "Decoded fields are in range", "statement": "Every numeric field of an entity decoded from the wire lies in the range of its Go type and every decoded list is no longer than its count field allows.", "quantifier": "all body byte strings of all types", "why_tests_cant": "All inputs.", "anchors": ["protocol/t808_*.go: Decode"]}
{"id": "C55", "title": "Body round trip, exactly", "statement": "A representable body encodes and decodes to itself (up to wire precision) unless its list (0x0104, 0x8103, 0x8600, 0x8602, 0x8604 without time limits) or key (0x0102) is empty; those six are encoded without complaint and refused by their own decoder.", "quantifier": "all 65 message types, all representable field values", "why_tests_cant": "The boundary between the bodies that survive and those that do not has to be located for every type at once.", "anchors": ["protocol/t808_*.go Encode/Decode", "protocol/t808_0x0102.go:24", "protocol/t808_0x8604.go:97"]}
{"id": "C56", "title": "Trailing bytes are ignored", "statement": "For every type whose body does not run to the end of the input, bytes after a complete body change neither the decoded entity nor the reported count.", "quantifier": "all bodies, all suffixes, all non open-ended types", "why_tests_cant": "Universal over suffixes of any length and over all decoders.", "anchors": ["protocol/t808_*.go Decode"]}
{"id": "C57", "title": "Hemisphere flags of a reused position entity, exactly", "statement": "After any sequence of coordinate assignments and encodings of one entity the last coordinates arrive with the sign of the flags collected so far; they arrive as assigned exactly when that sign fits.", "quantifier": "all sequences of coordinate updates", "why_tests_cant": "Histories of unbounded length; the flag is hidden state.", "anchors": ["protocol/t808_0x0200.go Encode"]}
{"id": "C58", "title": "Signs of areas, exactly", "statement": "Every vertex of a rectangle or polygon arrives with the sign of the whole area (flag set by any southern/western vertex), so the area survives exactly when no vertex disagrees.", "quantifier": "all vertex lists", "why_tests_cant": "The loss depends on a combination over an unbounded list.", "anchors": ["protocol/t808_0x8602.go", "protocol/t808_0x8604.go"]}
{"id": "C59", "title": "Forwarding position reports, exactly", "statement": "A decoded position report re-encodes to bytes that decode to the same report if it has no extra items, and to bytes refused with the invalid-extra-length error otherwise.", "quantifier": "all decodable position report bodies", "why_tests_cant": "Needs every decodable input, including reports with any mix of extra items.", "anchors": ["protocol/t808_0x0200.go", "protocol/extra/*.go"]}
{"id": "C60", "title": "CAN receive time, exactly", "statement": "The receive time of 0x0705 arrives cut at 24h, modulo 24h, to the millisecond; it is refused exactly when the result lies before 01:00.", "quantifier": "all durations", "why_tests_cant": "The failing hour and the wrap are boundaries in a 64-bit range.", "anchors": ["protocol/t808_0x0705.go"]}
{"id": "C61", "title": "Over-long lists, exactly", "statement": "Encoding a list longer than its count field succeeds, and exactly the first (length mod 256, resp. 65536) elements arrive.", "quantifier": "19 message types, lists of any length", "why_tests_cant": "Lists of any length.", "anchors": ["protocol/t808_*.go Encode, writer.go WriteByte/WriteUint16 of the count"]}
{"id": "C62", "title": "Repeated encoding, exactly", "statement": "A second Encode of the same entity gives the same bytes for every type but 0x0801, where it gives the header and location without the consumed packet data.", "quantifier": "all entities", "why_tests_cant": "All entities of all types, including hidden mutation by Encode.", "anchors": ["protocol/t808_0x0801.go Encode"]}
{"id": "C63", "title": "Damaged compressed uploads, exactly", "statement": "0x0901 yields the data read before the end of the stream or the first read error; only a bad gzip header is an error.", "quantifier": "all gzip streams and error positions", "why_tests_cant": "The position of the error is arbitrary.", "anchors": ["protocol/t808_0x0901.go Decode"]}
{"id": "C64", "title": "Reported counts, exactly", "statement": "For all but ten types the count returned by Decode covers every byte the result depends on; for those ten it is the stated constant or one too small.", "quantifier": "all types and inputs", "why_tests_cant": "Dependence on unread bytes is a property of pairs of inputs.", "anchors": ["protocol/t808_*.go Decode return values"]}
{"id": "C65", "title": "The crashing frames, exactly", "statement": "Message.Decode panics exactly on the three-byte inputs 7e x 7e and on no other bytes.", "quantifier": "all byte strings, all keys whose decryption yields bytes", "why_tests_cant": "Both directions range over all byte strings and over every body decoder.", "anchors": ["protocol/message.go:68-92 Message.Decode"]}
{"id": "C66", "title": "The size check, exactly", "statement": "Message.Encode refuses a body exactly when its length modulo 65536 exceeds 1023; otherwise that remainder is the length written into the header.", "quantifier": "all bodies of any length, all headers that fit the wire", "why_tests_cant": "The wrap needs bodies of 64 KiB and more.", "anchors": ["protocol/message.go: Message.Encode", "protocol/property.go: SetBodySize"]}
{"id": "C67", "title": "Received headers are in range and can be sent again", "statement": "Every header delivered by Message.Decode fits the wire format (serial, terminal number, packet fields, flags) and has packet fields exactly when the packet flag is set.", "quantifier": "all byte strings and keys", "why_tests_cant": "Range over all accepted frames, including BCD bytes that are no digits.", "anchors": ["protocol/header.go: Header.Decode", "protocol/message.go: Message.Decode"]}
{"id": "C68", "title": "Decoding into a used Message, exactly", "statement": "Decode replaces the header exactly when it succeeds and the body exactly when a fresh Message would get one; otherwise the old body stays, which may have another type than the new header announces.", "quantifier": "all messages, keys and byte strings", "why_tests_cant": "Depends on the earlier content of the Message and on every error path.", "anchors": ["protocol/message.go:68-181 Message.Decode"]}
{"id": "C69", "title": "Loss of synchronisation, exactly", "statement": "A stream that starts with stray bytes before its frames is read in step exactly when the stray bytes contain an even number of delimiters; after an odd number every frame is read as the gap between two frames.", "quantifier": "all stray prefixes, all lists of frames", "why_tests_cant": "The alignment depends on a parity over an unbounded prefix.", "anchors": ["protocol.go: ProtocolCodec.Receive, readFromBuffer"]}
{"id": "C70", "title": "What any stream yields", "statement": "For every byte stream the messages and errors delivered are the decodings of every second run between delimiters, independently of how the stream is cut into reads, when the caller goes on after errors.", "quantifier": "all byte streams below the size limit, all segmentations, all keys", "why_tests_cant": "All ways of cutting all streams.", "anchors": ["protocol.go: ProtocolCodec.Receive, readFromBuffer"]}
{"id": "C71", "title": "Up to the first error", "statement": "A session that stops at the first error has received exactly the messages before it, independently of segmentation.", "quantifier": "all byte streams, all segmentations", "why_tests_cant": "All ways of cutting all streams.", "anchors": ["protocol.go: ProtocolCodec.Receive", "session_handler.go: HandleSession"]}
{"id": "C72", "title": "The size error does not empty the buffer", "statement": "After ErrBodyTooLong the buffered bytes stay; each further Receive reads once more, fails again and keeps at most one more read.", "quantifier": "all streams and repetitions", "why_tests_cant": "An unbounded sequence of calls after the error.", "anchors": ["protocol.go: ProtocolCodec.Receive"]}
{"id": "C73", "title": "Session.Send never encrypts", "statement": "The bytes written by Session.Send are the same with and without a public key.", "quantifier": "all sessions, keys and entities", "why_tests_cant": "Equality of outputs over all entities and keys.", "anchors": ["session.go: Send", "protocol.go: ProtocolCodec.Send"]}
{"id": "C74", "title": "nextID is lock-free", "statement": "The number of failed compare-and-swaps in nextID is at most the number of goroutines times the number of serial numbers returned.", "quantifier": "all schedules of any number of goroutines", "why_tests_cant": "Liveness over all schedules.", "anchors": ["session.go: nextID"]}
{"id": "C75", "title": "What an answer does, exactly", "statement": "An answer quoting a serial number other than 0 removes the first pending request with that number and invokes its callback; if none is pending nothing is invoked.", "quantifier": "all session states and answers", "why_tests_cant": "All states of the pending list.", "anchors": ["session.go: message, takeRequestContext"]}
{"id": "C76", "title": "Answers of the announced type do not crash the session", "statement": "The type assertions in Session.message never panic on messages whose body has the type of the header's message ID.", "quantifier": "all histories and interleavings", "why_tests_cant": "All message types in all histories.", "anchors": ["session.go: message"]}
{"id": "C77", "title": "What a session sends", "statement": "Every message sent by a session has the message ID of its body, property 0, no packet fields, and a terminal number that is 0 or was announced by a received message.", "quantifier": "all histories and interleavings of senders and receiver", "why_tests_cant": "The terminal number is read and written concurrently.", "anchors": ["session.go: Send, message"]}
{"id": "C78", "title": "The timer under any interleaving", "statement": "Under every interleaving of Update, Remove, SetExpiration and ticks the timer never panics, a key fires only when the deadline of one of its Updates has come, and at most once per Update.", "quantifier": "all interleavings of any number of goroutines", "why_tests_cant": "All interleavings, including overlapping Updates of one key.", "anchors": ["timer.go: CountdownTimer"]}
{"id": "C79", "title": "Deadlines wrap at 64 bits", "statement": "With any clock and timeout each tick fires exactly the keys whose deadline, computed in 64-bit arithmetic, has come; a timeout close to 2^63 expires immediately.", "quantifier": "all sequences of operations, all 64-bit clock readings and timeouts", "why_tests_cant": "Extreme timeouts over arbitrary histories.", "anchors": ["timer.go: Update, SetExpiration"]}
{"id": "C80", "title": "The expiration queue is a priority queue", "statement": "Push, Remove and Update of expirationQueue keep the heap order and the recorded positions, keep all other elements, and the front element has the least deadline.", "quantifier": "all queues of any size and all elements", "why_tests_cant": "Queues of any size and shape.", "anchors": ["timer.go: expirationQueue"]}
{"id": "C81", "title": "When multipart queries panic", "statement": "IsFull and Merge panic exactly when no part of any upload has been written for the terminal; in particular a history of Write and Merge calls runs to its end iff every Merge follows some Write for the same terminal.", "quantifier": "all histories of Write and Merge calls, all uploads", "why_tests_cant": "All histories.", "anchors": ["multipart.go: walkParts, IsFull, Merge"]}
{"id": "C82", "title": "What Merge yields in general", "statement": "Merge yields all parts written for the upload (also those beyond Sum and left over from earlier uploads with the same tag) in the order of their numbers, each with the data last written, laid over what the previous Merge of the upload yielded.", "quantifier": "all histories of Write and Merge calls for any uploads", "why_tests_cant": "Depends on leftovers of any earlier history.", "anchors": ["multipart.go: Merge, Write"]}
{"id": "C83", "title": "No history crashes the server", "statement": "Every history of operations on a server runs to its end without a crash, and every operation has exactly the effects (messages queued, handlers and callbacks run, timers refreshed, connections shut) that the history so far determines.", "quantifier": "all histories: any interleaving of connects, messages from the wire, sends, requests, closes, close callbacks, ticks and broadcasts of any number of sessions, with any multipart files left over", "why_tests_cant": "All histories.", "anchors": ["server.go", "session_handler.go", "session.go"]}
{"id": "C84", "title": "What the registry holds", "statement": "GetSession finds exactly the sessions that were accepted and whose close callback has not run.", "quantifier": "all histories: any interleaving of connects, messages from the wire, sends, requests, closes, close callbacks, ticks and broadcasts of any number of sessions, with any multipart files left over", "why_tests_cant": "All histories.", "anchors": ["server.go: GetSession, handleClose", "session_handler.go: HandleSession"]}
{"id": "C85", "title": "What a tick closes", "statement": "A tick closes exactly the registered open sessions whose last refresh (at accepting, or at a message that reached a handler) was at least the keepalive ago.", "quantifier": "all histories: any interleaving of connects, messages from the wire, sends, requests, closes, close callbacks, ticks and broadcasts of any number of sessions, with any multipart files left over", "why_tests_cant": "All histories.", "anchors": ["server.go: handleReadTimeout, dispatchMessage", "timer.go"]}
{"id": "C86", "title": "Close handler", "statement": "The close handler of a session runs at most once; it runs when the session is closed after its close callback was registered; the session is then out of the registry for good and out of the timer unless a later message of it is still handled.", "quantifier": "all histories: any interleaving of connects, messages from the wire, sends, requests, closes, close callbacks, ticks and broadcasts of any number of sessions, with any multipart files left over", "why_tests_cant": "All histories.", "anchors": ["server.go: handleClose", "session_handler.go: HandleSession"]}
{"id": "C87", "title": "When a packet hands over its upload", "statement": "A merging server passes an upload on exactly when the packet with the last number arrives while all other parts are on disk (also those of earlier uploads with the same tag); the data is what Merge yields.", "quantifier": "all histories: any interleaving of connects, messages from the wire, sends, requests, closes, close callbacks, ticks and broadcasts of any number of sessions, with any multipart files left over", "why_tests_cant": "Depends on any earlier uploads.", "anchors": ["session_handler.go: HandleSession", "multipart.go"]}
{"id": "C88", "title": "Every message sent", "statement": "Every message a session sends carries the terminal number of the last message of that session that was passed on (0 before), the next serial number of the session and the message ID of its body, and nothing is sent after the session is shut.", "quantifier": "all histories: any interleaving of connects, messages from the wire, sends, requests, closes, close callbacks, ticks and broadcasts of any number of sessions, with any multipart files left over", "why_tests_cant": "All histories.", "anchors": ["session.go: Send, Reply, Request, message"]}
{"id": "C89", "title": "Accepted keys", "statement": "NewServer accepts exactly no key or a key of 1017 to 1024 bits.", "quantifier": "all option values", "why_tests_cant": "All integers.", "anchors": ["server.go: NewServer"]}
{"id": "C90", "title": "Messages from the wire", "statement": "Every message that Decode accepts has a terminal number of 1 to 12 digits, fields in range, a packet item exactly when bit 13 is set and a body (if any) of the announced type, so that the properties of histories apply to it.", "quantifier": "all byte strings, all keys", "why_tests_cant": "All byte strings.", "anchors": ["protocol/message.go: Decode"]}
{"id": "C91", "title": "Request callbacks run at most once", "statement": "The callback of a call of Request runs at most once, and only for calls that were made.", "quantifier": "all histories: any interleaving of connects, messages from the wire, sends, requests, closes, close callbacks, ticks and broadcasts of any number of sessions, with any multipart files left over", "why_tests_cant": "All histories.", "anchors": ["session.go: Request, takeRequestContext, message"]}
{"id": "C92", "title": "Uploads without privileges", "statement": "A server process that may not enter directories of mode 0644 answers every packet of every upload with failure and never dispatches it.", "quantifier": "all histories of a merging server", "why_tests_cant": "Depends on the user running the tests.", "anchors": ["multipart.go: Write", "session_handler.go: HandleSession"]}
{"id": "C93", "title": "Bodies have the standard's wire layout", "statement": "Encoding a body yields exactly the fields JT/T 808 defines for its message type, in order: big-endian numbers of the given width, text in GB18030 with or without length prefix, zero-padded strings, BCD digits, local date and time in BCD, coordinates as absolute micro-degrees with hemisphere bits, counted lists. Conversely any body made of these fields, by whatever implementation, is decoded to the values of the fields. Bodies consist of bytes.", "quantifier": "all representable values of all 65 built-in types", "why_tests_cant": "Round-trip tests pass when encoder and decoder share the same mistake; interoperability is about all values.", "anchors": ["protocol/t808_0x*.go: Encode, Decode", "protocol/extra/*.go", "protocol/writer.go", "protocol/bufio.go"]}
{"id": "C94", "title": "Frames and headers have the standard's layout", "statement": "Encoding a message yields one frame: 0x7e, then the header (ID, property word, 12 BCD digits, serial number, packet fields if any), the body fields and the XOR checksum with 0x7e and 0x7d escaped, then 0x7e. Conversely any such frame, by whatever implementation, is decoded to the message. Frames consist of bytes, encrypted or not.", "quantifier": "all messages with representable header and unencrypted body up to 1023 bytes", "why_tests_cant": "Round-trip tests pass when encoder and decoder share the same mistake.", "anchors": ["protocol/message.go: Encode, Decode", "protocol/header.go"]}
{"id": "C95", "title": "Bytes become deliveries", "statement": "In the running process, whatever bytes arrive on however many connections, however reads cut them and goroutines interleave: the server inside goes through a history for which its properties are proved, the messages delivered on a session are a prefix of those its bytes say, and all of them once its goroutine has had enough moves; if the bytes end in an error the session is closed.", "quantifier": "all histories of the process: any number of sessions, any bytes, any interleaving of receiving, sending, timer, broadcasts and closing", "why_tests_cant": "Needs all interleavings and all ways to cut a stream.", "anchors": ["protocol.go: Receive, readFromBuffer", "session_handler.go: HandleSession", "server.go"]}
{"id": "C96", "title": "When bytes crash the process", "statement": "The process crashes only if the bytes of some session contain, behind messages that decode, a frame with a single byte, or if an entity whose encoder panics was passed to it for sending. Such bytes do crash it whatever else goes on, and any running process is one connection and three bytes away from a crash.", "quantifier": "all histories of the process, all bytes", "why_tests_cant": "The absence of any other cause is a statement about all byte strings and all histories.", "anchors": ["protocol/message.go: Decode", "session_handler.go: HandleSession", "protocol.go: Receive, Send"]}
{"id": "C97", "title": "Sent messages reach the wire in order", "statement": "What is written to a connection are the frames of the messages sent on its session, in order and without gaps; while the session is open at most 25 are outstanding, and Send finds the channel full only if at least 24 are. 25 rounds of the send loop write everything, or else the first message that cannot be encoded closes the session though its Send succeeded (or crashes the process). A terminal at the other end then receives exactly the messages sent.", "quantifier": "all histories of the process, all entities, all ways to cut the bytes", "why_tests_cant": "Needs all interleavings of senders and the send loop.", "anchors": ["session.go: Send", "protocol.go: Send", "server.go: Run"]}
{"id": "C98", "title": "Messages without a body", "statement": "Encoding a message whose body is nil panics, and the decoder produces such messages, so that encoding what was received can panic. A nil pointer of a body type is encoded as an empty body of that type, in clear even if a key is given, and arrives as what the empty body decodes to.", "quantifier": "all headers, keys, message types", "why_tests_cant": "Tests encode messages with bodies; the nil cases depend on the typed and untyped nil of Go.", "anchors": ["protocol/message.go: Encode, Decode"]}
{"id": "C99", "title": "Exactly which bodies are accepted", "statement": "For every message type, a body decoder accepts exactly the byte strings that begin with the fields of a body of that type as the standard lays them out, with the tolerances written down field by field (text cut at NUL, absent last text, unknown extra items skipped, bytes left over). It gives that body and reports that number of bytes. It refuses everything else with an error.", "quantifier": "all message types, all byte strings, all environments (character set, time zone, compressor)", "why_tests_cant": "The set of accepted inputs is infinite; a test shows single members of it, never that nothing else is accepted.", "anchors": ["protocol/t808_*.go: Decode", "protocol/extra", "protocol/bufio.go", "protocol/register.go"]}
{"id": "C100", "title": "Exactly which frames are messages", "statement": "A header is read from exactly the bytes that are its fields, with a terminal number that is not zero and packet fields exactly if bit 13 is set. A message is decoded from exactly the frames whose payload is that header followed by that body, deciphered block by block if bit 10 is set. A body whose length is not the announced one, or that is no body of the type, leaves a message without a body.", "quantifier": "all byte strings, all keys, all environments", "why_tests_cant": "Equivalence in both directions over all frames cannot be sampled.", "anchors": ["protocol/message.go: Decode", "protocol/header.go: Decode", "protocol/helpers.go"]}
{"id": "C101", "title": "Writing again what was read", "statement": "A body of a type without text, padding, extra items or compression (44 of the 65 types; RSA keys if the modulus fills its 128 bytes) that was decoded is encoded again to exactly the bytes it was decoded from, also with hemisphere flags on a zero coordinate. A frame with such a body and nothing after it is encoded again to the same frame.", "quantifier": "all accepted byte strings of these types, all headers, all environments", "why_tests_cant": "A test compares single frames; the claim is that no accepted frame changes when it is passed on.", "anchors": ["protocol/t808_*.go: Decode, Encode", "protocol/message.go: Decode, Encode"]}
{"id": "C102", "title": "Handling a packet file access by file access", "statement": "A connection that is alone turns every packet into what one uninterrupted call of Write, IsFull and Merge would: same files, same outcome, same content. Packets of several connections handled one after the other, in any order, are one of the schedules.", "quantifier": "all packets, all directory contents, all numbers of connections, all orders", "why_tests_cant": "Needs all file contents and packet sequences; the intermediate states are not visible to a test.", "anchors": ["session_handler.go: HandleSession", "multipart.go: Write, IsFull, Merge, walkParts"]}
{"id": "C103", "title": "Uploads on different connections do not disturb each other", "statement": "If no upload (terminal, message type, tag) is received on two connections, then under every interleaving of the file accesses of all connections each packet becomes what it would have become without the other connections, with the same content handed over.", "quantifier": "all schedules, all packets, all directory contents, any number of connections, also of the same terminal", "why_tests_cant": "A test sees few schedules; the claim is about every one.", "anchors": ["session_handler.go: HandleSession", "multipart.go: Write, IsFull, Merge, walkParts"]}
{"id": "C104", "title": "One upload on two connections", "statement": "If the packets of one upload are received on two connections, what is handed over is what some order of handling them one after the other gives.", "quantifier": "all schedules, all packets", "why_tests_cant": "The window between creating and writing a part file is too short for a test to hit.", "anchors": ["multipart.go: Write, IsFull, Merge", "session_handler.go: HandleSession"]}
{"id": "C105", "title": "What is written is what Send was given", "statement": "The bytes written for a message are a frame of the body as it was when Send was called.", "quantifier": "all histories of any number of callers, bodies and sessions", "why_tests_cant": "Whether the send loop is faster than the caller's next assignment is up to the scheduler.", "anchors": ["session.go: Send", "server.go: Broadcast", "protocol.go: Send", "protocol/message.go: Encode"]}
{"id": "C106", "title": "Shared bodies", "statement": "Bodies are pointers that callers, the queues of several sessions and the encoders share. What is written for a message has the header Send made and the content the body has at that moment; that is what Send was given unless the caller assigns to it in between, no matter how many sessions were sent the same body and how often it was encoded before (a 0x0801 may be sent only once). The type of a body never changes, and a message is written as the type it had when Send was called. Messages leave a session in the order they were taken, none twice, none that was not sent. At most 24 messages wait in a session; while it is open and fewer wait, a message is accepted; the first message refused found 24 waiting, unless the session was closed or its send loop had failed.", "quantifier": "all histories of any number of callers, bodies and sessions", "why_tests_cant": "A test sees few interleavings of callers and send loops.", "anchors": ["session.go: Send", "server.go: Broadcast", "protocol.go: Send", "protocol/message.go: Encode"]}
{"id": "C107", "title": "Serial numbers in order on the wire", "statement": "The messages of a session are written in the order of their serial numbers.", "quantifier": "all histories of any number of goroutines that send", "why_tests_cant": "Two goroutines must pass each other between two instructions.", "anchors": ["session.go: Send, nextID"]}
{"id": "C108", "title": "Serial numbers in order for one sender", "statement": "If calls of Send for a session do not overlap, its messages are written in the order of the calls and carry 1, 2, ..., 255, 1, ... without gaps, whatever the other sessions do, also when link refuses messages.", "quantifier": "all histories of any number of callers, bodies and sessions", "why_tests_cant": "Needs histories of every length.", "anchors": ["session.go: Send, nextID"]}
{"id": "C109", "title": "Registered types travel", "statement": "A body whose message ID the application registered is encoded with its own Encode and arrives, plain or encrypted, as what the last registration for the ID makes of its bytes, with the header that was sent. Frames whose ID was not registered are decoded, and bodies of the package encoded, as if nothing had been registered.", "quantifier": "all types of an application, sequences of Register calls, headers, bodies, keys", "why_tests_cant": "The application's types are arbitrary.", "anchors": ["protocol/register.go: Register", "protocol/message.go: Encode, Decode, decode"]}
{"id": "C110", "title": "Registering types cannot crash the server", "statement": "If the decoders of the registered types do not panic, no frame makes the goroutine of a session panic before the message is dispatched, and their bodies can be sent.", "quantifier": "all types of an application, sequences of Register calls, frames", "why_tests_cant": "A test would have to register just the types that do.", "anchors": ["protocol/register.go: Register", "protocol/message.go: Encode, Decode, decode", "session_handler.go: HandleSession", "session.go: message"]}
{"id": "C111", "title": "Registered types that are safe", "statement": "If the decoders of the registered types do not panic and make pointers, and the answers whose fields the server reads keep their types, Decode panics on the frames 7e x 7e only and no decoded message panics in the nil check or the type assertions. A message with a registered body answers no request of the server: the lookup of the answered serial panics if the body has the type of an answer or is no pointer, and otherwise yields zero.", "quantifier": "all types of an application, sequences of Register calls, frames, keys", "why_tests_cant": "Needs all frames and all types.", "anchors": ["protocol/register.go: Register", "protocol/message.go: Encode, Decode, decode", "session_handler.go: HandleSession", "session.go: message"]}
{"id": "C112", "title": "Registered extra items travel", "statement": "Extra items of types the application registered are written among those of the package and arrive in order as what the last registration for their ID makes of their bytes; nil items and unknown types are left out. Exactly the sequences of whole blocks whose decoders use all their bytes are read. Decoders of items that do not panic leave the decoder of 0x0200 free of panics.", "quantifier": "all item types of an application, sequences of Register calls, lists of items, bytes", "why_tests_cant": "The application's types are arbitrary.", "anchors": ["protocol/extra/register.go: Register", "protocol/extra/extra.go: Decode", "protocol/t808_0x0200.go: Encode, Decode"]}
{"id": "C113", "title": "No interleaving crashes", "statement": "With the goroutines of the server interleaved critical section by critical section, every history of received messages, calls, ticks, closings and returns runs to its end without a panic.", "quantifier": "all interleavings of goroutines, received messages, keepalives", "why_tests_cant": "The schedules cannot be enumerated.", "anchors": ["session_handler.go: HandleSession", "server.go: handleClose, handleReadTimeout, dispatchMessage, Broadcast", "session.go: Send, Reply, Request, message"]}
{"id": "C114", "title": "Registration and closing, interleaved", "statement": "A lookup finds a session exactly from its registration until its close callback takes it out; IDs are used once; the close callback is registered exactly if the session is still open, runs at most once, after the session is closed, and leaves the registry, then the timer, then calls the close handler.", "quantifier": "all interleavings of goroutines", "why_tests_cant": "Races between accept, lookup and close are rare.", "anchors": ["session_handler.go: HandleSession", "server.go: GetSession, handleClose, handleReadTimeout"]}
{"id": "C115", "title": "Sending and closing, interleaved", "statement": "link takes a message only for an accepted session that is not closed; timeouts, failed reads and refused messages close the session.", "quantifier": "all interleavings of goroutines", "why_tests_cant": "Needs every order of sends and closings.", "anchors": ["session.go: Send, Close", "session_handler.go: HandleSession", "server.go: handleReadTimeout"]}
{"id": "C116", "title": "Timer checks, interleaved", "statement": "A check hands over exactly the sessions whose deadline has passed, ordered by deadline; a deadline is the clock reading of the last completed Update plus the keepalive, with no later change of the session's entry.", "quantifier": "all interleavings of Updates, removals and checks in the server", "why_tests_cant": "Depends on how critical sections of several goroutines fall.", "anchors": ["timer.go: Update, Remove, checkExpirationQueue", "session_handler.go: HandleSession", "server.go: dispatchMessage"]}
{"id": "C117", "title": "Timer goroutine", "statement": "The timer goroutine calls back for the keys of one check after another, in order, and closes only sessions whose last Update before that check was at least the keepalive earlier.", "quantifier": "all interleavings of goroutines", "why_tests_cant": "Needs every order of checks, lookups and refreshes.", "anchors": ["timer.go: checkExpirationQueue", "server.go: handleReadTimeout"]}
{"id": "C118", "title": "A refreshed session is not timed out", "statement": "A session whose Update has completed is not closed by the timer unless a check has reached the new deadline.", "quantifier": "all interleavings of goroutines", "why_tests_cant": "The window between check and Close is small.", "anchors": ["timer.go: checkExpirationQueue, Update", "server.go: handleReadTimeout"]}
{"id": "C119", "title": "One message after the other", "statement": "The goroutine of a session registers it, then takes one message after the other, each through request callback, lookup, refresh and handler in that order; a packet of an upload is stored, then answered, then merged if it was the last, and only then passed on; the handler is the one registered last at the lookup; Reply returns after link has taken or refused the answer.", "quantifier": "all interleavings of goroutines", "why_tests_cant": "Other goroutines run between any two steps.", "anchors": ["session_handler.go: HandleSession", "server.go: dispatchMessage, AddHandler", "session.go: message, Reply"]}
{"id": "C120", "title": "Calls of Send, interleaved", "statement": "Each call of Send, Reply, Request or within Broadcast draws one serial number, 1 to 255 in the order of the draws of its session, and hands link one message with its own body, that number and the terminal number the session was last told when the call began.", "quantifier": "all interleavings of calls of any number of goroutines", "why_tests_cant": "Calls overlap in every way.", "anchors": ["session.go: Send, Reply, Request, nextID"]}
{"id": "C121", "title": "Requests, interleaved", "statement": "A request waits from its registration, after its message was taken, until its callback runs or a request of the same message ID replaces it; a message runs the callback of a waiting request whose number it quotes if there is one, else none; a callback runs once.", "quantifier": "all interleavings of requests and received messages", "why_tests_cant": "Answers can arrive at any point of a call.", "anchors": ["session.go: Request, message, addRequestContext, takeRequestContext"]}
{"id": "C122", "title": "Broadcast, interleaved", "statement": "Broadcast calls Send once for each session registered when it took its snapshot, one after the other, and returns how many link took, while sessions come and go.", "quantifier": "all interleavings of goroutines", "why_tests_cant": "Sessions close between snapshot and Send.", "anchors": ["server.go: Broadcast"]}
{"id": "C123", "title": "Answers are addressed to the sender", "statement": "An answer of the server carries the terminal number of the message it answers.", "quantifier": "all interleavings of goroutines, received messages", "why_tests_cant": "Holds for most messages a test would send.", "anchors": ["session_handler.go: HandleSession", "session.go: Reply, Send, message"]}
{"id": "C124", "title": "Everything gets done", "statement": "From every reachable state, without anything further from outside and if handlers and callbacks return, the goroutines of the server come to rest whatever the schedule, after a bounded number of steps. At rest no call of Send, Reply or Request, no Broadcast, no callback of the timer, no received message and no close callback is left undone.", "quantifier": "all histories, all schedules of the goroutines afterwards", "why_tests_cant": "Deadlocks and lost wakeups show up in rare schedules only.", "anchors": ["session_handler.go: HandleSession", "server.go: Broadcast, handleClose, handleReadTimeout, dispatchMessage", "session.go: Send, Reply, Request", "timer.go: Update, checkExpirationQueue"]}
{"id": "C125", "title": "Bytes and files drive the goroutines", "statement": "With the goroutines of sessions, senders, timer, close callbacks, send loops and file accesses interleaved step by step and any bytes arriving on any connections, what the server does is a history its goroutines can produce; C113-C124 apply to it.", "quantifier": "all bytes, connections, interleavings, files, keys", "why_tests_cant": "The space of schedules and byte streams cannot be enumerated.", "anchors": ["session_handler.go: HandleSession", "protocol.go: Receive, readFromBuffer, Send", "server.go: dispatchMessage, Broadcast, handleClose, handleReadTimeout"]}
{"id": "C126", "title": "Received messages, interleaved", "statement": "The messages a session's goroutine receives are a prefix of those the bytes on its own connection say, in order. It ends only if those bytes are wrong or too long, if a read fails, or if the session is closed and everything that came was received.", "quantifier": "all bytes, connections, interleavings", "why_tests_cant": "Needs every cut of the stream and every interleaving with other sessions.", "anchors": ["session_handler.go: HandleSession", "protocol.go: Receive, readFromBuffer"]}
{"id": "C127", "title": "Written frames, interleaved", "statement": "What is written to a connection are the frames of the messages link took on that session, in that order, none skipped; at most 25 are outstanding. link refuses a message only if the session is closed or 24 messages wait.", "quantifier": "all calls of Send by any number of goroutines, interleavings, write errors", "why_tests_cant": "Needs every interleaving of senders and send loops.", "anchors": ["session.go: Send", "protocol.go: Send"]}
{"id": "C128", "title": "Crashes, interleaved", "statement": "The process crashes only if the bytes of some session have come to a frame of one byte, or an entity whose encoder panics was passed to Send, Request or Broadcast.", "quantifier": "all bytes, calls, interleavings", "why_tests_cant": "A crash can need a particular schedule.", "anchors": ["protocol/message.go: Decode, Encode", "protocol.go: Receive, Send", "session_handler.go: HandleSession"]}
{"id": "C129", "title": "Uploads at the same time, interleaved", "statement": "If no upload is received on two sessions, every packet of every session is stored and merged with the result it would have had if the packets of that session had been handled one after the other with nothing in between.", "quantifier": "all bytes, sessions, schedules of file accesses and of all other goroutines, files", "why_tests_cant": "File accesses of several goroutines overlap in every way.", "anchors": ["multipart.go: Write, IsFull, Merge, walkParts", "session_handler.go: HandleSession"]}
{"id": "C130", "title": "The process comes to rest with everything done", "statement": "Left to itself from any reachable state, with bytes read as they come and writes that succeed, the process takes finitely many steps whatever the schedule and produces a bounded number of effects. When nothing moves any more, the goroutines have nothing left to do, every session has ended or is open and has received all that its bytes say, every message that was taken is written unless the session is closed, and every packet of an upload has been dealt with. Such a state can be reached from everywhere unless the process crashes on the way.", "quantifier": "all bytes, connections, calls, files and interleavings before and after", "why_tests_cant": "A deadlock or an endless loop may need one particular schedule; no test observes that something never happens.", "anchors": ["session_handler.go: HandleSession", "protocol.go: Receive, readFromBuffer, Send", "server.go: dispatchMessage, Broadcast, handleClose, handleReadTimeout", "multipart.go: Write, IsFull, Merge, walkParts"]}
{"id": "C131", "title": "Stored means in the file", "statement": "At the step at which the server counts a packet of an upload as stored, which it answers with success, the file of the packet exists and begins with its data, whatever the goroutines of other sessions do to the files meanwhile.", "quantifier": "all bytes, sessions, schedules of file accesses and of all other goroutines, files", "why_tests_cant": "File accesses of several goroutines overlap in every way.", "anchors": ["multipart.go: Write", "session_handler.go: HandleSession"]}
{"id": "C132", "title": "Only acknowledged packets make a message", "statement": "A message put together from packets and handed over consists of the data of packets that were answered with success, whatever calls of the file system failed.", "quantifier": "all histories of packets of any uploads, with any failing call at each", "why_tests_cant": "File system errors at chosen calls and byte counts cannot be provoked by a test run.", "anchors": ["multipart.go: Write", "multipart.go: IsFull", "multipart.go: Merge", "multipart.go: walkParts", "session_handler.go: HandleSession"]}
{"id": "C133", "title": "Uploads under file system errors", "statement": "With any failing calls the outcomes of the packets of an upload are those of the upload alone: each part file holds what the last attempt that opened it left, the check for 1..Sum is made when the packet numbered Sum was written, merging lays the parts in order over what earlier merges left; a packet is answered with failure exactly if it could not be written; other uploads and their failures do not matter.", "quantifier": "all histories of packets of any terminals, messages and tags, with any failing call at each", "why_tests_cant": "Unboundedly many histories and fault placements.", "anchors": ["multipart.go: Write", "multipart.go: IsFull", "multipart.go: Merge", "session_handler.go: HandleSession"]}
{"id": "C134", "title": "File system errors do not end the process", "statement": "No failing call of the file system while packets are handled ends the process.", "quantifier": "all histories of packets, with any failing call at each", "why_tests_cant": "The failing call must hit a particular moment of filepath.Walk.", "anchors": ["multipart.go: walkParts"]}
{"id": "C135", "title": "What can end the process while packets are stored", "statement": "The handling of packets ends the process only at a packet with Seq = Sum that was written, when the terminal's directory or a file in it is lost under the walk of IsFull or Merge; a loss under the walk of IsFull always does.", "quantifier": "all histories of packets, with any failing call at each", "why_tests_cant": "Absence of crashes over all fault placements.", "anchors": ["multipart.go: walkParts", "multipart.go: IsFull", "multipart.go: Merge", "session_handler.go: HandleSession"]}
{"id": "C136", "title": "Content under file system errors", "statement": "A message handed over without a failure in its own walk and merge begins with what the files of all parts hold, in ascending order, each of 1..Sum among them, and nothing follows if no earlier packet of the upload could have merged; if no write of the upload was cut short, each file holds the data of a packet of that number that was answered with success.", "quantifier": "all histories of packets, with any failing call at each", "why_tests_cant": "Unboundedly many histories and fault placements.", "anchors": ["multipart.go: Merge", "multipart.go: Write", "session_handler.go: HandleSession"]}
{"id": "C137", "title": "Flag methods of status and attribute words", "statement": "After any sequence of setter calls each bit of the word is what the last call for its flag said, or as it was before if there was none, and each getter returns the bit its flag has in the protocol; no call panics.", "quantifier": "all words, all sequences of setter calls, all flags", "why_tests_cant": "All 2^32 words times all call sequences.", "anchors": ["protocol/t808_0x0200.go: T808_0x0200_Status methods", "protocol/t808_0x8600.go: AreaAttribute methods", "protocol/t808_0x8606.go: T808_0x8606_SectionAttribute methods", "protocol/t808_0x8500.go: Flag"]}
{"id": "C138", "title": "BCD times where the clock changes", "statement": "In a location whose offset from UTC changes, a time that is encoded and decoded again is the same time, and bytes that are decoded and encoded again are the same bytes.", "quantifier": "all locations, all times from 2010 to 2099", "why_tests_cant": "Depends on the machine's time zone and on the hour; a test run uses one zone.", "anchors": ["protocol/helpers.go: toBCDTime", "protocol/helpers.go: fromBCDTime"]}
{"id": "C139", "title": "BCD times outside the doubled and the left-out hour", "statement": "A time whose reading the local clock shows only once survives encoding and decoding; a decoded time is one at which the clock shows the reading in the text, and it encodes to the same bytes, if the clock shows it at all, and otherwise the clock is ahead or behind by what it was put forward.", "quantifier": "all locations with at most one change within a day of the reading, both corrections used by Go's time.Date, all times from 2010 to 2099", "why_tests_cant": "All zones and all seconds of ninety years.", "anchors": ["protocol/helpers.go: toBCDTime", "protocol/helpers.go: fromBCDTime"]}
{"id": "C140", "title": "Zones without changes", "statement": "Where one offset is in force from the end of 2009 to the beginning of 2100, encoding and decoding of times are those of the model with a fixed offset.", "quantifier": "all locations with any changes before or after, all byte strings, all times in that range", "why_tests_cant": "All zones and all seconds of ninety years.", "anchors": ["protocol/helpers.go: toBCDTime", "protocol/helpers.go: fromBCDTime"]}
{"id": "C141", "title": "Expiry dates where the clock changes", "statement": "An expiry date of the driver message 0x0702 that is decoded and encoded again keeps its bytes.", "quantifier": "all locations, all dates", "why_tests_cant": "Needs a zone that changes at midnight and the date of such a change.", "anchors": ["protocol/t808_0x0702.go: Encode", "protocol/t808_0x0702.go: Decode"]}
{"id": "C142", "title": "Expiry dates with a midnight", "statement": "Where the local clock shows the midnight that begins the day, an expiry date is read as such a midnight and keeps its bytes.", "quantifier": "all locations with at most one change within a day, all dates of the years 1000 to 9999", "why_tests_cant": "All zones and all days.", "anchors": ["protocol/t808_0x0702.go: Encode", "protocol/t808_0x0702.go: Decode"]}
{"id": "C143", "title": "The example platform runs on", "statement": "Whatever connects, arrives or times out, and in whatever order its handlers get on, the example platform never crashes, and the calls it makes of the package are a history of the package, so that all properties of such histories hold of it.", "quantifier": "all histories of connections, messages decoded from any bytes, ticks, closings and full queues; all interleavings of the calls inside handlers", "why_tests_cant": "All message sequences and interleavings.", "anchors": ["example/server/server.go: main", "example/server/server.go: handleAuthentication", "example/server/server.go: handleUploadMediaPacket"]}
{"id": "C144", "title": "What the example platform says", "statement": "The bodies sent on a session are, in order, the beginning of the answers that a table prescribes for the messages received on it, and all of them once the handler has returned, unless the session was shut.", "quantifier": "all histories of the example platform, all sessions", "why_tests_cant": "All message sequences on any number of sessions.", "anchors": ["example/server/server.go: handleAuthentication", "example/server/server.go: handleReportLocation", "example/server/server.go: handleUploadMediaPacket", "example/server/server.go: handleUploadRsaPublicKey"]}
{"id": "C145", "title": "Panics in the example platform", "statement": "No handler of the example platform panics; the callback of its query panics exactly if it is given a message that is not 0x0104.", "quantifier": "all histories of the example platform", "why_tests_cant": "All messages that can be decoded.", "anchors": ["example/server/server.go: handleAuthentication", "example/server/server.go: handleReportLocation", "example/server/server.go: handleUploadMediaPacket", "example/server/server.go: handleUploadRsaPublicKey"]}
{"id": "C146", "title": "The query gets the parameters", "statement": "The callback of the example platform's query is given the message 0x0104 that answers it.", "quantifier": "all histories of the example platform", "why_tests_cant": "Needs a terminal that confirms the query first.", "anchors": ["example/server/server.go: handleAuthentication", "session.go: message"]}
{"id": "C147", "title": "Files of whole packets", "statement": "The example terminal cuts a file of 1 to 65535 times 512 bytes into packets that every receiver reads as the numbered pieces of the file, with the position and the file's number.", "quantifier": "all files of that size, all times from 2010 to 2099", "why_tests_cant": "All files up to 32 MB.", "anchors": ["example/client/client.go: main"]}
{"id": "C148", "title": "Any file", "statement": "The example terminal cuts any file into packets.", "quantifier": "all files", "why_tests_cant": "The program uses one file of 2048 zero bytes.", "anchors": ["example/client/client.go: main"]}
{"id": "C149", "title": "Greeting", "statement": "Every receiver reads the first three messages of the example terminal as authentication with code 12345678, its position (with the flag for west) and its key, numbered 1 to 3.", "quantifier": "all keys of 1017 to 1024 bits, all times from 2010 to 2099, all receivers", "why_tests_cant": "All keys and times.", "anchors": ["example/client/client.go: main"]}
{"id": "C150", "title": "Answer of the example terminal", "statement": "A query 0x8104 is answered with five parameters that quote its serial number and that every receiver reads as such; no other message is answered.", "quantifier": "all messages, all serial numbers", "why_tests_cant": "All serial numbers.", "anchors": ["example/client/client.go: main"]}
{"id": "C151", "title": "The dialogue of the examples", "statement": "A session on which the platform hears the greeting, the file in packets and answers to queries is told: confirmations, one query, the key, a confirmation for each packet and the receipt for the file; the media handler runs once for the file, and with the whole of it.", "quantifier": "all files of whole packets, all interleavings with other sessions that do not upload the same file, all earlier uploads of other files", "why_tests_cant": "All files and all interleavings.", "anchors": ["example/server/server.go: handleUploadMediaPacket", "example/client/client.go: main", "multipart.go: Write", "session_handler.go: HandleSession"]}
{"id": "C152", "title": "An answer reaches its callback", "statement": "The first message that quotes the serial number of a sent request runs the callback of that request, with that message, if no other request of the session had the number and no later request of the same type replaced it.", "quantifier": "all histories of a server, all requests, all answers", "why_tests_cant": "All histories between request and answer.", "anchors": ["session.go: Request", "session.go: message", "session.go: takeRequestContext", "session.go: addRequestContext"]}
{"id": "C153", "title": "Parameters reach the example platform", "statement": "On a session that authenticates once, the first message quoting the query's serial number, if it is 0x0104, is given to the callback, which does not panic.", "quantifier": "all histories of the example platform", "why_tests_cant": "All histories between query and answer.", "anchors": ["example/server/server.go: handleAuthentication", "session.go: message"]}
{"id": "C154", "title": "Whole operations are interleavings", "statement": "Everything that a history of whole messages, ticks, broadcasts, requests and closings shows (connections, messages, calls, sends, answers, handler calls, refreshes, closings, counts), the interleaved goroutines of the server can show in the same order; and they can show more than that.", "quantifier": "all histories in which a session is accepted once, registers its close callback once and then receives; all names of callbacks", "why_tests_cant": "All histories and all interleavings.", "anchors": ["server.go: Broadcast", "server.go: dispatchMessage", "server.go: handleClose", "server.go: handleReadTimeout", "session_handler.go: HandleSession", "session.go: Send", "session.go: Request", "session.go: message"]}
{"id": "C155", "title": "Simultaneous encodings of a shared body", "statement": "When several send loops encode one body at the same moment, each of them gets the encoding of the body, and afterwards the body is as one Encode leaves it.", "quantifier": "all bodies, all numbers of send loops, all orders of their loads and stores", "why_tests_cant": "A lost update needs one particular order of four memory accesses of two goroutines.", "anchors": ["session.go: Send", "server.go: Broadcast", "protocol.go: Send", "protocol/bit.go: SetBitUint16", "protocol/bit.go: SetBitUint32", "protocol/t808_0x8600.go: Encode", "protocol/t808_0x8602.go: Encode", "protocol/t808_0x8604.go: Encode", "protocol/t808_0x0200.go: Encode", "protocol/t808_0x0705.go: Encode"]}
{"id": "C156", "title": "When simultaneous encodings are right", "statement": "Any number of send loops encoding one body in any order each get its encoding exactly if, in every status or attribute word, every hemisphere bit the coordinates need, but for the first they need, was already set by the caller; then the body afterwards is as one Encode leaves it. One encoder alone always gets the encoding and leaves the body as stated.", "quantifier": "all bodies but 0x0801, all numbers of send loops, all orders of their loads and stores", "why_tests_cant": "All interleavings of any number of goroutines.", "anchors": ["session.go: Send", "server.go: Broadcast", "protocol.go: Send", "protocol/bit.go: SetBitUint16", "protocol/bit.go: SetBitUint32", "protocol/t808_0x8600.go: Encode", "protocol/t808_0x8602.go: Encode", "protocol/t808_0x8604.go: Encode", "protocol/t808_0x0200.go: Encode", "protocol/t808_0x0705.go: Encode"]}
{"id": "C157", "title": "Bounds and repair of simultaneous encodings", "statement": "In any order of the loads and stores, a status or attribute word that is written has all bits of the caller, has the first hemisphere bit its coordinates need, and no bit that is neither the caller's nor needed; and whatever the send loops have left of the body, a later undisturbed Encode returns the encoding of the original body and leaves the body as one Encode of the original does.", "quantifier": "all bodies (the second part: but 0x0801), all numbers of send loops, all orders of their loads and stores", "why_tests_cant": "All interleavings of any number of goroutines.", "anchors": ["session.go: Send", "server.go: Broadcast", "protocol.go: Send", "protocol/bit.go: SetBitUint16", "protocol/bit.go: SetBitUint32", "protocol/t808_0x8600.go: Encode", "protocol/t808_0x8602.go: Encode", "protocol/t808_0x8604.go: Encode", "protocol/t808_0x0200.go: Encode", "protocol/t808_0x0705.go: Encode"]}
{"id": "C158", "title": "Run and Stop", "statement": "No call of Run or Stop panics; a Run is refused only while another Run is in progress; once Stop has returned, no Run called before it begins to serve; and once Stop and every Run have returned, no listener is open.", "quantifier": "all numbers of calls, all orders of their accesses to the field `server`", "why_tests_cant": "Needs two calls inside a few instructions of each other, or a listener that fails.", "anchors": ["server.go: Run", "server.go: Stop"]}
{"id": "C159", "title": "Run and Stop in turn", "statement": "If no call begins while a Stop is under way or a Run has not reached Serve, then no call panics, the open listener is the one in the field whenever no call is at work, Stop leaves no listener open and makes every Run return at its next step, and a Run that finds the field empty serves a listener of its own, whatever port it is given.", "quantifier": "all histories in which calls begin in turn, including failing listens and failing accepts", "why_tests_cant": "All histories.", "anchors": ["server.go: Run", "server.go: Stop"]}
{"id": "C160", "title": "Run and Stop in any order", "statement": "In any order of the accesses Run is refused exactly if the last write of the field was an assignment; a call panics exactly where it reads the field the second time and the last write was that of a Stop; and a listener that is open, not in the field and not about to be put there stays open for ever, is served by no call, and its port can not be listened on again; and a call of Run is refused, fails to listen, or listens, serves and returns, each at most once and in this order.", "quantifier": "all histories", "why_tests_cant": "All interleavings of any number of calls.", "anchors": ["server.go: Run", "server.go: Stop"]}
{"id": "C161", "title": "What the files hold after faults and crashes", "statement": "Whatever fails and whenever the process ends, the file of a part is there exactly if it was ever opened and holds what the writes since left, the merged file holds what was copied into it, a merge begins only when all parts 1..Sum are there, what is copied is the beginning or all of a part and leaves no gap, what is handed over is the merged file, and no byte of a message comes from another upload. Without faults the goroutines move as in C101-C104.", "quantifier": "all histories of connections with any packets, of moves of their goroutines one file access at a time, each with any fault, and of ends of the process", "why_tests_cant": "Needs the process to end, or a call to fail, at every instruction of every interleaving.", "anchors": ["session_handler.go: HandleSession", "multipart.go: Write", "multipart.go: IsFull", "multipart.go: Merge"]}
{"id": "C162", "title": "What was answered with success stays", "statement": "A packet that was written undisturbed and answered with success is in its file, byte for byte, until another packet for the same part comes, whatever calls fail, goroutines merge or processes end in between.", "quantifier": "all histories of connections with any packets, of moves of their goroutines one file access at a time, each with any fault, and of ends of the process", "why_tests_cant": "All crashes.", "anchors": ["session_handler.go: HandleSession", "multipart.go: Write", "multipart.go: IsFull", "multipart.go: Merge"]}
{"id": "C163", "title": "A merge among faults and crashes", "statement": "A message handed over by a merge during which no other goroutine changes files of the upload consists of all parts as they were when the merge began, in the order of their numbers, over what earlier merges left; if every part ever opened was last written undisturbed and with success, it consists of the data of the last packets answered with success, among them one for every number 1..Sum.", "quantifier": "all histories of connections with any packets, of moves of their goroutines one file access at a time, each with any fault, and of ends of the process", "why_tests_cant": "All interleavings, faults and crashes before the merge.", "anchors": ["session_handler.go: HandleSession", "multipart.go: Write", "multipart.go: IsFull", "multipart.go: Merge"]}
{"id": "C164", "title": "Sending everything again", "statement": "After any history all packets of an upload, sent again in order on a new connection that is served alone and without faults, are answered with success and lead to a message of their data with any older parts of other numbers around them, over what earlier merges left; to exactly their data if there are no such parts and no longer merged file.", "quantifier": "all histories before, all uploads of 1..65535 packets", "why_tests_cant": "Any state the crashes may leave behind.", "anchors": ["session_handler.go: HandleSession", "multipart.go: Write", "multipart.go: IsFull", "multipart.go: Merge"]}
{"id": "C165", "title": "Messages of received packets only", "statement": "A message is handed over only when every one of its packets has been answered with success.", "quantifier": "all histories of connections with any packets, of moves of their goroutines one file access at a time, each with any fault, and of ends of the process", "why_tests_cant": "Needs the process to end between two system calls.", "anchors": ["session_handler.go: HandleSession", "multipart.go: Write", "multipart.go: IsFull", "multipart.go: Merge"]}
{"id": "C166", "title": "Damaged frames are refused", "statement": "A frame one byte of which was changed on the way is refused.", "quantifier": "all encoded messages, all positions, all other byte values", "why_tests_cant": "Single byte errors in one frame can be tried, not in all frames.", "anchors": ["protocol/message.go: Decode", "protocol/message.go: Encode"]}
{"id": "C167", "title": "Damaged frames, exactly", "statement": "A frame one byte of which, between the delimiters, arrived as another byte other than a delimiter is refused exactly unless 0x7c became 0x7d, or 0x7d became 0x7c, in front of 0x01 or 0x02; it is then read as a frame whose payload is one byte shorter or longer at that place.", "quantifier": "all payloads, all positions, all byte values", "why_tests_cant": "All payloads.", "anchors": ["protocol/message.go: Decode", "protocol/message.go: Encode"]}
{"id": "C168", "title": "No wrong body from a damaged frame", "statement": "Of the frame of a message with a body and clear reserved bits, one byte of which between the delimiters arrived as another byte other than a delimiter, no body is decoded: it is refused or gives a message without a body, with whatever key it is received.", "quantifier": "all messages, all positions, all byte values, all receivers", "why_tests_cant": "All messages of all types.", "anchors": ["protocol/message.go: Decode", "protocol/message.go: Encode"]}
{"id": "C169", "title": "One damaged byte in a stream", "statement": "If one byte of a stream of messages, be it a delimiter, arrives as any other byte, a receiver gets, however the stream is cut into reads, the messages in front of the damaged one and then either nothing more, or that message unharmed or one message without a body and then either nothing more or all messages behind it.", "quantifier": "all sequences of messages with a body, all positions, all byte values, all segmentations", "why_tests_cant": "All streams, all positions of the damage, all segmentations.", "anchors": ["protocol/message.go: Decode", "protocol/message.go: Encode", "protocol.go: Receive"]}
{"id": "C170", "title": "Errors of received frames, exactly", "statement": "Message.Decode returns the error for an invalid message exactly for bytes that are not delimited or hold a stray escape byte, the checksum error exactly if the checksum is wrong or nothing is in front of it, the header error exactly for payloads under twelve bytes, the number error exactly for terminal numbers of zeros or with a digit above nine, the end of file error exactly if packet fields are announced and missing, and the decryption error exactly for encrypted bodies of the announced length that cannot be opened; all other bytes are a message, except the frames with a single byte inside.", "quantifier": "all byte sequences, all keys", "why_tests_cant": "All byte sequences.", "anchors": ["protocol/message.go: Decode", "protocol/header.go: Decode"]}
{"id": "C171", "title": "Bodies that cannot be encoded, exactly", "statement": "The Encode method of a built-in body returns an error exactly if a text other than the number of 0x8400 cannot be written in GB18030, the modulus of a public key does not have 128 bytes, or the reader of an upload fails; it panics exactly if a terminal parameter is nil.", "quantifier": "all bodies of all built-in types", "why_tests_cant": "All bodies of sixty types.", "anchors": ["protocol/t808_0x0100.go: Encode", "protocol/t808_0x0104.go: Encode", "protocol/t808_0x0a00.go: Encode", "protocol/t808_0x0801.go: Encode", "protocol/t808_0x8103.go: Encode", "protocol/t808_0x8302.go: Encode"]}
{"id": "C172", "title": "Messages that cannot be encoded, exactly", "statement": "Message.Encode returns an error exactly if the body cannot be encoded, a block of it cannot be encrypted or the length of the result modulo 65536 exceeds 1023; it panics exactly for a nil body, a nil parameter, a key of at most 42 bytes and a packet flag without packet fields; otherwise it yields the frame of the header and the body.", "quantifier": "all messages, all keys", "why_tests_cant": "All messages and keys; keys too short for OAEP are not tried.", "anchors": ["protocol/message.go: Encode", "protocol/helpers.go: EncryptOAEP", "protocol/helpers.go: bytesSplit"]}
{"id": "C173", "title": "Terminals do not disturb each other", "statement": "Whatever other terminals send, the messages, answers, handler calls, timeouts and bytes of a connection are what they would be if the others had never connected.", "quantifier": "all histories of a process with any number of connections, all byte sequences", "why_tests_cant": "The number of interleavings of several connections and all their bytes.", "anchors": ["server.go: Server", "session_handler.go: HandleSession", "session.go: Session", "multipart.go: MultipartFile", "timer.go: CountdownTimer", "protocol.go: codec"]}
{"id": "C174", "title": "Terminals do not disturb each other, exactly", "statement": "As long as the process runs, the messages taken from a connection, the effects of the server on it (answers, callbacks, handlers, timer refreshes, closing) and the bytes written to it are exactly those of the history in which the operations of all other connections are left out, provided that merging is off or no other connection sends upload packets under a terminal number that this one uses for uploads; hence they agree in any two histories that agree on the operations of the connection and of the server as a whole.", "quantifier": "all histories of a process with any number of connections, all byte sequences, both settings of merging", "why_tests_cant": "The number of interleavings of several connections and all their bytes.", "anchors": ["server.go: Server", "session_handler.go: HandleSession", "session.go: Session", "multipart.go: MultipartFile", "timer.go: CountdownTimer", "protocol.go: codec"]}
{"id": "C175", "title": "Critical sections are atomic", "statement": "However the statements of any number of goroutines inside and outside the critical sections of the server, the timer and the sessions are interleaved, no statement panics, and the sections executed one after another, each at once, in the order in which the mutexes were taken, give every goroutine the answers it got and leave the data behind every free mutex as they are. An Update computes its deadline first, then removes the old element and then enters the new one with that deadline.", "quantifier": "all interleavings of statements of any number of goroutines, all calls and arguments, all clocks", "why_tests_cant": "The number of interleavings.", "anchors": ["server.go: Server.mutex, GetSession, Broadcast, handleClose", "session_handler.go: HandleSession", "timer.go: Update, Remove, checkExpirationQueue", "session.go: addRequestContext, takeRequestContext"]}
{"id": "C176", "title": "No deadlock", "statement": "A mutex is taken again only after its owner has left the section; a goroutine that holds a mutex holds no other and waits for none; a goroutine in the middle of a call can go on or waits for another one that can go on; a mutex is released after at most four statements per entry of its data and four more of its owner; from every state all calls in progress can be completed.", "quantifier": "all interleavings of statements of any number of goroutines, all calls and arguments, all clocks", "why_tests_cant": "The number of interleavings; absence of a blocked state cannot be observed.", "anchors": ["server.go: Server.mutex, GetSession, Broadcast, handleClose", "session_handler.go: HandleSession", "timer.go: Update, Remove, checkExpirationQueue", "session.go: addRequestContext, takeRequestContext"]}
{"id": "C177", "title": "No data race on guarded data", "statement": "A goroutine whose next statement changes or depends on the map of sessions, the timer's queue and map or a session's requests holds the mutex for it; so never two goroutines are about to use the same of these data.", "quantifier": "all interleavings of statements of any number of goroutines, all calls and arguments, all clocks", "why_tests_cant": "A race detector sees the interleavings that happen.", "anchors": ["server.go: Server.mutex, GetSession, Broadcast, handleClose", "session_handler.go: HandleSession", "timer.go: Update, Remove, checkExpirationQueue", "session.go: addRequestContext, takeRequestContext"]}
{"id": "C178", "title": "The public key is not stored while it is used", "statement": "Never is one goroutine about to store the public key of a connection while another one is about to do something that depends on it.", "quantifier": "all interleavings of SetPublicKey and ProtocolCodec.Send, all messages and keys", "why_tests_cant": "A race detector sees the interleavings that happen.", "anchors": ["protocol.go: ProtocolCodec.Send, SetPublicKey, publicKey", "session.go: Send, SetPublicKey"]}
{"id": "C179", "title": "A message is encoded with one key", "statement": "The result of ProtocolCodec.Send is that of encoding with a key that the field had at some moment of the call, although the field is loaded twice; for messages of Session.Send it is the same whatever is stored meanwhile, and the sending goroutine never depends on the key.", "quantifier": "all interleavings of SetPublicKey and ProtocolCodec.Send, all messages and keys", "why_tests_cant": "The number of interleavings, all keys and messages.", "anchors": ["protocol.go: ProtocolCodec.Send, SetPublicKey, publicKey", "session.go: Send, SetPublicKey"]}
{"id": "C180", "title": "Messages share no memory with the receive buffer", "statement": "With arrays that have addresses and slices that are windows into them: calls of Receive give the results they give when bytes are values, whatever the holders of messages received earlier store in the bytes of those (or append to them); a message comes with the slice its body was decoded from; later calls of Receive and the holders of other messages never change a byte of it.", "quantifier": "all bytes, all ways they are split into reads of at most 128, all ways the buffer grows, all stores by holders of messages, all environments and keys", "why_tests_cant": "Sharing shows only when an array is reused in a particular way; the number of histories.", "anchors": ["protocol.go: Receive, readFromBuffer", "protocol/message.go: Message.Decode"]}
{"id": "C181", "title": "RSA-OAEP keeps the encryption contract", "statement": "With RSAES-OAEP (SHA-1, empty label) worked out down to the hash and the modular power: for every key whose modulus is a product of distinct primes and whose exponents undo each other modulo every prime less one, encryption succeeds on up to size-42 bytes, yields bytes of the key's size, and the private key gives the text back. With the 1024-bit keys the server takes, a body of up to 602 bytes arrives encrypted and cannot be read without the key; a longer one is refused. A public key sent in a message 0x8A00 or 0x0A00 is read by the other side as one that encrypts for the private key.", "quantifier": "all such keys (two or more primes), all random seeds, all messages", "why_tests_cant": "The keys and seeds cannot be enumerated; that every key works is number theory.", "anchors": ["protocol/helpers.go: EncryptOAEP, DecryptOAEP", "protocol/message.go: Encode, Decode", "protocol/t808_0x8a00.go", "protocol/t808_0x0a00.go", "server.go: NewServer"]}
{"id": "C182", "title": "Exactly the bodies that are too short are refused as invalid", "statement": "Decode of a built-in type returns ErrInvalidBody exactly when the body has fewer bytes than the fixed number of its type; every other refusal has another error. A batch of positions (0x0704) is also refused with it when the first item that cannot be read has fewer than 28 bytes.", "quantifier": "all 65 types, all bodies", "why_tests_cant": "All lengths and contents; the many branches in which a later read fails.", "anchors": ["protocol/t808_0x*.go: Decode", "protocol/errors.go"]}
{"id": "C183", "title": "GB18030 keeps the text contract", "statement": "With the GB18030 encoder and decoder worked out over UTF-8, a text survives being written and read exactly when it is valid UTF-8 without NUL; its size is the sum of 1, 2 or 4 bytes per character; writing never fails and uses the codes of the standard, U+FFFD for a byte at which no UTF-8 begins; reading never fails, yields UTF-8 without NUL from any bytes, and U+FFFD for a byte at which no code begins.", "quantifier": "all strings, all byte strings, all tables in which the decoder undoes the encoder", "why_tests_cant": "All sequences of 1112064 characters, and all invalid ones.", "anchors": ["protocol/bufio.go:67-76", "protocol/bufio.go:159-176", "protocol/params.go:55-66"]}
{"id": "C184", "title": "A driver's number that is too long", "statement": "A driver's number of more than 20 bytes in GB18030 is not refused: as many characters arrive as fit into 20 bytes, and of the character that was cut nothing, U+FFFD, U+FFFD and a digit, or U+FFFD, a digit and U+FFFD; the rest of the message is as sent.", "quantifier": "all driver identities, all numbers whose code is longer than 20 bytes", "why_tests_cant": "Every place at which a code of two or four bytes can be cut.", "anchors": ["protocol/t808_0x0702.go:41-149", "protocol/bufio.go:26-45"]}
{"id": "C185", "title": "A terminal cannot tell whether others exist", "statement": "Whatever other terminals do and however all goroutines interleave, everything a connection notices (bytes that arrive and are written, messages, answers, handlers, numbers of its requests and their results, checks of the timer, closing) can also happen in a process to which no other terminal ever connects, and conversely; the only condition is that, with merging, no upload of the connection is received on another connection too.", "quantifier": "all interleavings of the goroutines of any number of connections, all byte streams, all environments", "why_tests_cant": "Interleavings of unboundedly many connections cannot be enumerated, and an existing counterpart for each has to be found.", "anchors": ["server.go", "session.go", "session_handler.go", "timer.go", "protocol.go:101-133", "multipart.go"]}
{"id": "C186", "title": "The repository's tests", "statement": "All tests of the repository pass at any moment of the years 2010 to 2099, in any zone and whatever the tables of GB18030 are: what the tests of bodies decode is the value they built, as Encode left it; the tests that do not compare run without errors, and those of 0x0200, 0x0201, 0x0500 and 0x0801 would fail if they compared; the test of uploads finds its upload complete and merges it, whatever was stored before.", "quantifier": "all moments, zones, tables of GB18030, earlier uploads", "why_tests_cant": "The tests run at one moment, in one zone, on one disk.", "anchors": ["test/t808_0x*_test.go", "multipart_test.go"]}
{"id": "C187", "title": "Sessions of link are safe", "statement": "In a session of link, as its published source has it, with any number of goroutines calling Send, Close and AddCloseCallback in any interleaving of their statements: nobody panics by sending on a closed channel or closing one twice; messages are taken and written in the order in which they were accepted, each at most once, and at most 24 wait; a Send that returned nil put its message into the queue once, one that returned an error did not, and errors are returned only when somebody closed the session; one goroutine closes, then the codec is closed, then the callbacks are invoked, each once; calls that begin after that are not accepted; the callbacks added before the invocation are called in order, each at most once, and no others; nobody adds one while they are being called.", "quantifier": "all capacities, all sets of calls, all interleavings of statements", "why_tests_cant": "The interleavings that matter need a goroutine to stop between two statements of the library.", "anchors": ["session.go:70-86", "session.go:115-117", "session_handler.go:30-41", "server.go:76", "protocol.go:52-98"]}
{"id": "C188", "title": "Sessions of link come to rest", "statement": "Without new calls a session of link executes a bounded number of statements. When nothing can go on, every call has returned (there is no deadlock); if nobody closed the session, every accepted message has been written; if somebody did, the codec is closed, the send loop has ended, and all callbacks added before their invocation have been called.", "quantifier": "all capacities, all reachable states", "why_tests_cant": "A deadlock or a send loop that never ends shows only in rare interleavings.", "anchors": ["session.go:70-86", "session.go:115-117", "session_handler.go:30-41", "server.go:76"]}
{"id": "C189", "title": "Calls of link happen at one moment", "statement": "Whatever the interleaving, what is observed of a session of link can be rearranged, keeping the order of calls and returns, the order of what happens to the queue and what each goroutine did, into what a session shows whose calls happen at one moment each: open, it accepts messages while there is room and refuses nothing; closed, it accepts nothing. This is what the models of the server assume.", "quantifier": "all capacities, all interleavings of statements", "why_tests_cant": "A message can be put into the queue after the session was marked as closed; a test would have to stop a goroutine in between.", "anchors": ["session.go:70-86", "session.go:115-117", "server.go:76"]}
{"id": "C190", "title": "Which files count as parts", "statement": "A file in a terminal's directory counts as part k of an upload exactly when the text before its first dot is three texts with dashes between them, the first is the message ID as it is usually written, the second is read as a number that is the tag modulo 2^32, the third is read as a number that is k modulo 2^16, and the name ends in .part (a second extension in between is allowed). Reading a number means: an optional plus sign, then digits; what is not a number is read as 0, what exceeds 63 bits as 2^63-1, also when other characters follow after 64 bits have been exceeded. A name counts as at most one number. The upload is full exactly when for every number from 1 to the declared sum some file counts as it. The names Write gives count as that part of that upload and as nothing else; but files Write never makes count too.", "quantifier": "all file names and directories, all uploads", "why_tests_cant": "The names that matter are those nobody thinks of writing a test for.", "anchors": ["multipart.go:37-48", "multipart.go:97-105", "multipart.go:108-133"]}
{"id": "C191", "title": "The cipher is that of the standards", "statement": "The digest used with RSA is the one of FIPS 180-4, described bit by bit: each message has exactly one, and it is the one computed. A text is encrypted exactly when it is at most the size of the modulus less 42 bytes; the ciphertext has the size of the modulus and stands for the e-th power, modulo n, of the text padded as RFC 8017 describes. Bytes are decrypted to a text exactly when their d-th power modulo n is that text padded with some seed, they are no longer than the modulus and stand for a number not above it.", "quantifier": "all messages of less than 2^61 bytes, all keys with a modulus of less than 2^32 bytes and 2 <= e < 2^31, all seeds of 20 bytes", "why_tests_cant": "A wrong cipher used on both sides still gives every text back; a test vector covers one input.", "anchors": ["protocol/helpers.go: EncryptOAEP, DecryptOAEP", "protocol/message.go:34", "protocol/message.go:159"]}
{"id": "C192", "title": "Memory reserved for lists", "statement": "A body makes its decoder reserve room for no more list elements than the body can hold.", "quantifier": "all message types, all bodies", "why_tests_cant": "A test that fails to allocate would need a small machine; the reserved room is not visible in the result.", "anchors": ["protocol/t808_0x0704.go:56", "protocol/t808_0x0705.go:88", "protocol/t808_0x0802.go:84", "protocol/t808_0x0805.go:76", "protocol/t808_0x8604.go:148", "protocol/t808_0x0104.go:58", "protocol/t808_0x8600.go:170"]}
{"id": "C193", "title": "Memory reserved for lists, exactly", "statement": "A body that is accepted makes its decoder reserve room for exactly the elements it holds, and all of them are in the body. Any other body reserves room for the number in its count field if decoding gets that far, which is at most 65535 elements, and at most 255 in all types but 0x0704, 0x0705, 0x0802, 0x0805 and 0x8604.", "quantifier": "all message types, all bodies", "why_tests_cant": "The reserved room is not visible in the result of a decoder.", "anchors": ["protocol/t808_0x0704.go:56", "protocol/t808_0x0705.go:88", "protocol/t808_0x0802.go:84", "protocol/t808_0x0805.go:76", "protocol/t808_0x8604.go:148", "protocol/t808_0x0104.go:58", "protocol/t808_0x8600.go:170"]}
{"id": "C194", "title": "Work to find frames is proportional to the input", "statement": "The number of bytes compared with the delimiter while receiving is at most a constant times the number of bytes received.", "quantifier": "all streams and all ways they are split into reads", "why_tests_cant": "The result is the same however much work was done.", "anchors": ["protocol.go:101-133", "protocol.go:136-185"]}
{"id": "C195", "title": "Work to find frames, exactly", "statement": "A frame of n bytes that arrives byte by byte takes n(n+1)/2 comparisons. In general, if the stream never has f bytes in a row without a delimiter, a session makes at most one comparison per byte received, plus f for every read, twice, plus f+1. Counting changes nothing about what is received.", "quantifier": "all streams and all ways they are split into reads, all keys and environments", "why_tests_cant": "The result is the same however much work was done; the bound is over all splits.", "anchors": ["protocol.go:101-133", "protocol.go:136-185"]}
{"id": "C196", "title": "Uploads that are finished leave nothing behind", "statement": "When every upload has been merged and handed over, none of its files is left in the file system.", "quantifier": "all sequences of writes and merges", "why_tests_cant": "A test looks at the messages, not at the directory of temporary files, and runs for a moment.", "anchors": ["multipart.go:51-133", "session_handler.go:81-112"]}
{"id": "C197", "title": "What uploads leave behind, exactly", "statement": "At any time the number of files is the number of different parts ever written plus the number of different uploads ever merged; their bytes are those last written and last merged; no file is ever removed.", "quantifier": "all sequences of writes and merges from an empty file system", "why_tests_cant": "Over all histories; a test sees the files of one.", "anchors": ["multipart.go:51-133", "session_handler.go:81-112"]}
{"id": "C198", "title": "An upload that was stored is handed over under any limit on open files", "statement": "If every packet of an upload has been answered with success, its last packet leads to the message, whatever the limit on open files.", "quantifier": "all limits and all uploads", "why_tests_cant": "Tests use uploads of a few parts.", "anchors": ["multipart.go:51-133", "session_handler.go:81-112"]}
{"id": "C199", "title": "Files open while a packet is handled", "statement": "However the operating system answers calls to open files, handling a packet closes every file it opened and has at most two more open than parts of the upload are stored. That number is needed: with a limit on descriptors, the last packet leads to the message if and only if the limit allows for two more than the parts; an upload with as many parts as there are free descriptors is never handed over, whatever packets come.", "quantifier": "all operating systems, limits, histories and packets", "why_tests_cant": "Needs every combination of failing calls and every number of parts.", "anchors": ["multipart.go:51-133", "session_handler.go:81-112"]}
{"id": "C200", "title": "Encrypted frames on the wire", "statement": "A message sent with a public key goes out as a frame whose header has the encryption flag and the length of the ciphertext, followed by the body of JT/T 808 cut into pieces of the modulus size less 42 bytes, each padded as RFC 8017 describes with a seed of its own and raised to the public exponent, in order. Whoever made it, a frame with the flag is read with the private key as the message whose body its pieces open to, and as a message without body if that is none of its type; if a piece does not open, or there is no key, it is refused. Pieces open in one way only.", "quantifier": "all keys from 43 bytes on, seeds, headers, bodies and ciphertexts", "why_tests_cant": "Needs all keys and seeds; a round trip test is passed by any pair of inverse functions, so it cannot tell whether other implementations read the frames.", "anchors": ["protocol/message.go:20-181", "protocol/helpers.go:14-53"]}
{"id": "C201", "title": "What is read after simultaneous encodings", "statement": "Whatever other send loops do with the same body meanwhile, what Encode returns is read in full, also inside its frame, as the same body but for the hemispheres: every coordinate is as far from zero as it was, on the side its hemisphere word says, and these words have all bits of the caller, the first bit their coordinates ask for, and none that nobody asked for.", "quantifier": "all well-formed bodies with hemisphere words, numbers of send loops, schedules, headers without the encryption flag", "why_tests_cant": "Which bits are lost depends on the schedule; a test sees few of them, and cannot exclude that some schedule damages another field or makes the frame unreadable.", "anchors": ["session.go:71-80", "protocol.go:60-98", "protocol/bit.go:28-55", "protocol/t808_0x0200.go", "protocol/t808_0x8600.go", "protocol/t808_0x8602.go", "protocol/t808_0x8604.go", "protocol/message.go:83-181"]}
{"id": "C202", "title": "Entries visited in proportion to the packets", "statement": "The entries of the file system that are visited while uploads are received are at most some number for each packet.", "quantifier": "all sequences of packets", "why_tests_cant": "A test with a fresh directory visits few entries; the growth shows only after many uploads of one terminal.", "anchors": ["multipart.go:37-133", "session_handler.go:82-106"]}
{"id": "C203", "title": "Entries visited, exactly", "statement": "A walk visits the directory of the terminal, every part ever written for it and every upload ever merged for it, finished or not; there is one walk for every packet that is the last of its upload and a second one if all packets are there. n packets take at most 2n(n+1) visits, and n uploads of one packet take as many.", "quantifier": "all sequences of packets of all terminals", "why_tests_cant": "The count depends on the whole history of a terminal, over restarts of the server; no test runs that long.", "anchors": ["multipart.go:37-133", "session_handler.go:82-106"]}
{"id": "C204", "title": "Comparisons the timer makes", "statement": "When d keys are used, an Update makes at most 3 log2 d comparisons of deadlines, a Remove 2 log2 d and a tick 2 log2 d for every key that fires. Over any history of calls that do not overlap all comparisons together are at most 3 log2 d for every Update, however many Removes and ticks there are. An Update of a new key that expires before the n others makes exactly log2 (n + 1), one that expires after them exactly one. A tick at which n keys with one deadline fire and none is left makes exactly 2n - 5, or none if n is at most 2.", "quantifier": "all histories of Updates, Removes, changes of the timeout and ticks; the bound on one Update in any state", "why_tests_cant": "A benchmark measures a few sizes and orders; the order of deadlines that costs most is among n! orders.", "anchors": ["timer.go:23-62", "timer.go:87-150"]}
{"id": "C205", "title": "Frames that are written can be received", "statement": "A frame that Encode writes is never too long for Receive.", "quantifier": "all messages", "why_tests_cant": "A test would have to send a body of 64 KiB.", "anchors": ["protocol/message.go:20-66", "protocol/message.go:206-219", "protocol/property.go:43-50", "protocol.go"]}
{"id": "C206", "title": "How long frames are", "statement": "A frame has as many bytes as its header (12, or 16 in a packet) and its body, three more, and one more for each byte of header, body and checksum that is sent as two. It has 15 to 2082 bytes, or at least 65551; the latter just for bodies of 65536 bytes and more, whose length is cut to 16 bits before it is checked. Receive gives up on every such frame with the size error, wherever the stream is cut.", "quantifier": "all messages, with and without encryption, all ways a stream is cut", "why_tests_cant": "The lengths between the two ranges never occur; that is a statement about all messages.", "anchors": ["protocol/message.go:20-66", "protocol/message.go:206-219", "protocol/property.go:43-50", "protocol.go"]}
{"id": "C207", "title": "A key does not stop a message", "statement": "A body that can be sent in the clear can be sent with a key.", "quantifier": "all messages, all keys", "why_tests_cant": "Tests encrypt short bodies.", "anchors": ["protocol/message.go:20-66", "protocol/helpers.go", "protocol/property.go:43-50"]}
{"id": "C208", "title": "Room for text under a key", "statement": "A body of at most 1023 bytes is sent with a key of k bytes if it has at most 1023 / k * (k - 42) bytes (the quotient rounded down), and is refused as too long otherwise: 602 bytes with 1024 bits, 642 with 2048, 470 with 4096, none with 8192, and never more than 981.", "quantifier": "all bodies, all keys of up to 65535 bytes", "why_tests_cant": "The limit depends on the key in a way that is not monotonic; tests use one key.", "anchors": ["protocol/message.go:20-66", "protocol/helpers.go", "protocol/property.go:43-50"]}
