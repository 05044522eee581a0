{"id": "C01", "title": "Escaping round trip", "statement": "For every packet (any byte sequence, including ones full of 0x7e/0x7d), removing the delimiters and un-escaping the frame produced by the encoder's escape step gives back exactly the packet.", "quantifier": "every finite byte sequence", "why_tests_cant": "infinite input space; the interesting inputs are adversarial runs of 0x7d 0x01 0x02 0x7e", "anchors": ["internal/protocol/packet_codec.go:escape", "internal/protocol/packet_codec.go:unescape"]}
{"id": "C02", "title": "Delimiters are unambiguous", "statement": "In every frame the encoder emits, 0x7e occurs exactly as the first and the last byte, every 0x7d is followed by 0x01 or 0x02, and distinct packets give distinct frames.", "quantifier": "every finite byte sequence", "why_tests_cant": "needs all payloads", "anchors": ["internal/protocol/packet_codec.go:escape"]}
{"id": "C03", "title": "Frame extraction from a stream", "statement": "Reading from a connection whose bytes are junk without 0x7e followed by a delimited frame returns exactly that frame and leaves exactly the bytes after it, however the network chopped the stream into reads.", "quantifier": "every stream, every junk prefix, every frame content, every chunking", "why_tests_cant": "unbounded streams and chunkings", "anchors": ["internal/protocol/frame_handler.go:Recv"]}
{"id": "C04", "title": "In-order lossless delivery of encoded packets", "statement": "If any sequence of packets is escaped and written on one connection, with arbitrary non-delimiter junk in between, the receiver extracts exactly those packets in order and nothing else.", "quantifier": "every sequence of packets and junk", "why_tests_cant": "unbounded sequences", "anchors": ["internal/protocol/frame_handler.go:Recv", "internal/protocol/packet_codec.go:escape", "internal/protocol/packet_codec.go:unescape"]}
{"id": "C05", "title": "Incomplete frames are never delivered", "statement": "When a stream ends before the closing delimiter of a frame, Recv reports an error and never returns a partial frame; every frame Recv does return has at least two bytes, starts and ends with 0x7e and contains no other 0x7e.", "quantifier": "every stream", "why_tests_cant": "unbounded streams, every cut point", "anchors": ["internal/protocol/frame_handler.go:Recv"]}
{"id": "C06", "title": "Resynchronisation after a stray delimiter", "statement": "After one stray 0x7e byte in the stream the receiver resynchronises and again delivers the following frames.", "quantifier": "every stray position and every following frame sequence", "why_tests_cant": "needs all continuations", "anchors": ["internal/protocol/frame_handler.go:Recv"]}
{"id": "C07", "title": "Send writes everything once", "statement": "For every pattern of short writes by the connection, Send transmits the payload bytes exactly once and in order before reporting success; if a write fails, what was transmitted is a prefix of the payload and an error is returned.", "quantifier": "every payload and every pattern of short writes and failures", "why_tests_cant": "all write schedules of the OS", "anchors": ["internal/protocol/frame_handler.go:Send"]}
{"id": "C08", "title": "Checksum", "statement": "A packet is accepted by verification iff the XOR of all its bytes including the trailing code is zero; every packet the encoder makes is accepted and loses only the code; changing any single byte of it makes it rejected.", "quantifier": "every packet, every position, every replacement byte", "why_tests_cant": "all corruption positions and values", "anchors": ["internal/protocol/packet_codec.go:verify", "internal/protocol/packet_codec.go:genVerifier"]}
{"id": "C09", "title": "Reported verify code", "statement": "The VerifyCode of a decoded packet is the checksum byte that was transmitted.", "quantifier": "every accepted frame", "why_tests_cant": "needs every frame", "anchors": ["internal/protocol/packet_codec.go:Decode"]}
{"id": "C10", "title": "Packet encode/decode round trip", "statement": "Decoding the frame that encodes a message with an unfragmented well-formed header gives back that header and body.", "quantifier": "every well-formed header and body of at most 1023 bytes", "why_tests_cant": "product of all headers and bodies", "anchors": ["internal/protocol/packet_codec.go:Decode", "internal/protocol/packet_codec.go:Encode", "internal/protocol/model/header.go:MsgHeader.Decode", "internal/protocol/model/header.go:MsgHeader.Encode"]}
{"id": "C11", "title": "Header wire layout and round trip", "statement": "A header is encoded as id, attributes, (2019: version byte), BCD phone, serial, (fragmented: total, index), and decoding any bytes that start with such an encoding returns the same header and the position just after it.", "quantifier": "every header of both protocol versions, fragmented or not, every trailing bytes", "why_tests_cant": "all headers", "anchors": ["internal/protocol/model/header.go:MsgHeader.Decode", "internal/protocol/model/header.go:MsgHeader.Encode"]}
{"id": "C12", "title": "Body attribute bit fields", "statement": "Decoding a 16-bit attribute word yields bits 0-9 as body length, 10-12 as encryption, 13 as fragmentation flag, 14 as version, 15 as reserved; encoding the result gives the same word.", "quantifier": "all 65536 words", "why_tests_cant": "exhaustive bit-field reasoning, no tests exist (TODO in the repo)", "anchors": ["internal/protocol/model/header.go:MsgBodyAttr.Decode", "internal/protocol/model/header.go:MsgBodyAttr.Encode"]}
{"id": "C13", "title": "Body length never corrupts other flags", "statement": "For every message body, the encoded attribute word announces the body's length and leaves encryption, fragmentation and version flags as set in the header.", "quantifier": "every body length", "why_tests_cant": "the failure needs bodies longer than any test uses", "anchors": ["internal/protocol/model/msg.go:writeHeader", "internal/protocol/model/header.go:MsgBodyAttr.Encode"]}
{"id": "C14", "title": "Platform-initiated headers reach the device intact", "statement": "The header generated for a message the platform initiates (parameter query/set, fragment acknowledgement) is decoded by the receiver to the device's phone, the chosen message id and serial.", "quantifier": "every device of every protocol version, every message id and serial", "why_tests_cant": "all devices/versions", "anchors": ["internal/protocol/model/header.go:GenMsgHeader", "internal/protocol/model/header.go:MsgHeader.Encode"]}
{"id": "C15", "title": "Truncated packets are not filled with foreign bytes", "statement": "A message whose body is shorter than its mandatory fields is never decoded into a message with made-up field values.", "quantifier": "every message type and every truncation point", "why_tests_cant": "depends on slice capacities, every truncation point", "anchors": ["internal/codec/hex/hex.go:ReadWord", "internal/codec/hex/hex.go:ReadDoubleWord", "internal/codec/hex/hex.go:ReadBytes", "internal/protocol/packet_codec.go:verify"]}
{"id": "C16", "title": "No frame makes the decoder panic", "statement": "Packet decoding of any frame returned by Recv yields a packet or an error, it never panics.", "quantifier": "every frame", "why_tests_cant": "all byte strings", "anchors": ["internal/protocol/packet_codec.go:Decode", "internal/protocol/model/header.go:MsgHeader.Decode"]}
{"id": "C17", "title": "Failure containment between connections", "statement": "Whatever one connection sends (including input that makes a handler panic), at most that connection is closed: every other session stays registered and open, and no bytes are written to any other connection.", "quantifier": "every server state and every frame", "why_tests_cant": "all states and frames", "anchors": ["internal/server/tcp_server.go:serve", "internal/server/tcp_server.go:remove", "pkg/routines/safe.go:RunSafe"]}
{"id": "C18", "title": "Hex strings", "statement": "Encoding bytes to a hex string and decoding it gives the bytes back; decoding stops at the first invalid pair and ignores a trailing odd digit.", "quantifier": "every byte sequence, every string", "why_tests_cant": "all strings", "anchors": ["internal/codec/hex/hex.go:Str2Byte", "internal/codec/hex/hex.go:Byte2Str"]}
{"id": "C19", "title": "BCD digit strings", "statement": "Every digit string of even length >= 8 (so every 12 or 20 digit phone number) and every digit string of length <= 8 survives BCD write then read unchanged; reading has no side effect on the following bytes.", "quantifier": "every digit string", "why_tests_cant": "all digit strings", "anchors": ["internal/codec/hex/hex.go:numberStr2BCD", "internal/codec/hex/hex.go:bcd2NumberStr"]}
{"id": "C20", "title": "Distinct phone fields identify distinct devices", "statement": "Two headers with different BCD phone fields are never attributed to the same phone number.", "quantifier": "every pair of phone fields", "why_tests_cant": "all pairs", "anchors": ["internal/codec/hex/hex.go:bcd2NumberStr", "internal/codec/hex/hex.go:ReadBCD"]}
{"id": "C21", "title": "Timestamps", "statement": "Formatting then reading back any valid civil time with a year from 1969 to 2068 gives the same time to the second; a 6-byte time field that is not a valid date is replaced by the current time and never by another past date.", "quantifier": "every civil time, every 6 byte field", "why_tests_cant": "all dates incl. leap days", "anchors": ["internal/codec/hex/hex.go:FormatTime", "internal/codec/hex/hex.go:ParseTime", "internal/codec/hex/hex.go:ReadTime", "internal/codec/hex/hex.go:WriteTime"]}
{"id": "C22", "title": "General replies (0x0001/0x8001) round trip", "statement": "Decode after encode returns the same answer serial, answer id and result.", "quantifier": "all field values", "why_tests_cant": "all values", "anchors": ["internal/protocol/model/msg_0001.go", "internal/protocol/model/msg_8001.go"]}
{"id": "C23", "title": "Registration message (0x0100) round trip", "statement": "For each protocol version, decode after encode returns the same province, city, manufacturer, model, terminal id, plate colour and plate.", "quantifier": "every registration whose text fields fit and have no trailing NUL, every version", "why_tests_cant": "all field values and versions", "anchors": ["internal/protocol/model/msg_0100.go"]}
{"id": "C24", "title": "Authentication message (0x0102) round trip", "statement": "Decode after encode returns the same auth code (and IMEI, software version for 2019).", "quantifier": "every auth code up to 255 bytes etc.", "why_tests_cant": "all values", "anchors": ["internal/protocol/model/msg_0102.go"]}
{"id": "C25", "title": "Registration reply (0x8100) round trip", "statement": "Decode after encode returns the same answer serial, result and auth code.", "quantifier": "all values", "why_tests_cant": "all values", "anchors": ["internal/protocol/model/msg_8100.go"]}
{"id": "C26", "title": "Location report (0x0200) round trip", "statement": "Decode after encode returns the same alarm, status, latitude, longitude, altitude, speed, direction and 12 digit time, and any additional items appended to the body do not change them.", "quantifier": "all field values, every extra item bytes", "why_tests_cant": "all values", "anchors": ["internal/protocol/model/msg_0200.go"]}
{"id": "C27", "title": "Media query/list (0x9205/0x1205) round trip", "statement": "Decode after encode returns the same query and resource entry.", "quantifier": "all field values, times 1969-2068", "why_tests_cant": "all values", "anchors": ["internal/protocol/model/device_media.go", "internal/protocol/model/msg_9205.go", "internal/protocol/model/msg_1205.go"]}
{"id": "C28", "title": "Server time reply (0x8004) round trip", "statement": "The time a device decodes from the reply is the time the server put in.", "quantifier": "all civil times 1969-2068", "why_tests_cant": "all dates", "anchors": ["internal/protocol/model/msg_8004.go"]}
{"id": "C29", "title": "Terminal parameter lists round trip", "statement": "Decoding an encoded parameter list (0x8103/0x0104) returns the same parameters with the same ids and values, in order, for every known parameter id whose value has the id's type.", "quantifier": "every list of at most 255 parameters", "why_tests_cant": "all lists", "anchors": ["internal/protocol/model/device_params.go:DeviceParams.Decode", "internal/protocol/model/device_params.go:DeviceParams.Encode", "internal/protocol/model/device_params.go:argTable"]}
{"id": "C30", "title": "Unknown parameter ids are skipped", "statement": "A parameter list that contains an id outside the supported table is decoded by skipping it (as the log message says), the other parameters being kept.", "quantifier": "every list with an unknown id", "why_tests_cant": "all ids", "anchors": ["internal/protocol/model/device_params.go:ParamData.Decode"]}
{"id": "C31", "title": "Un-encodable text does not destroy the message", "statement": "If a text field cannot be represented in GBK, encoding the message reports an error or leaves the other fields intact.", "quantifier": "every text and message", "why_tests_cant": "all texts", "anchors": ["internal/codec/hex/hex.go:WriteGBK", "internal/protocol/model/msg_0100.go:Encode"]}
{"id": "C32", "title": "Status bits decode", "statement": "Every field of the decoded location status is the bit (or bit pair) of the 32-bit status word that JT808 assigns to it.", "quantifier": "all 2^32 status words", "why_tests_cant": "2^32 words x 20 fields", "anchors": ["internal/protocol/model/device.go:GeoMeta.Decode"]}
{"id": "C33", "title": "Status bits round trip", "statement": "Encoding a decoded status word gives the same word on all assigned bits.", "quantifier": "all status values", "why_tests_cant": "2^32 words", "anchors": ["internal/protocol/model/device.go:GeoMeta.Encode"]}
{"id": "C34", "title": "Coordinates keep their precision", "statement": "The stored floating point latitude/longitude/speed determines the transmitted integer uniquely (rounding value*10^6, value*10 to the nearest integer gives it back).", "quantifier": "all 2^32 / 2^16 values", "why_tests_cant": "2^32 doubles", "anchors": ["internal/protocol/model/device.go:Location.Decode", "internal/protocol/model/device.go:Drive.Decode"]}
{"id": "C35", "title": "Parameter update", "statement": "Updating a stored parameter list with a new one yields exactly the stored ids, sorted and without duplicates, each with the last new value if the new list mentions it and its old value otherwise; ids only in the new list are dropped.", "quantifier": "every pair of parameter lists, every map iteration order", "why_tests_cant": "all lists and iteration orders", "anchors": ["internal/protocol/model/device_params.go:DeviceParams.Update"]}
{"id": "C36", "title": "Set then query terminal parameters", "statement": "After the terminal side handled a parameter set (0x8103), a query (0x8104) answers every parameter just set with the value just set.", "quantifier": "every history of sets and queries", "why_tests_cant": "all histories", "anchors": ["internal/protocol/msg_processor.go:processMsg8103", "internal/protocol/msg_processor.go:processMsg8104"]}
{"id": "C37", "title": "Latest location", "statement": "The latest location reported by the ring buffer is the last one written.", "quantifier": "every number of writes", "why_tests_cant": "fails only at multiples of the capacity (100)", "anchors": ["pkg/container/ring_buffer.go:Write", "pkg/container/ring_buffer.go:Latest"]}
{"id": "C38", "title": "Ring buffer window", "statement": "After any writes the buffer holds exactly the last min(n,size) values in cyclic order and Oldest returns the oldest retained one once the buffer is full; reads return the slots cyclically.", "quantifier": "every sequence of writes and reads, every size > 0", "why_tests_cant": "all histories", "anchors": ["pkg/container/ring_buffer.go:Write", "pkg/container/ring_buffer.go:Read", "pkg/container/ring_buffer.go:Oldest"]}
{"id": "C39", "title": "Ring buffer never goes out of bounds", "statement": "No interleaving of concurrent ring buffer writes and reads ever indexes outside the container.", "quantifier": "every interleaving of any number of goroutines", "why_tests_cant": "all schedules", "anchors": ["pkg/container/ring_buffer.go:Write", "pkg/container/ring_buffer.go:Read", "pkg/container/ring_buffer.go:Latest", "pkg/container/ring_buffer.go:Oldest"]}
{"id": "C40", "title": "Overwrite replaces the latest value", "statement": "Overwrite replaces the value that Latest returns.", "quantifier": "every buffer state", "why_tests_cant": "all states", "anchors": ["pkg/container/ring_buffer.go:Overwrite"]}
{"id": "C41", "title": "Device indexes agree", "statement": "In every server state reached by processing messages one at a time, the lookup by plate and the lookup by phone return the same device object for every device, each listed device has exactly one phone and one plate, and each index is keyed by the device's own phone/plate.", "quantifier": "every history of messages, timer ticks and disconnects", "why_tests_cant": "all histories", "anchors": ["internal/storage/device_cache.go:cacheDevice", "internal/storage/device_cache.go:delDevice", "internal/protocol/msg_processor.go:processMsg0100"]}
{"id": "C42", "title": "Registration decision", "statement": "A registration is refused with code 1 iff the plate is already registered, else with code 3 iff the phone is, and otherwise accepted with code 0, the device being stored offline with the reported id, plate, phone, version; a refusal changes nothing.", "quantifier": "every state and registration", "why_tests_cant": "all states", "anchors": ["internal/protocol/msg_processor.go:processMsg0100"]}
{"id": "C43", "title": "Registration uniqueness under concurrency", "statement": "Two concurrent registrations of the same plate are never both accepted.", "quantifier": "every interleaving of two registrations", "why_tests_cant": "schedule dependent", "anchors": ["internal/protocol/msg_processor.go:processMsg0100", "internal/storage/device_cache.go"]}
{"id": "C44", "title": "Authentication decision", "statement": "An authentication of a registered phone succeeds iff the code equals the one derived from the device's id, plate and phone (the one returned at registration); success makes it online with the reported IMEI/version, failure removes exactly that device and its timer and answers result 1.", "quantifier": "every state and code", "why_tests_cant": "all states", "anchors": ["internal/protocol/msg_processor.go:processMsg0102", "internal/protocol/msg_processor.go:genAuthCode"]}
{"id": "C45", "title": "Register-authenticate handshake", "statement": "A device that registers with a fresh phone and plate and echoes the returned code in 0x0102, as the bundled client does, ends up online on the server, with the frames going through the full encode/escape/recv/decode path.", "quantifier": "every device identity, both header versions, every server state without that phone/plate", "why_tests_cant": "end-to-end over all identities", "anchors": ["internal/protocol/msg_processor.go", "internal/protocol/packet_codec.go", "internal/protocol/frame_handler.go"]}
{"id": "C46", "title": "Auth codes separate devices", "statement": "Two registered devices with different (id, plate, phone) have different auth codes.", "quantifier": "every pair of devices", "why_tests_cant": "hash collisions", "anchors": ["internal/protocol/msg_processor.go:genAuthCode", "internal/codec/hash/hash.go:FNV32"]}
{"id": "C47", "title": "Only authenticated devices become online", "statement": "A device's status changes from offline to online/sleeping only by a successful authentication.", "quantifier": "every message", "why_tests_cant": "all message types and states", "anchors": ["internal/protocol/msg_processor.go:processMsg8001", "internal/protocol/msg_processor.go:processMsg0200"]}
{"id": "C48", "title": "Heartbeat", "statement": "A heartbeat of a registered phone refreshes only that device's last communication time; a heartbeat of an unknown phone is answered by closing the connection without any state change.", "quantifier": "every state", "why_tests_cant": "all states", "anchors": ["internal/protocol/msg_processor.go:processMsg0002", "internal/server/tcp_server.go:serve"]}
{"id": "C49", "title": "Logout", "statement": "After logout the phone and its plate are unknown, can be registered again, no keepalive job remains for it, and all other devices are untouched.", "quantifier": "every state", "why_tests_cant": "all states", "anchors": ["internal/protocol/msg_processor.go:processMsg0003"]}
{"id": "C50", "title": "Location report effect", "statement": "A location report of a registered phone appends exactly one record with the reported values to that phone's history and (only when ACC is off) marks the device sleeping and refreshes its time; other devices and histories are untouched.", "quantifier": "every state and report", "why_tests_cant": "all states", "anchors": ["internal/protocol/msg_processor.go:processMsg0200", "internal/storage/geo_cache.go"]}
{"id": "C51", "title": "Reply correlation", "statement": "Each general reply carries the serial number and message id of the message it answers and is addressed to the sender's phone with the sender's protocol version.", "quantifier": "every accepted message", "why_tests_cant": "all messages", "anchors": ["internal/protocol/model/msg_8001.go:GenOutgoing", "internal/protocol/model/msg_8100.go:GenOutgoing", "internal/protocol/msg_processor.go:Process"]}
{"id": "C52", "title": "At most one reply, on the same connection", "statement": "Processing one frame writes at most one frame, on the connection it came from, and writes nothing when processing fails.", "quantifier": "every state and frame", "why_tests_cant": "all states and frames", "anchors": ["internal/protocol/pipeline.go", "internal/protocol/msg_processor.go:Process"]}
{"id": "C53", "title": "Unsupported message ids are ignored", "statement": "An unfragmented message with an id outside the table produces no reply and no state change.", "quantifier": "every id outside the table", "why_tests_cant": "all ids", "anchors": ["internal/protocol/msg_processor.go:Process"]}
{"id": "C54", "title": "Device isolation", "statement": "Processing a frame for one phone never modifies the record, location history or parameters of another phone.", "quantifier": "every state, every frame", "why_tests_cant": "all states", "anchors": ["internal/protocol/msg_processor.go", "internal/storage/device_cache.go"]}
{"id": "C55", "title": "Keepalive never evicts a fresh device", "statement": "A keepalive check changes or removes a device only if more than the keepalive interval has passed since its last refreshed communication time.", "quantifier": "every state and time", "why_tests_cant": "all times", "anchors": ["internal/protocol/keepalive.go:checkDeviceKeepalive", "internal/protocol/model/device.go:ShouleTurnOffline", "internal/protocol/model/device.go:ShouldClear"]}
{"id": "C56", "title": "Silent devices are cleaned up", "statement": "A device that stays silent is turned offline by the first check after the interval, and removed with its connection closed by the next check, after which its plate and phone can register again.", "quantifier": "every state and check times", "why_tests_cant": "all times", "anchors": ["internal/protocol/keepalive.go:checkDeviceKeepalive"]}
{"id": "C57", "title": "Keepalive jobs match devices", "statement": "Processing messages one at a time, the registered keepalive jobs are exactly one per stored device.", "quantifier": "every history", "why_tests_cant": "all histories", "anchors": ["internal/protocol/keepalive.go", "internal/protocol/msg_processor.go"]}
{"id": "C58", "title": "No ghost devices", "statement": "After a logout completed, the device is not stored again unless it registers again, whatever other messages of that phone were in flight.", "quantifier": "every interleaving", "why_tests_cant": "schedule dependent", "anchors": ["internal/protocol/msg_processor.go:processMsg0002", "internal/protocol/msg_processor.go:processMsg0003"]}
{"id": "C59", "title": "Keepalive check of a vanished device is harmless", "statement": "A keepalive check that runs after its device was removed does nothing but cancel itself.", "quantifier": "every state", "why_tests_cant": "schedule dependent", "anchors": ["internal/protocol/keepalive.go:checkDeviceKeepalive"]}
{"id": "C60", "title": "Fragment reassembly", "statement": "When the fragments 1..n of a message arrive in order, the message is processed exactly once with the concatenation of their bodies.", "quantifier": "every n and every fragment contents", "why_tests_cant": "all fragmentations", "anchors": ["internal/storage/segment_cache.go:CacheSegment", "internal/protocol/model/segment.go", "internal/protocol/packet_codec.go:Decode"]}
{"id": "C61", "title": "Session registry", "statement": "Looking up a session id returns the most recently accepted open session with that address; after it is closed the lookup fails.", "quantifier": "every history of accepts and closes", "why_tests_cant": "all histories, address reuse", "anchors": ["internal/storage/session_cache.go", "internal/server/tcp_server.go:accept", "internal/server/tcp_server.go:remove"]}
{"id": "C62", "title": "Serial numbers cycle", "statement": "Calling GetNextSerialNum repeatedly yields 1,2,...,65535,0,1,... : any 65536 consecutive calls return distinct numbers.", "quantifier": "every number of calls", "why_tests_cant": "needs > 65536 calls", "anchors": ["internal/protocol/model/session.go:GetNextSerialNum"]}
{"id": "C63", "title": "Serial numbers under concurrency", "statement": "Concurrent callers of GetNextSerialNum get distinct numbers within any window of 65536 calls.", "quantifier": "every interleaving", "why_tests_cant": "schedule dependent at the wrap", "anchors": ["internal/protocol/model/session.go:GetNextSerialNum"]}
{"id": "C64", "title": "Commands follow a reconnect", "statement": "After a device reconnects and authenticates again, platform commands for it are sent on its new connection.", "quantifier": "every state", "why_tests_cant": "history dependent", "anchors": ["internal/protocol/msg_processor.go:processMsg0102", "internal/api/api.go"]}
{"id": "C65", "title": "Parameter commands over HTTP", "statement": "A parameter request for an unknown phone is refused with 400 and sends nothing; for a known phone with an open session it sends exactly one frame on that session's connection.", "quantifier": "every state and phone", "why_tests_cant": "all states", "anchors": ["internal/api/api.go", "internal/server/tcp_server.go:Send"]}
{"id": "C66", "title": "Server time query is answered", "statement": "A 0x0004 server time query (listed as supported) is answered with 0x8004.", "quantifier": "every state and query", "why_tests_cant": "README claim", "anchors": ["internal/protocol/msg_processor.go:initProcessOption", "internal/protocol/model/msg_8004.go"]}
{"id": "C67", "title": "Error policy", "statement": "The server closes the connection exactly on end-of-stream, closed-connection and unknown-device errors and otherwise keeps serving it; the client stops exactly on end-of-stream, closed-connection and active-close.", "quantifier": "every error", "why_tests_cant": "all errors", "anchors": ["internal/server/tcp_server.go:serve", "internal/client/tcp_client.go:Start"]}
{"id": "C68", "title": "Replies are decodable and keep the device's identity", "statement": "Every reply whose body has at most 1023 bytes (always so for 0x8001, 0x8100 and 0x0001) to an unfragmented message with a phone of digits only is encoded to a frame that decodes to a header with the same phone, version, serial number and the correct body length, and to its body.", "quantifier": "every state and message", "why_tests_cant": "all messages", "anchors": ["internal/protocol/msg_processor.go", "internal/protocol/packet_codec.go"]}
{"id": "C69", "title": "Location history is private to a registration", "statement": "After logout and a new registration of the same phone, no location of the previous registration is reported.", "quantifier": "every state", "why_tests_cant": "history dependent", "anchors": ["internal/protocol/msg_processor.go:processMsg0003", "internal/storage/geo_cache.go"]}
{"id": "C70", "title": "Log level configuration", "statement": "Each of the documented level names selects that level.", "quantifier": "every level string", "why_tests_cant": "all strings", "anchors": ["internal/config/config.go:ParseLogConf"]}
{"id": "C71", "title": "Data-race freedom of the device index", "statement": "The device maps are only accessed while holding the cache mutex, so no schedule has two conflicting unsynchronised accesses.", "quantifier": "every schedule", "why_tests_cant": "schedule dependent", "anchors": ["internal/storage/device_cache.go:ListDevice", "internal/api/api.go"]}
{"id": "C72", "title": "Well-keyed indexes under every interleaving", "statement": "In every interleaving of message handlers, keepalive checks and API calls, each index entry points to a stored device whose own phone (plate) is the key, and no handler dereferences a dangling device.", "quantifier": "every number of goroutines and every schedule", "why_tests_cant": "all schedules", "anchors": ["internal/storage/device_cache.go", "internal/protocol/msg_processor.go", "internal/protocol/keepalive.go"]}
{"id": "C73", "title": "Documented wire layout", "statement": "Every encoded message consists of the delimiter, the escaped header, body and XOR checksum laid out field by field as JT/T 808 prescribes, and the delimiter; and every frame laid out that way is decoded to that header and message.", "quantifier": "every well-formed header and message of every type, at most 1023 body bytes", "why_tests_cant": "all field values; a swapped field order in both encoder and decoder passes every round-trip test", "anchors": ["internal/protocol/packet_codec.go:Encode", "internal/protocol/packet_codec.go:Decode", "internal/protocol/model/header.go", "internal/protocol/model/msg_0100.go", "internal/protocol/model/msg_0200.go"]}
{"id": "C74", "title": "The server refines a plain data machine", "statement": "After any history the registered devices with their records, the locations reported and the stored parameters are those of an abstract platform (three tables, no caches, pointers, ring buffers or timers) driven by the same messages and checks, and the next message is answered on its connection exactly as that platform answers it.", "quantifier": "every history of connections, frames, keepalive checks, HTTP requests and clock changes; every next message", "why_tests_cant": "all histories", "anchors": ["internal/protocol/msg_processor.go", "internal/storage/device_cache.go", "internal/protocol/keepalive.go", "internal/protocol/pipeline.go", "internal/server/tcp_server.go"]}
{"id": "C75", "title": "Device list request", "statement": "GET /device lists every registered device exactly once and nothing else.", "quantifier": "every history", "why_tests_cant": "all histories", "anchors": ["internal/storage/device_cache.go:ListDevice", "internal/api/api.go"]}
{"id": "C76", "title": "Latest location request", "statement": "GET /device/:phone/geo answers the last location the device reported, whenever it has reported one.", "quantifier": "every history and phone", "why_tests_cant": "fails at multiples of 100 reports", "anchors": ["internal/api/api.go", "internal/storage/geo_cache.go", "pkg/container/ring_buffer.go:Latest"]}
{"id": "C77", "title": "A registration is immutable", "statement": "While a device stays registered its id, plate, phone, session, connection, keepalive interval and protocol version never change.", "quantifier": "every history and event", "why_tests_cant": "all histories", "anchors": ["internal/protocol/model/device.go", "internal/protocol/msg_processor.go"]}
{"id": "C78", "title": "Every message keeps a device alive", "statement": "Every message of a registered device refreshes its last communication time, so a device that keeps reporting is not turned offline.", "quantifier": "every history and message", "why_tests_cant": "needs a running vehicle that only reports locations", "anchors": ["internal/protocol/msg_processor.go:processMsg0200", "internal/protocol/keepalive.go:checkDeviceKeepalive"]}
{"id": "C79", "title": "Turning offline closes the connection", "statement": "When a keepalive check turns a device offline its connection is closed (comment of checkDeviceKeepalive).", "quantifier": "every state", "why_tests_cant": "time dependent", "anchors": ["internal/protocol/keepalive.go:checkDeviceKeepalive"]}
{"id": "C80", "title": "Offline devices are kept three keepalive times", "statement": "A device turned offline stays registered until three keepalive intervals have passed (comment of checkDeviceKeepalive).", "quantifier": "every state and check times", "why_tests_cant": "time dependent", "anchors": ["internal/protocol/keepalive.go:checkDeviceKeepalive", "internal/protocol/model/device.go:ShouldClear"]}
{"id": "C81", "title": "A connection acts for its own device only", "statement": "A message is only carried out for a phone that registered or authenticated on the connection it comes from.", "quantifier": "every history and message", "why_tests_cant": "needs a second connection", "anchors": ["internal/protocol/msg_processor.go"]}
{"id": "C82", "title": "Clearing a device leaves the others connected", "statement": "Removing a silent device does not close the connection of another registered device.", "quantifier": "every state", "why_tests_cant": "needs two devices behind one connection", "anchors": ["internal/protocol/keepalive.go:checkDeviceKeepalive"]}
{"id": "C83", "title": "Stored records are well formed", "statement": "Every stored device is filed under its own phone, has the one minute keepalive interval, a status of offline, online or sleeping, and an auth code that is empty or the one derived from its id, plate and phone.", "quantifier": "every history", "why_tests_cant": "all histories", "anchors": ["internal/protocol/model/device.go:NewDevice", "internal/protocol/msg_processor.go:processMsg0102"]}
{"id": "C84", "title": "Only authenticated devices report locations", "statement": "A location report is stored only for a device that has authenticated.", "quantifier": "every history and report", "why_tests_cant": "all histories", "anchors": ["internal/protocol/msg_processor.go:processMsg0200"]}
{"id": "C85", "title": "A device heard again comes back online", "statement": "A registered device that was turned offline or is sleeping becomes online again when it is heard from.", "quantifier": "every history and message", "why_tests_cant": "history dependent", "anchors": ["internal/protocol/msg_processor.go:processMsg0002", "internal/protocol/msg_processor.go:processMsg0200", "internal/protocol/msg_processor.go:processMsg0102"]}
{"id": "C86", "title": "A device that keeps beating stays registered", "statement": "A registered device whose heartbeats arrive in time stays registered, is never turned offline and keeps its registration, whatever else happens on the server, until it logs out or authenticates with a wrong code.", "quantifier": "every history", "why_tests_cant": "all histories", "anchors": ["internal/protocol/msg_processor.go:processMsg0002", "internal/protocol/keepalive.go:checkDeviceKeepalive", "internal/protocol/model/device.go:ShouleTurnOffline"]}
{"id": "C87", "title": "Simulated terminals send well-formed headers", "statement": "Every message the simulated terminal generates has a well-formed header carrying its configured phone, left-padded with zeros to the width of its protocol version, whatever the configured version.", "quantifier": "every device configuration, every draw", "why_tests_cant": "all configurations", "anchors": ["test/datagen/datagen.go:GenDevice", "test/datagen/datagen.go:genMsgHeader", "test/datagen/datagen.go:fillDevicePhone"]}
{"id": "C88", "title": "Simulated reports are in range and arrive unchanged", "statement": "Every generated location report has a latitude of at most 90 degrees, a longitude of at most 180, an altitude of at most 5000 m, a speed of at most 300 km/h, a direction below 360 and the current time, and is delivered exactly as generated.", "quantifier": "every configuration and every random draw", "why_tests_cant": "all draws", "anchors": ["test/datagen/datagen.go:GenMsg0200"]}
{"id": "C89", "title": "Simulated reports are near the configured position", "statement": "A generated report lies within one degree, five metres and 10 km/h of the configured position, altitude and speed.", "quantifier": "every configured position and draw", "why_tests_cant": "needs a base near zero and a negative draw", "anchors": ["test/datagen/datagen.go:GenMsg0200", "test/datagen/datagen.go:GenDeviceGeo"]}
{"id": "C90", "title": "A simulated terminal comes online", "statement": "Started against a server that knows neither its phone nor its plate, the simulated terminal registers, authenticates with the code it receives and is online in its own record and on the server, both programs exchanging only frames.", "quantifier": "every server state, configuration and client state", "why_tests_cant": "end-to-end over two processes", "anchors": ["test/client/main.go", "internal/client/tcp_client.go", "internal/protocol/msg_processor.go"]}
{"id": "C91", "title": "Simulated messages have distinct serial numbers", "statement": "Consecutive messages of a simulated terminal carry different serial numbers.", "quantifier": "every two messages", "why_tests_cant": "all messages", "anchors": ["test/datagen/datagen.go:genMsgHeader"]}
{"id": "C92", "title": "A refused registration does no harm", "statement": "A terminal whose registration is refused leaves the registered device registered.", "quantifier": "every server state and configuration", "why_tests_cant": "needs a second client with the same phone", "anchors": ["internal/protocol/msg_processor.go:processMsg8100", "internal/protocol/msg_processor.go:processMsg0102", "internal/protocol/model/msg_8100.go:GenOutgoing"]}
{"id": "C93", "title": "Traffic of simulated terminals is recorded", "statement": "A heartbeat sent by the keepalive goroutine refreshes the terminal's record on the server; a report adds exactly the generated position, speed, direction and time to its history.", "quantifier": "every server and client state, every draw", "why_tests_cant": "all states", "anchors": ["test/client/main.go:keepalive", "test/client/main.go:reportLocation", "internal/protocol/msg_processor.go:processMsg0002", "internal/protocol/msg_processor.go:processMsg0200"]}
{"id": "C94", "title": "Devices are isolated under every interleaving", "statement": "Goroutines that do not act for a phone - connections and message handlers of other phones, keepalive checks and location requests for others, listings, parameter requests, the passing of time - never change the record, locations, stored parameters or keepalive jobs of that phone, and a location buffer never comes to belong to two phones.", "quantifier": "every number of goroutines, every schedule, every state with well-keyed indexes", "why_tests_cant": "all schedules", "anchors": ["internal/protocol/msg_processor.go", "internal/protocol/keepalive.go", "internal/storage/device_cache.go", "internal/storage/geo_cache.go", "internal/server/tcp_server.go"]}
{"id": "C95", "title": "Handlers of different devices do not interfere", "statement": "A message of a device other than an incomplete transfer, its keepalive check, and a request for its latest location end, interleaved in any way with goroutines acting for other devices, with the answer and the stored record, locations, parameters and jobs they have when run alone at the same time; for a registration this needs that the others register no device with its plate, and the plate index agrees too.", "quantifier": "every message, every number of other goroutines, every schedule, every state with well-keyed indexes", "why_tests_cant": "all schedules", "anchors": ["internal/protocol/msg_processor.go", "internal/protocol/keepalive.go", "internal/api/api.go", "internal/storage/device_cache.go", "internal/storage/geo_cache.go"]}
{"id": "C96", "title": "Critical sections are atomic", "statement": "Goroutines whose locks block and whose critical sections take time, during which the protected maps may hold anything, reach exactly the points and shared states that some interleaving of whole sections reaches: nothing outside a section ever depends on a half-changed map.", "quantifier": "every number of goroutines (except the two unlocked readers), every execution, every content of a map during a section", "why_tests_cant": "all schedules, all intermediate map states", "anchors": ["internal/storage/device_cache.go", "internal/storage/geo_cache.go", "internal/storage/param_cache.go", "internal/storage/segment_cache.go", "internal/storage/session_cache.go", "internal/server/tcp_server.go"]}
{"id": "C97", "title": "No deadlock", "statement": "Whatever connections, message handlers, keepalive checks and HTTP requests have done so far, all of them can still run to their end, and no mutex is held afterwards.", "quantifier": "every number of goroutines, every execution", "why_tests_cant": "all schedules, nested locks", "anchors": ["internal/server/tcp_server.go:accept", "internal/server/tcp_server.go:remove", "internal/storage/device_cache.go", "internal/storage/session_cache.go"]}
{"id": "C98", "title": "Media queries are answered", "statement": "A 0x9205 media query is answered with 0x1205 carrying the query's serial number and one resource with the channel and the time range of the query; the answer decodes to exactly that, and no state changes.", "quantifier": "every state and query", "why_tests_cant": "all queries; a query without time range is the rare case", "anchors": ["internal/protocol/msg_processor.go:processMsg9205", "internal/protocol/model/msg_1205.go:GenOutgoing"]}
{"id": "C99", "title": "A terminal without parameters reports the built-in ones", "statement": "A 0x8104 query for a phone without stored parameters is answered with the 39 built-in parameters, each with the value given in the table, which are also stored.", "quantifier": "every state and query without stored parameters", "why_tests_cant": "all states; the 39 values are not compared by any test", "anchors": ["internal/protocol/msg_processor.go:processMsg8104", "internal/protocol/model/device_params.go"]}
{"id": "C100", "title": "Sending to a session", "statement": "Send writes exactly the encoded frame (or the part the connection accepts) on the connection of the session with that id; a connection found closed is closed and its session removed; an unknown session or a message that cannot be encoded changes nothing.", "quantifier": "every state, session id, message and write outcome", "why_tests_cant": "needs writes that fail half way", "anchors": ["internal/server/tcp_server.go:Send", "internal/protocol/pipeline.go"]}
{"id": "C101", "title": "A logout invalidates the auth code", "statement": "The auth code given by a registration is no longer accepted after the device has logged out and registered again.", "quantifier": "every state and identity", "why_tests_cant": "history dependent", "anchors": ["internal/protocol/msg_processor.go:genAuthCode", "internal/protocol/msg_processor.go:processMsg0003"]}
{"id": "C102", "title": "A successful authentication protects the device", "statement": "A device that has just authenticated successfully is not removed by a keepalive check started before.", "quantifier": "every interleaving", "why_tests_cant": "schedule dependent", "anchors": ["internal/protocol/keepalive.go:checkDeviceKeepalive", "internal/protocol/msg_processor.go:processMsg0102"]}
{"id": "C103", "title": "Every accepted connection is served", "statement": "The accept loop creates one fresh session for every accepted connection and serves it, keeps every session already there, and continues after failed Accept calls.", "quantifier": "every sequence of Accept results and every state", "why_tests_cant": "all sequences of failures", "anchors": ["internal/server/tcp_server.go:Start", "internal/server/tcp_server.go:accept"]}
{"id": "C104", "title": "Log lines reach each enabled output once", "statement": "An event at or above the configured level is written exactly once to each enabled output and to no other; below the level nothing is written; logging never panics.", "quantifier": "every configuration and level", "why_tests_cant": "needs an unwritable directory", "anchors": ["pkg/logger/logger.go:Configure", "pkg/logger/logger.go:newRollingFile"]}
{"id": "C105", "title": "The caller in a log line is the bare file name", "statement": "The caller field is the file name without its directory, a colon and the line.", "quantifier": "every path and line", "why_tests_cant": "all paths", "anchors": ["pkg/logger/logger.go:CallerMarshalFunc"]}
{"id": "C106", "title": "Load returns the configuration of its path", "statement": "config.Load(path) returns the configuration read from that path, or panics.", "quantifier": "every sequence of calls", "why_tests_cant": "needs two calls in one process", "anchors": ["internal/config/config.go:Load"]}
{"id": "C107", "title": "A fleet comes online and reports", "statement": "A server and a client with any number of simulated terminals, with distinct numbers and plates unknown to the server: whatever the order in which goroutines go on and frames arrive, no connection is given up and no goroutine dies; a terminal past its status check is online on both sides; whenever a terminal that has sent its registration has nothing on its way it is online and the server has exactly the reports it generated, of which it has a prefix at any time; no device outside the fleet is touched.", "quantifier": "every fleet, server and client state, every order of events in which devices are not silent for too long", "why_tests_cant": "all interleavings of two processes and any number of connections", "anchors": ["test/client/main.go:dialAndSend", "internal/client/tcp_client.go", "internal/server/tcp_server.go", "internal/protocol/msg_processor.go"]}
{"id": "C108", "title": "A terminal of a fleet can always come online", "statement": "However far a fleet has come, each terminal can still come online by finitely many steps taken for it alone (build, register, read a frame on either side, check its status), and the server then has all reports it has generated.", "quantifier": "every fleet, every order of events so far", "why_tests_cant": "all reachable states of two processes", "anchors": ["test/client/main.go:dialAndSend", "internal/protocol/msg_processor.go:processMsg0100", "internal/protocol/msg_processor.go:processMsg0102", "internal/protocol/msg_processor.go:processMsg8100"]}
{"id": "C109", "title": "Fair runs bring a fleet online", "statement": "In every run that never ends in which what can bring a terminal online (building it, registering, reading frames on either side, checking its status) is tried again and again, whatever else happens in between, the terminal comes online and stays so, and every report it generates reaches the server's history.", "quantifier": "every fleet, every infinite fair run in which devices are not silent for too long", "why_tests_cant": "infinite runs", "anchors": ["test/client/main.go:dialAndSend", "internal/server/tcp_server.go:serve", "internal/client/tcp_client.go:Start", "internal/protocol/msg_processor.go"]}
{"id": "C110", "title": "Terminals that share nothing do not influence each other", "statement": "Take any group of terminals with its own phones, plates, client addresses and connections, and everything else running on the server. Under every interleaving the connections, messages, keepalive checks and requests of the group store the same devices, locations, parameters, incomplete transfers, jobs and sessions, write the same bytes to the group's connections and end with the same results as when all other goroutines are left out. In particular a connection among any number of others gives its terminal exactly what the history of its own events gives, whatever the schedule.", "quantifier": "every partition of phones, plates, addresses and connections, every number of goroutines, every schedule, every state in which registered devices and sessions lie on one side", "why_tests_cant": "all schedules of all groups", "anchors": ["internal/server/tcp_server.go", "internal/protocol/pipeline.go", "internal/protocol/msg_processor.go", "internal/protocol/keepalive.go", "internal/api/api.go", "internal/storage/device_cache.go", "internal/storage/geo_cache.go", "internal/storage/param_cache.go", "internal/storage/segment_cache.go", "internal/storage/session_cache.go"]}
{"id": "C111", "title": "Terminals that come at the same time all come online", "statement": "Any number of terminals with different phones, plates, addresses and connections, none of them in use on the server, connect, register and authenticate with the code for their id, plate and phone at the same time, among any other goroutines that do not act for them. Under every schedule each of them, once its frames are handled, is online on its own connection, found by phone and plate, watched by the keepalive, and has been sent exactly the two successful answers; and its frames are handled when its turn comes often enough.", "quantifier": "every number of terminals, every schedule, every consistent server state", "why_tests_cant": "all schedules of any number of connections", "anchors": ["internal/server/tcp_server.go", "internal/protocol/msg_processor.go:processMsg0100", "internal/protocol/msg_processor.go:processMsg0102", "internal/storage/device_cache.go", "internal/server/tcp_server.go:accept"]}
{"id": "C112", "title": "Parameter settings at the same time", "statement": "Settings (0x8103) and queries (0x8104) of one phone handled at the same time: no setting is lost, and every answer announces as many parameters as it lists.", "quantifier": "every number of messages, every schedule, every content of the parameter cache", "why_tests_cant": "all schedules of in-place changes to a shared object", "anchors": ["internal/protocol/msg_processor.go:processMsg8103", "internal/protocol/msg_processor.go:processMsg8104", "internal/protocol/model/device_params.go:Update", "internal/protocol/model/device_params.go:Encode", "internal/storage/param_cache.go"]}
{"id": "C113", "title": "What connections receive", "statement": "While any number of goroutines run, what a connection receives is a sequence of whole frames, never mixed: a goroutine that serves a connection writes replies to frames it received, in their order, at most one to each, and only to its own connection; each API call writes at most its one command, addressed to the phone of the call; keepalive checks, listings and location requests write nothing. However the network cuts the bytes, the terminal reads back the frames as they were written.", "quantifier": "every number of goroutines, every schedule, every state with well-keyed indexes and every way of cutting the stream; whole frames when no write fails", "why_tests_cant": "all schedules, all cuts of the stream", "anchors": ["internal/server/tcp_server.go:serve", "internal/server/tcp_server.go:Send", "internal/protocol/pipeline.go", "internal/protocol/frame_handler.go:Send", "internal/api/api.go"]}
{"id": "C114", "title": "Stored data is released", "statement": "When a device logs out or is cleared and its connection ends, everything stored for it is released: index entries, keepalive job, session, locations beyond a fixed number, parameters and incomplete transfers.", "quantifier": "every history; every schedule of any number of goroutines", "why_tests_cant": "needs long running servers", "anchors": ["internal/storage/device_cache.go", "internal/protocol/keepalive.go", "internal/storage/param_cache.go", "internal/storage/segment_cache.go", "internal/storage/geo_cache.go", "internal/storage/session_cache.go"]}
{"id": "C115", "title": "Frames fit MaxFrameLen", "statement": "The frame of every message with at most 1023 body bytes has at most MaxFrameLen (2072) bytes, and no longer frame is received.", "quantifier": "every well-formed header and body; every stream", "why_tests_cant": "needs frames in which every byte is escaped", "anchors": ["internal/protocol/frame_handler.go:MaxFrameLen", "internal/protocol/frame_handler.go:Recv", "internal/protocol/packet_codec.go:Encode"]}
{"id": "C116", "title": "The announced body length is the body's length", "statement": "A packet is only accepted when its body has the length its header announces.", "quantifier": "every well-formed header and body", "why_tests_cant": "all lengths", "anchors": ["internal/protocol/packet_codec.go:Decode", "internal/protocol/model/header.go"]}
{"id": "C117", "title": "How the bytes are split does not matter", "statement": "If the same bytes arrive on each connection, then however the network cuts them into reads the server does the same under every schedule: the same state, the same replies, the same results. It is what the server does when given the frames in the bytes, in order and each once, and for encoded packets with other bytes in between those are the packets.", "quantifier": "every number of connections and other goroutines, every schedule, every way of cutting the streams into non-empty reads", "why_tests_cant": "all cuts of the streams, all schedules", "anchors": ["internal/protocol/frame_handler.go:Recv", "internal/server/tcp_server.go:serve", "internal/protocol/pipeline.go"]}
{"id": "C118", "title": "A recently heard device survives", "statement": "While the clock stays within a keepalive interval of the time an online device was last heard, the device stays registered and online and its keepalive job stays, whatever connections, keepalive checks, requests and other terminals' messages run at the same time, unless it logs out or authenticates with a wrong code.", "quantifier": "every state with well-keyed indexes, every number of goroutines, every schedule", "why_tests_cant": "all schedules", "anchors": ["internal/protocol/keepalive.go", "internal/protocol/msg_processor.go", "internal/storage/device_cache.go", "internal/protocol/model/device.go"]}
{"id": "C119", "title": "A terminal that cannot connect leaves the others running", "statement": "When the simulator cannot connect one of its terminals, the terminals that are connected go on; the process ends when all of them have stopped.", "quantifier": "every number of terminals, every order of results of Dial and of ends of connections", "why_tests_cant": "needs a server that refuses connections for a while", "anchors": ["test/client/main.go:main", "test/client/main.go:dialAndSend", "internal/client/tcp_client.go:Dial"]}
{"id": "C120", "title": "Every goroutine comes to its end", "statement": "With blocking mutexes and critical sections that take time, no execution of connections, message handlers, keepalive checks and requests goes on for ever, and it comes to rest only when every goroutine has ended and holds no mutex.", "quantifier": "every number of goroutines, every execution", "why_tests_cant": "infinite executions, nested locks", "anchors": ["internal/server/tcp_server.go", "internal/storage/device_cache.go", "internal/storage/session_cache.go", "internal/protocol/msg_processor.go", "internal/protocol/keepalive.go"]}
{"id": "C121", "title": "The server comes up or ends cleanly", "statement": "The process serves exactly when its configuration can be read and has its log, server, port and banner sections, the log can be written as far as the level asks for, and the TCP port can be bound. It then listens on that port, has printed the banner (the built-in text when the file cannot be read) and has both goroutines running. Otherwise it ends before any goroutine is started: with status 0 for -h, 1 when only the port could not be bound, else 2.", "quantifier": "every command line, configuration, file system and network", "why_tests_cant": "needs absent sections, unreadable files, unwritable directories and taken ports in every combination", "anchors": ["main.go:main", "internal/config/config.go:ParseLogConf", "pkg/logger/logger.go:Configure", "internal/server/tcp_server.go:Listen"]}
{"id": "C122", "title": "A serving process goes on", "statement": "Once it serves, the process never ends, whatever its goroutines, keepalive checks and HTTP handlers meet.", "quantifier": "every configuration, every sequence of events", "why_tests_cant": "needs panics in goroutines together with unwritable logs", "anchors": ["main.go:main", "internal/api/api.go:Run", "pkg/routines/safe.go", "internal/protocol/keepalive.go:Run", "pkg/logger/logger.go"]}
{"id": "C123", "title": "Embedded files are found under their paths", "statement": "Asset finds a file exactly under its path, with either kind of slash; AssetDir lists exactly the entries of a directory, each once, and fails for everything else; the table and the tree agree.", "quantifier": "every name", "why_tests_cant": "all names", "anchors": ["internal/config/asset.go:Asset", "internal/config/asset.go:AssetDir", "internal/config/asset.go:AssetNames"]}
{"id": "C124", "title": "HTTP requests get one answer", "statement": "Every HTTP request is answered with exactly one JSON value, an error value exactly with an error status, and a request answered with an error has not been carried out.", "quantifier": "every request in every consistent state", "why_tests_cant": "all states and requests, failing bindings, lost sessions", "anchors": ["internal/api/api.go"]}
{"id": "C125", "title": "The device list gives away no codes", "statement": "Whoever can read the device list cannot authenticate in the name of a device without having been told its code.", "quantifier": "every history", "why_tests_cant": "a statement about all devices and codes", "anchors": ["internal/api/api.go", "internal/storage/device_cache.go:ListDevice", "internal/protocol/msg_processor.go:genAuthCode", "internal/protocol/model/device.go"]}
{"id": "C126", "title": "How long silent devices stay", "statement": "If the keepalive checks of a device come once a minute, a device that falls silent keeps its state for a minute after it was last heard, is no longer online after two, is registered for at least two and gone after three (one that is offline already: gone after two).", "quantifier": "every history, every silence, every spacing of the checks", "why_tests_cant": "real time bounds over all runs and all other traffic", "anchors": ["internal/protocol/keepalive.go", "internal/protocol/model/device.go"]}
{"id": "C127", "title": "A terminal that stops closes its connection", "statement": "When a terminal stops reading - the stream has ended, the connection is closed, or it cannot go on (ErrActiveClose, whose comment says that it should close the connection) - its connection is closed and it sends nothing more.", "quantifier": "every sequence of inputs of the terminal", "why_tests_cant": "all ways in which the reading can end", "anchors": ["internal/client/tcp_client.go", "internal/protocol/msg_processor.go"]}
{"id": "C128", "title": "Stop shuts the server down", "statement": "After Stop the server accepts no connection, its loop ends and the connections that are there are closed.", "quantifier": "every state and everything that happens after Stop", "why_tests_cant": "an endless run", "anchors": ["internal/server/tcp_server.go"]}
{"id": "C129", "title": "Decoded messages are encoded again to the bytes they came in", "statement": "A frame that is received, decoded to a message and encoded again comes out as the same bytes.", "quantifier": "every well-formed header, every body that ends where its header says, every message type", "why_tests_cant": "all bodies of all message types, including the ones no device sends", "anchors": ["internal/protocol/msg_processor.go", "internal/protocol/model/msg_0200.go", "internal/protocol/model/msg_0100.go", "internal/protocol/model/device_params.go"]}
{"id": "C130", "title": "Heartbeats that arrive in time keep a device online", "statement": "A device whose heartbeats reach the server well within a minute of each other is not turned offline, whatever else it sends.", "quantifier": "every run in real time", "why_tests_cant": "needs minutes of real time and a backlog of messages that fail", "anchors": ["internal/server/tcp_server.go:serve", "internal/protocol/keepalive.go", "internal/protocol/msg_processor.go:Process"]}
{"id": "C131", "title": "Failing messages slow down their own connection only", "statement": "After a message whose handling fails without ending the connection, and after no other, the connection is not read for a second: it makes the server handle at most one failing message a second. Otherwise a message is handled when it has arrived and the one before it is done, whatever other connections do.", "quantifier": "every run in real time, every connection", "why_tests_cant": "real time bounds over all runs", "anchors": ["internal/server/tcp_server.go:serve", "internal/protocol/pipeline.go"]}
{"id": "C132", "title": "A fleet whose messages are read in time stays online", "statement": "If every frame between the terminals and the server is read within D, the simulator looks at its devices at least every S and sends a heartbeat at least every P, and 2 D + S + P is at most the minute after which the server takes a device for silent, then no keepalive check ever turns a terminal of the fleet offline, no connection is given up and every terminal past its status check is online on both sides at every moment. A larger sum is not enough.", "quantifier": "every fleet, every D, S and P, every run in real time, every order of events; the converse for D up to S and P", "why_tests_cant": "real time bounds over all runs", "anchors": ["test/client/main.go:keepalive", "test/client/main.go:dialAndSend", "internal/server/tcp_server.go:serve", "internal/protocol/keepalive.go", "internal/protocol/model/device.go:ShouleTurnOffline", "internal/protocol/msg_processor.go"]}
{"id": "C133", "title": "How soon a fleet comes online and its reports arrive", "statement": "In such a run a terminal is online on both sides 4 D + S after it has sent its registration, and whatever it has reported is in the server's history D later, in order, each report once.", "quantifier": "every fleet, every D, S and P, every run in real time, every order of events", "why_tests_cant": "real time bounds over all runs", "anchors": ["test/client/main.go:dialAndSend", "test/client/main.go:reportLocation", "internal/server/tcp_server.go:serve", "internal/client/tcp_client.go:Start", "internal/protocol/msg_processor.go"]}
{"id": "C134", "title": "A fleet over connections that cut up the bytes", "statement": "Connections carry bytes: what the terminals and the server write arrives in any pieces at any later time, and Recv puts the frames together on either side. Both programs then do exactly what they do over connections that deliver whole frames: Recv returns the next frame when all its bytes have arrived, and waits with no effect as long as one is missing. So a fleet comes online and its reports arrive as before, as long as bytes go on arriving, however few at a time.", "quantifier": "every fleet, every way of cutting the bytes of every connection, every order of arrivals and of the programs' steps, infinite fair runs", "why_tests_cant": "all cuts of all connections in all interleavings of two processes", "anchors": ["internal/protocol/frame_handler.go:Recv", "internal/protocol/frame_handler.go:Send", "test/client/main.go:dialAndSend", "internal/server/tcp_server.go:serve", "internal/client/tcp_client.go:Start", "internal/protocol/pipeline.go"]}
{"id": "C135", "title": "A simulator that is started again comes online again", "statement": "When the simulator ends and is started again with the same numbers and plates, against the same server, its terminals come online again.", "quantifier": "every fleet, every run of both processes, whatever keepalive checks happen in between, any number of restarts", "why_tests_cant": "two processes in sequence against one server, all interleavings", "anchors": ["test/client/main.go:dialAndSend", "test/client/configs/default.yaml", "internal/server/tcp_server.go:serve", "internal/protocol/msg_processor.go:processMsg0100", "internal/protocol/msg_processor.go:processMsg0102", "internal/protocol/msg_processor.go:processMsg8100", "internal/protocol/msg_processor.go:processMsg8001", "internal/protocol/keepalive.go"]}
{"id": "C136", "title": "Commands carry serial numbers in the order they are sent", "statement": "The parameter requests of the API for one device are written to its connection with the session's next serial numbers: one frame per request, no number twice, in the order of the numbers.", "quantifier": "every consistent state, every number of requests one after another or at the same time, every schedule", "why_tests_cant": "all schedules of any number of requests", "anchors": ["internal/api/api.go", "internal/protocol/model/session.go:GetNextSerialNum", "internal/server/tcp_server.go:Send"]}
{"id": "C137", "title": "The simulator sends the numbers it is configured with", "statement": "The registration and the reports of the simulator carry the numbers that are generated from its configuration: province, city, plate colour and each status, read back by the server as configured.", "quantifier": "every string that can be generated", "why_tests_cant": "all strings and all combinations of 20 statuses", "anchors": ["test/datagen/datagen.go:atoi", "test/datagen/datagen.go:GenMsg0100", "test/datagen/datagen.go:genGeoMeta", "internal/protocol/model/device.go:Encode", "internal/protocol/model/device.go:Decode"]}
{"id": "C138", "title": "A parameter request over HTTP reaches the terminal and its answer the requester", "statement": "Parameters set over HTTP are kept by the terminal as set, and a query over HTTP obtains the terminal's parameters: every request is sent as one frame, carried out, answered by one frame, and its result can be had from the server.", "quantifier": "every consistent server, every terminal process, every series of settings and queries", "why_tests_cant": "both processes together, all series of requests and all tables", "anchors": ["internal/api/api.go", "internal/protocol/msg_processor.go:processMsg8103", "internal/protocol/msg_processor.go:processMsg8104", "internal/protocol/model/device_params.go:Update", "internal/client/tcp_client.go:Start", "internal/protocol/model/header.go:GenMsgHeader"]}
{"id": "C139", "title": "Steps use only the shared memory they are accounted for", "statement": "Each step of a goroutine (one locked call of a cache, one atomic operation, one read or assignment of a field) reads no shared memory but what it is accounted to read, and changes none but what it is accounted to write: the maps of the caches, the device records, the ring buffers, the serial numbers, the parameter objects. So the absence of races (C71, C112) is about what the steps do: two goroutines that are both about to use memory a mutex guards, one of them changing it, hold the same mutex.", "quantifier": "every number of goroutines, every state, every schedule, every step", "why_tests_cant": "a statement about what steps do not depend on, for all states", "anchors": ["internal/storage/device_cache.go", "internal/storage/geo_cache.go", "internal/storage/param_cache.go", "internal/storage/session_cache.go", "pkg/container/ring_buffer.go", "internal/protocol/msg_processor.go", "internal/protocol/keepalive.go", "internal/api/api.go"]}
{"id": "C140", "title": "A setting sent as JSON is what the terminal is told", "statement": "A PUT of parameters whose JSON body lists known parameters with values of their kind has the terminal told exactly these parameters with these values; a body from which this cannot be done is answered with an error and the terminal is told nothing.", "quantifier": "every JSON body, every state with a registered device on an open connection", "why_tests_cant": "all shapes of JSON bodies: missing counts, null items, values of the wrong kind", "anchors": ["internal/api/api.go:Run", "internal/protocol/model/device_params.go:Encode", "internal/protocol/model/device_params.go:DeviceParams"]}
{"id": "C141", "title": "The HTTP answers show what is stored", "statement": "The device list shows every registered device once with all its fields, and the location request shows the device with its fields and its last location at the time it was reported: every text as stored, every number in decimal, every time as the instant it is.", "quantifier": "every state, every device and location, every string of bytes as a text", "why_tests_cant": "all byte strings as texts, all field values", "anchors": ["internal/api/api.go:Run", "internal/protocol/model/device.go:Device", "internal/protocol/model/device.go:DeviceGeo", "internal/protocol/model/device.go:GeoMeta", "internal/codec/hex/hex.go:ParseTime", "internal/storage/device_cache.go:ListDevice"]}
{"id": "C142", "title": "The simulator's goroutines share memory without data races", "statement": "Whatever goroutines the simulator runs for its terminals, no two of them access the same memory of the process at the same time, one of them changing it, without holding the same mutex.", "quantifier": "every number of terminals and goroutines, every state of the caches, every schedule, every sequence of frames received and results of writes", "why_tests_cant": "all interleavings of the simulator's goroutines", "anchors": ["test/client/main.go:dialAndSend", "internal/server/tcp_client.go:Start", "internal/server/tcp_client.go:Send", "internal/protocol/msg_processor.go:processMsg8001", "internal/storage/device_cache.go"]}
{"id": "C143", "title": "A simulated terminal reports around its own location", "statement": "Every report of a simulated terminal starts from the base location that was generated for that terminal when it started, and it reports in every round.", "quantifier": "every number of terminals and rounds, every schedule of their goroutines", "why_tests_cant": "all interleavings; the buffer's position returns to 0 only after 100 locations", "anchors": ["test/client/main.go:buildDeviceGeo", "test/client/main.go:reportLocation", "internal/storage/geo_cache.go:GetGeoRingByPhone", "internal/storage/geo_cache.go:GetGeoLatestByPhone", "pkg/container/ring_buffer.go:Latest"]}
{"id": "C144", "title": "A reply is generated only for the message it answers", "statement": "GenOutgoing of a reply returns ErrGenOutgoingMsg for a message of another type than the one it answers, and never panics. For the message it answers it produces a reply of its own type with the header of the message, of which only the message id differs. Types that are not replies generate nothing. The processor only pairs a reply with the message it answers.", "quantifier": "for every reply type, every incoming message of every type and every time", "why_tests_cant": "A test tries a few pairs of types; the error branches are never reached through the server, so its tests cannot see them, and the panic of 0x8004 (unchecked type assertion) waits for the day a pair is added to the table.", "anchors": ["internal/protocol/model/msg_8004.go:GenOutgoing", "internal/protocol/model/msg_1205.go:GenOutgoing", "internal/protocol/model/msg_8100.go:GenOutgoing", "internal/protocol/model/msg_0102.go:GenOutgoing", "internal/protocol/model/msg_0104.go:GenOutgoing", "internal/protocol/model/msg_8001.go:GenOutgoing"]}
{"id": "C145", "title": "A message that is received twice counts once", "statement": "JT/T 808 terminals send a message again when its acknowledgement does not arrive in time. The second copy leaves the devices, their stored locations and their parameters as the first copy left them, and it is answered like the first.", "quantifier": "for every history, every frame of every message type, every connection on which the second copy arrives", "why_tests_cant": "Tests send each message once; whether a handler may run twice depends on the state the first run leaves, in every state and for every message type.", "anchors": ["internal/protocol/msg_processor.go:Process", "internal/protocol/msg_processor.go:processMsg0100", "internal/protocol/msg_processor.go:processMsg0003", "internal/protocol/msg_processor.go:processMsg0200", "internal/storage/param_cache.go", "internal/protocol/model/device_params.go:Update"]}
{"id": "C146", "title": "The log file lies where the configuration says", "statement": "With file logging on, log lines go to the file that the configured name leads to from the configured directory, whatever slashes and dots the two contain; a plain name is a file in that directory, and a name without '..' leads to a place below it. The file is rolled by the configured limits, and the level column of text lines has one width.", "quantifier": "for every configuration (directory, name, limits), every working directory, every level", "why_tests_cant": "Tests use one directory and one name; what Clean makes of dots, double and trailing slashes depends on all combinations of them.", "anchors": ["pkg/logger/logger.go:newRollingFile", "pkg/logger/logger.go:newConsoleWriter", "internal/config/config.go:ParseLogConf"]}
{"id": "C147", "title": "Restoring writes exactly the embedded files asked for", "statement": "RestoreAssets on the name of an embedded file or directory puts a copy of each file below it, with its mode and time, at its path in the target directory, making the directories it needs, and touches no other file; on any other name it reports an error and does nothing.", "quantifier": "for every target directory, working directory, file system, name, and every order in which maps are gone through", "why_tests_cant": "The order of a range over a map is random in every run, and names with either kind of slash are accepted by the lookups.", "anchors": ["internal/config/asset.go:RestoreAsset", "internal/config/asset.go:RestoreAssets", "internal/config/asset.go:_filePath"]}
{"id": "C148", "title": "The time of last communication is never in the future and never goes back", "statement": "While the clock of the machine is not put back, no device's LastestComTime is later than now, and the time stored for a phone never becomes earlier, whatever messages, checks, requests and new registrations come in between and however the goroutines that handle them interleave.", "quantifier": "for every history of events and every schedule of any number of goroutines in which the clock does not go back", "why_tests_cant": "Each handler reads the clock and writes the time in separate steps; the order in which two handlers do so depends on the scheduler, and a test sees one order.", "anchors": ["internal/protocol/msg_processor.go:processMsg0002", "internal/protocol/msg_processor.go:processMsg0102", "internal/protocol/msg_processor.go:processMsg0200", "internal/protocol/model/device.go:NewDevice", "internal/protocol/model/device.go:ShouleTurnOffline"]}
{"id": "C149", "title": "A location request is answered with a location reported for that phone", "statement": "However a location request interleaves with the messages, checks and other requests being handled, it is answered, and a location in the answer is one that was stored for the phone or has the values of a report of that phone handled meanwhile; never one of another phone, and never a mixture of two reports.", "quantifier": "for every state, every number of goroutines beside the request and every schedule", "why_tests_cant": "The buffer's Latest loads the writer position twice without a lock; the window between the loads is a few instructions, and only one report in a hundred makes it matter.", "anchors": ["internal/api/api.go:Run", "internal/storage/geo_cache.go:GetGeoLatestByPhone", "pkg/container/ring_buffer.go:Latest", "internal/protocol/msg_processor.go:processMsg0200"]}
{"id": "C150", "title": "The device list is that of one moment", "statement": "However a request for the device list interleaves with the messages, checks and other requests being handled, it is answered, and the list has exactly one entry for each device that was registered at one moment during the request, as that device was then.", "quantifier": "for every state, every number of goroutines beside the request and every schedule", "why_tests_cant": "ListDevice copies the pointers, and the records behind them are read when the answer is written; which changes fall in between depends on the scheduler.", "anchors": ["internal/api/api.go:Run", "internal/storage/device_cache.go:ListDevice", "internal/protocol/msg_processor.go:processMsg0002", "internal/protocol/keepalive.go:checkDeviceKeepalive"]}
{"id": "C151", "title": "Every registered device has one keepalive job, however its messages interleave", "statement": "Whenever the messages and checks that act for a phone have been handled, there is exactly one keepalive job for it if its device is registered, and none if it is not, whichever goroutines ran meanwhile.", "quantifier": "for every state, every number of goroutines and every schedule", "why_tests_cant": "A registration stores the device and adds its job in two steps, and a logout cancels the job and deletes the device in two more: the windows are a few instructions wide.", "anchors": ["internal/protocol/keepalive.go:Register", "internal/protocol/keepalive.go:Cancel", "internal/protocol/keepalive.go:checkDeviceKeepalive", "internal/protocol/msg_processor.go:processMsg0100", "internal/protocol/msg_processor.go:processMsg0003"]}
{"id": "C152", "title": "The argument list of a device round trips", "statement": "DeviceArgs.Encode writes the number of the arguments and the arguments, and DeviceArgs.Decode reads them back.", "quantifier": "for every argument list, every packet and every count", "why_tests_cant": "Nothing uses this code, and no test calls it; a statement about all lists.", "anchors": ["internal/protocol/model/device_args.go:Decode", "internal/protocol/model/device_args.go:Encode"]}
{"id": "C153", "title": "A terminal pauses for a second after each message that fails", "statement": "A terminal handles what it receives in order, each as soon as it is there and the pause after the one before it is over. It pauses, for one second, exactly after an error after which it goes on: so it handles at most one failing message a second, and of what has arrived by some time each is handled within a second for each one before it.", "quantifier": "for every sequence of results of Recv and times of their arrival, every state and everything the other goroutines of the simulator do in between", "why_tests_cant": "needs real time and many failing messages.", "anchors": ["internal/client/tcp_client.go:Start", "internal/protocol/pipeline.go:ProcessConnRead"]}
