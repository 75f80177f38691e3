{"id": "C01", "title": "Fast packet registry is exactly the set of registered PGNs", "statement": "After any sequence of AddFastPacket calls, in any order and with any duplicates, a PGN is treated as fast packet by the receive path if and only if it was registered, and the lookup never goes out of range or loops. After the registrations the canusb interface makes at start-up, the fast-packet PGNs are exactly the PGNs of table entries with Size > 8.", "quantifier": "all finite sequences of uint32 registrations; all queried PGNs", "why_tests_cant": "insertion order and duplicates are unbounded; the binary search is only right on a strictly sorted list", "anchors": ["canusb/canframe.go:AddFastPacket", "canusb/canframe.go:isFastPacket", "main/argo.go:processInterface"]}
{"id": "C02", "title": "ParseFrame accepts exactly the LAWICEL frame syntax", "statement": "ParseFrame returns a frame exactly when the text is t/T/r/R, 3 or 8 hex digits of identifier, one hex digit n <= 8, 2n hex digits of data and exactly four further bytes (the adapter's timestamp, not inspected); the result's length is n, its data are the n bytes spelled, and its identifier fields come from the digits. Conversely every CAN frame, encoded by an independent encoder in either hex case, parses back to itself.", "quantifier": "all byte strings; all (type, id, data of up to 8 bytes, four trailing bytes)", "why_tests_cant": "unbounded input language", "anchors": ["canusb/canframe.go:ParseFrame"]}
{"id": "C03", "title": "Identifier decoding follows ISO 11783 PDU1/PDU2", "statement": "For every 29-bit identifier the decoded priority, PGN, source and destination are the ISO 11783 fields: PF >= 240 gives destination 255 and PS inside the PGN, PF < 240 gives destination PS and a PGN with low byte zero; and identifier bits can be rebuilt from the decoded fields. Identifiers of 30..32 bits (which ParseFrame also accepts) only differ in priority.", "quantifier": "all identifiers below 2^32", "why_tests_cant": "2^29 identifiers", "anchors": ["canusb/canframe.go:ParseFrame"]}
{"id": "C04", "title": "ParseFrame crashes exactly on texts cut before the length digit", "statement": "ParseFrame never panics on a text that reaches its length digit; it panics exactly when the text is cut inside the identifier beyond the buffer capacity or just before the length digit (the exact set is characterised), and in every other malformed case it returns an error.", "quantifier": "all byte strings and spare capacities", "why_tests_cant": "panic freedom needs every input", "anchors": ["canusb/canframe.go:ParseFrame", "canusb/canport.go:Read"]}
{"id": "C05", "title": "Single-frame PGNs are delivered unchanged and statelessly", "statement": "A well-formed frame whose PGN is not registered as fast packet is delivered at once, with the very fields and data of the frame, whatever was received before, and leaves all reassembly state untouched.", "quantifier": "all frames, all reassembly states", "why_tests_cant": "depends on arbitrary history", "anchors": ["canusb/canport.go:frameReceived"]}
{"id": "C06", "title": "In-order fast packets are reassembled exactly", "statement": "If the frames of one fast packet (declared length L <= 223, payload cut 6+7+7+..., last frame possibly padded) arrive in order, nothing is delivered before the last one, the last one delivers one message with declared length L whose first L data bytes are the payload (followed only by the padding of the last frame), and the reassembly entry is cleared; this holds from every prior state, including leftovers of an aborted transfer.", "quantifier": "all payloads of 0..223 bytes, group ids, PGNs, sources, paddings and prior states", "why_tests_cant": "223 lengths x arbitrary contents x arbitrary history", "anchors": ["canusb/canport.go:frameReceived"]}
{"id": "C07", "title": "Transfers from different senders do not disturb each other", "statement": "Frames belonging to a different (source, PGN, group) key never change what is delivered for a given key: for every interleaving, the deliveries for a key are those obtained by receiving that key's frames alone.", "quantifier": "all finite histories of parsed frames, all keys", "why_tests_cant": "all interleavings", "anchors": ["canusb/canport.go:frameReceived", "canusb/canframe.go:partial_messages"]}
{"id": "C08", "title": "What identifies a transfer", "statement": "Two fast-packet frames share reassembly state iff they agree on source, on PGN (below 2^20) and on the group id modulo 4: the top bit of the 3-bit group id and the destination address are ignored. Hence two transfers whose group ids differ by 4 or whose destinations differ are merged.", "quantifier": "all pairs of frames", "why_tests_cant": "2^60 pairs", "anchors": ["canusb/canport.go:frameReceived"]}
{"id": "C09", "title": "Reassembled payloads are never invented", "statement": "In every history, each multi-frame message delivered is the concatenation, in order, of frames numbered 0,1,..,k with one key that were really received after the latest first frame of that key, with priority, PGN, source and destination of the first frame and the declared length of the first frame; it never mixes frames of two transfers separated by a new first frame.", "quantifier": "all finite histories of frames", "why_tests_cant": "all histories, including losses, duplicates and reordering", "anchors": ["canusb/canport.go:frameReceived"]}
{"id": "C10", "title": "Lost or reordered continuation frames", "statement": "A continuation frame that is not the next expected number (or has no first frame) is delivered on its own as a raw message and changes no reassembly state; a transfer with a missing frame number never completes until a new first frame arrives.", "quantifier": "all states; all histories without a first frame for that key", "why_tests_cant": "all histories", "anchors": ["canusb/canport.go:frameReceived"]}
{"id": "C11", "title": "Reassembly crash condition", "statement": "Receiving a well-formed frame panics exactly when its PGN is registered as fast packet and either it carries no data byte, or it is numbered 0 and carries exactly one.", "quantifier": "all states and frames", "why_tests_cant": "needs all inputs", "anchors": ["canusb/canport.go:frameReceived"]}
{"id": "C12", "title": "Read delivers the frames of a byte stream in order", "statement": "For any byte stream made of adapter noise free of t/T/r/R and CR (CR is harmless too when no frame is an incomplete fast packet) and of well-formed frames ended by CR, successive Reads deliver exactly the messages of those frames in order, independently of how the port splits the stream, and every frame is processed exactly once. A lone CR after an incomplete fast-packet frame makes Read process that frame a second time.", "quantifier": "all streams of the given form, of any length", "why_tests_cant": "unbounded streams", "anchors": ["canusb/canport.go:Read"]}
{"id": "C13", "title": "Read recovers from garbage", "statement": "A rejected or interrupted frame never prevents later frames from being delivered: from any point of any Read, a start character followed by a frame text and CR is parsed as exactly that text. A closed port returns an error without consuming input; an I/O error is returned at once.", "quantifier": "all receiver states and prefixes", "why_tests_cant": "all prefixes", "anchors": ["canusb/canport.go:Read"]}
{"id": "C14", "title": "Single-frame Send round trips through the wire format", "statement": "Send of a message with at most 8 data bytes writes one line; with a four-byte timestamp inserted as the adapter does, ParseFrame reads back the same priority (<8), PGN (without its top EDP bit), destination (255 for broadcast PGNs), length and data, and the port's own address as source.", "quantifier": "all messages with length <= 8 and length = number of data bytes; all port addresses", "why_tests_cant": "2^29 x 2^64", "anchors": ["canusb/canport.go:Send", "canusb/canport.go:Write", "canusb/canframe.go:ParseFrame"]}
{"id": "C15", "title": "Invalid sends write nothing", "statement": "Send writes nothing to the port and returns an error when a short message declares more data than it has or when it has more than 223 data bytes; Write returns an error without writing for a declared length of 9..249; the exact panic set of Write (short buffers, lengths of 250 or more) is characterised; a port write error is reported.", "quantifier": "all messages / byte slices, all port behaviours", "why_tests_cant": "all inputs and port behaviours", "anchors": ["canusb/canport.go:Send", "canusb/canport.go:Write"]}
{"id": "C16", "title": "Fast-packet Send round trips for 9..192 bytes", "statement": "For every payload of 9 to 192 bytes, Send writes ceil(n/6) frames numbered 0,1,2,... with the group number in the top bits; feeding these frames (with timestamps) to the receiver, from any prior state, delivers exactly one message with the same payload, length, PGN, priority and destination; the group number advances by one modulo 256 per transfer.", "quantifier": "all payloads of 9..192 bytes, all group counters, all receiver states", "why_tests_cant": "all contents and lengths", "anchors": ["canusb/canport.go:Send", "canusb/canport.go:frameReceived"]}
{"id": "C17", "title": "Fast-packet Send of 193..223 bytes cannot be received", "statement": "Send accepts payloads of 193..223 bytes but, because it packs 6 bytes per frame, the 33rd frame is numbered 0 again: no receiver state delivers the payload, so the advertised 223-byte limit does not hold.", "quantifier": "all payloads of 193..223 bytes and receiver states", "why_tests_cant": "exhaustive over contents", "anchors": ["canusb/canport.go:Send"]}
{"id": "C18", "title": "Address claim", "statement": "AddressClaim sends PGN 60928 with the 8-byte NAME whose ISO 11783 fields are unique number 0x1fffff, manufacturer 100, function 25, class 25, industry group 4, arbitrary-address-capable 1, from the claimed address, and adopts the address even if the port fails; after k conflicting claims the interface uses address (221+k) mod 256, with no guard against 254/255.", "quantifier": "all preferred addresses, port behaviours and conflict counts", "why_tests_cant": "all counts", "anchors": ["canusb/canport.go:AddressClaim", "main/argo.go:processInterface"]}
{"id": "C19", "title": "Opening and closing the CANUSB channel", "statement": "OpenChannel writes S5, O and the address claim in this order, stops at the first failing configuration write with an error and no port, and otherwise returns an open port with the requested address. CloseChannel panics before the underlying port is closed, whatever the port does.", "quantifier": "all addresses and port behaviours", "why_tests_cant": "all port behaviours", "anchors": ["canusb/canport.go:OpenChannel", "canusb/canport.go:CloseChannel"]}
{"id": "C20", "title": "Actisense envelope", "statement": "Every command or message handed to the NGT is one Write of DLE STX command length payload-with-doubled-DLE checksum DLE ETX, and command + length + payload + checksum is 0 modulo 256.", "quantifier": "all commands and payloads", "why_tests_cant": "all payloads", "anchors": ["actisense/actisense.go:write"]}
{"id": "C21", "title": "Actisense escaping round trip", "statement": "Reading back what was written recovers exactly command, length, payload and checksum, for every payload whose length modulo 256 and checksum both differ from 16; if either equals 16 the receiver does not recover the message (neither byte is escaped), so a message with 10 data bytes sent with Send never arrives.", "quantifier": "all commands and payloads", "why_tests_cant": "all payloads", "anchors": ["actisense/actisense.go:write", "actisense/actisense.go:Read"]}
{"id": "C22", "title": "Actisense Read delivers messages in order and resynchronises", "statement": "For a stream of correctly escaped messages separated by noise without DLE, successive Reads deliver exactly the acceptable messages in order, skip the others, and no noise or bad checksum prevents later messages from being delivered; after arbitrary garbage one complete message resynchronises the reader, though that message itself is lost if it follows a truncated one.", "quantifier": "all streams of that form", "why_tests_cant": "unbounded streams", "anchors": ["actisense/actisense.go:Read"]}
{"id": "C23", "title": "N2K message decoding from the NGT", "statement": "A received 0x93 message is accepted exactly when its checksum is 0, its packet length byte is at least 11, its data length is at most 223 and the message holds that many bytes after the 12-byte header; then priority, little-endian 24-bit PGN, destination, source, length and data are the documented bytes; Data has exactly Length bytes. The checksum byte itself is counted as available data (off by one).", "quantifier": "all byte sequences", "why_tests_cant": "all inputs", "anchors": ["actisense/actisense.go:messageReceived", "actisense/actisense.go:n2kMessageReceived"]}
{"id": "C24", "title": "NGT status message decoding", "statement": "A received 0xA0 message with packet length 12..254 is delivered as pseudo-PGN 0x40000 + command id with Length one less than the packet length, Data being the following bytes of the buffer; a declared length longer than the message is filled up with the checksum byte and zeros from the receive buffer, or panics when it exceeds the buffer's capacity.", "quantifier": "all byte sequences and capacities", "why_tests_cant": "all inputs", "anchors": ["actisense/actisense.go:ngtMessageReceived"]}
{"id": "C25", "title": "Crash set of the Actisense receiver", "statement": "A received message makes Read panic exactly when its checksum is right and it is a 0x93 message with packet length >= 11 but only 3 to 12 bytes, or a 0xA0 message with packet length >= 12 that is 255 or exceeds the buffer capacity.", "quantifier": "all byte sequences", "why_tests_cant": "all inputs", "anchors": ["actisense/actisense.go:messageReceived", "actisense/actisense.go:n2kMessageReceived", "actisense/actisense.go:ngtMessageReceived"]}
{"id": "C26", "title": "Actisense Send layout and limits", "statement": "Send of a message with Length <= 249 and at least Length data bytes writes one envelope whose payload is priority, PGN as 3 little-endian bytes, destination, length and the first Length data bytes; with fewer data bytes it writes nothing and returns an error; with Length >= 250 it panics.", "quantifier": "all messages", "why_tests_cant": "all inputs", "anchors": ["actisense/actisense.go:Send"]}
{"id": "C27", "title": "NGT command encodings", "statement": "Each command method writes exactly one envelope with command 0xA1 (0x01 for Reboot) and the documented payload; PGN arguments are 4 little-endian bytes; SetRxPGNEx and SetTxPGNEx write nothing and return -1 without error; OpenChannel sends receive-all mode then port codes 0,0,0 and stops at the first error.", "quantifier": "all arguments", "why_tests_cant": "all argument values", "anchors": ["actisense/commands.go:*", "actisense/actisense.go:OpenChannel"]}
{"id": "C28", "title": "PGN lookup", "statement": "First and Last return the lowest and highest table index with the requested PGN together with that entry, and index 0 (the unknown-PGN entry) exactly when the PGN is not in the table; all entries of one PGN are contiguous in the shipped table, so the range between First and Last contains exactly the definitions of that PGN.", "quantifier": "all PGNs; all tables (lookup), the shipped 297-entry table (contiguity)", "why_tests_cant": "2^32 PGNs", "anchors": ["nmea2k/pgn_array.go:First", "nmea2k/pgn_array.go:Last", "nmea2k/pgn_array.go:PgnList"]}
{"id": "C29", "title": "Field offsets are bit prefix sums", "statement": "FieldOffsets(i) returns the byte and bit position of the sum of the sizes of the preceding fields, the byte size rounded up, and the field's width; ParsePacket's running position equals it for the non-repeated fields of every definition whose fields all fit.", "quantifier": "all definitions and indices", "why_tests_cant": "all field lists", "anchors": ["nmea2k/raw_message.go:FieldOffsets", "nmea2k/raw_message.go:ParsePacket"]}
{"id": "C30", "title": "Numeric fields are the little-endian bit field", "statement": "The raw integer of a numeric field of at most 64 bits is bits [s, s+w) of the little-endian reading of the field's ceil(w/8) bytes; it equals bits of the whole message exactly when start bit plus width fits in these bytes, otherwise the top bits are lost; extraction fails exactly for fields wider than 8 bytes; the 'field not present' branch is never taken.", "quantifier": "all messages, starts, offsets and widths", "why_tests_cant": "all data", "anchors": ["nmea2k/raw_message.go:extractNumber"]}
{"id": "C31", "title": "Signedness of numeric fields", "statement": "A field's value is unsigned unless declared signed; a signed field of 8, 16, 32 or 64 bits is read in two's complement; every signed field of the shipped table has one of these sizes (or is listed), and for other widths negative values come out positive.", "quantifier": "all data; all table entries", "why_tests_cant": "all data", "anchors": ["nmea2k/raw_message.go:extractNumber", "nmea2k/pgn_array.go:PgnList"]}
{"id": "C32", "title": "Scaled values are correctly rounded", "statement": "A field with a resolution r other than 1 yields the float64 product of the float64-rounded raw integer by r, each rounded to nearest even: for raw integers below 2^53 in magnitude the result is the double nearest to n*r. The standard's 'not available' bit patterns get no special treatment: they decode to numbers too (companion theorem).", "quantifier": "all raw integers and resolutions", "why_tests_cant": "2^64 values", "anchors": ["nmea2k/raw_message.go:extractNumber"]}
{"id": "C33", "title": "Latitude and longitude", "statement": "4-byte coordinates decode to the float32 nearest quotient of the float32-rounded integer by 1e7, 8-byte ones to float64 quotient by 1e16; the sentinel values are reported as absent and any other size is an error. The 4-byte result is within relative error 2^-23 + 2^-48 (about 2.4 m of longitude at 180 degrees) of the true value.", "quantifier": "all 2^32 / 2^64 raw values", "why_tests_cant": "2^64 values", "anchors": ["nmea2k/raw_message.go:extractLatLon"]}
{"id": "C34", "title": "Dates", "statement": "A 2-byte date d other than 0xFFFF decodes to d days after 1970-01-01 for d < 49711; for larger d the day count wraps in 32 bits and the date is wrong.", "quantifier": "all 65536 values and all placements", "why_tests_cant": "all positions", "anchors": ["nmea2k/raw_message.go:extractDate"]}
{"id": "C35", "title": "Times of day", "statement": "A 4-byte time (1e-4 s units) other than 0xFFFFFFFF decodes to 1970-01-01 local time with the right hour, minute and second; the sub-second part is one tenth of the true value.", "quantifier": "all 2^32 values, all local zone offsets", "why_tests_cant": "2^32 values", "anchors": ["nmea2k/raw_message.go:extractTime"]}
{"id": "C36", "title": "Temperature and pressure fields", "statement": "Temperatures and pressures are the float32 quotients of the 16-bit raw value by 100 and 1000; raw values 0xFFFD..0xFFFF and wrong sizes are reported absent, all others present.", "quantifier": "all 65536 values", "why_tests_cant": "all placements", "anchors": ["nmea2k/raw_message.go:extractTemperature", "nmea2k/raw_message.go:extractPressure"]}
{"id": "C37", "title": "Text fields", "statement": "ASCII fields yield the bytes before the first NUL or 0xFF within the field, and are absent if empty, or if the field ends exactly at the end of the message; length-prefixed strings yield the length-1 bytes after the length byte; the exact panic condition (8-bit wrap of start+length) is characterised.", "quantifier": "all data, positions and sizes", "why_tests_cant": "all data", "anchors": ["nmea2k/raw_message.go:extractString", "nmea2k/raw_message.go:extractStringLZ"]}
{"id": "C38", "title": "Lookups", "statement": "An enumerated field yields the table's name for its value when there is one and the raw number otherwise, so distinct values never yield the same result unless the table maps them to the same name; manufacturer codes likewise. Device function names (two-level lookup) are looked up with a value scaled by -10 and so are empty for every non-zero function code.", "quantifier": "all values and tables", "why_tests_cant": "all values", "anchors": ["nmea2k/raw_message.go:extractLookupField", "nmea2k/raw_message.go:extractLookupSubfield", "nmea2k/raw_message.go:extractManufacturer", "nmea2k/lookups.go:*"]}
{"id": "C39", "title": "ParsePacket keeps the header and numbers fields consecutively", "statement": "ParsePacket returns the message header unchanged (PGN, source, destination, priority, data) and a field map whose keys are exactly 0..n-1, for every message on which it returns.", "quantifier": "all messages, any table", "why_tests_cant": "all inputs", "anchors": ["nmea2k/raw_message.go:ParsePacket"]}
{"id": "C40", "title": "ParsePacket terminates", "statement": "ParsePacket terminates on every message with the shipped table, with at most a number of field steps linear in the data length; in particular repeating groups always make progress.", "quantifier": "all messages with the shipped table", "why_tests_cant": "all lengths", "anchors": ["nmea2k/raw_message.go:ParsePacket", "nmea2k/pgn_array.go:PgnList"]}
{"id": "C41", "title": "Decoding a PGN with one definition", "statement": "For a PGN with a single definition, field k of the result is the k-th field of the definition with its repeating group unrolled, decoded at the bit offset that is the sum of the preceding sizes, and decoding stops at the first field that does not fit in the data; for every kind of field the value is the function of those bits that the field's definition prescribes (number, scaled number, name from a table, position, date, time, text, bytes, or nothing). An unknown PGN is decoded with the first entry of the table.", "quantifier": "all messages, all single-definition table entries and unknown PGNs", "why_tests_cant": "all data", "anchors": ["nmea2k/raw_message.go:ParsePacket"]}
{"id": "C42", "title": "Choosing among several definitions", "statement": "For a PGN with several definitions, the reported definition index never decreases, starts at First, and moves past a definition only when a required field value differs; when all candidates are exhausted the index runs past Last onto the next PGN's definition (companion theorem). In the shipped table the first definition of PGN 126720 asks for nothing, so none of the others is ever chosen, and fields decoded before a switch are not checked again. For every PGN of the shipped table but 60928 the whole result (every value and the index) is the one determined by a relation that mentions only the message and the table.", "quantifier": "all messages, all tables", "why_tests_cant": "all data", "anchors": ["nmea2k/raw_message.go:ParsePacket"]}
{"id": "C43", "title": "Crash set of ParsePacket", "statement": "With the shipped table, ParsePacket never panics on a message whose PGN is not one of 60928, 130816, 130820, 130842, 130847, 262211, 262212, 262213, whatever its data (also for PGNs with several definitions); for each of these eight PGNs a message crashes it exactly if its bytes meet a stated condition: a text whose length byte leads past byte 255 (130816, 130820, 130847, 262211-262213), a message id of at least 2 (130842), 0 or 6 bytes of data with nothing allocated behind them (60928).", "quantifier": "all messages, the shipped table", "why_tests_cant": "all data", "anchors": ["nmea2k/raw_message.go:ParsePacket"]}
{"id": "C44", "title": "Decoding depends only on the message's data bytes", "statement": "Values decoded depend only on the bytes inside the message (never on what lies beyond its length), except for the two-level lookup whose reference field may lie beyond the received bytes.", "quantifier": "all pairs of messages equal up to length with different spare capacity contents", "why_tests_cant": "relational property", "anchors": ["nmea2k/raw_message.go:ParsePacket"]}
{"id": "C45", "title": "Definition accessor ignores its argument", "statement": "GetPgnDefinition(x) returns the definition of the message's own PGN whatever x is.", "quantifier": "all messages and arguments", "why_tests_cant": "all arguments", "anchors": ["nmea2k/raw_message.go:GetPgnDefinition"]}
{"id": "C46", "title": "Importing CanBoat JSON lines", "statement": "FromCanBoat returns an error exactly for PGNs with several definitions; otherwise the message's fields are exactly the given fields whose names occur in the definition, at every index with that name, and unknown names are dropped; malformed JSON is not an error and yields a PGN 0 message.", "quantifier": "all decoded JSON objects, any map iteration order", "why_tests_cant": "all inputs and orders", "anchors": ["nmea2k/parsed_message.go:FromCanBoat"]}
{"id": "C47", "title": "JSON field keys", "statement": "The JSON object of a decoded message has one member per field, keyed by the decimal index; distinct indices never collide and every index is recoverable.", "quantifier": "all field maps", "why_tests_cant": "all maps", "anchors": ["nmea2k/parsed_message.go:MarshalJSON"]}
{"id": "C48", "title": "Printing a decoded message", "statement": "Print of a message produced by ParsePacket never goes out of range; it prints every field in order (every non-nil one unless verbose), each under the name the reported definition gives to that position, repeated groups included; for a PGN with one definition that is the field it was decoded from. The line is the header words followed by the fields with semicolons between. Print of an imported message never goes out of range either.", "quantifier": "all messages of all PGNs", "why_tests_cant": "all data", "anchors": ["nmea2k/parsed_message.go:Print"]}
{"id": "C49", "title": "Signal K updates are sound", "statement": "Every value in a delta has the path of a mapping for the message's PGN (with placeholders substituted) and is the value of a decoded field of the message, for a mapping whose conditions match, or a fieldset's combined text; the update's source carries the message's PGN and source address.", "quantifier": "all mappings, messages, map iteration orders", "why_tests_cant": "all inputs and iteration orders", "anchors": ["signalk/signalk.go:Delta"]}
{"id": "C50", "title": "Signal K updates are complete for plain mappings", "statement": "If a mapping without conditions and fieldsets names a present, non-nil field of the PGN, and no earlier mapping claims the field, its value appears in the delta.", "quantifier": "all mappings, messages, iteration orders", "why_tests_cant": "all inputs", "anchors": ["signalk/signalk.go:Delta"]}
{"id": "C51", "title": "Delta fails exactly when nothing maps", "statement": "Delta returns an error iff no value was produced; it never returns an empty update.", "quantifier": "all mappings and messages", "why_tests_cant": "all inputs", "anchors": ["signalk/signalk.go:Delta"]}
{"id": "C52", "title": "At most one value per field", "statement": "With mappings made only of plain fields, each decoded field contributes at most one value to a delta.", "quantifier": "all mappings without fieldsets", "why_tests_cant": "all inputs", "anchors": ["signalk/signalk.go:Delta"]}
{"id": "C53", "title": "Iteration order of the field map is irrelevant", "statement": "For mappings without fieldsets the set of values of a delta (as a multiset) is the same for every iteration order of the field map; with fieldsets it is not in general.", "quantifier": "all pairs of iteration orders", "why_tests_cant": "nondeterministic map order", "anchors": ["signalk/signalk.go:Delta"]}
{"id": "C54", "title": "Conditions", "statement": "A mapping with conditions eq/lt/gt/le/ge applies iff every condition holds of the decimal/text form of the referenced field under byte-wise string comparison; an unknown operator makes the rest be ignored. Numeric ordering is not respected for numbers of different width.", "quantifier": "all condition lists and messages", "why_tests_cant": "all inputs", "anchors": ["signalk/signalk.go:conditionsMatch"]}
{"id": "C55", "title": "Date-time fieldsets", "statement": "A datetime fieldset yields the RFC 3339 text of the instant with the date's calendar day and the time's clock reading; with a zone offset of 0 both come from the message; a non-zero offset shifts the date's day for some inputs.", "quantifier": "all dates, times and zone offsets", "why_tests_cant": "all values", "anchors": ["signalk/signalk.go:parse"]}
{"id": "C56", "title": "Path notation and placeholders", "statement": "Mapping paths /a/b/c become a.b.c and no other character changes (paths shorter than two bytes panic); a placeholder {id} is replaced once by the classifier or multiplier field's text; the multiplier field used for repeat k is the one of the same repetition.", "quantifier": "all paths, ids, values, field indices", "why_tests_cant": "all strings", "anchors": ["signalk/signalk.go:toDotNotation", "signalk/signalk.go:Delta"]}
{"id": "C57", "title": "Used-field bookkeeping", "statement": "merge returns exactly the union with right precedence and leaves its arguments unchanged; hasAll is true iff every field is present, non-empty and unused.", "quantifier": "all maps", "why_tests_cant": "all maps", "anchors": ["signalk/signalk.go:merge", "signalk/signalk.go:hasAll"]}
{"id": "C58", "title": "Statistics are exact", "statement": "After any sequence of messages the counter of each PGN equals the number of messages of that PGN, PGNs never seen are absent, and the displayed PGN list is sorted, duplicate free and complete.", "quantifier": "all message sequences", "why_tests_cant": "unbounded sequences", "anchors": ["main/argo.go:main"]}
{"id": "C59", "title": "Display filter", "statement": "A message is displayed iff it matches every one of the -pgn, -source and -dest options that is set (0 / 255 meaning unset) and statistics mode is off; filtering never affects statistics or broadcasting.", "quantifier": "all options and messages", "why_tests_cant": "all inputs", "anchors": ["main/argo.go:main", "main/flags.go"]}
{"id": "C60", "title": "Websocket delivery", "statement": "Each client receives a contiguous in-order run of the broadcasts starting at its registration, without loss or duplication, until it falls 256 messages behind, at which point it is dropped and its stream closed; other clients are unaffected.", "quantifier": "all schedules of register/broadcast/consume events", "why_tests_cant": "all schedules", "anchors": ["main/websocket_server.go:run", "main/websocket_server.go:writePump", "main/websocket_server.go:serveWs"]}
{"id": "C61", "title": "The hub never crashes or blocks without unregister", "statement": "Without unregister requests (none is ever sent in the repository) no send channel is closed twice or written after closing, and the hub always returns to serving requests; an unregister of an already dropped client would panic.", "quantifier": "all schedules", "why_tests_cant": "all schedules", "anchors": ["main/websocket_server.go:run"]}
{"id": "C62", "title": "Messages of each interface are processed once and in order", "statement": "The consumer handles, for every schedule of interface goroutines, an interleaving of the interfaces' message sequences: each message once, per-interface order kept; broadcasts follow the same order.", "quantifier": "all schedules and numbers of interfaces", "why_tests_cant": "all schedules", "anchors": ["main/argo.go:main", "main/argo.go:processInterface"]}
{"id": "C63", "title": "PGN summaries", "statement": "The summary of entry i repeats the entry's data, classifies sizes 0..8 / 9..223 / 224..1785 / larger as Single Frame / Fast Packet / ISO 11783 Multi-Packet / Invalid, and Single Frame/Fast Packet agrees with the receive path's fast-packet registration except for PGNs having entries on both sides.", "quantifier": "all entries", "why_tests_cant": "all tables", "anchors": ["main/api_server.go:GetPGNSummary"]}
{"id": "C64", "title": "Message index filtering", "statement": "The index lists, in table order, exactly the entries whose category equals the requested one ignoring case and whose size class is the requested one; an unknown type letter lists nothing; the four classes partition the table.", "quantifier": "all query values and tables", "why_tests_cant": "all strings", "anchors": ["main/api_server.go:MessagesIndex"]}
{"id": "C65", "title": "Message details", "statement": "The details page for key k (up to its first dot) shows entry k for 0 <= k < table size, otherwise the first entry of PGN k, otherwise the unknown entry; numbers are limited to 32 bits, unparsable keys show entry 0 and negative numbers panic the request.  The extension .xml asks for XML, which is empty for an entry with a two-level lookup (only PGN 60928 in the shipped table).", "quantifier": "all keys", "why_tests_cant": "all strings", "anchors": ["main/api_server.go:MessageDetailsHandler"]}
{"id": "C66", "title": "The send-command endpoint never completes", "statement": "A POST to the control endpoint blocks for ever, since nothing in the program receives from the command channel; no other request is affected.", "quantifier": "all schedules", "why_tests_cant": "all schedules", "anchors": ["main/api_server.go:SendMessageHandler", "main/argo.go:main"]}
{"id": "C67", "title": "Defaults fill exactly the unset options", "statement": "After ReadConfig every option equals the file's value if that is not the zero value and the default otherwise; consequently an explicit false for the websocket or MQTT-TLS option, or 0 / empty text where a default exists, is not honoured.", "quantifier": "all configuration files", "why_tests_cant": "all configurations", "anchors": ["config/config.go:ReadConfig"]}
{"id": "C68", "title": "Vessel UUID parts", "statement": "The five UUID parts are set iff the UUID has exactly five dash-separated parts, joining them with dashes gives back the UUID, and otherwise they stay empty.", "quantifier": "all strings", "why_tests_cant": "all strings", "anchors": ["config/config.go:ReadConfig"]}
{"id": "C69", "title": "Admin updates never overwrite a set option", "statement": "An admin POST changes only options that are currently empty; options already set (including all that have defaults) keep their value, and repeating the same update changes nothing further.", "quantifier": "all configurations and updates, all sequences of updates", "why_tests_cant": "all sequences", "anchors": ["main/ui_server.go:adminHandler"]}
{"id": "C70", "title": "Crash safety of configuration saving", "statement": "If argo crashes at any point of saving a configuration once, either argo.conf or argo.conf~ still holds the complete previous or new configuration; after a crash in the middle of a save, a second save can crash leaving no complete copy. Several saves at once can leave a mixture, but no byte that none of the texts has at its place, except zero bytes.", "quantifier": "all crash points of save sequences", "why_tests_cant": "all crash points", "anchors": ["main/ui_server.go:adminHandler", "config/config.go:WriteConfig"]}
{"id": "C71", "title": "Installed web apps", "statement": "The list of installed apps contains exactly the packages with the signalk-webapp keyword found below node_modules and its scopes, keyed by their path without the node_modules prefix, provided every directory has a readable package.json; one directory without it hides all apps of that level.", "quantifier": "all directory trees", "why_tests_cant": "all trees", "anchors": ["main/packages.go:getInstalledPackages"]}
{"id": "C72", "title": "Which interfaces can be started", "statement": "Starting an interface ends the whole program exactly when its path does not exist, is a serial device that cannot be opened, is not a serial device although the type is canusb or actisense, cannot be written during the adapter's set-up, or when its type is none of canusb, actisense and file.", "quantifier": "all interface configurations and device behaviours", "why_tests_cant": "every combination of type, device and write errors", "anchors": ["main/argo.go:processInterface", "canusb/canport.go:OpenChannel", "actisense/actisense.go:OpenChannel"]}
{"id": "C73", "title": "Two CANUSB adapters", "statement": "With two canusb interfaces the reassembly state is shared: frames of one bus complete or destroy transfers of the other, so the delivered messages depend on the schedule; a message can be delivered that no bus carried.", "quantifier": "all schedules", "why_tests_cant": "exists only under concurrency", "anchors": ["main/argo.go:processInterface", "canusb/canport.go:frameReceived"]}
{"id": "C74", "title": "File interface", "statement": "A file interface processes exactly the lines of the file in order, without their newline and one trailing carriage return, the last one also without newline; reading ends silently at the first line of 65536 or more bytes.", "quantifier": "all file contents", "why_tests_cant": "all byte strings", "anchors": ["main/argo.go:processInterface"]}
{"id": "C75", "title": "The pipeline never blocks on clients", "statement": "Whatever the stream clients do (not reading, stalled or broken connections), the consumer finishes the current message after a bounded number of its own and the hubs' steps and then takes a message of any interface that has one.", "quantifier": "all reachable states and schedules", "why_tests_cant": "all schedules", "anchors": ["main/argo.go:main", "main/websocket_server.go:run"]}
{"id": "C76", "title": "Which handler answers a request", "statement": "Whatever apps are installed, the stream, statistics, API and admin paths reach their own handlers; below the messages path a key without a slash gets the details page; files of an installed app are served below its key.  The details link inside a summary leads nowhere, and an app whose key is a beginning of the word install hides the install page.", "quantifier": "all request paths, all sets of installed apps", "why_tests_cant": "all paths and app names", "anchors": ["main/api_server.go:ApiServer", "main/ui_server.go:UiServer", "main/ui_server.go:addApps", "main/websocket_server.go:WebSocketServer"]}
{"id": "C77", "title": "Enabling MQTT while the program runs", "statement": "If MQTT is enabled at start, updates on the admin page never stop the program and every later delta is published; if it is not, nothing is ever published, and the program dies at the first delta after an update that enables MQTT (and never otherwise).", "quantifier": "all configurations, all histories of updates and deltas", "why_tests_cant": "every interleaving of updates and deltas", "anchors": ["main/ui_server.go:adminHandler", "main/argo.go:main"]}
{"id": "C78", "title": "The saved configuration is the one found at the next start", "statement": "After a completed save, a restart without -config finds every option, and exactly the interfaces, of the running configuration, the -log level of the run included; after a crash at any moment of a save a start with argo.conf or with -config argo.conf~ finds the text from before; with another -config file the restart ignores everything saved; a crash right after argo.conf was opened makes the next start silently use the defaults (if the decoder accepts an empty file).", "quantifier": "all configurations, histories of updates, save runs and restarts", "why_tests_cant": "all histories across restarts", "anchors": ["config/config.go:ReadConfig", "config/config.go:WriteConfig", "main/ui_server.go:adminHandler", "main/argo.go:main"]}
{"id": "C79", "title": "Installing an app", "statement": "Installing an app never blocks forever and ends after finitely many steps of its two goroutines, however much yarn prints; but every installation leaves one goroutine waiting forever.", "quantifier": "all schedules, any output of yarn", "why_tests_cant": "all interleavings", "anchors": ["main/packages.go:installPackage"]}
{"id": "C80", "title": "The settings page", "statement": "The settings page shows every option in its box. Pressing Update Settings sets exactly the options that were not set before, to what their boxes hold, or nothing if a number is rejected; options already set and the interfaces never change, however often the form is submitted. A UUID entered for the first time is shown in the five boxes after the next start.", "quantifier": "all configurations, all form contents, all sequences of submissions", "why_tests_cant": "any texts in any box, any number of submissions", "anchors": ["templates/index.gtpl", "assets/js/site.js:submitForm", "assets/js/site.js:getUUID", "main/ui_server.go:indexHandler", "main/ui_server.go:adminHandler"]}
{"id": "C81", "title": "Generated UUIDs", "statement": "Generate new UUID fills the five boxes with the parts of an upper-case version 4 UUID of the right lengths, whatever the random bytes; saved they form the UUID with dashes; two are equal exactly if the 122 random bits used are equal, and every version 4 UUID can result.", "quantifier": "all random bytes", "why_tests_cant": "2^128 random inputs", "anchors": ["main/ui_server.go:uuidHandler", "assets/js/site.js"]}
{"id": "C82", "title": "Links of the statistics table", "statement": "The entry of a PGN in the statistics table leads to the details page of that PGN whatever apps are installed; it shows the first definition of the PGN if the PGN is in the table.", "quantifier": "all PGNs, all sets of apps", "why_tests_cant": "all PGNs and app names", "anchors": ["assets/js/site.js:showPgnData", "main/argo.go", "main/ui_server.go"]}
{"id": "C83", "title": "Log level", "statement": "The log level is that of the option -log, else of the configuration file, else INFO. A level name in any case admits exactly the records up to that level, NONE in upper case none, any other text all of them; so a message that passes the filter leaves its raw and its decoded line at DEBUG, the decoded line at INFO and nothing below.", "quantifier": "all texts of the option and the file, all decoded messages", "why_tests_cant": "any text in any case", "anchors": ["main/argo.go:main", "main/flags.go:GetCommandLineOptions"]}
{"id": "C84", "title": "Raw dump", "statement": "The debug line of a message consists of time, priority, source, destination, PGN and length in decimal and the data in hexadecimal, and all of them can be read back from it: two different messages never give the same line.", "quantifier": "all messages", "why_tests_cant": "all header values and data", "anchors": ["can/can.go:RawMessage.Print"]}
{"id": "C85", "title": "What ends the running program", "statement": "Whatever the schedule, the running program ends only because an interface cannot be started, because a canusb line is cut before its length digit, is too short for the fast packet header of its PGN, is a message that crashes the decoder or a frame of one of four fast packet PGNs, or because an NGT message announces more than it carries or is one that crashes the decoder. With adapters that deliver other complete frames and messages, with any noise between them, and with files of any content, it never ends; a cut or headless line and a crash-set NGT message always end it when their interface gets to them.", "quantifier": "all executions of the program with any interfaces, inputs (bytes, empty reads, errors), schedules, clients and files", "why_tests_cant": "schedules and input histories are unbounded", "anchors": ["main/argo.go:main", "main/argo.go:processInterface", "canusb/canport.go:Read", "actisense/actisense.go:Read", "nmea2k/raw_message.go:ParsePacket"]}
{"id": "C86", "title": "Deltas as JSON", "statement": "The Signal K delta of a decoded message is always written, never silently dropped by the encoder, and its text is one JSON text that every reader understands as the delta: the same context, source, paths and values in the same order, numbers that round to exactly the decoded floating point values with as few digits as can be, octets in base 64, texts character for character where they are UTF-8, and the time of processing in RFC 3339.", "quantifier": "all decoded messages of the shipped table, mappings, iteration orders and instants of the years 0 to 9999 on any clock", "why_tests_cant": "all field values, in particular all doubles and all texts", "anchors": ["main/argo.go:main", "signalk/signalk.go:Delta", "signalk/signalk.go:Delta"]}
{"id": "C87", "title": "Messages as JSON", "statement": "The JSON of a decoded message is always produced and says exactly what the message says: the header, the table index, and every field under its number with nothing lost and nothing added. Texts that are not UTF-8 are altered, so two different names can give the same JSON.", "quantifier": "all decoded messages of the shipped table, all instants of the years 0 to 9999", "why_tests_cant": "all field values", "anchors": ["nmea2k/parsed_message.go:ParsedMessage.JSON", "nmea2k/parsed_message.go:DataMap.MarshalJSON"]}
{"id": "C88", "title": "Statistics as JSON", "statement": "What a statistics client gets after every message is a JSON object with exactly one member per PGN seen so far, whose value is the number of messages of it.", "quantifier": "all histories of messages", "why_tests_cant": "histories are unbounded", "anchors": ["main/argo.go:main"]}
{"id": "C89", "title": "Index page as JSON", "statement": "The message index answers with a JSON text that lists exactly the selected entries in order, with every attribute, or null when there is none.", "quantifier": "all tables and filters", "why_tests_cant": "all tables and filters", "anchors": ["main/api_server.go:MessagesIndex"]}
{"id": "C90", "title": "Generated UUID as JSON", "statement": "\"Generate new UUID\" answers with a JSON object whose only member is the list of the five parts of a version 4 UUID.", "quantifier": "all random numbers", "why_tests_cant": "128 random bits", "anchors": ["main/ui_server.go:uuidHandler"]}
{"id": "C91", "title": "JSON the program reads", "statement": "A text is accepted as JSON exactly if it is an RFC 8259 text, except that bytes that are not UTF-8 and unpaired surrogate escapes are read as U+FFFD and that nesting is limited; every text has one value. A request's body need only start with such a text.", "quantifier": "all byte strings, all nesting limits", "why_tests_cant": "unboundedly many texts, nested arbitrarily", "anchors": ["main/ui_server.go:adminHandler", "main/api_server.go:SendMessageHandler", "nmea2k/parsed_message.go:FromCanBoat"]}
{"id": "C92", "title": "Settings documents", "statement": "A document posted to /admin is refused with 400, changing nothing, exactly if it does not start with a JSON value or a setting in it has the wrong type (numbers out of range included). Otherwise every setting has the value of the last member of its name, whatever the case of its letters, that is not null; members with other names are ignored; interfaces are those of the objects called Interfaces.", "quantifier": "all request bodies", "why_tests_cant": "all documents, member orders, duplicates and spellings", "anchors": ["main/ui_server.go:adminHandler", "config/config.go:TomlConfig"]}
{"id": "C93", "title": "From the form to the settings", "statement": "Whatever text the browser sends for the settings page's form, as long as it is JSON for the form's values, the program decodes exactly the values of the boxes; a press of the button has the effect stated in C80 on the bytes of the request.", "quantifier": "all contents of the boxes, all JSON texts for them, all configurations", "why_tests_cant": "all texts in all boxes", "anchors": ["assets/js/site.js", "main/ui_server.go:adminHandler"]}
{"id": "C94", "title": "Lines of CanBoat files, from their text", "statement": "The message made of a line has the priority, source, destination and PGN that the line's JSON says (0 if missing, out of range or of another type), and for every field of the PGN's one definition that the line names exactly the value of the last such member: texts as they are, numbers as the nearest double, null for numbers too large. No line makes a name appear twice, so files never end the program under the conditions of C85.", "quantifier": "all lines, all schedules", "why_tests_cant": "all texts", "anchors": ["nmea2k/parsed_message.go:FromCanBoat", "main/argo.go:processInterface"]}
{"id": "C95", "title": "Installing an app", "statement": "yarn is run exactly for POSTs to /apps/install whose body starts with a JSON object with texts (or nothing) for package and version, with the argument package@version. The answer is a JSON object with the outcome and, on success, the address under which the files are served from then on; the page shows the version and that address. (Refuted: that a failed installation is not shown as installed.)", "quantifier": "all requests, all outcomes of yarn", "why_tests_cant": "all package names, error texts and bodies", "anchors": ["main/ui_server.go:appInstallHandlerFactory", "assets/js/site.js:handleAppInstall", "main/packages.go:installPackage"]}
{"id": "C96", "title": "Commands posted to the API", "statement": "\"Invalid JSON\" is answered exactly if the body does not start with a JSON value of the type of a command; the command taken from an object has its last text req_type and its last 32 bit number req_pgn. (Refuted: that a refused body is not passed on.)", "quantifier": "all requests", "why_tests_cant": "all bodies", "anchors": ["main/api_server.go:SendMessageHandler"]}
{"id": "C97", "title": "The command line", "statement": "A command line is accepted exactly if it is a sequence of options (one or two dashes; the value after '=' or, for numbers and texts, in the next word; numbers as in Go source text) followed by the end, by \"--\" or by a word that is no option; each option has the value given last, or its default. -help and then -explain win over everything else; any other line ends the program. (Refuted: that a switch takes its value from the next word.)", "quantifier": "all command lines", "why_tests_cant": "all sequences of words of any length", "anchors": ["main/flags.go:GetCommandLineOptions", "main/argo.go:main"]}
{"id": "C98", "title": "Definitions as JSON", "statement": "For every entry of the table, the details page is a JSON text which says exactly what the definition says: names, sizes, resolution as the nearest double, lookup tables as lists of names with values in some order; -explain prints the list of all of them. The dialog of the statistics page built from it shows description, PGN, category and the names of the fields, and no name can be taken for markup.", "quantifier": "all 297 entries and all orders in which Go may go through its maps", "why_tests_cant": "map order is random", "anchors": ["main/api_server.go:MessageDetailsHandler", "main/argo.go:main", "nmea2k/pgn_array.go:MarshalJSON", "assets/js/site.js:showPgnData"]}
{"id": "C99", "title": "The pages as browsers read them", "statement": "Whatever texts the app registry or the settings contain, the page of apps consists of the same elements, one row per app, with the app's texts (and nothing else) where they belong; no link of it has another scheme than http, https or mailto, ordinary addresses are unchanged, every address without another scheme leads where it led before (percent-decoded it is the same), and links to installed apps stay under /apps. The settings page has the same elements for all settings, and the box with the id the script uses starts with the setting.", "quantifier": "all texts from the registry, all installed packages, all settings", "why_tests_cant": "all texts, including markup, quotes, control characters and invalid UTF-8", "anchors": ["main/ui_server.go:appsHandler", "main/ui_server.go:indexHandler", "templates/apps.gtpl", "templates/index.gtpl", "templates/layout.gtpl"]}
{"id": "C100", "title": "The mapping file as text", "statement": "The program accepts a mapping file exactly if its bytes are an XML document with root element mappings whose pgn, field and condition numbers are numbers of the right range, and the table it then works with is exactly the one the document says: one mapping per mapping element in order, with the texts after resolving references, CDATA, line ends and name spaces; the document and table of a file are unique. The shipped map.xml is accepted and says the transcribed table.", "quantifier": "all byte strings as mapping file, all ways to classify non-ASCII names", "why_tests_cant": "all byte strings: markup nests without bound, references, CDATA, comments and directives interleave", "anchors": ["signalk/signalk.go:ParseMappings", "signalk/signalk.go:Mappings", "main/argo.go:main", "map.xml"]}
{"id": "C101", "title": "The configuration file as text", "statement": "A configuration file in which a table or a value is given twice is refused; one in which none is, is accepted exactly if every value given for an option has that option's type and sections are sections; the program then works with what the file says: each option has a value the file gives for it (names in any case), and is off, 0 or empty if it gives none, and the interfaces are exactly the tables below Interfaces.", "quantifier": "all byte strings as configuration file, all orders of map iteration", "why_tests_cant": "all byte strings: names, quoting, escapes, comments, blank space and the order of tables combine without bound", "anchors": ["config/config.go:ReadConfig", "config/config.go:TomlConfig", "main/argo.go:main"]}
{"id": "C102", "title": "A saved configuration is found by the next start", "statement": "Every configuration whose texts are UTF-8 without NUL, whose numbers fit into 64 bits and whose interfaces have a non-empty name without backslash and line end is saved as a TOML text from which the next start reads the same options and interfaces; reading and updating keep a configuration in that class. A save that was cut at the end of a line is read too, and each option then has its value or is taken for not given.", "quantifier": "all configurations, sequences of updates, cuts of the saved text and orders of map iteration", "why_tests_cant": "all texts as option values and interface names; all places at which a save may be cut", "anchors": ["config/config.go:WriteConfig", "config/config.go:ReadConfig", "main/ui_server.go:adminHandler"]}
{"id": "C103", "title": "Every text a client receives comes from a message an interface delivered", "statement": "In every execution of the program with the shipped table and any map file, each text received by a client of the stream or published over MQTT is the JSON of the delta of one message that one of the configured interfaces delivered: it names that message's PGN and source, is not empty, and contains only values of that message under the paths the map gives them; read as JSON it says exactly this, stamped with the time of handling.", "quantifier": "all byte streams on all interfaces, interleavings of readers, consumer, hubs and clients, orders of map iteration, clocks and time zones", "why_tests_cant": "the way from a byte on the bus to a text at a client goes through eight stages running concurrently; a test sees one message on one schedule", "anchors": ["main/argo.go:main", "main/argo.go:processInterface", "nmea2k/raw_message.go:ParsePacket", "signalk/signalk.go:Delta", "main/websocket_server.go:run", "main/websocket_server.go:writePump"]}
{"id": "C104", "title": "From the command line and the files to the running program", "statement": "A start ends with a usage error exactly for a command line that is none, prints help or the definitions exactly when asked, stops if the configuration file is missing or does not fit, if the map file in force cannot be read as one, or if MQTT is on and the broker refuses; otherwise it runs. The running program has for every option the value of the command line, else of the file, else the default; it uses the map of the file in force, listens on the port in force, is connected to the broker in force, and has one reader for every interface table of the file with that table's path, type and speed. Everything its clients or the broker then receive comes from a message one of those interfaces delivered, under a path of that map file, and only those interfaces or that map file can end it.", "quantifier": "all command lines, file systems, configuration texts, map texts, brokers, devices and byte streams, schedules and orders of map iteration", "why_tests_cant": "the chain goes through five readers of texts and an unbounded concurrent run; tests fix one configuration", "anchors": ["main/argo.go:main", "main/flags.go:GetCommandLineOptions", "config/config.go:ReadConfig", "signalk/signalk.go:ParseMappings", "main/argo.go:processInterface"]}
{"id": "C105", "title": "Every message handled was on the wire, in order, and none is lost", "statement": "In every execution with any number of interfaces, the messages handled or waiting of one interface are, in order, the decoded forms of exactly the items that arrived in the part of its input that has been read: at each position where one arrives the input completes a CANUSB frame line, a checksummed Actisense message or a line of the file. A CANUSB frame of a PGN that needs no fast packets is a message; one of a fast packet PGN gives the message of its transfer when the last byte is there. With at most one CANUSB adapter the messages are a function of the input read, independent of schedule, other interfaces, clients and options.", "quantifier": "all inputs of all interfaces, numbers and kinds of interfaces, schedules of readers and consumer, PGN tables", "why_tests_cant": "needs an invariant over interleaved readers sharing one reassembly buffer", "anchors": ["main/argo.go:processInterface", "canusb/canport.go:Read", "canusb/canframe.go:ParseFrame", "actisense/actisense.go:Read", "main/argo.go:main"]}
{"id": "C106", "title": "Installed web apps, from the files on disk", "statement": "Whatever files are below node_modules, the list of installed apps contains exactly the directories whose package.json is a JSON text of the right type that names the keyword signalk-webapp, with the version, name and location the text gives (members in any case, the last of a name counts, /public added without an index.html), provided every package directory of the level has a readable package.json; a package.json that is no JSON or of another type hides only its own package.", "quantifier": "all directory trees and all file contents", "why_tests_cant": "all byte strings in all trees", "anchors": ["main/packages.go:getInstalledPackages", "main/packages.go:nodePackage", "main/packages.go:contains"]}
{"id": "C107", "title": "Progress and end of an app installation", "statement": "During an installation each line yarn writes that is a JSON object of type step with numbers current and total in its data is logged as progress with exactly these numbers, a step line whose data is no object as an error, and nothing else is logged; what has been logged is always what a beginning of yarn's output gives, in order, and all of it when the reporter was done before yarn ended. Every installation ends, after a bounded number of steps, and the caller gets its answer unless yarn wrote 65536 bytes in a row without a line break and then more than the pipe holds: then, and only then, it waits forever.", "quantifier": "all outputs of yarn, all pipe sizes, all interleavings of yarn, the reporter and the caller", "why_tests_cant": "all schedules of three processes and all byte strings", "anchors": ["main/packages.go:installPackage", "main/packages.go:yarnMessage"]}
{"id": "C108", "title": "The page of apps from the registry's answer, and its Install buttons", "statement": "Whatever text the registry answers with, GET /apps gives a page with exactly one row per object of that text, in its order, with the texts the answer gives for the object, and with the version and link of the installed app of that name if there is one on disk; an answer that is not of the registry's type, or no answer, gives an empty page with status 200. Pressing Install in a row runs yarn with exactly the name and version shown in it. A name without special characters becomes a plain link in the row; other names do not stay text.", "quantifier": "all registry answers, disks, rows, and texts a browser may send", "why_tests_cant": "all byte strings the registry can send, with duplicate members and nulls, and all directory trees", "anchors": ["main/ui_server.go:appsHandler", "main/ui_server.go:npmPackages", "assets/js/site.js:handleAppInstall", "templates/apps.gtpl"]}
{"id": "C109", "title": "The statistics table of the page", "statement": "In every execution, a settings page that has received anything on its statistics socket shows exactly one row per PGN among the first n messages handled, n being the message of the last snapshot it received, with the number of messages of that PGN among them. The PGNs seen until its first snapshot come in ascending order, the others below, each when it first came: the table is not sorted in general. A new row is a link with the PGN and a cell with the count, nothing else.", "quantifier": "all schedules of interfaces, consumer, hubs and clients, all messages", "why_tests_cant": "all interleavings and histories; the order depends on when the page was opened", "anchors": ["assets/js/site.js", "main/websocket_server.go:handleStats", "main/argo.go:main"]}
{"id": "C110", "title": "Definitions as XML", "statement": "For every key asked for with .xml, and whatever the texts and numbers of the definition, the details page is one XML element and nothing else; it has the texts of the definition, its numbers in decimal, the resolution as a number that a reader rounds to the very float, and one element per field in order; a reader of XML gets exactly this back. Every text of the table comes out unchanged; characters XML does not have become U+FFFD. Lookup tables are not in it: definitions that differ in nothing else have the same page, and the entry with a two-level lookup has an empty page.", "quantifier": "all definitions, all byte strings as texts, all finite resolutions, all keys", "why_tests_cant": "all texts, escapes and floating point numbers; a page must be read back by every XML reader", "anchors": ["main/api_server.go:MessageDetailsHandler", "nmea2k/pgn_array.go:MarshalXML", "nmea2k/pgn_array.go:Pgn"]}
{"id": "C111", "title": "How a value reads in a condition or a path", "statement": "Conditions and placeholders of the mapping file see a value as text: whole numbers in decimal, floating point numbers as a decimal number that a reader rounds to the very value (with as few digits as can be, and an exponent exactly below 0.0001 or from 1000000), texts unchanged, octets as a bracketed list, moments as date, time, offset and zone of the local clock, and an absent value as <nil>. Two values of one kind that read the same are the same, and an \"eq\" condition on a whole number holds exactly for that number. But an absent value reads like the text <nil>, also in a path, a number like its numeral, and no floating point field ever equals \"1.0\".", "quantifier": "all values that a message can have, all time zones and zone names, all conditions and messages", "why_tests_cant": "all floating point numbers, dates and byte strings; injectivity is about all pairs", "anchors": ["signalk/signalk.go:Delta", "signalk/signalk.go:conditionsMatch"]}
{"id": "C112", "title": "What the log says of a value", "statement": "The line of every message off the bus starts with the local date and time, cut to milliseconds, and the header, and lists every field with its number, name and value: floating point values as the nearest number with six decimals (half to even, so at most half a millionth off), others as in C111, absent ones only on request. The line of the frame itself gives back the message and the moment to the millisecond. But six decimals do not tell positions apart that the message does, and a line break in a text breaks the line.", "quantifier": "all messages off the bus, all values, moments of reception, time zones", "why_tests_cant": "all floating point numbers and rounding cases, all dates, all messages", "anchors": ["nmea2k/parsed_message.go:Print", "can/can.go:Print"]}
