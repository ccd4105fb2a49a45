{"id": "C01", "title": "HPAI codec is exact", "statement": "Writing an HPAI and reading the bytes back returns the same HPAI and consumes exactly its 8 bytes; conversely a byte sequence is accepted exactly when it starts with length octet 8 followed by at least 7 bytes, and the accepted prefix is what writing the result would produce.", "quantifier": "every protocol code, IPv4 address, port and every byte sequence (with any trailing bytes)", "why_tests_cant": "2^56 values and unbounded inputs; a test samples a handful of addresses", "anchors": ["src/packets/core.rs: HPAI::packet, HPAI::from_packet"]}
{"id": "C02", "title": "KNXnet/IP header codec is exact", "statement": "Writing a header and reading it back returns service id and total length; a byte sequence is accepted exactly when it starts 06 10 and has at least 6 bytes.", "quantifier": "every service id and total length below 2^16, every byte sequence", "why_tests_cant": "2^32 headers and unbounded inputs", "anchors": ["src/packets/core.rs: KnxNetIpHeader::packet, KnxNetIpHeader::from_packet"]}
{"id": "C03", "title": "Emitted frames are well formed", "statement": "Every datagram the library builds for connection request, connection-state request/response, disconnect request/response, search request, tunnelling request, tunnelling ack and feature-set starts with 06 10, carries its service identifier, and its total-length field equals the number of bytes emitted, and every element is a byte.", "quantifier": "every field value; cEMI payloads of every length up to 65525", "why_tests_cant": "unbounded payload lengths and all field values", "anchors": ["src/packets/core.rs: *::packet", "src/packets/tunneling.rs: *::packet"]}
{"id": "C04", "title": "Connection response decoding is exact", "statement": "A byte sequence is accepted as a connection response exactly when it is header 06 10 02 06, a size of at least 8, channel, a status other than 0x22, 0x23, 0x24, 0x29, an HPAI and a 4-byte CRD of type 4; the result carries exactly those fields.", "quantifier": "every byte sequence", "why_tests_cant": "the accepted set is infinite; tests show only a few members", "anchors": ["src/packets/core.rs: ConnectionResponse::from_packet, CRD::from_packet"]}
{"id": "C05", "title": "Connection response survives encode/decode", "statement": "Encoding a connection response and decoding the bytes returns the same response.", "quantifier": "every connection response with a status that is not a rejection", "why_tests_cant": "a test of one value cannot show it for all; the code violates it for every value", "anchors": ["src/packets/core.rs: ConnectionResponse::packet, ConnectionResponse::from_packet"]}
{"id": "C06", "title": "Connection-state frames codec", "statement": "Connection-state requests and responses survive encode/decode with any trailing bytes; a response is accepted exactly when it is 06 10 02 08 00 08 channel status.", "quantifier": "every channel, status, endpoint, and byte sequence", "why_tests_cant": "all values and all inputs", "anchors": ["src/packets/core.rs: ConnectionstateRequest, ConnectionstateResponse"]}
{"id": "C07", "title": "Disconnect response codec", "statement": "Disconnect responses survive encode/decode; bytes are accepted exactly when they start 06 10 02 0a 00 08 and carry two more bytes; the response built for a request carries the same channel and status 0.", "quantifier": "every channel and status, every byte sequence", "why_tests_cant": "all values and all inputs", "anchors": ["src/packets/core.rs: DisconnectResponse"]}
{"id": "C08", "title": "A device's disconnect request is understood", "statement": "The bytes of a disconnect request (as the library itself writes them, which is the wire format devices use) are decoded back to the request by the frame dispatcher.", "quantifier": "every channel and endpoint", "why_tests_cant": "one failing or passing value says nothing about the others; the code violates it for every value", "anchors": ["src/packets/core.rs: DisconnectRequest::from_packet", "src/transport/udp.rs: parse_response"]}
{"id": "C09", "title": "Search request codec", "statement": "Search requests survive encode/decode; only service 0x0201 is accepted.", "quantifier": "every discovery endpoint and every byte sequence", "why_tests_cant": "all values", "anchors": ["src/packets/core.rs: SearchRequest"]}
{"id": "C10", "title": "Search response decoding of well-formed frames", "statement": "A search response frame made of header 0x0202, control endpoint, a device-information block and a service-families block decodes to exactly those fields (status reduced to its defined bit), whatever follows it.", "quantifier": "every field value, every family list of at most 126 entries", "why_tests_cant": "unbounded family lists and all field values", "anchors": ["src/packets/core.rs: SearchResponse::from_packet, DIB::from_packet"]}
{"id": "C11", "title": "Search response survives encode/decode", "statement": "Encoding a search response and decoding the bytes returns the same response.", "quantifier": "every search response", "why_tests_cant": "code violates it; needs a statement about all values", "anchors": ["src/packets/core.rs: SearchResponse::packet"]}
{"id": "C12", "title": "Description blocks survive encode/decode", "statement": "Writing a description information block and reading it back returns the same block and leaves the rest untouched.", "quantifier": "every device-information, service-families (any even length that fits), IP-config, IP-current, KNX-addresses and manufacturer block whose recorded length is its real length", "why_tests_cant": "all values of all six variants; false for two of them", "anchors": ["src/packets/core.rs: DIB::packet, DIB::from_packet"]}
{"id": "C13", "title": "Tunnelling request codec", "statement": "A tunnelling request with a cEMI of at most 65525 bytes survives encode/decode with any trailing bytes; the decoded cEMI always has exactly declared size minus 10 bytes, taken from the input and zero-filled past its end.", "quantifier": "every channel, sequence number, cEMI payload, trailing bytes, and every byte sequence", "why_tests_cant": "unbounded payloads", "anchors": ["src/packets/tunneling.rs: TunnelingRequest"]}
{"id": "C14", "title": "Tunnelling ack codec", "statement": "Tunnelling acks survive encode/decode; bytes are accepted exactly when they start 06 10 04 21 00 0a 04 and carry three more bytes.", "quantifier": "every channel, sequence, status and byte sequence", "why_tests_cant": "all inputs", "anchors": ["src/packets/tunneling.rs: TunnelingAck"]}
{"id": "C15", "title": "Feature response codec", "statement": "A feature response frame (service 0x0423) decodes to exactly its fields when the feature is one of the four known codes and is rejected otherwise; what the library writes for a feature response is never accepted back.", "quantifier": "every channel, sequence, feature code, status, value", "why_tests_cant": "all 2^40 frames", "anchors": ["src/packets/tunneling.rs: FeatureSet, FeatureResp, KnxIpFeature"]}
{"id": "C16", "title": "Decoders panic only on identified inputs", "statement": "No byte sequence makes the frame dispatcher panic except a tunnelling request frame whose declared size is below 10; the connection, search-request, L_Data and group data decoders never panic; cEMI and description-block decoders panic only in overflow-checked builds and only when an 8-bit length computation overflows.", "quantifier": "every byte sequence, both build profiles", "why_tests_cant": "inputs are unbounded; panics hide in rare lengths", "anchors": ["src/transport/udp.rs: parse_response", "src/packets/emi.rs: CEMI::from_packet", "src/packets/core.rs: DIB::from_packet"]}
{"id": "C17", "title": "Dispatch follows the service identifier", "statement": "The frame dispatcher returns a value of the variant named by bytes 2-3 of the datagram, decoded by that variant's decoder, and an error for every other service identifier or fewer than four bytes.", "quantifier": "every byte sequence", "why_tests_cant": "65536 service codes times unbounded bodies", "anchors": ["src/transport/udp.rs: parse_response"]}
{"id": "C18", "title": "Receive buffering does not alter complete frames", "statement": "For a complete well-formed frame of at most 100 bytes, decoding the 100-byte zero-filled receive buffer gives the same result as decoding the datagram itself.", "quantifier": "every frame of every received service up to 100 bytes", "why_tests_cant": "all frames and lengths", "anchors": ["src/transport/udp.rs: handle_recv_from_knx_device, try_connection"]}
{"id": "C19", "title": "Truncated or oversized datagrams are rejected", "statement": "A datagram shorter or longer than its declared length is not delivered as a valid message.", "quantifier": "every datagram", "why_tests_cant": "needs every length; violated by the code", "anchors": ["src/transport/udp.rs: handle_recv_from_knx_device", "src/packets/tunneling.rs: TunnelingRequest::from_packet"]}
{"id": "C20", "title": "cEMI decoding is exact on well-formed frames", "statement": "A cEMI frame with message code, any list of known additional-information elements whose total size fits in one octet, and any service information decodes to exactly those parts in both build profiles.", "quantifier": "every message code, every list of additional infos with total at most 255, every service information", "why_tests_cant": "unbounded lists and payloads", "anchors": ["src/packets/emi.rs: CEMI::from_packet"]}
{"id": "C21", "title": "cEMI decoding result is a factorisation of its input", "statement": "Whenever cEMI decoding succeeds without overflow, re-encoding the parts gives back the input up to zero filling at its end: no byte is invented, lost or reordered.", "quantifier": "every byte sequence whose additional-info length sums stay below 256", "why_tests_cant": "unbounded inputs", "anchors": ["src/packets/emi.rs: CEMI::from_packet"]}
{"id": "C22", "title": "Indication decoding", "statement": "An L_Data indication carrying a group value of n bytes decodes to exactly source, destination, flags and value: the low six bits for short values, the n bytes after the APCI otherwise; the value is never empty.", "quantifier": "every flags byte, source, destination, APCI, value of 1 to 254 bytes", "why_tests_cant": "all addresses and payloads", "anchors": ["src/packets/emi.rs: LDataInd::from_cemi"]}
{"id": "C23", "title": "Indication decoding rejects short service information", "statement": "An indication is rejected exactly when its service information has fewer than nine bytes; it never panics.", "quantifier": "every cEMI", "why_tests_cant": "all lengths", "anchors": ["src/packets/emi.rs: LDataInd::from_cemi"]}
{"id": "C24", "title": "Confirmation decoding", "statement": "An L_Data confirmation decodes to exactly source, destination, flags, and confirm is true exactly when bit 0 of control field 1 is clear; it is rejected exactly when the service information has fewer than six bytes.", "quantifier": "every cEMI", "why_tests_cant": "all values", "anchors": ["src/packets/emi.rs: LDataCon::from_cemi"]}
{"id": "C25", "title": "L_Data request encoding", "statement": "The bytes of a group read/write request are message code 0x11, no additional info, control fields, source 0, the destination as 16-bit big endian, the APCI/data length and the APDU, for every payload of at most 253 bytes; the four priorities are encoded in bits 2-3.", "quantifier": "every destination, priority, payload", "why_tests_cant": "all values", "anchors": ["src/packets/emi.rs: LDataReqMessage::packet"]}
{"id": "C26", "title": "Individual destinations are flagged as individual", "statement": "A request addressed to an individual address is encoded with the individual address type (bit 7 of control field 2 clear).", "quantifier": "every individual address", "why_tests_cant": "all addresses; violated by the code", "anchors": ["src/packets/emi.rs: LDataReqMessage::packet"]}
{"id": "C27", "title": "Oversized requests fail cleanly", "statement": "A request whose payload does not fit the one-octet length field is never encoded with a wrong length.", "quantifier": "every payload length", "why_tests_cant": "unbounded lengths; violated by the code", "anchors": ["src/packets/emi.rs: LDataReqMessage::packet", "src/packets/tunneling.rs: TunnelingRequest::packet"]}
{"id": "C28", "title": "Group write survives the wire", "statement": "If a group write built by the library is reflected by a device as an indication frame for the same destination and data, the value delivered to the reader equals the value written (the six low bits for short values), through tunnelling framing, the 100-byte receive buffer, cEMI and indication decoding.", "quantifier": "every destination, every value of 1 to 79 bytes, small or not, every channel and sequence number", "why_tests_cant": "composition of four codecs over all payloads", "anchors": ["src/packets/apdu.rs: APDU", "src/packets/emi.rs: LDataInd::from_cemi", "src/packets/tunneling.rs: TunnelingRequest", "src/transport/udp.rs: handle_recv_from_knx_device"]}
{"id": "C29", "title": "APDU encoding", "statement": "Group read encodes to 00 00, group write of bytes to 00 80 followed by the bytes, group write of a small value to 00 (80 or the low six bits).", "quantifier": "every value", "why_tests_cant": "all payloads", "anchors": ["src/packets/apdu.rs: APDU, APCI"]}
{"id": "C30", "title": "Group write with an empty small value does not crash", "statement": "Building a small group write never panics.", "quantifier": "every byte vector", "why_tests_cant": "needs the empty vector; violated by the code", "anchors": ["src/packets/apdu.rs: APDU::group_value_write"]}
{"id": "C31", "title": "Addresses map to 16-bit values bijectively", "statement": "In-range individual (4/4/8 bits) and three-level group (5/3/8 bits) addresses correspond one to one to 16-bit values in the KNX bit layout: to_u16 then from_u16 is the identity and vice versa.", "quantifier": "every 16-bit value and every in-range address", "why_tests_cant": "65536 values and all triples", "anchors": ["src/packets/addresses.rs: IndividualAddress, Group3LevelAddress"]}
{"id": "C32", "title": "Distinct addresses stay distinct on the wire", "statement": "Two different addresses of the same kind accepted by the constructors are sent as different 16-bit values.", "quantifier": "every pair of addresses of each kind", "why_tests_cant": "pairs of 2^24 addresses; violated outside the KNX ranges", "anchors": ["src/packets/addresses.rs: KnxAddress::*, to_u16"]}
{"id": "C33", "title": "Two-level group addresses use the KNX 5/11 layout", "statement": "A two-level group address main/sub is encoded as main*2048+sub.", "quantifier": "every two-level address", "why_tests_cant": "all pairs; violated by the code", "anchors": ["src/packets/addresses.rs: Group2LevelAddress::to_u16"]}
{"id": "C34", "title": "Address text parsing accepts exactly the grammar", "statement": "A text parses as an individual address exactly when it is three dot-separated decimal numbers up to 255, as a group address exactly when it is one number up to 65535 or two or three slash-separated numbers up to 255 (each with an optional leading plus), and the fields are those numbers; everything else is an error and never a panic.", "quantifier": "every string", "why_tests_cant": "unbounded strings", "anchors": ["src/packets/addresses.rs: TryFrom<&str>"]}
{"id": "C35", "title": "Address text round trip", "statement": "Printing an address and parsing the text returns the same address.", "quantifier": "every address of every kind", "why_tests_cant": "2^24 addresses per kind", "anchors": ["src/packets/addresses.rs: fmt::Debug, TryFrom<&str>"]}
{"id": "C36", "title": "Integer data points survive encode/decode", "statement": "Unsigned 8/16/32-bit, signed 16-bit and boolean data points decode from their own bytes to the same value, and bytes of exactly the type's width re-encode to themselves (a boolean octet above 1 reads as true and re-encodes as 1).", "quantifier": "every value of every type", "why_tests_cant": "2^32 values", "anchors": ["src/dp_types.rs: PdtKnxByte, PdtKnxWord, PdtKnxULong, PdtKnxInt, PdtKnxBit"]}
{"id": "C37", "title": "Dimming and blinds control codec", "statement": "The 4-bit control encodings are bit 3 for direction and bits 0-2 for the step, decode inverts encode, and no constructor produces a value above 15.", "quantifier": "every byte and flag", "why_tests_cant": "all values, all constructors", "anchors": ["src/dp_types.rs: PdtKnxB1U3"]}
{"id": "C38", "title": "Percentage counter never wraps", "statement": "The signed percentage constructor yields value*100 exactly when that fits in 16 bits (|value| <= 327) and otherwise panics in checked builds and wraps in release builds.", "quantifier": "every 16-bit value, both profiles", "why_tests_cant": "65536 values in two build profiles", "anchors": ["src/dp_types.rs: PdtKnxInt::percent_v16"]}
{"id": "C39", "title": "Scaled value round trip", "statement": "Reading a scaled byte as a percentage and scaling it again gives the same byte for every byte from 1 to 255; scaling saturates at 0 and 255 and maps NaN to 0.", "quantifier": "every byte, every f32 (including infinities and NaN)", "why_tests_cant": "2^32 floats", "anchors": ["src/dp_types.rs: PdtKnxScaledValue"]}
{"id": "C40", "title": "Scaling zero percent gives the zero byte", "statement": "Scaling 0 percent encodes as the byte that reads back as 0 percent in KNX (0x00).", "quantifier": "the value 0 and all bytes", "why_tests_cant": "violated by the code; needs the exact float semantics", "anchors": ["src/dp_types.rs: PdtKnxScaledValue::scaling"]}
{"id": "C41", "title": "2-byte float decoding matches KNX for exponents below 8", "statement": "A 16-bit code is decoded to its KNX value 0.01*mantissa*2^exponent (two's-complement mantissa), within one part in 2^22, exactly when its mantissa field is 0 and it is not negative, or its mantissa field is not 0 and its exponent is below 8.", "quantifier": "all 65536 codes, both profiles", "why_tests_cant": "32752 codes, exact rational comparison", "anchors": ["src/dp_types.rs: bytes_to_float"]}
{"id": "C42", "title": "2-byte float decoding is correct for every code", "statement": "Every 16-bit code decodes to its KNX value.", "quantifier": "all 65536 codes", "why_tests_cant": "violated for exponents 8..15 and for sign with zero mantissa", "anchors": ["src/dp_types.rs: bytes_to_float"]}
{"id": "C43", "title": "2-byte float encoding terminates", "statement": "Encoding returns for every finite value whose hundredfold is finite, with at most 117 halvings.", "quantifier": "every f32", "why_tests_cant": "2^32 floats; termination", "anchors": ["src/dp_types.rs: calimero_float_to_bytes"]}
{"id": "C44", "title": "2-byte float encoding always returns", "statement": "Encoding returns two bytes for every f32.", "quantifier": "every f32, both profiles", "why_tests_cant": "non-termination for infinities cannot be shown by a test that returns", "anchors": ["src/dp_types.rs: calimero_float_to_bytes"]}
{"id": "C45", "title": "2-byte float encoding is accurate", "statement": "For values in the KNX range that avoid the identified defect sets, the KNX value of the encoded code differs from the input by at most half a unit of the chosen exponent plus float rounding.", "quantifier": "every f32 in range", "why_tests_cant": "2^31 values, real-number error bound", "anchors": ["src/dp_types.rs: calimero_float_to_bytes"]}
{"id": "C46", "title": "2-byte float encoding is accurate on the whole range", "statement": "Every value in -671088.64..670760.96 is encoded to a code within half a unit of it.", "quantifier": "every f32 in range", "why_tests_cant": "violated near 20.48 and for tiny negatives", "anchors": ["src/dp_types.rs: calimero_float_to_bytes"]}
{"id": "C47", "title": "2-byte float codes round trip", "statement": "Decoding a code and encoding the result gives the same code exactly for the canonical codes: exponent 0, or exponent 1..7 with mantissa above 1024 in magnitude, excluding negative codes with mantissa field 0.", "quantifier": "all 65536 codes, both profiles", "why_tests_cant": "thousands of codes through f32 arithmetic", "anchors": ["src/dp_types.rs: bytes_to_float, calimero_float_to_bytes"]}
{"id": "C48", "title": "Friendly name", "statement": "A device-information block can be built from exactly the names of 30 characters all in ISO 8859-1, and reading the name back gives the same text.", "quantifier": "every string", "why_tests_cant": "unbounded strings", "anchors": ["src/packets/core.rs: DeviceInformationDIB::new, get_friendly_name"]}
{"id": "C49", "title": "Calls are serialised", "statement": "At most one API call is between taking the connection and returning; in particular between the datagram sent by a call and that call's end no other call sends a datagram or (client) takes a received message.", "quantifier": "every schedule of any number of concurrent calls, cancellations, failures", "why_tests_cant": "interleavings are unbounded", "anchors": ["src/transport/udp.rs: UdpClient", "src/transport/udp_monitor.rs: UdpMonitor"]}
{"id": "C50", "title": "Received messages are queued in order, bounded, and never invented", "statement": "Messages taken by calls are exactly a prefix of the messages queued by the receive loop, in order; at most 100 wait; every queued message is the decoding of a tunnelling request datagram that arrived at the socket, and datagrams are consumed in arrival order, each once.", "quantifier": "every execution", "why_tests_cant": "unbounded histories and schedules", "anchors": ["src/transport/udp.rs: handle_recv_from_knx_device, UdpTransport::connect"]}
{"id": "C51", "title": "Every delivered message was acknowledged first", "statement": "Every message queued for the calls comes from a tunnelling request for which an ack with the same channel and sequence number and status 0 was sent immediately before; every ack sent answers exactly one consumed tunnelling request or feature response.", "quantifier": "every execution", "why_tests_cant": "all interleavings with heartbeats and failures", "anchors": ["src/transport/udp.rs: handle_recv_from_knx_device"]}
{"id": "C52", "title": "An acknowledged message is delivered", "statement": "Once a tunnelling request has been acknowledged and its cEMI is decodable, the message reaches the queue.", "quantifier": "every execution", "why_tests_cant": "needs a heartbeat exactly when the queue is full; violated", "anchors": ["src/transport/udp.rs: handle_recv_from_knx_device, select! heart_beat"]}
{"id": "C53", "title": "Sequence numbers are consecutive", "statement": "Within one connection the sequence numbers given to tunnelling requests start at 0 (client) or 1 (monitor, after the feature request that used 0) and increase by one modulo 256, with no repetition or gap among issued numbers.", "quantifier": "every execution, any number of requests", "why_tests_cant": "wrap-around and concurrency", "anchors": ["src/transport/udp.rs: get_next_sequence_nr", "src/transport/udp_monitor.rs: get_next_sequence_nr"]}
{"id": "C54", "title": "A request carries the sequence number of its own connection", "statement": "The sequence number and the channel of a transmitted tunnelling request belong to the same connection.", "quantifier": "every execution", "why_tests_cant": "needs a reconnect between two lock acquisitions; violated", "anchors": ["src/transport/udp.rs: tunnel_req"]}
{"id": "C55", "title": "Tunnelling requests use the channel granted by the device", "statement": "Every tunnelling, connection-state and disconnect request sent carries a channel (and endpoint) granted by an accepted connection response with status 0 received earlier; before that, calls fail with an error and send nothing.", "quantifier": "every execution", "why_tests_cant": "all histories", "anchors": ["src/transport/udp.rs: UdpTransport::connect, tunnel_req"]}
{"id": "C56", "title": "A lost connection is re-established before further use", "statement": "After the connection is dropped the background task sends nothing but connection requests (and for the monitor its feature request) until a new connection response with status 0 has been accepted.", "quantifier": "every execution", "why_tests_cant": "all failure interleavings", "anchors": ["src/transport/udp.rs: UdpTransport::connect"]}
{"id": "C57", "title": "Connection errors trigger reconnection", "statement": "A connection-state response with non-zero status, an undecodable datagram, or a socket error in the receive loop always leads the background task to drop the connection and send a new connection request, unless the task has stopped.", "quantifier": "every execution", "why_tests_cant": "all failure points", "anchors": ["src/transport/udp.rs: handle_recv_from_knx_device"]}
{"id": "C58", "title": "A silent device is detected", "statement": "If heartbeats stay unanswered the connection is eventually dropped.", "quantifier": "every execution", "why_tests_cant": "needs unbounded time; violated", "anchors": ["src/transport/udp.rs: heart_beat"]}
{"id": "C59", "title": "Read returns the value of the addressed group", "statement": "A successful read returns the value of an L_Data indication whose destination equals the requested address, taken from the queue by this call after its request was sent; all earlier messages taken by this call were confirmations, other codes or indications for other addresses.", "quantifier": "every execution", "why_tests_cant": "all interleavings of traffic", "anchors": ["src/transport/udp.rs: read_group_address_value"]}
{"id": "C60", "title": "Read returns a value received after the request", "statement": "A successful read returns a message that arrived after its request was sent.", "quantifier": "every execution", "why_tests_cant": "needs a stale queue; violated", "anchors": ["src/transport/udp.rs: read_group_address_value"]}
{"id": "C61", "title": "Write succeeds only on a confirmation", "statement": "A write returns success exactly when the first message taken after its request was sent is an L_Data confirmation, and an error when it is anything else, the queue closes, the send fails or 10 s pass.", "quantifier": "every execution", "why_tests_cant": "all interleavings", "anchors": ["src/transport/udp.rs: write_group_address_value"]}
{"id": "C62", "title": "Write success means the bus confirmed this write", "statement": "When a write returns success, the device positively confirmed this telegram.", "quantifier": "every execution", "why_tests_cant": "needs a negative or foreign confirmation; violated", "anchors": ["src/transport/udp.rs: write_group_address_value"]}
{"id": "C63", "title": "Each call sends at most one datagram", "statement": "No API call sends more than one datagram, and a call that returns success has sent exactly the encoding of its arguments (except next_msg, is_connected and add_on_connect, which send none).", "quantifier": "every execution", "why_tests_cant": "all schedules", "anchors": ["src/transport/udp.rs: UdpClient", "src/transport/udp_monitor.rs: UdpMonitor"]}
{"id": "C64", "title": "Disconnect reports success when the device answered", "statement": "After the device answers a disconnect request, disconnect returns success.", "quantifier": "every execution", "why_tests_cant": "schedule-dependent; violated", "anchors": ["src/transport/udp.rs: UdpTransport::disconnect"]}
{"id": "C65", "title": "After a disconnect response the client is silent", "statement": "Once the receive loop has consumed a disconnect response (or crashed) the background task sends nothing, consumes nothing, and the client never reconnects; every later queue wait returns an error once the queue is empty.", "quantifier": "every continuation of every execution", "why_tests_cant": "all continuations", "anchors": ["src/transport/udp.rs: UdpTransport::connect, handle_recv_from_knx_device"]}
{"id": "C66", "title": "Connection state reflects disconnection", "statement": "After a disconnect response was processed the client is no longer considered connected.", "quantifier": "every execution", "why_tests_cant": "violated: the connection record survives", "anchors": ["src/transport/udp.rs: UdpTransport::connect", "src/transport/udp_monitor.rs: is_connected"]}
{"id": "C67", "title": "Status queries always complete", "statement": "get_connection_status returns once the device has answered its request.", "quantifier": "every execution", "why_tests_cant": "race with the receive loop; violated", "anchors": ["src/transport/udp.rs: get_connectionstate"]}
{"id": "C68", "title": "A status query never consumes bus traffic", "statement": "get_connection_status never takes a tunnelling request away from the receive loop.", "quantifier": "every execution", "why_tests_cant": "race; violated", "anchors": ["src/transport/udp.rs: get_connectionstate"]}
{"id": "C69", "title": "Heartbeats are spaced", "statement": "Heartbeat connection-state requests are sent by the background task only while connected, with the current channel and endpoint, each right after a tick of the heart-beat timer, and two ticks are at least 59.995 s apart.", "quantifier": "every execution, any delays", "why_tests_cant": "unbounded time and delays", "anchors": ["src/transport/udp.rs: heart_beat"]}
{"id": "C70", "title": "Connection attempts are spaced", "statement": "Between two connection requests without a connection in between at least 10 s pass (client).", "quantifier": "every execution", "why_tests_cant": "unbounded time", "anchors": ["src/transport/udp.rs: connect, try_connection"]}
{"id": "C71", "title": "Timeouts are not premature", "statement": "A read or write returns a timeout error only if at least 10 s passed since its request was sent and since the last message it took; once that time has passed the call can always return.", "quantifier": "every execution", "why_tests_cant": "unbounded time", "anchors": ["src/transport/udp.rs: read_group_address_value, write_group_address_value"]}
{"id": "C72", "title": "A read completes within 10 seconds", "statement": "A read returns at most 10 s after its request was sent.", "quantifier": "every execution", "why_tests_cant": "needs endless unrelated traffic; violated", "anchors": ["src/transport/udp.rs: read_group_address_value"]}
{"id": "C73", "title": "No datagram can disable the client", "statement": "Whatever datagram the peer sends, the background task keeps running or stops only because of a disconnect response.", "quantifier": "every datagram and execution", "why_tests_cant": "needs the crashing input; violated", "anchors": ["src/packets/tunneling.rs: TunnelingRequest::from_packet", "src/transport/udp.rs: handle_recv_from_knx_device"]}
{"id": "C74", "title": "The background task stops only for identified reasons", "statement": "The background task ends only after consuming a disconnect response, and crashes only after consuming a tunnelling request whose declared size is below 10 or (checked builds) whose cEMI additional-info lengths overflow 8 bits.", "quantifier": "every execution", "why_tests_cant": "all inputs and schedules", "anchors": ["src/transport/udp.rs: handle_recv_from_knx_device"]}
{"id": "C75", "title": "Duplicate tunnelling requests are delivered once", "statement": "A retransmitted tunnelling request (same channel and sequence number) is acknowledged again but delivered once.", "quantifier": "every execution", "why_tests_cant": "violated: no duplicate detection", "anchors": ["src/transport/udp.rs: handle_recv_from_knx_device"]}
{"id": "C76", "title": "Foreign-channel requests are not delivered", "statement": "A tunnelling request for another channel is not delivered.", "quantifier": "every execution", "why_tests_cant": "violated: channel unchecked", "anchors": ["src/transport/udp.rs: handle_recv_from_knx_device"]}
{"id": "C77", "title": "Cancelling a call is safe", "statement": "Dropping a call's future at any await releases the connection for other calls and changes neither the connection, the queue nor the socket; other calls are unaffected.", "quantifier": "every execution and cancellation point", "why_tests_cant": "every await point", "anchors": ["src/transport/udp.rs: UdpClient", "src/transport/udp_monitor.rs: UdpMonitor"]}
{"id": "C78", "title": "Waiting calls are not stuck behind finished ones", "statement": "Whenever a call waits for the connection, the connection is free or held by a live call in progress; a finished, failed, crashed or cancelled call never holds it; read, write and solicit calls holding it can always make progress or time out.", "quantifier": "every execution", "why_tests_cant": "deadlock freedom over all schedules", "anchors": ["src/transport/udp.rs: UdpClient", "src/transport/udp_monitor.rs: UdpMonitor"]}
{"id": "C79", "title": "Dropping the client stops its background task", "statement": "After the client handle is dropped the background task terminates.", "quantifier": "every continuation", "why_tests_cant": "violated for all continuations", "anchors": ["src/transport/udp.rs: UdpTransport::connect"]}
{"id": "C80", "title": "Monitor delivers indications in order", "statement": "next_msg returns the decoded indications and bus-monitor indications in the order received, skipping confirmations and other codes; it returns an error exactly when the next indication is undecodable or the task has stopped with the queue empty.", "quantifier": "every execution", "why_tests_cant": "all interleavings", "anchors": ["src/transport/udp_monitor.rs: next_msg"]}
{"id": "C81", "title": "Monitor connection listeners are notified", "statement": "On every (re)connection every registered listener still alive is notified exactly once, in registration order, before the background task sends or receives anything else; listeners are removed only when dropped, and dropped ones are not notified.", "quantifier": "every execution", "why_tests_cant": "all listener states", "anchors": ["src/transport/udp_monitor.rs: add_on_connect, UdpMonitorTransport::connect"]}
{"id": "C82", "title": "A slow listener does not block the monitor", "statement": "A listener that does not drain its channel does not block other API calls.", "quantifier": "every execution", "why_tests_cant": "violated", "anchors": ["src/transport/udp_monitor.rs: UdpMonitorTransport::connect"]}
{"id": "C83", "title": "The client answers a device's disconnect request", "statement": "A disconnect request from the device is answered with a disconnect response.", "quantifier": "every execution", "why_tests_cant": "violated on every execution", "anchors": ["src/transport/udp.rs: handle_recv_from_knx_device"]}
{"id": "C84", "title": "Search returns the decoded responses in order", "statement": "Search returns exactly the decodings of the datagrams received before the first quiet period, in order, provided each is a complete search response of at most 100 bytes.", "quantifier": "every list of responses", "why_tests_cant": "unbounded lists, buffer reuse", "anchors": ["src/transport/udp.rs: UdpTransport::search"]}
{"id": "C85", "title": "One malformed datagram does not spoil a search", "statement": "Search ignores datagrams that are not search responses.", "quantifier": "every list of datagrams", "why_tests_cant": "violated", "anchors": ["src/transport/udp.rs: UdpTransport::search"]}
{"id": "C86", "title": "Search does not mix datagrams", "statement": "Each search result depends only on its own datagram.", "quantifier": "every list of datagrams", "why_tests_cant": "buffer reuse; violated", "anchors": ["src/transport/udp.rs: UdpTransport::search"]}
{"id": "C87", "title": "A search ends after its timeout", "statement": "Search returns once the given time has passed, however many replies arrive.", "quantifier": "every number of replies", "why_tests_cant": "unbounded number of replies; violated (the timer restarts with every reply)", "anchors": ["src/transport/udp.rs: UdpTransport::search"]}
{"id": "C88", "title": "A confirmed write reports success", "statement": "If the device confirms the write (L_Data.con) in time, group_value_write returns Ok.", "quantifier": "every execution, every queue content", "why_tests_cant": "depends on what else is waiting in the queue; violated when any other message comes first", "anchors": ["src/transport/udp.rs: UdpClient::group_value_write"]}
{"id": "C89", "title": "An answered read returns the answer", "statement": "If an indication for the group address is received while a read waits, the read returns its value: whatever is queued before it, and for every telegram that fits the receive buffer. next_msg of the monitor likewise.", "quantifier": "every execution, address, telegram", "why_tests_cant": "all telegrams (additional information, lengths, short and long values) and all queue contents", "anchors": ["src/transport/udp.rs: UdpClient::group_value_read", "src/transport/udp_monitor.rs: UdpMonitor::next_msg"]}
{"id": "C90", "title": "Read returns only answers", "statement": "A read never returns the payload of a GroupValueRead sent by another participant.", "quantifier": "every execution", "why_tests_cant": "needs concurrent bus traffic; violated (the APCI is not checked)", "anchors": ["src/transport/udp.rs: UdpClient::group_value_read", "src/packets/emi.rs: LDataInd"]}
{"id": "C91", "title": "is_connected tells whether there is a connection", "statement": "is_connected returns true exactly when a connection was established and not given up since.", "quantifier": "every execution", "why_tests_cant": "all interleavings with the background task", "anchors": ["src/transport/udp_monitor.rs: UdpMonitor::is_connected"]}
{"id": "C92", "title": "Responses for other channels are ignored", "statement": "A connection-state or disconnect response for another channel has no effect on this connection.", "quantifier": "every execution", "why_tests_cant": "violated", "anchors": ["src/transport/udp.rs: handle_recv_from_knx_device"]}
{"id": "C93", "title": "Missing or negative acknowledgements are reported", "statement": "A call whose tunnelling request is not acknowledged, or refused, does not report success.", "quantifier": "every execution", "why_tests_cant": "violated", "anchors": ["src/transport/udp.rs: handle_recv_from_knx_device", "src/transport/udp.rs: UdpClient::group_value_read", "src/transport/udp_monitor.rs: UdpMonitor::group_value_write"]}
{"id": "C94", "title": "Transmitted sequence numbers have no gaps", "statement": "The sequence numbers the device sees on one connection are consecutive.", "quantifier": "every execution", "why_tests_cant": "needs send failures or cancellation at a particular await; violated", "anchors": ["src/transport/udp.rs: UdpTransport::get_next_sequence_nr", "src/transport/udp.rs: UdpTransport::tunnel_req"]}
{"id": "C95", "title": "Messages are delivered in the order of their datagrams", "statement": "The messages delivered to the calls are, in order, those of a subsequence of the datagrams received: nothing is reordered and no datagram is delivered twice.", "quantifier": "every execution", "why_tests_cant": "all interleavings of receive loop, heart beat and calls", "anchors": ["src/transport/udp.rs: handle_recv_from_knx_device"]}
{"id": "C96", "title": "An unanswered connection request is repeated after 40 seconds", "statement": "Without an answer (and without a socket error) the next connection request follows not before 40 s, and can follow after 40 s.", "quantifier": "every state, every schedule", "why_tests_cant": "real time", "anchors": ["src/transport/udp.rs: connect (free function), try_connection"]}
{"id": "C97", "title": "The client can always reconnect", "statement": "From every reachable state in which the task has not stopped, time and a device that grants a connection are enough to be connected again.", "quantifier": "every reachable state", "why_tests_cant": "all states of the task", "anchors": ["src/transport/udp.rs: UdpTransport::connect"]}
{"id": "C98", "title": "A refused feature request is reported", "statement": "If the device refuses to enable the info service the monitor does not report itself connected.", "quantifier": "every execution", "why_tests_cant": "violated", "anchors": ["src/transport/udp_monitor.rs: UdpMonitorTransport::connect", "src/transport/udp.rs: handle_recv_from_knx_device"]}
{"id": "C99", "title": "The monitor's connection attempts are spaced", "statement": "Between two connection attempts of the monitor without a connection in between lie at least 10 s.", "quantifier": "every execution", "why_tests_cant": "needs a send failure at one particular point; violated", "anchors": ["src/transport/udp_monitor.rs: UdpMonitorTransport::connect"]}
{"id": "C100", "title": "A repeated connect response is harmless", "statement": "A second copy of the connect response does not disturb the connection.", "quantifier": "every execution", "why_tests_cant": "needs a duplicated or late datagram; violated", "anchors": ["src/transport/udp.rs: handle_recv_from_knx_device"]}
{"id": "C101", "title": "An abandoned channel is freed", "statement": "Before a new connection replaces the old one the device is asked to free the old channel.", "quantifier": "every execution", "why_tests_cant": "violated", "anchors": ["src/transport/udp.rs: UdpTransport::connect"]}
{"id": "C102", "title": "Other datagrams do not use up a connection attempt", "statement": "While waiting for the connect response other datagrams are skipped.", "quantifier": "every execution", "why_tests_cant": "needs a stale datagram in the socket; violated", "anchors": ["src/transport/udp.rs: connect (free function), try_connection"]}
{"id": "C103", "title": "Heart beats continue", "statement": "Whenever the receive loop waits, a heart beat for the current connection can be sent at the latest 60 s later.", "quantifier": "every reachable state", "why_tests_cant": "all states", "anchors": ["src/transport/udp.rs: UdpTransport::connect"]}
{"id": "C104", "title": "A connection is given up only for a reason", "statement": "While the socket delivers no receive error, a connection is given up only directly after a datagram that is an error (unknown, or a connection state response with an error status), after an acknowledgement or heart beat could not be sent, or after acknowledging a message nobody can receive any more because the client handle was dropped.", "quantifier": "every execution", "why_tests_cant": "all interleavings", "anchors": ["src/transport/udp.rs: UdpTransport::connect", "src/transport/udp.rs: receive, handle_response"]}
{"id": "C105", "title": "A search asks once, at the discovery address", "statement": "When the socket can be bound, reports an IPv4 address and sends, a search sends exactly one datagram: the search request naming that address, to 224.0.23.12 port 3671; otherwise it sends nothing. Its result is then that of the receive loop.", "quantifier": "every environment", "why_tests_cant": "all environments", "anchors": ["src/transport/udp.rs: UdpTransport::search", "src/packets/core.rs: SearchRequest::udp_unicast"]}
{"id": "C106", "title": "A search that cannot ask reports an error", "statement": "If the request cannot be sent the search returns an error.", "quantifier": "every environment", "why_tests_cant": "needs a failing socket; violated: the call panics", "anchors": ["src/transport/udp.rs: UdpTransport::search"]}
{"id": "C107", "title": "A search names an address devices can reply to", "statement": "The discovery endpoint in the search request is an address of the client.", "quantifier": "every environment in which the socket, bound to the wildcard address, reports it", "why_tests_cant": "needs a check of the octets on the network; violated", "anchors": ["src/transport/udp.rs: UdpTransport::search"]}
{"id": "C108", "title": "Every data point can be written", "statement": "A group write of any typed value in range builds the APDU of the standard: values of at most six bits in the APCI word, others after it.", "quantifier": "every typed value", "why_tests_cant": "all values of all types; violated for 8-bit values and for 2-byte floats the encoder does not return for", "anchors": ["src/packets/apdu.rs: group_value_write_pd", "src/dp_types.rs"]}
{"id": "C109", "title": "Typed values survive the bus", "statement": "A typed value written to a group, forwarded by the device as an indication and received by the client is decoded to the same value.", "quantifier": "every typed value, group address, channel, sequence counter, source and control octets", "why_tests_cant": "all values across five layers", "anchors": ["src/packets/apdu.rs: group_value_write_pd", "src/dp_types.rs: from_bytes, get_bytes", "src/packets/emi.rs", "src/transport/udp.rs: parse_response"]}
{"id": "C110", "title": "Decoding keeps the data point type", "statement": "Decoding what the general constructor of a type encodes gives the same code and unit.", "quantifier": "every value", "why_tests_cant": "all types; violated", "anchors": ["src/dp_types.rs: from_bytes"]}
{"id": "C111", "title": "Decoders reject octet strings of the wrong length", "statement": "Each data point decoder accepts exactly the octet strings of its size.", "quantifier": "every octet string", "why_tests_cant": "all lengths; violated", "anchors": ["src/dp_types.rs: from_bytes"]}
{"id": "C112", "title": "Percentages follow the standard", "statement": "The percentage of an octet v is v * 100 / 255, and the octet of a percentage the nearest.", "quantifier": "every octet; every percentage from 0 to 100", "why_tests_cant": "all octets; violated", "anchors": ["src/dp_types.rs: PdtKnxScaledValue"]}
{"id": "C113", "title": "The transport service is sent", "statement": "The TPDU of each transport service starts with the control information of that service.", "quantifier": "every transport service, every APDU", "why_tests_cant": "needs a comparison with the standard; violated", "anchors": ["src/packets/tpdu.rs"]}
{"id": "C114", "title": "Bus-monitor frames report their addresses", "statement": "A standard frame delivered by the bus monitor is reported with its source and destination.", "quantifier": "every frame", "why_tests_cant": "needs a bus-monitor connection; violated", "anchors": ["src/packets/emi.rs: LDataInd::from_cemi", "src/transport/udp_monitor.rs: UdpMonitor::next_msg"]}
{"id": "C115", "title": "A larger percentage never gives a smaller octet", "statement": "If x <= y, the octet written for x is at most the octet written for y; the value saturates at 0 and 255 and never wraps.", "quantifier": "every pair of f32 values, infinities included", "why_tests_cant": "2^64 pairs", "anchors": ["src/dp_types.rs: PdtKnxScaledValue"]}
{"id": "C116", "title": "A percentage comes back", "statement": "A percentage encoded and decoded by this library differs from the original by at most 0.197.", "quantifier": "every f32 from 0 to 100", "why_tests_cant": "about 2^30 values", "anchors": ["src/dp_types.rs: PdtKnxScaledValue"]}
{"id": "C117", "title": "The friendly name of a found device is its name", "statement": "The friendly name a search reports for a device is the name the device was given, without the zeros that fill the field of 30 octets.", "quantifier": "every reply, every name shorter than 30 octets", "why_tests_cant": "violated: the zeros are part of the name returned", "anchors": ["src/packets/core.rs: DeviceInformation::friendly_name", "src/transport/udp.rs: search"]}
{"id": "C118", "title": "A well-behaved device keeps its connection", "statement": "If the socket works and the device sends only tunnelling requests, acknowledgements, feature responses and positive connection state responses, then the connection is never given up, the background task never stops, a connection is made at most once, and after that no call reports that the client is disconnected.", "quantifier": "every execution: any schedule, any number of calls, any time", "why_tests_cant": "unbounded executions and interleavings", "anchors": ["src/transport/udp.rs: TokioUdpTransport::connect", "src/transport/udp_monitor.rs"]}
{"id": "C119", "title": "Sessions of any length get the right answers", "statement": "In a session of consecutive reads and writes in which the device answers each read with an indication for its address (after any other telegrams) and confirms each write, every call returns the value answered, or success, and the requests carry consecutive sequence numbers modulo 256.", "quantifier": "every number of calls, addresses, values, telegrams in between, pauses", "why_tests_cant": "unbounded length; the sequence number wraps", "anchors": ["src/transport/udp.rs: group_read, group_write"]}
{"id": "C120", "title": "The dimming demo ends successfully", "statement": "If the write is confirmed and the disconnect request answered, the program in src/main.rs ends without an error.", "quantifier": "every execution", "why_tests_cant": "violated: disconnecting waits for a bus message; it fails unless another telegram happens to arrive", "anchors": ["src/main.rs: main", "src/transport/udp.rs: disconnect"]}
{"id": "C121", "title": "Devices with many service families are found", "statement": "A device is found whatever number of service families it offers.", "quantifier": "every reply the standard allows, after any replies of other devices", "why_tests_cant": "violated: a reply with more than 15 families does not fit the buffer, and the whole search fails", "anchors": ["src/transport/udp.rs: search", "src/packets/core.rs: SearchResponse::from_packet"]}
{"id": "C122", "title": "The discovery demo lists every device that answers", "statement": "examples/discover.rs prints, for each device that answered, its endpoint, name, medium, address, programming mode, project, serial number, multicast and MAC address and service families; from the lines everything shown can be told. If the search fails nothing is printed.", "quantifier": "every list of replies", "why_tests_cant": "the listing is not asserted by any test; unbounded replies", "anchors": ["examples/discover.rs: main"]}
{"id": "C123", "title": "A temperature comes back", "statement": "Encoding a number as a 2-byte float with get_bytes and decoding it with from_bytes gives the number back up to half a step of the 2-byte float.", "quantifier": "all finite f32 values in the range -671088.64..670760.96, both build profiles", "why_tests_cant": "There are billions of f32 values; the failures lie in narrow intervals just below 20.48 times a power of two and just below 0.", "anchors": ["src/dp_types.rs: calimero_float_to_bytes", "src/dp_types.rs: bytes_to_float", "src/dp_types.rs: PdtKnxFloat"]}
{"id": "C124", "title": "A higher temperature is never encoded as a lower one", "statement": "If x <= y then the KNX value of the 2-byte float written for x is at most that of the one written for y.", "quantifier": "all pairs of finite f32 values in range, both build profiles", "why_tests_cant": "Pairs of f32 values cannot be enumerated; order breaks only where the exponent changes.", "anchors": ["src/dp_types.rs: calimero_float_to_bytes"]}
{"id": "C125", "title": "The monitor loses and repeats no indication", "statement": "The results of all next_msg calls of all tasks, in order, show exactly the indications and bus-monitor indications taken from the queue, which are those of a subsequence of the datagrams received: none is lost, repeated or reordered, whichever tasks call and whichever calls are cancelled.", "quantifier": "every execution of the monitor: every number of tasks, calls, cancellations, reconnections", "why_tests_cant": "all interleavings of concurrent and cancelled calls", "anchors": ["src/transport/udp_monitor.rs: next_msg", "src/transport/udp.rs: handle_recv_from_knx_device"]}
{"id": "C126", "title": "The monitor's backlog can be fetched", "statement": "A task that keeps calling next_msg gets every indication that is queued without anyone else moving; in a session in which telegrams arrive in batches of at most 100 it is shown every indication with its addresses and value.", "quantifier": "every reachable state and queue; every number of batches and telegrams", "why_tests_cant": "unbounded length", "anchors": ["src/transport/udp_monitor.rs: next_msg"]}
{"id": "C127", "title": "Each datagram gets its reaction", "statement": "The next thing the background task does after taking a datagram from the socket depends on it alone: a tunnelling request or feature response is acknowledged with its own channel and sequence number, unless the heart beat falls due first; an acknowledgement or a good connection state is ignored; a bad connection state drops the connection; a disconnect response ends the task. The acknowledgement can always be sent at once.", "quantifier": "every execution, every datagram that can be decoded, every moment at which it arrives", "why_tests_cant": "all interleavings with heart beats, socket errors and callers", "anchors": ["src/transport/udp.rs: handle_recv_from_knx_device"]}
{"id": "C128", "title": "Octets of description blocks", "statement": "DIB::from_packet accepts exactly the octets described block by block, and returns the block they spell; structure_length returns the first of them.", "quantifier": "every octet sequence, every block, both build profiles", "why_tests_cant": "unbounded inputs and all six variants", "anchors": ["src/packets/core.rs: DIB::from_packet, DIB::structure_length"]}
{"id": "C129", "title": "Octets of search responses", "statement": "SearchResponse::from_packet accepts exactly a header 0x0202, a control endpoint, a device block and then a families block, whatever follows, and returns what they spell.", "quantifier": "every octet sequence and search response, both build profiles", "why_tests_cant": "unbounded inputs", "anchors": ["src/packets/core.rs: SearchResponse::from_packet"]}
{"id": "C130", "title": "Requests about a granted connection", "statement": "The connection-state and disconnect requests made from a connection response carry the channel and endpoint octets of that response; the default endpoints are 0.0.0.0:0 with protocol 1 (UDP) and 2 (TCP).", "quantifier": "every octet sequence accepted as a connection response", "why_tests_cant": "all inputs", "anchors": ["src/packets/core.rs: ConnectionstateRequest::from_connection_response, DisconnectRequest::from_connection_response, HPAI::udp, HPAI::tcp"]}
{"id": "C131", "title": "A description block is as long as it says", "statement": "Reading a description block takes the number of octets its length octet says.", "quantifier": "every accepted octet sequence", "why_tests_cant": "false for whole variants; the exact lengths need all inputs", "anchors": ["src/packets/core.rs: DIB::from_packet"]}
{"id": "C132", "title": "Disconnecting on a quiet bus succeeds", "statement": "disconnect succeeds when the device answers the disconnect request and there is no bus traffic, as the test test_get_connectionstate expects.", "quantifier": "every execution without bus messages; every execution of the test", "why_tests_cant": "all interleavings; the success of one run says nothing about the others", "anchors": ["src/transport/udp.rs: UdpTransport::disconnect, test_get_connectionstate"]}
{"id": "C133", "title": "Writes end", "statement": "If a client is used for writes only, by any number of tasks, then in every endless execution in which time passes, every task that can go on is polled again and the mutex serves its waiters in turn, every write eventually ends (returns, panics or is cancelled).", "quantifier": "every fair endless execution, every number of tasks and calls, every network behaviour", "why_tests_cant": "A liveness property of infinite runs: no finite test shows that a waiting call will end, nor that no schedule starves it.", "anchors": ["src/transport/udp.rs: write_group_address_value, UdpClient"]}
{"id": "C134", "title": "Calls end", "statement": "In every fair endless execution every call eventually ends.", "quantifier": "every fair endless execution, every call", "why_tests_cant": "A liveness property of infinite runs; it fails only for particular interleavings or datagram losses.", "anchors": ["src/transport/udp.rs: get_connectionstate, disconnect, read_group_address_value", "src/transport/udp_monitor.rs: UdpMonitor"]}
{"id": "C135", "title": "Only elapsed time matters", "statement": "What the library can do when it is started D milliseconds later is exactly what it can do now, with every instant D later: no behaviour depends on absolute time.", "quantifier": "every execution of client and monitor, every start time and delay", "why_tests_cant": "Tests run at one start time; a dependence on absolute time (an interval not reset, a deadline computed from the wrong origin) appears only for some.", "anchors": ["src/transport/udp.rs: connect, read_group_address_value, write_group_address_value"]}
{"id": "C136", "title": "A client without connection keeps asking for one", "statement": "In every fair endless execution of client or monitor, whenever the library is not connected it later attempts to send another connection request or becomes connected: the task never gives up and never gets stuck while connecting.", "quantifier": "every fair endless execution of client and monitor, every gateway behaviour", "why_tests_cant": "A liveness property over infinite runs; every finite test sees only finitely many attempts.", "anchors": ["src/transport/udp.rs: connect, UdpTransport::connect", "src/transport/udp_monitor.rs: connect"]}
{"id": "C137", "title": "Heart beats never cease", "statement": "In every fair endless execution of a client in which the timer branch is not passed over for ever, whenever the client is connected it later sends a heart beat, gives up the connection or its task stops.", "quantifier": "every fair endless execution of a client, every bus load", "why_tests_cant": "A liveness property over infinite runs: under load the receive branch could starve the timer or move its deadline for ever.", "anchors": ["src/transport/udp.rs: UdpTransport::connect, handle_recv_from_knx_device"]}
{"id": "C138", "title": "Named constructors send the value they are given", "statement": "A value built by a named constructor (counter, switch, dimming, blinds, temperature) carries the code and unit of its data point type, is sent as the octets of that type, and is read back as the value given.", "quantifier": "every value of every named constructor", "why_tests_cant": "all values of six constructors; a wrong sign, mask or label shows for some only", "anchors": ["src/dp_types.rs: value_2_count, switch, dimming, blinds, temp, temp_from_bytes"]}
{"id": "C139", "title": "A willing gateway gets its client connected", "statement": "In every fair endless execution of client or monitor in which, from some point on, sends and receives of the task succeed, each connection request is answered some time (however late) and only granting connect responses arrive while there is no connection, the library becomes connected again after every point at which it is not. Left-over datagrams, late answers and calls that take datagrams off the socket cannot prevent it.", "quantifier": "every fair endless execution of client and monitor with a willing gateway", "why_tests_cant": "A liveness property over infinite runs: stale datagrams, answers that come after the timeout and concurrent calls receiving on the same socket could each make every attempt fail.", "anchors": ["src/transport/udp.rs: connect, UdpTransport::connect", "src/transport/udp_monitor.rs: connect"]}
{"id": "C140", "title": "next_msg returns while telegrams keep coming", "statement": "In every fair endless execution of a monitor in which indications are queued again and again, whenever a call of next_msg is in progress some call of next_msg ends later; if only one task calls next_msg, its call ends. From some point on either no listener is being notified, or the listeners' channels have room and the locks serve the calls in turn (the monitor may then lose its connection and connect again without end).", "quantifier": "every fair endless execution of a monitor, any number of callers, any mixture of confirmations and indications", "why_tests_cant": "A liveness property of infinite runs: a lost wake-up, a confirmation that ends the wait silently or a lock kept by a waiting reader shows only in some interleavings.", "anchors": ["src/transport/udp_monitor.rs: next_msg"]}
{"id": "C141", "title": "Different calls are sent differently", "statement": "Two reads or writes that are sent as the same datagram are the same operation on the same group with the same value.", "quantifier": "any two executions of client or monitor, any two calls", "why_tests_cant": "all pairs of calls and values; collisions appear only for particular pairs", "anchors": ["src/packets/apdu.rs: group_value_write, packet", "src/transport/udp.rs: read_group_address_value, write_group_address_value", "src/transport/udp_monitor.rs: solicit_group_address_value, write_group_address_value"]}
{"id": "C142", "title": "No datagram is left lying", "statement": "In every fair endless execution of client or monitor in which the task's sends succeed and the channels of listeners have room, every datagram that arrives is taken off the socket, in order of arrival, or the task stops; also when nobody fetches the queued messages, and across any number of reconnections.", "quantifier": "every fair endless execution of client and monitor, any traffic and any calls", "why_tests_cant": "A liveness property of infinite runs: a full queue, a heart beat that always wins the select or a connection attempt that does not look at the socket would leave datagrams lying, in some interleavings only.", "anchors": ["src/transport/udp.rs: UdpTransport::connect, connect, handle_recv_from_knx_device", "src/transport/udp_monitor.rs: connect"]}
{"id": "C143", "title": "Reads and writes end in time", "statement": "On a machine fast enough that no time passes while the program has something to do, a write ends within 10 s of sending its request and a read within 10 s more for every message it takes from the queue; without other callers the same holds counted from the moment the call is made.", "quantifier": "every prompt execution, whatever the network and the user do", "why_tests_cant": "unboundedly many interleavings; a test sees one schedule and one clock", "anchors": ["src/transport/udp.rs: read_group_address_value, write_group_address_value"]}
{"id": "C144", "title": "Heart beats are not late", "statement": "On a machine fast enough, while a connection lasts and the task runs (and the user keeps room in registered on-connect channels) no 60 s pass without a heart beat.", "quantifier": "every prompt execution of client and monitor, every set of registered channels", "why_tests_cant": "arbitrary traffic, full queues and connections of any age", "anchors": ["src/transport/udp.rs: UdpTransport::connect", "src/transport/udp_monitor.rs: UdpMonitorTransport::connect"]}
{"id": "C145", "title": "Connection requests are not late", "statement": "On a machine fast enough, the first connection request is sent at once, and while there is no connection no 40 s pass without an attempt to send one.", "quantifier": "every prompt execution of client and monitor", "why_tests_cant": "arbitrary datagrams, send and receive errors during connection attempts", "anchors": ["src/transport/udp.rs: connect (free function), try_connection", "src/transport/udp_monitor.rs: UdpMonitorTransport::connect"]}
{"id": "C146", "title": "Datagrams are not kept waiting", "statement": "Whenever the program is connected and has come to rest with fewer than 100 messages in the queue (and registered on-connect channels have room), it has taken every datagram that arrived.", "quantifier": "every execution, every state at rest", "why_tests_cant": "all states of the task and the socket", "anchors": ["src/transport/udp.rs: UdpTransport::connect, handle_recv_from_knx_device", "src/transport/udp_monitor.rs: UdpMonitorTransport::connect"]}
{"id": "C147", "title": "The library sends little by itself", "statement": "Over any execution the background task of a client sends at most one datagram for each datagram it took, two, one per 10 s and one per 60 s (the monitor one more per connection attempt answered); acknowledgements and answers never outnumber the datagrams received, and each call sends at most one.", "quantifier": "every execution of any length, whatever arrives and fails", "why_tests_cant": "a peer can send anything in any order for any time; tests cannot count over all of it", "anchors": ["src/transport/udp.rs: UdpTransport::connect, connect, handle_recv_from_knx_device", "src/transport/udp_monitor.rs: UdpMonitorTransport::connect"]}
{"id": "C148", "title": "At most one message is lost per heart beat", "statement": "While the client is alive, all tunnelling requests with a decodable message that the task took are queued, except one in hand, at most one per heart beat and one per acknowledgement that could not be sent; acknowledged messages are dropped at most once per minute (plus one).", "quantifier": "every execution, every set of such datagrams", "why_tests_cant": "depends on when the timer fires among arbitrarily many messages and on how full the queue is", "anchors": ["src/transport/udp.rs: UdpTransport::connect, handle_recv_from_knx_device"]}
{"id": "C149", "title": "No call is beyond rescue", "statement": "While the client is alive, whatever has happened, every call in progress can still come back: there is a continuation without dropped calls, send failures or socket errors after which it has returned; and the connection can be had again unless the background task is over.", "quantifier": "every execution and every call in progress in it", "why_tests_cant": "needs the continuation for each of the infinitely many reachable states, including those in which calls, task and listeners wait for each other", "anchors": ["src/transport/udp.rs: read_group_address_value, write_group_address_value, connect, handle_recv_from_knx_device", "src/transport/udp_monitor.rs: UdpMonitorTransport::connect, next_msg, add_on_connect"]}
{"id": "C150", "title": "Calls are served in order and in time", "statement": "With a mutex that serves the calls in the order of their requests (as tokio's does) and a machine that is fast enough, a client's read or write is over within ten seconds for each call made before it and still in progress, ten seconds for itself and ten for each bus message taken off the queue in the mean time; for writes alone without the last term. In endless executions serving in order is fair, so every write ends.", "quantifier": "every prompt execution with such a mutex, any number of calls of any number of tasks; every endless execution with such a mutex", "why_tests_cant": "the waiting time depends on every interleaving of an unbounded number of calls with the background task, messages and timers", "anchors": ["src/transport/udp.rs: read_group_address_value, write_group_address_value, handle_recv_from_knx_device"]}
{"id": "C151", "title": "An answer is passed on at once", "statement": "On a machine fast enough, when the datagram with the answer (the value of the group read, the confirmation of the write or another telegram that spoils it, any telegram for a disconnect) arrives at a connected client while the call waits for it, the call returns it before the clock moves on: the value as it is in the datagram, success or failure as confirmed; only a call whose ten seconds end in this very instant may report a timeout instead. Provided no heart beat falls into this instant (it may throw the message away, C148) and the call is not cancelled.", "quantifier": "every prompt execution, every answer, any other calls and messages before and after", "why_tests_cant": "the answer passes through the socket, the background task, the queue and the mutex, interleaved with every other call", "anchors": ["src/transport/udp.rs: read_group_address_value, write_group_address_value, disconnect, handle_recv_from_knx_device"]}
{"id": "C152", "title": "An outage ends with the gateway's answer", "statement": "On a machine fast enough, whenever there is no connection (since the start or since the last one was given up at the instant k) and the gateway's granting answer is the next datagram to arrive, less than 30 s after k, the connection with the granted channel and endpoint stands before the clock moves on; provided the task's sends succeed, its receive reports no error and no call takes the answer off the socket.", "quantifier": "every prompt execution of client and monitor without receive errors, every granting datagram", "why_tests_cant": "the state in which the answer is met depends on how the connection was lost and on the interleaving with calls reading the same socket", "anchors": ["src/transport/udp.rs: connect, try_connection", "src/transport/udp_monitor.rs: connect"]}
{"id": "C153", "title": "Nobody answers: requests in exact cadence", "statement": "On a machine fast enough, while there is no connection and nothing arrives, the background task tries to send connection requests and nothing else, the first at once, each further one exactly 40 s after a request that was sent and exactly 10 s after one that could not be sent, for ever.", "quantifier": "every prompt execution of client and monitor without receive errors, outages of every length", "why_tests_cant": "the timing is a law about unbounded outages, not about one attempt", "anchors": ["src/transport/udp.rs: connect, try_connection", "src/transport/udp_monitor.rs: connect"]}
{"id": "C154", "title": "No datagram crashes a search", "statement": "Whatever datagrams arrive, a search returns the devices or an error; it never panics.", "quantifier": "every sequence of datagrams, both build profiles", "why_tests_cant": "the datagram that crashes it is one of 2^800; which octets matter depends on the datagrams before it, since the buffer is reused", "anchors": ["src/transport/udp.rs: search", "src/packets/core.rs: from_packet"]}
{"id": "C155", "title": "The first 2-byte float encoder encodes every number the format can hold", "statement": "_float_to_bytes returns, for each f32 within the range of DPT 9, the two octets of a 2-byte float within one step of it.", "quantifier": "every finite f32", "why_tests_cant": "2^32 inputs; the defect depends on the magnitude class and sign, not on single values", "anchors": ["src/dp_types.rs: _float_to_bytes"]}
{"id": "C156", "title": "The error about a wrong field states the value found", "statement": "When a decoder of a control or tunnelling datagram rejects a field for its value, the last word of the error text is that value, in decimal or hexadecimal; for the status of a connect response the text is the reason of the refusal.", "quantifier": "every octet sequence, every field of the nine datagrams", "why_tests_cant": "an error text is a function of the rejected value: each test sees one value, and a text printing the wrong variable looks right whenever both agree", "anchors": ["src/packets/core.rs: from_packet", "src/packets/tunneling.rs: from_packet", "src/packets/tunneling.rs: verify_header"]}
{"id": "C157", "title": "The error about a datagram that is too short names the missing field", "statement": "When a control or tunnelling datagram ends too early, the error text begins with \"Unable to read\", and the texts for two different missing fields of one kind of datagram differ.", "quantifier": "every kind of datagram, every pair of truncated octet sequences", "why_tests_cant": "quantifies over pairs of fields and over all truncations; a copied text is only seen by comparing all pairs", "anchors": ["src/packets/core.rs: from_packet", "src/packets/tunneling.rs: from_packet", "src/packets/tunneling.rs: verify_header"]}
{"id": "C158", "title": "The error about a truncated description block names the missing field", "statement": "When a description block ends too early, the error text is \"Unable to read\" followed by the first field of its kind that is not complete; an unknown type code or medium is stated in the text, and a search response passes on the error of its first wrong block.", "quantifier": "every block kind, every length octet, every truncation, every search response", "why_tests_cant": "which field is named depends on the position of the cut in each of six layouts, two of them with repeated fields; tests cut at a few places", "anchors": ["src/packets/core.rs: from_packet"]}
{"id": "C159", "title": "The error about a truncated L_Data message names the missing field", "statement": "When the service information of an L_Data indication or confirmation is too short, the error text names the first incomplete field and gives the cause; otherwise there is no error.", "quantifier": "every cEMI message, every length of its service information", "why_tests_cant": "the equality covers every length and content of the service information", "anchors": ["src/packets/emi.rs: from_cemi"]}
{"id": "C160", "title": "The error about an address text says which part is wrong and why", "statement": "When a text is not an address, the error names the first part that is not a number in range, quotes it, and gives the reason (empty, invalid digit, too large); a wrong number of parts is reported with the whole text.", "quantifier": "every octet sequence as address text, every way of quoting", "why_tests_cant": "the reason depends on which of a bad digit and an overflow comes first, in each part of texts of any length", "anchors": ["src/packets/addresses.rs: try_from"]}
{"id": "C161", "title": "The error about a malformed cEMI message tells what is wrong", "statement": "When the cEMI part of a datagram is cut before the end of its additional information, or contains an element of unknown type, the error names the octet that is missing or states the type.", "quantifier": "every profile, every octet sequence, any number of complete elements before the fault", "why_tests_cant": "the fault can come after any number of elements of any sizes; tests try one or two", "anchors": ["src/packets/emi.rs: from_packet"]}
{"id": "C162", "title": "A waiting next_msg shows a bus telegram in the instant it arrives", "statement": "On a machine that is fast enough: when a telegram of the bus (indication or bus monitor indication) arrives at a connected monitor while a call of next_msg waits, a call of next_msg returns this telegram, with its source, destination and value, before the clock moves on, unless the heart beat falls due or the connection is given up in the same instant or the call is cancelled. Other calls, also of next_msg, may run at the same time (provided nobody calls disconnect, which reads the same socket, and the user keeps room in registered on-connect channels).", "quantifier": "every prompt execution of the monitor without registered channels and disconnect calls, every telegram, any number of concurrent calls", "why_tests_cant": "tests wait with a margin and cannot exclude a delay that depends on what other tasks do", "anchors": ["src/transport/udp_monitor.rs: next_msg", "src/transport/udp_monitor.rs: connect"]}
{"id": "C163", "title": "Monitor calls that do not wait for the bus take no time", "statement": "On a machine that is fast enough every call of the monitor except next_msg and disconnect is over, one way or another, before the clock moves on: a call still open was made in the present instant, whatever other calls and the network do, connected or not (provided the user keeps room in registered on-connect channels and nobody calls disconnect).", "quantifier": "every prompt execution of the monitor without registered channels and disconnect calls, any number of concurrent calls", "why_tests_cant": "a test sees one interleaving; that no call ever waits for the lock or the connection needs all of them", "anchors": ["src/transport/udp_monitor.rs: solecitate_group_read", "src/transport/udp_monitor.rs: write_group_address_value", "src/transport/udp_monitor.rs: is_connected"]}
{"id": "C164", "title": "The error of a failed call tells why it failed", "statement": "When a call of the client or the monitor returns an error, the beginning of the error's text tells the cause, and that cause is what happened: there was no connection; the datagram could not be sent; nothing came for 10 s since the request or the last message taken; the background task has stopped and the queue is empty; a message with the stated code came instead of a confirmation; the socket reported an error; what came cannot be read.", "quantifier": "every execution with any number of concurrent calls, every call, every error, whatever the operating system's texts are", "why_tests_cant": "a test provokes an error it knows the cause of; that a text is never given for another cause needs all executions", "anchors": ["src/transport/udp.rs: tunnel_req", "src/transport/udp.rs: get_connectionstate", "src/transport/udp.rs: write_group_address_value", "src/transport/udp_monitor.rs: solecitate_group_read"]}
{"id": "C165", "title": "The error of a call about a malformed message names the fault", "statement": "When a read or next_msg fails because an indication is too short, the error names the first field that is missing; when connection_status or the monitor's disconnect fails because of what it received, the error contains what the decoder of that response says of the datagram.", "quantifier": "every execution, every message and datagram, every call", "why_tests_cant": "messages can be cut anywhere and arrive at any moment of any call", "anchors": ["src/transport/udp.rs: read_group_address_value", "src/transport/udp.rs: get_connectionstate", "src/transport/udp_monitor.rs: next_msg", "src/transport/udp_monitor.rs: disconnect"]}
{"id": "C166", "title": "The error of a search tells why it failed", "statement": "When a search returns an error its text tells whether no socket could be opened, the local address could not be determined, the local address is an IPv6 address, the socket failed while waiting, or a datagram was no search response; and that is what happened first.", "quantifier": "every profile, every answer of the operating system, every sequence of datagrams and socket errors", "why_tests_cant": "the fault can follow any number of good responses, and tests cannot make the operating system fail at will", "anchors": ["src/transport/udp.rs: search"]}
{"id": "C167", "title": "A tunnelling request is acknowledged within a second", "statement": "While the connection lasts, the client acknowledges every tunnelling request within one second of its arrival, the time a gateway waits before it repeats the request and then closes the connection.", "quantifier": "every execution on a machine fast enough, every datagram, every sequence of calls", "why_tests_cant": "the acknowledgement fails to come only after a hundred telegrams nobody read, or when a heart beat falls due in the same instant", "anchors": ["src/transport/udp.rs: handle_incoming_message", "src/transport/udp.rs: run", "src/transport/udp_monitor.rs: run"]}
{"id": "C168", "title": "A status query tells a state received after it was asked", "statement": "The connection state returned by get_connection_status comes from a datagram that did not arrive before the instant in which the query sent its request.", "quantifier": "every execution on a machine fast enough, every datagram, every sequence of calls", "why_tests_cant": "a stale state is returned only after a hundred telegrams nobody read, when the background task no longer empties the socket", "anchors": ["src/transport/udp.rs: get_connectionstate", "src/transport/udp.rs: handle_incoming_message"]}
{"id": "C169", "title": "connect returns a connected client", "statement": "A call made after UdpClient::connect or UdpMonitor::connect returned Ok does not fail because there is no connection; connect fails exactly if the operating system gives no socket or does not accept the target, and says which.", "quantifier": "every answer of the operating system, every sequence of calls, datagrams, times and schedulings after connect", "why_tests_cant": "whether a call comes before or after the background task's connection is a race that a fast local device hides", "anchors": ["src/transport/udp.rs: UdpTransport::connect", "src/transport/udp.rs: UdpClient::connect", "src/transport/udp_monitor.rs: UdpMonitorTransport::connect", "src/transport/udp_monitor.rs: UdpMonitor::connect"]}
{"id": "C170", "title": "A status query gets the answer to its own request", "statement": "When get_connection_status returns a state, a device that answers requests for its state in order, and only those, has answered the request of this query: as many answers have arrived as requests, of the query and of heart beats, were sent.", "quantifier": "every execution on a machine fast enough, every datagram, every sequence of calls", "why_tests_cant": "needs a query in the round-trip time of a heart beat, once a minute", "anchors": ["src/transport/udp.rs: get_connectionstate", "src/transport/udp.rs: UdpTransport::connect (heart beat)", "src/transport/udp.rs: handle_incoming_message"]}
{"id": "C171", "title": "An error of the gateway renews the connection at once", "statement": "When a connection state with an error status or an undecodable datagram arrives on a connection, the connection is given up and a new connection request is sent in the same instant.", "quantifier": "every execution on a machine fast enough, every datagram, every sequence of calls", "why_tests_cant": "whether the background task or a status query gets the datagram is a race; the lost renewal shows only much later", "anchors": ["src/transport/udp.rs: handle_incoming_message", "src/transport/udp.rs: get_connectionstate", "src/transport/udp.rs: UdpTransport::connect", "src/transport/udp_monitor.rs: UdpMonitorTransport::connect"]}
{"id": "C172", "title": "A disconnected monitor is silent", "statement": "After UdpMonitor::disconnect returned the status 0 of the device, the background task sends nothing more and is_connected does not return true.", "quantifier": "every execution on a machine fast enough, every datagram, every sequence of calls", "why_tests_cant": "the next heart beat comes up to a minute after the disconnect, when a test is over", "anchors": ["src/transport/udp_monitor.rs: UdpMonitorTransport::disconnect", "src/transport/udp_monitor.rs: UdpMonitorTransport::is_connected", "src/transport/udp_monitor.rs: UdpMonitorTransport::connect"]}
