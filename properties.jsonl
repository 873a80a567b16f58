{"id": "C01", "title": "Remaining Length encode/decode round trip", "statement": "For every remaining length from 0 to 268435455 the library writes between one and four bytes, the number of bytes its size functions announce, and reading those bytes back (followed by anything) yields the same number and the same byte count; no shorter sequence of bytes decodes to that number.", "quantifier": "every remaining length 0..268435455 and every byte string following it", "why_tests_cant": "268 million values times arbitrary following bytes; tests sample the boundaries 127/128/16383/16384/... only", "anchors": ["source/core_mqtt_serializer.c: remainingLengthEncodedSize, encodeRemainingLength, getRemainingLength, processRemainingLength"]}
{"id": "C02", "title": "Incoming fixed header recognised exactly", "statement": "MQTT_ProcessIncomingPacketTypeAndLength answers MQTTSuccess exactly when the bytes available start with a packet type a server may send followed by a complete minimal 1-4 byte length, and then reports precisely that type, that length and the header size; it answers MQTTNeedMoreBytes exactly when the bytes are a proper prefix of such a header, MQTTNoDataAvailable exactly on no bytes, and MQTTBadResponse on every other byte string.", "quantifier": "every byte string and every number of bytes available", "why_tests_cant": "the input space is all byte strings; partial deliveries multiply it", "anchors": ["source/core_mqtt_serializer.c: MQTT_ProcessIncomingPacketTypeAndLength, processRemainingLength, incomingPacketValid"]}
{"id": "C03", "title": "Header decision is stable and looks only at received bytes", "statement": "The answer of MQTT_ProcessIncomingPacketTypeAndLength depends only on the bytes counted as received, never on what lies behind them in the buffer, and once it is MQTTSuccess or MQTTBadResponse receiving further bytes never changes it.", "quantifier": "every buffer content, every split of the stream", "why_tests_cant": "needs two-run (hyper)reasoning over all buffer tails and all extensions", "anchors": ["source/core_mqtt_serializer.c: MQTT_ProcessIncomingPacketTypeAndLength, processRemainingLength"]}
{"id": "C04", "title": "Pull parser agrees with the buffer parser", "statement": "MQTT_GetIncomingPacketTypeAndLength, reading one byte at a time from the transport, accepts exactly the same headers with the same type and length as MQTT_ProcessIncomingPacketTypeAndLength does on the same bytes and consumes exactly the header bytes; it reports MQTTNoDataAvailable when the first read returns nothing, MQTTRecvFailed when the first read errors, and MQTTBadResponse when the stream ends inside the header or the header is malformed.", "quantifier": "every byte stream and every transport error position", "why_tests_cant": "two independent hand-written decoders have to agree on every stream", "anchors": ["source/core_mqtt_serializer.c: MQTT_GetIncomingPacketTypeAndLength, getRemainingLength, MQTT_ProcessIncomingPacketTypeAndLength"]}
{"id": "C05", "title": "CONNECT serialisation is exact", "statement": "If MQTT_GetConnectPacketSize succeeds and the buffer is at least that large, MQTT_SerializeConnect succeeds and the first packetSize bytes are exactly the MQTT 3.1.1 CONNECT packet for the given client id, keep alive, clean flag, will, user name and password (flags set exactly for the fields present); bytes behind packetSize are unchanged; with a smaller buffer it returns MQTTNoMemory and writes nothing.", "quantifier": "all connect infos and wills whose pointers are valid for the stated lengths (a NULL will payload only with length 0, see C49), all buffers", "why_tests_cant": "the combinations of optional fields and lengths are unbounded for tests; out-of-bounds writes are invisible to assertions on contents", "anchors": ["source/core_mqtt_serializer.c: MQTT_GetConnectPacketSize, MQTT_SerializeConnect, MQTT_SerializeConnectFixedHeader, serializeConnectPacket, encodeString"]}
{"id": "C06", "title": "SUBSCRIBE and UNSUBSCRIBE serialisation is exact", "statement": "For every non-empty list of filters accepted by the size functions, the serialisers write exactly the MQTT 3.1.1 packet: fixed header, packet id, every filter in order with its length and (for SUBSCRIBE) its requested QoS; the announced size equals the bytes written, nothing else is modified, and a smaller buffer gives MQTTNoMemory.", "quantifier": "every list length, every filter and QoS, every packet id, every buffer", "why_tests_cant": "list length and contents are unbounded", "anchors": ["source/core_mqtt_serializer.c: MQTT_GetSubscribePacketSize, MQTT_SerializeSubscribe, MQTT_GetUnsubscribePacketSize, MQTT_SerializeUnsubscribe, calculateSubscriptionPacketSize"]}
{"id": "C07", "title": "Subscription packet size cannot be under-reported", "statement": "Whenever MQTT_GetSubscribePacketSize or MQTT_GetUnsubscribePacketSize succeeds, the reported size is the true length of the packet, so a buffer of that size is never overrun, whatever the number of filters and the width of size_t.", "quantifier": "every list of filters, size_t widths 32 and 64", "why_tests_cant": "the counter-example needs tens of thousands of maximal filters", "anchors": ["source/core_mqtt_serializer.c: calculateSubscriptionPacketSize, MQTT_SerializeSubscribe"]}
{"id": "C08", "title": "PUBLISH serialisation is exact", "statement": "If MQTT_GetPublishPacketSize succeeds and the buffer is large enough, MQTT_SerializePublish writes exactly the MQTT 3.1.1 PUBLISH packet (type and DUP/QoS/RETAIN flags, length, topic, packet id iff QoS>0, payload) in exactly the announced number of bytes and changes nothing behind it; MQTT_SerializePublishHeader writes exactly that packet without the payload and reports its size; smaller buffers give MQTTNoMemory, QoS>0 with id 0 and DUP with QoS 0 give MQTTBadParameter.", "quantifier": "every topic, payload, flag combination, packet id and buffer", "why_tests_cant": "unbounded topic/payload sizes across the four length-field sizes", "anchors": ["source/core_mqtt_serializer.c: MQTT_GetPublishPacketSize, MQTT_SerializePublish, MQTT_SerializePublishHeader, serializePublishCommon, calculatePublishPacketSize"]}
{"id": "C09", "title": "PUBLISH round trip", "statement": "Parsing the header of any serialised PUBLISH and handing the rest to MQTT_DeserializePublish gives back the original topic, payload, QoS, retain flag, DUP flag and packet id.", "quantifier": "every publish info accepted by the serialiser and every non-zero packet id", "why_tests_cant": "tests check a handful of messages", "anchors": ["source/core_mqtt_serializer.c: MQTT_SerializePublish, MQTT_ProcessIncomingPacketTypeAndLength, MQTT_DeserializePublish"]}
{"id": "C10", "title": "PUBLISH decoding is exact and memory safe", "statement": "MQTT_DeserializePublish reads only inside the remaining data, and succeeds exactly on well-formed PUBLISH bodies (QoS 0-2, topic length fitting, non-zero id for QoS>0), reporting topic and payload as the exact sub-ranges of the packet; every other body gives MQTTBadResponse.", "quantifier": "every type byte, every body of every length", "why_tests_cant": "all malformed packets cannot be enumerated; over-reads need not change observable results in tests", "anchors": ["source/core_mqtt_serializer.c: MQTT_DeserializePublish, deserializePublish, processPublishFlags, checkPublishRemainingLength"]}
{"id": "C11", "title": "Acknowledgement packets: encode, decode and rejection", "statement": "MQTT_SerializeAck writes the four bytes of PUBACK/PUBREC/PUBREL/PUBCOMP for exactly those types and any non-zero id and MQTT_DeserializeAck recovers the id; MQTT_DeserializeAck accepts PUBACK/PUBREC/PUBREL/PUBCOMP/UNSUBACK bodies exactly when they are two bytes with a non-zero id, PINGRESP exactly when empty, and any unknown packet type gives MQTTBadResponse.", "quantifier": "every type byte, id, body and buffer", "why_tests_cant": "bodies and lengths are unbounded and type x body combinations are not enumerated by tests", "anchors": ["source/core_mqtt_serializer.c: MQTT_SerializeAck, MQTT_DeserializeAck, deserializeSimpleAck, deserializePingresp"]}
{"id": "C12", "title": "CONNACK decoding table", "statement": "A CONNACK is accepted exactly when its body is two bytes, the first is 0 or 1, and the return code is 0; session-present is reported iff the first byte is 1 and then only with return code 0; return codes 1-5 give MQTTServerRefused, everything else MQTTBadResponse.", "quantifier": "every body", "why_tests_cant": "65536 two-byte bodies plus every other length", "anchors": ["source/core_mqtt_serializer.c: deserializeConnack, MQTT_DeserializeAck"]}
{"id": "C13", "title": "SUBACK decoding", "statement": "A SUBACK gives MQTTSuccess iff it has a non-zero id and at least one code, all codes being 0, 1 or 2; MQTTServerRefused iff moreover at least one code is 0x80 and all are legal; MQTTBadResponse iff malformed, irrespective of the order of the codes; MQTT_GetSubAckStatusCodes then yields exactly the code bytes.", "quantifier": "every list of return codes of every length", "why_tests_cant": "unbounded list of codes, order sensitive loop with early exit", "anchors": ["source/core_mqtt_serializer.c: readSubackStatus, deserializeSuback", "source/core_mqtt.c: MQTT_GetSubAckStatusCodes"]}
{"id": "C14", "title": "No packet beyond the protocol maximum", "statement": "The size functions succeed exactly when the packet's remaining length fits in 268435455, so no serialised packet has an unencodable length and no encodable packet is refused for its size.", "quantifier": "every combination of field lengths", "why_tests_cant": "needs reasoning about size arithmetic near 2^28 which tests cannot allocate", "anchors": ["source/core_mqtt_serializer.c: calculatePublishPacketSize, MQTT_GetConnectPacketSize, calculateSubscriptionPacketSize"]}
{"id": "C15", "title": "DUP flag patch touches one bit", "statement": "MQTT_UpdateDuplicatePublishFlag sets or clears exactly the DUP flag of a serialised PUBLISH and nothing else, refusing other packet types; the patched packet decodes to the same message with the requested DUP flag.", "quantifier": "every header byte and message", "why_tests_cant": "needs all header bytes and all messages", "anchors": ["source/core_mqtt_serializer.c: MQTT_UpdateDuplicatePublishFlag"]}
{"id": "C16", "title": "In-flight packet ids stay unique", "statement": "At no point do two in-flight outgoing publishes, or two in-flight incoming publishes, share a packet id; reusing an id that is in flight is refused with MQTTStateCollision and changes nothing.", "quantifier": "every sequence of publishes, acks, removals, any record array size", "why_tests_cant": "depends on the whole history and on how slots were freed", "anchors": ["source/core_mqtt_state.c: addRecord, findInRecord, MQTT_ReserveState, MQTT_UpdateStatePublish"]}
{"id": "C17", "title": "Capacity is exact", "statement": "A new QoS 1/2 publish is refused with MQTTNoMemory exactly when the number of in-flight publishes equals the configured maximum: holes left by completed publishes are always reclaimed.", "quantifier": "every history of the record array", "why_tests_cant": "fragmentation patterns depend on the order of completions", "anchors": ["source/core_mqtt_state.c: addRecord, compactRecords"]}
{"id": "C18", "title": "Acknowledgements drive exactly the MQTT QoS flows", "statement": "An acknowledgement for a publish is accepted exactly when it is the next legal step of its QoS 1 or QoS 2 exchange (or an allowed duplicate); otherwise MQTTBadResponse (unknown id) or MQTTIllegalState is returned and no record changes. Every other record is untouched in every case.", "quantifier": "every state of every record, every ack type, direction and id", "why_tests_cant": "records x states x events x positions", "anchors": ["source/core_mqtt_state.c: MQTT_UpdateStateAck, validateTransitionAck, MQTT_CalculateStateAck, updateStateAck"]}
{"id": "C19", "title": "The record array behaves like an ordered map", "statement": "Any sequence of state-engine calls returns the statuses and new states of, and leaves the contents of, a simple ordered association list of in-flight publishes with the QoS automata; slots, holes and compaction are unobservable.", "quantifier": "every sequence of operations, any array size", "why_tests_cant": "refinement over unbounded histories", "anchors": ["source/core_mqtt_state.c: addRecord, compactRecords, updateRecord, findInRecord, MQTT_ReserveState, MQTT_UpdateStatePublish, MQTT_UpdateStateAck, MQTT_RemoveStateRecord"]}
{"id": "C20", "title": "Retransmission order equals original order", "statement": "Walking MQTT_PublishToResend from the initial cursor lists exactly the ids of unacknowledged outgoing publishes, each once, in the order they were first reserved; walking MQTT_PubrelToResend lists exactly the QoS 2 publishes awaiting completion in the order their PUBRECs were received.", "quantifier": "every history of publishes and acks", "why_tests_cant": "order depends on full history including compactions", "anchors": ["source/core_mqtt_state.c: MQTT_PublishToResend, MQTT_PubrelToResend, stateSelect, updateStateAck"]}
{"id": "C21", "title": "A publish completes once", "statement": "Once the final acknowledgement of a QoS 1 or QoS 2 publish has been processed its id is free: the same acknowledgement again is refused, the id is no longer offered for resending and can be reserved again.", "quantifier": "every history", "why_tests_cant": "requires histories with duplicates at every point", "anchors": ["source/core_mqtt_state.c: MQTT_UpdateStateAck, updateStateAck"]}
{"id": "C22", "title": "Cancelling a publish removes only that publish", "statement": "MQTT_CancelCallback removes exactly the in-flight outgoing publish with the given id, leaves all others and their order, fails with MQTTBadParameter when there is none, and afterwards an acknowledgement for that id is not passed to the application.", "quantifier": "every in-flight set and id", "why_tests_cant": "history dependent", "anchors": ["source/core_mqtt.c: MQTT_CancelCallback", "source/core_mqtt_state.c: MQTT_RemoveStateRecord"]}
{"id": "C23", "title": "Packet ids handed out are never zero and do not repeat early", "statement": "MQTT_GetPacketId never returns 0 and any 65535 consecutive calls return 65535 different ids.", "quantifier": "every starting point and every number of calls", "why_tests_cant": "wrap-around needs 65535 calls from every start", "anchors": ["source/core_mqtt.c: MQTT_GetPacketId"]}
{"id": "C24", "title": "Topic matching is sound", "statement": "Whenever MQTT_MatchTopic reports a match for a valid topic name, the name really matches the filter under MQTT 3.1.1 section 4.7 ('+' one level, trailing '#' any number of levels including the parent, '$' topics not matched by a leading wildcard).", "quantifier": "every topic name and filter", "why_tests_cant": "infinite pairs of strings", "anchors": ["source/core_mqtt.c: MQTT_MatchTopic, matchTopicFilter, matchWildcards, matchEndWildcardsSpecialCases"]}
{"id": "C25", "title": "Topic matching is complete", "statement": "Whenever a valid topic name matches a valid filter under MQTT 3.1.1 section 4.7, MQTT_MatchTopic reports a match.", "quantifier": "every topic name and filter", "why_tests_cant": "infinite pairs of strings; the failing pairs are exotic", "anchors": ["source/core_mqtt.c: MQTT_MatchTopic, matchTopicFilter, matchWildcards, matchEndWildcardsSpecialCases"]}
{"id": "C26", "title": "Topic matching is memory safe", "statement": "MQTT_MatchTopic never reads outside the given name and filter and terminates with the match flag set to a definite value whenever it returns MQTTSuccess.", "quantifier": "every name and filter with their lengths", "why_tests_cant": "over-reads are invisible to functional tests", "anchors": ["source/core_mqtt.c: matchTopicFilter, matchWildcards"]}
{"id": "C27", "title": "Timer wrap-around is harmless", "statement": "All timeouts (send, receive, CONNACK, keep alive) use the elapsed time between two 32-bit readings, which equals the true elapsed time whenever that is below 2^32 ms, wherever in the 32-bit range the readings fall.", "quantifier": "every pair of readings", "why_tests_cant": "2^64 pairs", "anchors": ["source/core_mqtt.c: calculateElapsedTime"]}
{"id": "C28", "title": "Partial writes never corrupt a packet", "statement": "Whatever number of bytes each transport send/writev call accepts, the bytes handed over are, in order and without gap or repetition, a prefix of the packet; the send succeeds exactly when the whole packet was accepted, and a transport error always leaves the connection marked as broken.", "quantifier": "every packet split in vectors, every sequence of partial results, errors and clock values", "why_tests_cant": "the sequences of partial results are unbounded", "anchors": ["source/core_mqtt.c: sendMessageVector, sendBuffer"]}
{"id": "C29", "title": "Zero-copy send equals serialisation", "statement": "The bytes MQTT_Publish, MQTT_Subscribe, MQTT_Unsubscribe and MQTT_Connect put on the wire on success are exactly the bytes the corresponding MQTT_Serialize function would produce for the same arguments.", "quantifier": "every argument and every partial-write behaviour", "why_tests_cant": "two separate encoders must agree on all inputs", "anchors": ["source/core_mqtt.c: sendPublishWithoutCopy, sendSubscribeWithoutCopy, sendUnsubscribeWithoutCopy, sendConnectWithoutCopy, addEncodedStringToVector"]}
{"id": "C30", "title": "Stored copy of a publish is the packet itself", "statement": "The vector given to the store callback flattens (MQTT_GetBytesInMQTTVec, MQTT_SerializeMQTTVec) to exactly the PUBLISH packet being sent with the DUP flag set, and it is stored before any byte is sent.", "quantifier": "every publish", "why_tests_cant": "all messages, and ordering at every failure point", "anchors": ["source/core_mqtt.c: sendPublishWithoutCopy, MQTT_GetBytesInMQTTVec, MQTT_SerializeMQTTVec"]}
{"id": "C31", "title": "No traffic without a connection", "statement": "MQTT_Publish, MQTT_Subscribe, MQTT_Unsubscribe, MQTT_Ping and the ack sending of the loops put no byte on the wire unless the client is connected; otherwise they report MQTTStatusNotConnected or MQTTStatusDisconnectPending and reserve nothing.", "quantifier": "every API history and every environment behaviour", "why_tests_cant": "histories with failures at every point", "anchors": ["source/core_mqtt.c: MQTT_Publish, MQTT_Subscribe, MQTT_Unsubscribe, MQTT_Ping, sendPublishAcks"]}
{"id": "C32", "title": "A broken transport stays broken until disconnect", "statement": "After a transport send or receive error the client reports MQTTStatusDisconnectPending and, until the application calls MQTT_Disconnect (or re-initialises), no API call puts further bytes on the wire or returns to the connected state.", "quantifier": "every history after every failure point", "why_tests_cant": "crash points x histories", "anchors": ["source/core_mqtt.c: sendBuffer, sendMessageVector, recvExact, receiveSingleIteration, MQTT_Disconnect, MQTT_Connect, MQTT_CheckConnectStatus"]}
{"id": "C33", "title": "Connect succeeds only on an accepted CONNACK", "statement": "MQTT_Connect returns MQTTSuccess and the client becomes connected only if the complete CONNECT was sent and a CONNACK with return code 0 was received (with session-present only if a persistent session was requested); in all other cases it is not left connected.", "quantifier": "every server answer, chunking, timing and error", "why_tests_cant": "all server answers and chunkings", "anchors": ["source/core_mqtt.c: MQTT_Connect, receiveConnack, sendConnectWithoutCopy"]}
{"id": "C34", "title": "Clean session forgets, resumed session resends", "statement": "When the server reports no session, all in-flight state is cleared and every stored publish is cleared through the callback; when it resumes a session, first one PUBREL per half-finished QoS 2 publish in order, then every unacknowledged publish with DUP in original order are sent, and nothing else.", "quantifier": "every in-flight set at the moment of reconnection", "why_tests_cant": "any crash point of any history leads to a different in-flight set", "anchors": ["source/core_mqtt.c: handleCleanSession, handleUncleanSessionResumption, MQTT_Connect"]}
{"id": "C35", "title": "Receiving is independent of chunking", "statement": "For a given byte stream from the server, the sequence of packets handed to the application does not depend on how the transport splits the stream into reads nor on how often the loop is called.", "quantifier": "every stream, every chunking, every schedule of loop calls", "why_tests_cant": "exponentially many chunkings of unbounded streams", "anchors": ["source/core_mqtt.c: receiveSingleIteration, MQTT_ProcessLoop, MQTT_ReceiveLoop"]}
{"id": "C36", "title": "Receive buffer is never overrun", "statement": "The count of buffered bytes never exceeds the network buffer size and every access of the receive path lies inside it, whatever the server and the transport do.", "quantifier": "every server stream, every transport result, every buffer size", "why_tests_cant": "hostile streams are unbounded", "anchors": ["source/core_mqtt.c: receiveSingleIteration, receivePacket, discardPacket, discardStoredPacket, recvExact"]}
{"id": "C37", "title": "Oversized packets are skipped exactly", "statement": "A packet too large for the buffer is never passed to the application; its header and its bytes are consumed and never a byte of the next packet; the loop call succeeds exactly if all of its bytes were read, so the following packet is then parsed from its first byte.", "quantifier": "every packet size, buffer size and chunking", "why_tests_cant": "sizes and chunkings unbounded", "anchors": ["source/core_mqtt.c: discardStoredPacket, discardPacket, receiveSingleIteration"]}
{"id": "C38", "title": "Incoming QoS 2 messages are delivered exactly once", "statement": "Between the first reception of a QoS 2 publish and the completion of its exchange by PUBREL/PUBCOMP, repeated publishes with the same id are acknowledged with PUBREC but not delivered to the application again.", "quantifier": "every sequence of incoming packets", "why_tests_cant": "duplicates may appear at every point of unbounded histories", "anchors": ["source/core_mqtt.c: handleIncomingPublish, sendPublishAcks", "source/core_mqtt_state.c: MQTT_UpdateStatePublish"]}
{"id": "C39", "title": "Incoming QoS 1/2 publishes are acknowledged with the right packet", "statement": "A received publish handed to the application at QoS 1 is followed by PUBACK, at QoS 2 by PUBREC, a PUBREC by PUBREL and a PUBREL by PUBCOMP, each carrying the id received; QoS 0 publishes and PUBACK/PUBCOMP cause no reply.", "quantifier": "every incoming packet in every state", "why_tests_cant": "state x packet combinations", "anchors": ["source/core_mqtt.c: handleIncomingPublish, handlePublishAcks, sendPublishAcks, getAckTypeToSend"]}
{"id": "C40", "title": "Callback only for valid packets", "statement": "The application callback is invoked at most once per received packet, only with packets that decode successfully (or a SUBACK carrying a refusal), in the order received; malformed packets, CONNACKs after connection and PINGRESPs handled by the process loop never reach it.", "quantifier": "every incoming stream", "why_tests_cant": "hostile streams", "anchors": ["source/core_mqtt.c: handleIncomingAck, handleIncomingPublish, handlePublishAcks"]}
{"id": "C41", "title": "Keep alive: ping on idle, timeout on silence", "statement": "Each successful idle pass of MQTT_ProcessLoop sends a PINGREQ exactly when none is outstanding and nothing was sent for min(keep alive, PACKET_TX_TIMEOUT) or nothing received for PACKET_RX_TIMEOUT; MQTTKeepAliveTimeout is returned exactly when a PINGREQ has been outstanding for longer than MQTT_PINGRESP_TIMEOUT_MS.", "quantifier": "every clock sequence including wrap-around, every interleaving with other sends", "why_tests_cant": "clock sequences and wrap-around", "anchors": ["source/core_mqtt.c: handleKeepAlive, MQTT_Ping, handleIncomingAck"]}
{"id": "C42", "title": "A failed publish leaves a consistent in-flight set", "statement": "MQTT_Publish that is refused for its parameters, connection status, lack of records or an id in use sends nothing; when the storing callback fails or the transport fails, the publish stays in the in-flight set and will be offered for resending, and no other publish is affected.", "quantifier": "every failure point of every publish in every state", "why_tests_cant": "failure points x states", "anchors": ["source/core_mqtt.c: MQTT_Publish, sendPublishWithoutCopy"]}
{"id": "C43", "title": "Disconnect resets the session transport", "statement": "MQTT_Disconnect is refused when not connected; otherwise it offers DISCONNECT to the transport, leaves the client not connected whatever the transport does, drops buffered input, and keeps the in-flight publishes for a later resumption.", "quantifier": "every state and transport behaviour", "why_tests_cant": "history dependent", "anchors": ["source/core_mqtt.c: MQTT_Disconnect"]}
{"id": "C44", "title": "Receive and send loops are bounded in time", "statement": "With a clock that advances on every reading, sending, receiving, discarding and waiting for CONNACK terminate after a number of transport calls bounded by the configured timeouts; with timeout 0 MQTT_Connect performs at most MQTT_MAX_CONNACK_RECEIVE_RETRY_COUNT retries.", "quantifier": "every transport behaviour and every advancing clock", "why_tests_cant": "termination for all environments", "anchors": ["source/core_mqtt.c: sendMessageVector, sendBuffer, recvExact, receiveConnack, discardPacket"]}
{"id": "C45", "title": "Calling the API from the callback is safe", "statement": "The application may call MQTT_Publish, MQTT_Subscribe, MQTT_Unsubscribe, MQTT_Ping and MQTT_Disconnect from the event callback without corrupting the receive buffer.", "quantifier": "every callback behaviour", "why_tests_cant": "re-entrancy at any packet", "anchors": ["source/core_mqtt.c: receiveSingleIteration, MQTT_Disconnect"]}
{"id": "C46", "title": "Failed sends do not desynchronise the connection", "statement": "If a packet could only be sent partially (timeout), no later API call puts other bytes on the same connection.", "quantifier": "every partial-send point and history", "why_tests_cant": "crash-point property over histories", "anchors": ["source/core_mqtt.c: sendMessageVector, sendBuffer"]}
{"id": "C47", "title": "Every resent publish can be completed", "statement": "After a session is resumed, every publish that MQTT_Connect resends can be completed by the acknowledgement the server sends for it: the PUBACK or PUBREC for a resent publish is accepted by the client.", "quantifier": "all histories of publishes, failures and reconnections", "why_tests_cant": "depends on where in the history a send failed; needs all interleavings of send failures and resumptions", "anchors": ["source/core_mqtt.c: MQTT_Publish, handleUncleanSessionResumption", "source/core_mqtt_state.c: MQTT_UpdateStateAck"]}
{"id": "C48", "title": "Serialised CONNECT packets are protocol legal", "statement": "Every CONNECT the library serialises obeys MQTT 3.1.1: no password without user name (MQTT-3.1.2-22), non-empty will topic.", "quantifier": "all connect infos", "why_tests_cant": "tests only look at the combinations they construct", "anchors": ["source/core_mqtt_serializer.c: serializeConnectPacket, MQTT_GetConnectPacketSize, MQTT_SerializeConnect"]}
{"id": "C49", "title": "Serialised bytes depend on the arguments only", "statement": "Two calls of MQTT_SerializeConnect with the same arguments produce the same packet whatever the buffer contained before.", "quantifier": "all accepted connect infos and wills, all previous buffer contents", "why_tests_cant": "a test buffer is normally zeroed or pre-filled once, so stale bytes go unnoticed", "anchors": ["source/core_mqtt_serializer.c: encodeString, serializeConnectPacket"]}
{"id": "C50", "title": "A refused MQTT_Connect leaves a working connection alone", "statement": "If MQTT_Connect rejects its arguments while connected, the connection stays usable.", "quantifier": "every state and argument", "why_tests_cant": "state after an argument error, over all states", "anchors": ["source/core_mqtt.c: MQTT_Connect"]}
{"id": "C51", "title": "A packet whose skipping failed is not mistaken for packets", "statement": "If discarding an oversized packet fails, no later pass treats the rest of that packet as packets of its own.", "quantifier": "every packet size and every pattern of partial reads", "why_tests_cant": "needs all timings of partial reads", "anchors": ["source/core_mqtt.c: discardStoredPacket, receiveSingleIteration"]}
{"id": "C52", "title": "No keep-alive timeout when the PINGRESP has arrived", "statement": "MQTT_ProcessLoop reports MQTTKeepAliveTimeout only if no PINGRESP has been received.", "quantifier": "every history and clock", "why_tests_cant": "depends on the buffer contents at the time of the check", "anchors": ["source/core_mqtt.c: handleKeepAlive, receiveSingleIteration"]}
{"id": "C53", "title": "CONNACK arriving in pieces is accepted", "statement": "MQTT_Connect accepts a CONNACK that arrives within the timeout, however it is split.", "quantifier": "every splitting of the CONNACK", "why_tests_cant": "all splittings and timings", "anchors": ["source/core_mqtt.c: receiveConnack", "source/core_mqtt_serializer.c: MQTT_GetIncomingPacketTypeAndLength"]}
{"id": "C54", "title": "Nothing is delivered without a connection", "statement": "The receive loops hand no message to the application unless MQTT_Connect has succeeded.", "quantifier": "every history", "why_tests_cant": "absence over all histories", "anchors": ["source/core_mqtt.c: MQTT_ProcessLoop, MQTT_ReceiveLoop"]}
{"id": "C55", "title": "A publish refused by the state engine is not sent", "statement": "If MQTT_Publish returns MQTTIllegalState then nothing was sent.", "quantifier": "every state and publish", "why_tests_cant": "every record state", "anchors": ["source/core_mqtt.c: MQTT_Publish"]}
{"id": "C56", "title": "Malformed topics are not delivered", "statement": "No PUBLISH with an empty topic reaches the application.", "quantifier": "every received packet", "why_tests_cant": "all inputs", "anchors": ["source/core_mqtt_serializer.c: deserializePublish"]}
{"id": "C57", "title": "A failed store affects only its publish", "statement": "After MQTTPublishStoreFailed the session can still be resumed.", "quantifier": "every history", "why_tests_cant": "histories of store failures and reconnections", "anchors": ["source/core_mqtt.c: MQTT_Publish, handleUncleanSessionResumption"]}
{"id": "C58", "title": "The receive loop can always make progress", "statement": "When a loop returns MQTTNeedMoreBytes, there is room in the buffer for at least one more byte.", "quantifier": "every buffer size and byte stream", "why_tests_cant": "every buffer size and input", "anchors": ["source/core_mqtt.c: receiveSingleIteration"]}
{"id": "C59", "title": "No ping before the interval has passed", "statement": "After MQTT_Connect, no PINGREQ is sent before the keep-alive interval (or the rx/tx timeout) has passed since the connection was made.", "quantifier": "every clock", "why_tests_cant": "arbitrary clock values", "anchors": ["source/core_mqtt.c: handleKeepAlive, MQTT_Connect"]}
{"id": "C60", "title": "A repeated PUBREC is answered", "statement": "A PUBREC for a publish whose PUBREL has been sent is answered with a PUBREL.", "quantifier": "every record state", "why_tests_cant": "every state", "anchors": ["source/core_mqtt.c: handlePublishAcks", "source/core_mqtt_state.c: MQTT_UpdateStateAck"]}
{"id": "C61", "title": "MQTT_Connect gives up after its timeout", "statement": "A call of MQTT_Connect returns not much later than timeoutMs after it began to wait for the CONNACK.", "quantifier": "every transport behaviour and every clock", "why_tests_cant": "needs a server that delivers the CONNACK byte by byte at every pace", "anchors": ["source/core_mqtt.c: receiveConnack, receivePacket, recvExact"]}
{"id": "C62", "title": "Topic names with a NUL byte are compared by all their bytes", "statement": "MQTT_MatchTopic reports a match only if the filter matches the name by MQTT 4.7, also when the name contains a NUL byte, which the library does not refuse in an incoming PUBLISH.", "quantifier": "every name without wildcards of 1..65535 bytes and every filter of 1..65535 bytes", "why_tests_cant": "tests use C string literals, which cannot hold an inner NUL; the set of pairs is unbounded", "anchors": ["source/core_mqtt.c: MQTT_MatchTopic (strncmp)"]}
{"id": "C63", "title": "With no other thread's calls, the threaded client behaves as the plain one", "statement": "If the other threads make no calls, each sequence of API calls with the locking hooks defined as a mutex has the same results, effects and final state as without the hooks, or MQTT_Connect waits for ever right after a failed recv.", "quantifier": "every configuration, history, state and environment", "why_tests_cant": "relates two programs on all histories", "anchors": ["source/core_mqtt.c: all uses of MQTT_PRE_STATE_UPDATE_HOOK and MQTT_POST_STATE_UPDATE_HOOK"]}
{"id": "C64", "title": "Calls from other threads cause no undefined behaviour", "statement": "While one thread runs MQTT_Connect and the loops and others publish, subscribe, unsubscribe, ping, cancel callbacks, query the status and take packet ids at any moment they get the mutex, no assert fails and no access is outside a block; the buffer index stays in range and packet ids in use stay distinct and non-zero.", "quantifier": "every history, schedule, configuration and environment", "why_tests_cant": "races need particular interleavings; the set of schedules is unbounded", "anchors": ["source/core_mqtt.c: all API functions"]}
{"id": "C65", "title": "No deadlock", "statement": "Every API call gets the mutex and returns; no thread waits for a mutex it holds itself.", "quantifier": "every history, schedule and environment", "why_tests_cant": "a recv error at the exact moment MQTT_Connect reads the CONNACK", "anchors": ["source/core_mqtt.c: MQTT_Connect, receiveConnack, recvExact"]}
{"id": "C66", "title": "Incoming packets stay framed with threads", "statement": "Without a failed recv, the packets handled and skipped are exactly those the received bytes consist of, whatever other threads do meanwhile.", "quantifier": "every history, schedule and stream", "why_tests_cant": "unbounded interleavings", "anchors": ["source/core_mqtt.c: receiveSingleIteration"]}
{"id": "C67", "title": "QoS 2 exactly once with threads", "statement": "Between two deliveries of publishes with the same id, the first of QoS 2, that exchange was completed by PUBREL and PUBCOMP, whatever other threads do.", "quantifier": "every history within one session, every schedule", "why_tests_cant": "unbounded interleavings", "anchors": ["source/core_mqtt.c: handleIncomingPublish, handlePublishAcks, sendPublishAcks"]}
{"id": "C68", "title": "Acknowledgments and CONNECT go out unbroken with threads", "statement": "A pass of the loop that reports success has sent, in one piece, the acknowledgment of each packet it handled that asks for one; a successful MQTT_Connect has sent its CONNECT in one piece and received an accepting CONNACK.", "quantifier": "every schedule and environment", "why_tests_cant": "unbounded interleavings of senders", "anchors": ["source/core_mqtt.c: sendPublishAcks, sendConnectWithoutCopy"]}
{"id": "C69", "title": "No sends on a broken connection with threads", "statement": "Nothing is sent without a connection. After a transport error nothing more is sent until the next MQTT_Connect, by whatever thread.", "quantifier": "every history, schedule and environment", "why_tests_cant": "needs an error at one moment and a send of another thread right after it", "anchors": ["source/core_mqtt.c: receiveSingleIteration, recvExact, handleUncleanSessionResumption"]}
{"id": "C70", "title": "Keep-alive timeout with threads", "statement": "MQTTKeepAliveTimeout is reported only if a PINGREQ was sent more than MQTT_PINGRESP_TIMEOUT_MS before.", "quantifier": "every schedule and clock", "why_tests_cant": "needs a ping of another thread between two statements", "anchors": ["source/core_mqtt.c: handleKeepAlive"]}
{"id": "C71", "title": "Resumption is complete with threads", "statement": "If MQTT_Connect resumes a session and succeeds, each publish that was unacknowledged when the CONNACK came in has been sent again.", "quantifier": "every schedule", "why_tests_cant": "needs a publish of another thread between two resends and a gap in the record array", "anchors": ["source/core_mqtt.c: handleUncleanSessionResumption", "source/core_mqtt_state.c: addRecord, MQTT_PublishToResend"]}
{"id": "C72", "title": "MQTT_Disconnect may be called by another thread", "statement": "Another thread may call MQTT_Disconnect at any moment without undefined behaviour.", "quantifier": "every schedule", "why_tests_cant": "needs the call during a pass of the loop", "anchors": ["source/core_mqtt.c: MQTT_Disconnect, receiveSingleIteration"]}
{"id": "C73", "title": "The client refines an abstract MQTT client machine", "statement": "Every history of calls - one thread connecting and looping, other threads and callbacks calling in between - shows packets and events that are a run of an abstract client machine (sessions as ordered maps, packets as in the standard, at most one packet being handled), ending with the client's own session, connection status and next identifier.", "quantifier": "all histories, schedules, environments, legal arguments and configurations on a little-endian machine", "why_tests_cant": "whole-history behaviour under every interleaving cannot be enumerated", "anchors": ["source/core_mqtt.c: MQTT_Connect, MQTT_ProcessLoop, MQTT_Publish and all they call"]}
{"id": "C74", "title": "What is sent is a stream of legal packets", "statement": "All bytes sent, by all threads together, are whole client packets within the bounds of MQTT 3.1.1, packets cut off by the send timeout or a transport error, and stored copies as returned by the application when a session is resumed. Packets of different threads are never mixed.", "quantifier": "all histories with threads", "why_tests_cant": "interleavings of sends", "anchors": ["source/core_mqtt.c: sendBuffer, sendMessageVector, MQTT_PRE_SEND_HOOK"]}
{"id": "C75", "title": "Acknowledgements answer packets one to one", "statement": "A PUBACK, PUBREC, PUBREL or PUBCOMP is sent only when the last packet received asks for it, with its identifier, and no acknowledgement was sent since; only PUBREL is also sent to resume a session.", "quantifier": "all histories with threads", "why_tests_cant": "needs every order of incoming packets and calls", "anchors": ["source/core_mqtt.c: sendPublishAcks, handleIncomingPublish, handlePublishAcks, handleUncleanSessionResumption"]}
{"id": "C76", "title": "PUBREL only for a QoS 2 publish whose PUBREC came", "statement": "PUBREL with an identifier is sent only if a QoS 2 publish with it was sent and a PUBREC for it came, and the application was not told of a PUBCOMP since that PUBREC.", "quantifier": "all histories with threads and resumed sessions", "why_tests_cant": "unbounded histories over several connections", "anchors": ["source/core_mqtt.c: handlePublishAcks, MQTT_Connect; source/core_mqtt_state.c"]}
{"id": "C77", "title": "Stored copies: stored before the send, fetched only while stored", "statement": "With the retransmission functions set, each publish at QoS 1 or 2 is sent immediately after its copy with DUP set was stored; and the client asks to retrieve only copies that were stored and not cleared since.", "quantifier": "all histories with threads", "why_tests_cant": "the window between two critical sections is not hit by tests", "anchors": ["source/core_mqtt.c: sendPublishWithoutCopy, handlePublishAcks (clearFunction), MQTT_Connect (retrieveFunction)"]}
{"id": "C78", "title": "Packet identifiers in turn over all threads", "statement": "The identifiers MQTT_GetPacketId hands out, to all threads and from callbacks, are 1, 2, ..., 65535, 1, 2, ...", "quantifier": "all histories with threads", "why_tests_cant": "wrap-around under interleaving", "anchors": ["source/core_mqtt.c: MQTT_GetPacketId"]}
{"id": "C79", "title": "The application is told of each packet at most once and truthfully", "statement": "Each call of the application callback concerns the packet received last, it is the first one for it, and type, identifier, return code and decoded publish are what the packet says by the standard.", "quantifier": "all histories with threads", "why_tests_cant": "all packets and interleavings", "anchors": ["source/core_mqtt.c: handleIncomingPublish, handlePublishAcks, handleIncomingAck"]}
{"id": "C80", "title": "Packets only on an accepted connection", "statement": "PUBLISH, SUBSCRIBE, UNSUBSCRIBE, PINGREQ and acknowledgements are sent only after a CONNECT for which the first bytes read are an accepting CONNACK, and not after a DISCONNECT, a further CONNECT or a transport error of a send; DISCONNECT only after such an exchange.", "quantifier": "all histories with threads", "why_tests_cant": "histories over several connections", "anchors": ["source/core_mqtt.c: MQTT_Connect, MQTT_Publish, MQTT_Subscribe, MQTT_Ping, MQTT_Disconnect, sendPublishAcks"]}
{"id": "C81", "title": "QoS 2 messages arrive exactly once and in order", "statement": "A client that resumes one session (no clean session, no cancelled publish, DUP left to the library, a retrieve function that returns the copy stored last) is connected with a server that receives QoS 2 by the standard (4.3.3, method A) over a network that keeps the order of packets and may lose any of them, over any number of connections. At any moment the messages the server has passed on for a packet identifier are those the client published with it, in this order, each once, but for at most the last; when the client has no record of the identifier, that one too.", "quantifier": "all histories with threads, all behaviours of network and server", "why_tests_cant": "every loss at every point of every exchange over any number of connections and interleavings", "anchors": ["source/core_mqtt.c: MQTT_Publish, handlePublishAcks, sendPublishAcks, handleCleanSession, handleUncleanSessionResumption", "source/core_mqtt_state.c"]}
{"id": "C82", "title": "PUBCOMP told to the application means the message was passed on", "statement": "Under the terms of C81: when the application is told of a PUBCOMP for a packet identifier, the server has passed on all QoS 2 messages published with that identifier before the PUBCOMP was received.", "quantifier": "all histories with threads, all behaviours of network and server", "why_tests_cant": "stale acknowledgements and reuse of identifiers over any number of connections", "anchors": ["source/core_mqtt.c: handlePublishAcks", "source/core_mqtt_state.c: MQTT_UpdateStateAck"]}
{"id": "C83", "title": "A discarded session is not resumed", "statement": "After a CONNECT asking for a clean session was sent, no publish stored before it is sent again and no PUBREL answers or repeats an exchange from before it (MQTT-3.1.2-6).  Partial: when something was sent on each connection with a clean session before the next CONNECT.  Refuted in general.", "quantifier": "all histories with threads", "why_tests_cant": "histories over several connections with lost CONNACKs", "anchors": ["source/core_mqtt.c: MQTT_Connect, handleCleanSession, handleUncleanSessionResumption"]}
{"id": "C84", "title": "Messages from the server reach the application, QoS 2 just once", "statement": "A client that resumes one session is connected with a server that sends publishes at QoS 1 and QoS 2 by the standard (4.3.2, 4.3.3), and sends again what is not acknowledged on each new connection (4.4), over a network that keeps the order of packets and may lose any of them, over any number of connections. At any moment, and for each packet identifier, the application has been given the messages the server sent with it, one after the other, with topic, payload, QoS and retain flag unchanged, each at least once and a QoS 2 message just once; but for at most the last message. When the server has the PUBACK or PUBREC of the last message, that one too was given.", "quantifier": "all histories with threads, all behaviours of network and server", "why_tests_cant": "every loss at every point of every exchange over any number of connections, identifiers and interleavings", "anchors": ["source/core_mqtt.c: handleIncomingPublish, handlePublishAcks, sendPublishAcks", "source/core_mqtt_state.c: MQTT_UpdateStatePublish, MQTT_UpdateStateAck"]}
{"id": "C85", "title": "An incoming QoS 2 exchange can be completed after a loss", "statement": "When the server sends PUBREL again on a new connection because the PUBCOMP was lost (MQTT-4.3.3-2, MQTT-4.4.0-1), the client answers with PUBCOMP, so that the exchange ends.  Refuted: once a PUBCOMP is lost, no continuation of the history ends the exchange.", "quantifier": "all continuations of the client's history, all behaviours of network and server", "why_tests_cant": "the absence of any continuation that completes the exchange", "anchors": ["source/core_mqtt.c: handlePublishAcks", "source/core_mqtt_state.c: MQTT_UpdateStateAck"]}
{"id": "C86", "title": "Setting up a context is all or nothing and starts anew", "statement": "MQTT_Init, MQTT_InitStatefulQoS and MQTT_InitRetransmits answer MQTTSuccess exactly when every pointer they need is given (the arrays exactly with non-zero counts, MQTT_InitStatefulQoS only once a callback is set) and otherwise MQTTBadParameter with the context unchanged. After a successful MQTT_Init, whatever the memory held, and any further calls of the other two, the context is the start state of the histories: the buffer given, the arrays of the last successful MQTT_InitStatefulQoS (or none), stored publishes exactly if some MQTT_InitRetransmits succeeded, everything else zero and the next identifier 1. Each such start state is reached.", "quantifier": "all arguments, NULL or not, all contents of the context's memory, all sequences of calls", "why_tests_cant": "contents of uninitialised memory and sequences with failing calls between are unbounded", "anchors": ["source/core_mqtt.c: MQTT_Init, MQTT_InitStatefulQoS, MQTT_InitRetransmits"]}
{"id": "C87", "title": "What MQTT_Init accepts can be used", "statement": "After MQTT_Init answered MQTTSuccess the loops do not answer MQTTBadParameter.  Refuted: a NULL pBuffer inside the network buffer is accepted, and then no loop call gets past its parameter check.  True when pBuffer is not NULL.", "quantifier": "all arguments of MQTT_Init, all later calls of the other two initialisation functions", "why_tests_cant": "the claim is about all argument combinations; the missing check shows only with one of them", "anchors": ["source/core_mqtt.c: MQTT_Init, MQTT_ProcessLoop, MQTT_ReceiveLoop"]}
{"id": "C88", "title": "Names of codes are unambiguous", "statement": "MQTT_Status_strerror and MQTT_State_strerror give different strings for different declared codes, and one further string, which no declared code gets, for every other value.", "quantifier": "all values of the integer type", "why_tests_cant": "all pairs of values of the enum's type, declared or not", "anchors": ["source/core_mqtt.c: MQTT_Status_strerror", "source/core_mqtt_state.c: MQTT_State_strerror"]}
{"id": "C89", "title": "QoS 1 messages arrive at least once, in order", "statement": "One thread, one session, a stored copy of each publish: with each packet identifier, the messages the server passed on are the messages published with it, in this order, each one at least once, except perhaps the last; when the client has no record of the identifier, the last one too.", "quantifier": "all histories of calls of one thread, all behaviours of the transport, the clock and the application, all losses of packets, all reconnections", "why_tests_cant": "each reconnection, each lost packet and each reuse of an identifier multiplies the histories; the claim is about all of them, of any length", "anchors": ["source/core_mqtt.c: MQTT_Publish, handleIncomingAck, handlePublishAcks, handleUncleanSessionResumption, MQTT_Connect", "source/core_mqtt_state.c"]}
{"id": "C90", "title": "A PUBACK means the message arrived", "statement": "One thread: when the application is told of a PUBACK for an identifier, all messages published with that identifier before the PUBACK came have arrived at the server.", "quantifier": "all histories of calls of one thread, all losses of packets, all reconnections", "why_tests_cant": "a stale PUBACK that acknowledges a later message needs a resend, a loss and a reuse of the identifier in the right order; absence needs all orders", "anchors": ["source/core_mqtt.c: handlePublishAcks, handleUncleanSessionResumption", "source/core_mqtt_state.c"]}
{"id": "C91", "title": "The same with several threads", "statement": "C89 and C90 with other threads that publish at any time.  Refuted: a publish made while MQTT_Connect is resuming the session is sent twice on one connection; the server's second PUBACK then acknowledges the next message with the identifier, which may be lost.  True for histories in which nothing is sent again that was stored since bytes were last read.", "quantifier": "all histories of several threads, all losses of packets, all reconnections", "why_tests_cant": "the race needs a publish within a window of a few instructions of MQTT_Connect", "anchors": ["source/core_mqtt.c:2986-3027 MQTT_Connect", "source/core_mqtt.c: handleUncleanSessionResumption, MQTT_Publish"]}
{"id": "C92", "title": "A server that acknowledges completes the session", "statement": "While MQTT_ProcessLoop and MQTT_ReceiveLoop go well and the callback makes no calls, handling the acknowledgements the publishes in flight wait for (PUBACK; PUBREC then PUBCOMP; or PUBCOMP), in any interleaving and with any other packets between, leaves no publish in flight.", "quantifier": "all reachable states, all sequences of loop calls, all splittings of the bytes into reads, all interleavings of acknowledgements and other packets", "why_tests_cant": "the interleavings of the acknowledgements of many publishes with publishes and other packets of the server, cut into reads at any byte, are unbounded", "anchors": ["source/core_mqtt.c:1561-1861 handlePublishAcks, receiveSingleIteration", "source/core_mqtt_state.c: MQTT_UpdateStateAck"]}
{"id": "C93", "title": "A dead server is noticed, one that answers is not declared dead", "statement": "If nothing arrives from the server while the application calls MQTT_ProcessLoop at least every D milliseconds and otherwise does what it likes (except MQTT_Ping and MQTT_Connect), then no later than PACKET_RX_TIMEOUT_MS + MQTT_PINGRESP_TIMEOUT_MS + 2 D after the first of these calls one of them reports the loss of the connection, across any wrap of the 32-bit clock. Conversely MQTTKeepAliveTimeout is reported only if a PINGREQ was sent longer ago than the limit and MQTT_ProcessLoop has handled no PINGRESP since.  Refuted: that an unanswered PINGREQ is reported by the next pass after the limit.", "quantifier": "all reachable states, all histories of calls in any order, all behaviours of transport and clock", "why_tests_cant": "the bound has to hold from every state of the keep-alive variables (stale times, outstanding pings, wrapped clock) and for every spacing of the calls; a test fixes one schedule", "anchors": ["source/core_mqtt.c:1377-1428 handleKeepAlive", "source/core_mqtt.c:1717-1861 receiveSingleIteration", "source/core_mqtt.c:3211-3296 MQTT_Ping"]}
{"id": "C94", "title": "An identifier handed out is not in use", "statement": "The packet identifier MQTT_GetPacketId hands out is not that of a publish in flight (MQTT-2.3.1-2: each new packet is assigned a currently unused identifier).  Partial: it is none of the 65534 identifiers handed out last, so it is unused if the publishes in flight got theirs from these.  Refuted in general.", "quantifier": "all histories of API calls on a client just initialised", "why_tests_cant": "the case needs more than 65535 identifiers handed out during the life of one unacknowledged publish, over any mixture of other calls", "anchors": ["source/core_mqtt.c:3491-3516 MQTT_GetPacketId", "source/core_mqtt_state.c: MQTT_ReserveState"]}
{"id": "C95", "title": "The loops may be called from the event callback", "statement": "MQTT_ProcessLoop or MQTT_ReceiveLoop called by the application from inside the event callback handles the packets that follow, as a call outside would: no packet is handled twice, none is lost and nothing undefined happens.  Refuted; harmless if the nested receive fails.", "quantifier": "all applications (functions from what the callback is shown to lists of calls, loops included), all environments", "why_tests_cant": "what happens depends on how many bytes of the next packet are in the buffer when the callback runs", "anchors": ["source/core_mqtt.c:1717-1861 receiveSingleIteration", "source/core_mqtt.c:3438-3487 MQTT_ProcessLoop, MQTT_ReceiveLoop", "source/include/core_mqtt.h:945-1019"]}
{"id": "C96", "title": "NULL arguments are refused", "statement": "Every public function of the client, the serialiser, the decoders, the state engine and topic matching answers MQTTBadParameter (or identifier 0) to a NULL pointer it needs, without any effect: nothing is sent, received, written or asked of the application and the client stays as it was; with all pointers given it behaves as the rest of the properties say.  Refuted in two places: MQTT_Connect with a NULL argument marks a working connection as broken, MQTT_ReserveState accepts a NULL context for QoS 0.", "quantifier": "all functions, all combinations of NULL and other arguments, all states and environments", "why_tests_cant": "combinations of NULL and other arguments over all states of the client; effects not looked for", "anchors": ["source/core_mqtt.c:1865-1912, 2633-2675, 2835-3032, 3211-3516, 3520-3644", "source/core_mqtt_serializer.c:1343-1396, 1686-2703", "source/core_mqtt_state.c:819-1143"]}
{"id": "C97", "title": "In a calm environment calls succeed", "statement": "If during a call the transport reports no error and the clock moves forward by less than the limits configured, no call fails to send however few bytes the transport takes at a time; on a connected client a call with legal arguments, a free record and a free identifier returns MQTTSuccess with its whole packet sent; and MQTT_Connect returns MQTTSuccess, with the server's session-present flag, when a CONNACK that accepts arrives after any number of empty polls within the limits and with its last two bytes in any pieces.", "quantifier": "every client reached by any history, every legal argument, every way in which the transport splits the bytes, every reading of the clock within the limits", "why_tests_cant": "A test picks one way of splitting a packet and one timing. A spurious failure needs a particular split at a particular point of a particular loop.", "anchors": ["source/core_mqtt.c: sendMessageVector, sendBuffer, receiveConnack, recvExact, MQTT_Connect, MQTT_Publish, MQTT_Subscribe, MQTT_Unsubscribe, MQTT_Ping, MQTT_Disconnect"]}
{"id": "C98", "title": "A QoS value outside the enumeration is refused", "statement": "MQTT_Publish called with a quality of service other than 0, 1 and 2 in the publish information sends nothing and leaves no record behind.", "quantifier": "every value above 2 in the QoS field, every client state, topic, payload and packet identifier, every behaviour of the transport; every later sequence of state-engine calls", "why_tests_cant": "The field is an enumeration, so tests use its three names. An uninitialised or converted value reaches checks that differ from function to function (> 0, == 1, == 2, != 0), and the damage shows only later, when acknowledgements and resumptions meet the record.", "anchors": ["source/core_mqtt.c: validatePublishParams, MQTT_Publish, sendPublishWithoutCopy", "source/core_mqtt_serializer.c: calculatePublishPacketSize, MQTT_SerializePublishHeaderWithoutTopic", "source/core_mqtt_state.c: addRecord, MQTT_ReserveState, MQTT_CalculateStatePublish, MQTT_UpdateStatePublish, MQTT_CalculateStateAck, MQTT_RemoveStateRecord"]}
{"id": "C99", "title": "The bytes sent can be read in one way only", "statement": "The bytes of a sequence of packets, the last maybe cut off, determine the sequence: there is one way to read them. So whoever reads what a client has sent finds the packets it sent, in their order.", "quantifier": "every sequence of control packets a client may send (MQTT 3.1.1), of every length, each with every content; every cut of a last packet; every history of calls by several threads, every behaviour of transport and application", "why_tests_cant": "That one encoding decodes correctly does not exclude that another sequence has the same bytes: an ambiguity between neighbouring packets, between fields of different packets, or with a packet cut off at the end needs two inputs to be found, out of an unbounded set of pairs.", "anchors": ["source/core_mqtt_serializer.c: MQTT_SerializeConnectFixedHeader, MQTT_SerializePublishHeaderWithoutTopic, MQTT_SerializeAck, MQTT_SerializePingreq, MQTT_SerializeDisconnect, encodeRemainingLength, encodeString", "source/core_mqtt.c: sendConnectWithoutCopy, sendPublishWithoutCopy, sendSubscribeWithoutCopy, sendUnsubscribeWithoutCopy"]}
{"id": "C100", "title": "Converting lengths to int32_t loses nothing", "statement": "Sizes are size_t, the results of the transport and the counters of the send, receive and record loops are int32_t. Every length and count the functions convert keeps its value, so that a packet counts as sent or received only when all of its bytes were, and a free record is found when there is one.", "quantifier": "every packet sent and received in every history, every number of records, every length of a stored copy the application returns, every behaviour of the transport", "why_tests_cant": "The wrong results need lengths of 2^31 and more, which no test allocates; that the other lengths never get there is a statement about all packets.", "anchors": ["source/core_mqtt.c: sendBuffer, sendMessageVector, recvExact, discardPacket, discardStoredPacket, receivePacket, handleUncleanSessionResumption", "source/core_mqtt_state.c: addRecord"]}
{"id": "C101", "title": "A new connection begins with nothing in the receive buffer", "statement": "When MQTT_Connect succeeds the receive buffer holds no byte of an earlier connection, so that the packets of the new connection are framed from its first byte on.", "quantifier": "every history of calls, every behaviour of the broker, the transport and the application, every MQTT_Connect that succeeds", "why_tests_cant": "The wrong state needs a pass of the loop between two connections and a resumed session; what follows from it concerns every later call and every later byte.", "anchors": ["source/core_mqtt.c: MQTT_Disconnect, MQTT_Connect, handleCleanSession, receiveSingleIteration, receiveConnack"]}
{"id": "C102", "title": "MQTT_Connect may be called from the event callback", "statement": "When the application calls MQTT_Connect from its event callback, the call is refused or carried out, and the pass of the loop that made the callback ends as it would have.", "quantifier": "every application, every state of the client, every behaviour of the broker and the transport, any number of such calls among other calls", "why_tests_cant": "No test calls the function from the callback; that a refused call changes nothing must hold for every state in which a callback can be made.", "anchors": ["source/core_mqtt.c: MQTT_Connect, handleCleanSession, receiveSingleIteration", "source/include/core_mqtt.h: MQTTEventCallback_t"]}
{"id": "C103", "title": "Every call ends within the time set for it", "statement": "When no more than D ms pass between two readings of the clock, the last reading made by a history of calls lies within the sum of the configured timeouts of the calls (and a time per byte of skipped packets) after the start.", "quantifier": "every configuration whose timeouts do not wrap the 32-bit clock, every history of calls, every behaviour of the broker, the transport, the callback and the clock with readings at most D ms apart", "why_tests_cant": "The loops that send, receive, discard and wait for the CONNACK test the clock at different places; the bound must hold for every split of the bytes over calls of the transport and every position of the empty reads.", "anchors": ["source/core_mqtt.c: sendMessageVector, sendBuffer, recvExact, discardPacket, discardStoredPacket, receiveConnack", "source/include/core_mqtt_config_defaults.h: MQTT_RECV_POLLING_TIMEOUT_MS, MQTT_SEND_TIMEOUT_MS"]}
{"id": "C104", "title": "A PINGREQ is sent within the keep-alive interval", "statement": "As long as the application runs MQTT_ProcessLoop often enough, a connected client with a keep-alive interval of K seconds lets no more than K seconds pass without sending a control packet [MQTT-3.1.2-23].", "quantifier": "every state of the client, every behaviour of the broker and the transport", "why_tests_cant": "Unit tests make one pass in which nothing arrives; the case is about what happens over many passes in which something always does.", "anchors": ["source/core_mqtt.c: receiveSingleIteration, handleKeepAlive, discardStoredPacket", "MQTT 3.1.1 section 3.1.2.10"]}
{"id": "C105", "title": "A client without a clock works as documented", "statement": "With a dummy clock that always returns the same value and the receive and send timeouts set to 0, as core_mqtt.h advises a platform without a clock, every call still ends, sends whole packets and MQTT_ProcessLoop does not ping.", "quantifier": "every state of a connected client, every packet, every behaviour of the transport and the broker", "why_tests_cant": "The unit tests run with a clock that advances; the two send loops compare the elapsed time differently and only a frozen clock tells them apart for certain.", "anchors": ["source/core_mqtt.c: sendMessageVector, sendBuffer, recvExact, discardPacket, handleKeepAlive", "source/include/core_mqtt.h: MQTT_Init", "docs/doxygen/timeouts.dox"]}
{"id": "C106", "title": "The packets handled are the packets sent", "statement": "On each connection, the packets the client handles or skips are the first of the packets the server sent on it, in order, with the same type and contents.", "quantifier": "every history of MQTT calls with other threads, every division of the bytes of the server into reads of the transport, every moment of the history", "why_tests_cant": "Tests hand the deserialiser one complete packet per read; that the buffer index, the skipping of large packets and the reconnect keep in step with the stream over a whole history concerns infinitely many ways to divide it.", "anchors": ["source/core_mqtt.c: receiveSingleIteration, recvExact, discardStoredPacket, receivePacket, receiveConnack", "source/core_mqtt_serializer.c: MQTT_ProcessIncomingPacketTypeAndLength"]}
{"id": "C107", "title": "QoS 2 messages arrive exactly once, over a stream of bytes", "statement": "With a server that answers with a stream of bytes, the QoS 2 messages it passes on for an identifier are those published, in order and each once, but for the last perhaps; that one too when the client has no record of it; and when the application is told of a PUBCOMP the message has been passed on.", "quantifier": "every history of MQTT calls of which the loops are called only on a connection, and not again after MQTTRecvFailed until MQTT_Connect is called; every division of the bytes into reads, every loss, every other packet of the server; one session, copies kept as documented", "why_tests_cant": "Concerns all interleavings of losses, reconnects and reads of two programs that run for ever; the unit tests have no server.", "anchors": ["source/core_mqtt.c: receiveSingleIteration, recvExact, discardStoredPacket, receivePacket, receiveConnack", "source/core_mqtt.c: handlePublishAcks, handleUncleanSessionResumption", "source/core_mqtt_state.c: MQTT_UpdateStateAck"]}
{"id": "C108", "title": "QoS 1 messages arrive at least once, over a stream of bytes", "statement": "With a server that answers with a stream of bytes, the QoS 1 messages it passes on for an identifier are those published, in order and each at least once, but for the last perhaps; and when the application is told of a PUBACK they have arrived.", "quantifier": "every history of MQTT calls of which the loops are called only on a connection, and not again after MQTTRecvFailed until MQTT_Connect is called; every division of the bytes into reads, every loss, every other packet of the server; one session, copies kept as documented", "why_tests_cant": "As for C107.", "anchors": ["source/core_mqtt.c: receiveSingleIteration, recvExact, discardStoredPacket, receivePacket, receiveConnack", "source/core_mqtt.c: handlePublishAcks, handleUncleanSessionResumption"]}
{"id": "C109", "title": "Messages of the server reach the application, over a stream of bytes", "statement": "With a server that sends a stream of bytes, the application is given its QoS 1 and QoS 2 messages for an identifier in order, with the same contents, each at least once and a QoS 2 message just once, but for the last perhaps; and that one too when the server has its PUBACK or PUBREC.", "quantifier": "every history of MQTT calls of which the loops are called only on a connection, and not again after MQTTRecvFailed until MQTT_Connect is called; every division of the bytes into reads, every loss, every other packet of the server; the session is kept", "why_tests_cant": "As for C107.", "anchors": ["source/core_mqtt.c: receiveSingleIteration, recvExact, discardStoredPacket, receivePacket, receiveConnack", "source/core_mqtt.c: handleIncomingPublish, sendPublishAcks"]}
{"id": "C110", "title": "QoS 2 messages arrive exactly once, over bytes in both directions", "statement": "With a server that takes the client's packets from the bytes that arrive on each connection, and answers with bytes, the QoS 2 messages it passes on for an identifier are those published, in order and each once, but for the last perhaps; that one too when the client has no record of it; and when the application is told of a PUBCOMP the message has been passed on.", "quantifier": "every history of MQTT calls with other threads; every division of the bytes into reads and writes, every moment at which a connection breaks and every first part of its bytes that arrives; the application as in C106; one session, copies kept as documented", "why_tests_cant": "As for C107; and the unit tests never look at what a receiver makes of the bytes after a send that was cut off.", "anchors": ["source/core_mqtt.c: sendMessageVector, sendBuffer, MQTT_Publish, MQTT_Disconnect, MQTT_Connect", "source/core_mqtt.c: handleUncleanSessionResumption"]}
{"id": "C111", "title": "QoS 1 messages arrive at least once, over bytes in both directions", "statement": "With a server that takes the client's packets from the bytes that arrive on each connection, and answers with bytes, the QoS 1 messages it passes on for an identifier are those published, in order and each at least once, but for the last perhaps; and when the application is told of a PUBACK they have arrived.", "quantifier": "every history of MQTT calls; every division of the bytes into reads and writes, every moment at which a connection breaks and every first part of its bytes that arrives; nothing is sent on a connection that is up after a send on it timed out; the application as in C106; one session, copies kept as documented", "why_tests_cant": "As for C110.", "anchors": ["source/core_mqtt.c: sendMessageVector, sendBuffer, MQTT_Publish, MQTT_Connect", "source/core_mqtt.c: handlePublishAcks, handleUncleanSessionResumption"]}
{"id": "C112", "title": "Messages of the server reach the application, over bytes in both directions", "statement": "With a server that takes acknowledgements from the bytes that arrive on each connection, and sends bytes, the application is given its QoS 1 and QoS 2 messages for an identifier in order, with the same contents, each at least once and a QoS 2 message just once, but for the last perhaps; and that one too when the server has read its PUBACK or PUBREC.", "quantifier": "every history of MQTT calls with other threads; every division of the bytes into reads and writes, every moment at which a connection breaks and every first part of its bytes that arrives; the application as in C106; the session is kept, and copies as documented", "why_tests_cant": "As for C110.", "anchors": ["source/core_mqtt.c: sendBuffer, sendPublishAcks, handleIncomingPublish, handlePublishAcks, MQTT_Disconnect"]}
{"id": "C113", "title": "Subscription options are those of MQTT 3.1.1", "statement": "Every SUBSCRIBE packet that MQTT_Subscribe sends or MQTT_SerializeSubscribe writes is legal: the options byte of each filter is 0, 1 or 2.", "quantifier": "every integer in the qos fields, any number of filters; little-endian machines (see C29 for others)", "why_tests_cant": "Tests use the constants of the enumeration; the fields are not checked and can hold any integer.", "anchors": ["source/core_mqtt.c: MQTT_Subscribe, validateSubscribeUnsubscribeParams, sendSubscribeWithoutCopy", "source/core_mqtt_serializer.c: MQTT_SerializeSubscribe"]}
{"id": "C114", "title": "Each answer belongs to a request of its own", "statement": "Each SUBACK, UNSUBACK and PINGRESP the client takes from a connection is the answer to a request of its own that was sent before on this connection; one the application is told of carries the identifier of that request, and a SUBACK as many return codes as the SUBSCRIBE had topic filters.", "quantifier": "all sequences of calls by one thread and of calls by others in between, all behaviours of the transport and of the network (bytes in both directions, cut connections, partial and timed-out sends), all orders in which the server answers, all other packets it sends", "why_tests_cant": "Needs the server's reading of the client's bytes and the client's reading of the server's bytes together, over every division of both streams and every order of the answers.", "anchors": ["source/core_mqtt.c: MQTT_Subscribe, MQTT_Unsubscribe, MQTT_Ping, MQTT_Connect, MQTT_ProcessLoop, receiveSingleIteration, handleIncomingAck, sendBuffer, sendMessageVector", "source/core_mqtt_serializer.c: MQTT_DeserializeAck, deserializeSuback, MQTT_ProcessIncomingPacketTypeAndLength"]}
{"id": "C115", "title": "What the server reads on a connection is the first part of what was sent on it", "statement": "On each connection, the packets the server finds in the bytes that arrive are the first of those the client sent completely on this connection, in order; all of them when the connection is up and no byte is on its way.", "quantifier": "all sequences of calls by one thread and of calls by others in between, all behaviours of the transport (partial, failing and timed-out sends), connections that break at any byte, all orders in which the server reads the connections", "why_tests_cant": "A test sees one division of the bytes into sends and one point at which the connection breaks; the claim is about every one of them, over any number of connections.", "anchors": ["source/core_mqtt.c: sendBuffer, sendMessageVector, MQTT_Connect, MQTT_Publish, MQTT_Subscribe, MQTT_Unsubscribe, MQTT_Ping, MQTT_Disconnect, sendPublishAcks, handleUncleanSessionResumption", "source/core_mqtt_serializer.c: serializers of all packets"]}
{"id": "C116", "title": "A server that checks the packets finds nothing wrong", "statement": "On each connection the server reads a CONNECT first, no second CONNECT, and nothing after a DISCONNECT; the bytes it has not read yet are packets of the standard and at most a part of another.", "quantifier": "all sequences of calls by one thread and of calls by others in between, all behaviours of the transport (partial, failing and timed-out sends), connections that break at any byte, all orders in which the server reads the connections", "why_tests_cant": "The order of packets on a connection depends on the interleaving of calls, failures and reconnections; the claim is about all of them and about every byte at which a connection can break.", "anchors": ["source/core_mqtt.c: MQTT_Connect, MQTT_Disconnect, MQTT_Publish, MQTT_Subscribe, MQTT_Unsubscribe, MQTT_Ping, handleUncleanSessionResumption, sendPublishAcks, sendBuffer, sendMessageVector"]}
{"id": "C117", "title": "MQTTSendFailed is returned exactly when a packet was cut", "statement": "A call that returns any other status has sent complete packets only, each one that this call may send (its own packet; for MQTT_Connect also PUBRELs and the copies retrieved from the application; for the loops acknowledgements and, in MQTT_ProcessLoop, PINGREQ). A call that returns MQTTSendFailed has sent such packets and then a proper part, possibly empty, of another. Over any sequence of calls none of which returns MQTTSendFailed the bytes on the wire are complete packets.", "quantifier": "all clients reached by any history of calls, all calls whose arguments describe a packet, all behaviours of the transport (partial sends, errors, timeouts) and of the clock, all bytes from the server, all answers of the store and retrieve callbacks; the application makes no calls from its event callback and calls from one thread; machines that are little-endian or store enums in one byte", "why_tests_cant": "The claim covers every split of every packet into partial sends and every place where the transport can fail, together with every status a call can return; tests check a few failures per function and not that the other statuses leave the stream intact.", "anchors": ["source/core_mqtt.c: sendBuffer, sendMessageVector, sendPublishAcks, sendPublishWithoutCopy, sendSubscribeWithoutCopy, sendUnsubscribeWithoutCopy, sendConnectWithoutCopy, handleUncleanSessionResumption, MQTT_Ping, MQTT_Disconnect, MQTT_ProcessLoop, MQTT_ReceiveLoop"]}
{"id": "C118", "title": "Each function returns the statuses its documentation lists", "statement": "The status returned by MQTT_Connect, MQTT_Publish, MQTT_Subscribe, MQTT_Unsubscribe, MQTT_Ping, MQTT_Disconnect, MQTT_CancelCallback, MQTT_CheckConnectStatus, MQTT_ProcessLoop and MQTT_ReceiveLoop is one of those in the @return of its documentation in core_mqtt.h.", "quantifier": "all clients reached by any history of calls (also from the callbacks, except MQTT_Disconnect), all arguments for which the call is defined, one thread, a context that is not NULL, all behaviours of the transport, the clock and the callbacks, all bytes from the server", "why_tests_cant": "A status is the outcome of a path through serializer, state engine, transport and callbacks; only a proof over all paths shows that no other status comes out, and the tests take the statuses the code returns as the expected ones.", "anchors": ["source/include/core_mqtt.h:587-590, 631-643, 727-734, 784-792, 843-844, 856-862, 877-884, 931-936, 960-974, 1022-1030", "source/core_mqtt.c: MQTT_Connect, MQTT_Publish, MQTT_ProcessLoop, MQTT_ReceiveLoop, handleIncomingPublish, handlePublishAcks, receiveConnack"]}
{"id": "C119", "title": "Serializer and state functions return the statuses their documentation lists", "statement": "The status returned by each function of core_mqtt_serializer.h and core_mqtt_state.h that may fail (sizes, serializers, deserializers, reading of the packet type and length, duplicate flag, reserve/update/remove of state records), and by MQTT_GetSubAckStatusCodes, is one of those in the @return of its documentation.", "quantifier": "all arguments for which the call is defined and no output pointer is NULL; for MQTT_UpdateStateAck all records reached by any sequence of calls of the state engine", "why_tests_cant": "Only a proof over all inputs shows that no other status comes out; the tests check the statuses the code returns, not the lists in the headers.", "anchors": ["source/include/core_mqtt_state.h:74, 114-115, 136, 177-180", "source/include/core_mqtt_serializer.h:290, 341, 400, 456, 525, 573, 641, 696, 785, 854, 928, 997, 1037, 1102, 1149-1153, 1216-1219, 1233-1234", "source/include/core_mqtt.h:1150-1152"]}
{"id": "C120", "title": "A refused call of the state engine or a serializer has no effect", "statement": "If MQTT_ReserveState, MQTT_UpdateStatePublish, MQTT_UpdateStateAck or MQTT_RemoveStateRecord does not return MQTTSuccess, the publishes in flight in both directions, their states and their order are as before, and every later sequence of these calls returns what it would have returned without the refused call. If a MQTT_Serialize* function does not return MQTTSuccess, the buffer is as before; the same for the byte given to MQTT_UpdateDuplicatePublishFlag.", "quantifier": "all record arrays reached by any sequence of calls, all refused calls, all later sequences of calls; all arguments and buffers of the serializers", "why_tests_cant": "A refused call may still move records (compaction) or write before a check fails; that no later call can tell the difference is a statement about all continuations.", "anchors": ["source/core_mqtt_state.c:514-577, 700-844, 877-1077", "source/core_mqtt_serializer.c:1786-1840, 1928-1970, 2012-2049, 2094-2313, 2337-2439, 2622-2647"]}
