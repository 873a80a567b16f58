{
 "claims": [
  {
   "property": "C01",
   "status": "proved",
   "theorems": [
    "remaining_length_round_trip"
   ],
   "note": "All lengths, all allowed first bytes, any continuation; minimality and uniqueness included."
  },
  {
   "property": "C02",
   "status": "proved",
   "theorems": [
    "header_recognised_exactly"
   ],
   "note": "Against the header grammar in WireSpec.v."
  },
  {
   "property": "C03",
   "status": "proved",
   "theorems": [
    "header_ignores_unreceived_bytes",
    "header_decision_final",
    "header_needs_at_most_five_bytes"
   ],
   "note": ""
  },
  {
   "property": "C04",
   "status": "proved",
   "theorems": [
    "pull_parser_agrees"
   ],
   "note": "Transport delivers one byte per read until it ends with 0 or a negative result."
  },
  {
   "property": "C05",
   "status": "proved",
   "theorems": [
    "connect_size_exact",
    "connect_bytes_exact"
   ],
   "note": "For arguments that describe a message (pointers valid for their lengths); see C48, C49 for the rest."
  },
  {
   "property": "C06",
   "status": "proved",
   "theorems": [
    "subscribe_size_exact",
    "subscribe_bytes_exact",
    "unsubscribe_size_exact",
    "unsubscribe_bytes_exact",
    "subscription_bad_filter_refused",
    "subscription_bad_parameters_refused"
   ],
   "note": "Size functions under 'true size < SIZE_MAX+1', see C07."
  },
  {
   "property": "C07",
   "status": "partial",
   "theorems": [
    "subscription_size_exact_64bit_partial",
    "subscription_size_32bit_refuted",
    "subscribe_size_exact",
    "unsubscribe_size_exact"
   ],
   "note": "False for a 32-bit size_t (witness: 65535 filters of 65535 bytes; the serialiser then writes outside a buffer of the reported size). Proved for a 64-bit size_t and up to 2^47 filters, and for every width when the true size is below SIZE_MAX + 1 (subscribe_size_exact, unsubscribe_size_exact)."
  },
  {
   "property": "C08",
   "status": "proved",
   "theorems": [
    "publish_size_exact",
    "publish_bytes_exact",
    "publish_header_exact",
    "publish_bad_parameters_refused"
   ],
   "note": ""
  },
  {
   "property": "C09",
   "status": "proved",
   "theorems": [
    "publish_round_trip"
   ],
   "note": ""
  },
  {
   "property": "C10",
   "status": "proved",
   "theorems": [
    "publish_decoding_exact",
    "publish_meaning_unique"
   ],
   "note": "The decoder refuses only the message with empty topic and empty payload in addition; it accepts other empty topics and DUP with QoS 0."
  },
  {
   "property": "C11",
   "status": "proved",
   "theorems": [
    "ack_bytes_exact",
    "ack_other_refused",
    "ack_decoding_exact",
    "pingresp_decoding_exact",
    "unknown_ack_refused",
    "pingreq_bytes_exact",
    "disconnect_bytes_exact"
   ],
   "note": ""
  },
  {
   "property": "C12",
   "status": "proved",
   "theorems": [
    "connack_decoding_exact"
   ],
   "note": ""
  },
  {
   "property": "C13",
   "status": "proved",
   "theorems": [
    "suback_decoding_exact",
    "suback_codes_exact"
   ],
   "note": ""
  },
  {
   "property": "C14",
   "status": "partial",
   "theorems": [
    "publish_size_within_limit_partial",
    "connect_size_within_limit",
    "subscription_size_within_limit",
    "publish_size_exact",
    "publish_size_limit_refuted"
   ],
   "note": "No accepted packet exceeds the maximum. The converse is false for PUBLISH: remaining lengths 268435451..268435455 are legal but refused."
  },
  {
   "property": "C15",
   "status": "proved",
   "theorems": [
    "dup_flag_exact",
    "dup_flag_one_bit"
   ],
   "note": ""
  },
  {
   "property": "C16",
   "status": "proved",
   "theorems": [
    "inflight_ids_unique",
    "reserve_in_use_refused",
    "receive_in_use_reported"
   ],
   "note": "State engine calls in any sequence from zeroed arrays."
  },
  {
   "property": "C17",
   "status": "proved",
   "theorems": [
    "outgoing_capacity_exact",
    "incoming_capacity_exact",
    "capacity_never_exceeded"
   ],
   "note": "Any history; needs a non-empty array for the direction used."
  },
  {
   "property": "C18",
   "status": "proved",
   "theorems": [
    "acks_follow_protocol",
    "acks_touch_only_their_publish"
   ],
   "note": "Against the MQTT 3.1.1 tables in StateSpec.v."
  },
  {
   "property": "C19",
   "status": "proved",
   "theorems": [
    "record_array_is_ordered_map"
   ],
   "note": "Refinement to an ordered list with a capacity, no undefined behaviour."
  },
  {
   "property": "C20",
   "status": "proved",
   "theorems": [
    "resend_lists_exact",
    "resend_walk_deterministic"
   ],
   "note": "Queues are defined from the call history only."
  },
  {
   "property": "C21",
   "status": "proved",
   "theorems": [
    "completion_frees_id",
    "completed_stays_completed",
    "completes_once_per_reservation"
   ],
   "note": ""
  },
  {
   "property": "C22",
   "status": "proved",
   "theorems": [
    "cancel_removes_exactly"
   ],
   "note": "Id 0 trips the assert in findInRecord (modelled as undefined behaviour)."
  },
  {
   "property": "C23",
   "status": "proved",
   "theorems": [
    "packet_ids_distinct",
    "packet_id_returned"
   ],
   "note": "Every history of calls, including calls made from the callback, from every reachable state."
  },
  {
   "property": "C24",
   "status": "proved",
   "theorems": [
    "topic_matching_sound",
    "topic_matching_exact"
   ],
   "note": "For every valid name and every filter, valid or not."
  },
  {
   "property": "C25",
   "status": "partial",
   "theorems": [
    "topic_matching_complete_refuted",
    "topic_matching_complete_partial",
    "topic_gap_never_matched",
    "topic_no_plus_no_gap"
   ],
   "note": "False: '+/#' misses 'a', '+/+' misses 'a/'. The missed pairs are exactly plus_gap; complete for filters without '+'."
  },
  {
   "property": "C26",
   "status": "proved",
   "theorems": [
    "topic_matching_safe",
    "topic_matching_bad_parameters"
   ],
   "note": ""
  },
  {
   "property": "C27",
   "status": "proved",
   "theorems": [
    "elapsed_time_exact"
   ],
   "note": "calculateElapsedTime on 32-bit readings; every timeout in the model goes through it"
  },
  {
   "property": "C28",
   "status": "proved",
   "theorems": [
    "send_vector_prefix",
    "send_buffer_prefix",
    "call_sends_its_packet"
   ],
   "note": "sendMessageVector, sendBuffer and every API call, for every transport behaviour and clock; call level assumes a little-endian machine for SUBSCRIBE (see C29)"
  },
  {
   "property": "C29",
   "status": "partial",
   "theorems": [
    "publish_same_as_serializer",
    "subscribe_same_as_serializer",
    "unsubscribe_same_as_serializer",
    "connect_same_as_serializer",
    "publish_same_dup_qos0_refuted",
    "subscribe_same_big_endian_refuted"
   ],
   "note": "Proved except for two refuted cases: DUP with QoS 0 is sent by MQTT_Publish but refused by the serializer; on a big-endian machine MQTT_Subscribe sends the wrong QoS byte"
  },
  {
   "property": "C30",
   "status": "proved",
   "theorems": [
    "stored_copy_exact",
    "vector_size_exact",
    "vector_copy_exact"
   ],
   "note": ""
  },
  {
   "property": "C31",
   "status": "proved",
   "theorems": [
    "refused_without_connection",
    "silent_without_connection"
   ],
   "note": ""
  },
  {
   "property": "C32",
   "status": "proved",
   "theorems": [
    "broken_stays_broken"
   ],
   "note": "MQTT_Disconnect called by the application from its callback is excluded (see C45)"
  },
  {
   "property": "C33",
   "status": "proved",
   "theorems": [
    "connect_outcomes",
    "connect_when_not_disconnected"
   ],
   "note": ""
  },
  {
   "property": "C34",
   "status": "proved",
   "theorems": [
    "connect_outcomes"
   ],
   "note": ""
  },
  {
   "property": "C35",
   "status": "proved",
   "theorems": [
    "chunking_irrelevant",
    "stream_framed",
    "idle_pass_means_done"
   ],
   "note": "Two clients reading the same bytes in any pieces, with any other calls in between, as long as no pass reports a receive failure (after which bytes of a skipped packet are lost: see the findings) and no Connect/Disconnect drops the buffer."
  },
  {
   "property": "C36",
   "status": "proved",
   "theorems": [
    "histories_safe",
    "buffer_never_overrun"
   ],
   "note": "Arguments sound; MQTT_Disconnect from inside the callback excluded (see C45); integer casts to int32_t not modelled"
  },
  {
   "property": "C37",
   "status": "proved",
   "theorems": [
    "oversized_skipped",
    "stream_framed"
   ],
   "note": "Both loops. The pass reports success exactly if the whole packet was read; a failed skip reports MQTTRecvFailed and resets the buffer in the middle of the packet."
  },
  {
   "property": "C38",
   "status": "proved",
   "theorems": [
    "qos2_delivered_once"
   ],
   "note": "Whole histories within one session; callbacks may make any API call except Disconnect, Connect and the loops."
  },
  {
   "property": "C39",
   "status": "proved",
   "theorems": [
    "packets_acknowledged",
    "others_not_acknowledged",
    "receive_loop_outcomes",
    "process_loop_outcomes"
   ],
   "note": "The outcome theorems describe every pass completely, including refused packets."
  },
  {
   "property": "C40",
   "status": "proved",
   "theorems": [
    "callbacks_served"
   ],
   "note": "Every call of every history."
  },
  {
   "property": "C41",
   "status": "proved",
   "theorems": [
    "idle_pass_pings",
    "timeout_exact",
    "receive_loop_no_timeout",
    "outstanding_ping",
    "last_transmission"
   ],
   "note": "Clock readings are arbitrary 32-bit values, wrap-around included."
  },
  {
   "property": "C42",
   "status": "proved",
   "theorems": [
    "publish_outcomes"
   ],
   "note": ""
  },
  {
   "property": "C43",
   "status": "proved",
   "theorems": [
    "disconnect_outcomes"
   ],
   "note": "DISCONNECT is also offered to a transport already known to be broken (status MQTTDisconnectPending)"
  },
  {
   "property": "C44",
   "status": "proved",
   "theorems": [
    "calls_end",
    "frozen_clock_never_ends",
    "silent_server_retries"
   ],
   "note": "calls_end: every history of calls ends within a budget of transport calls when each reading of the clock is 1..D ms later than the one before and the configured timeouts end before the 32-bit clock wraps (clock_suits, call_suits). frozen_clock_never_ends: without an advancing clock a send need not end. silent_server_retries: with timeout 0 exactly g_retry retries."
  },
  {
   "property": "C45",
   "status": "partial",
   "theorems": [
    "disconnect_in_callback_refuted",
    "histories_safe",
    "buffer_never_overrun"
   ],
   "note": "False: MQTT_Disconnect from the callback makes the buffer index wrap. True for all other API calls from the callback (histories_safe)."
  },
  {
   "property": "C46",
   "status": "partial",
   "theorems": [
    "send_after_partial_refuted",
    "broken_stays_broken",
    "calm_calls_send"
   ],
   "note": "False when a send times out: the connection stays Connected and the next packet follows half a packet. True after a transport error (broken_stays_broken). While the clock moves by less than the limit no packet is sent in part (calm_calls_send)."
  },
  {
   "property": "C47",
   "status": "partial",
   "theorems": [
    "resent_publish_refused_refuted",
    "awaited_ack_accepted_partial"
   ],
   "note": "False: a publish whose first send failed stays in PublishSend after being resent and its PUBACK is refused. Acks for publishes in a pending state are accepted in every history."
  },
  {
   "property": "C48",
   "status": "partial",
   "theorems": [
    "connect_legal_refuted",
    "connect_will_topic_refuted",
    "connect_legal_partial"
   ],
   "note": "False: CONNECT with password and no user name is produced, and one with an empty will topic. Proved instead: all other arguments, and only those, have a legal packet, which is produced."
  },
  {
   "property": "C49",
   "status": "partial",
   "theorems": [
    "connect_null_will_payload_refuted",
    "connect_bytes_exact"
   ],
   "note": "False for a will with NULL payload and non-zero length; proved for well-formed arguments."
  },
  {
   "property": "C50",
   "status": "partial",
   "theorems": [
    "refused_connect_breaks_refuted",
    "connect_when_not_disconnected"
   ],
   "note": "False: a call with bad arguments on a working connection makes the status DisconnectPending. What MQTT_Connect does when not disconnected is characterised by connect_when_not_disconnected."
  },
  {
   "property": "C51",
   "status": "partial",
   "theorems": [
    "skipped_payload_delivered_refuted",
    "stream_framed",
    "oversized_skipped",
    "packets_of_the_stream"
   ],
   "note": "False when skipping times out. As long as no call returned RecvFailed the packets handled and skipped are those of the stream (stream_framed); so too when the application connects anew after RecvFailed (packets_of_the_stream)."
  },
  {
   "property": "C52",
   "status": "partial",
   "theorems": [
    "timeout_with_pingresp_refuted",
    "timeout_exact",
    "outstanding_ping"
   ],
   "note": "False: the PINGRESP may lie in the buffer. The exact condition for the timeout is proved in timeout_exact."
  },
  {
   "property": "C53",
   "status": "partial",
   "theorems": [
    "split_connack_refused_refuted",
    "connect_outcomes",
    "calm_connect_succeeds"
   ],
   "note": "False: a header split over two polls gives BadResponse. True when the second byte is there at the poll after the first: any number of empty polls before it, and any splitting of the other two bytes, within the limits (calm_connect_succeeds)."
  },
  {
   "property": "C54",
   "status": "partial",
   "theorems": [
    "delivery_unconnected_refuted",
    "silent_without_connection",
    "nothing_before_connect_partial"
   ],
   "note": "False: packets are handled and delivered. Nothing is sent without a connection (silent_without_connection). When the loops are called only while connected, nothing is delivered before an MQTT_Connect that returned MQTTSuccess (nothing_before_connect_partial)."
  },
  {
   "property": "C55",
   "status": "partial",
   "theorems": [
    "refused_publish_sent_refuted",
    "publish_outcomes",
    "refused_publish_not_sent_partial",
    "bad_parameter_sent_refuted",
    "refused_publish_sent_only_dup"
   ],
   "note": "False: the state is updated after sending. MQTTIllegalState (the exchange is past the PUBLISH) and MQTTBadParameter (a DUP publish whose QoS is not that of the publish in flight with its identifier: bad_parameter_sent_refuted) are returned after the whole packet went out. Proved instead: these two cases, both with DUP and an identifier in flight, are the only ones; otherwise a refused publish is not sent. All outcomes of MQTT_Publish are characterised by publish_outcomes."
  },
  {
   "property": "C56",
   "status": "partial",
   "theorems": [
    "empty_topic_delivered_refuted",
    "topic_as_sent_partial"
   ],
   "note": "False: empty topics are accepted when there is a payload. Proved instead: the topic the application sees is exactly the one of the packet handled."
  },
  {
   "property": "C57",
   "status": "partial",
   "theorems": [
    "store_failure_sticks_refuted",
    "store_failure_undone_partial"
   ],
   "note": "False: the record reserved before the store failure is kept and makes every resumption fail. Proved instead: nothing was sent, and one MQTT_CancelCallback restores the session exactly."
  },
  {
   "property": "C58",
   "status": "partial",
   "theorems": [
    "small_buffer_stuck_refuted",
    "more_bytes_fit_partial"
   ],
   "note": "False for buffers under 5 bytes; proved for 5 bytes and more in every history."
  },
  {
   "property": "C59",
   "status": "partial",
   "theorems": [
    "early_ping_refuted",
    "idle_pass_pings",
    "no_early_ping_partial"
   ],
   "note": "False: lastPacketRxTime is not set by MQTT_Connect. Proved instead: no ping while less than the intervals has passed since the recorded times of the last packet sent and received. The exact condition for a ping is proved in idle_pass_pings."
  },
  {
   "property": "C60",
   "status": "partial",
   "theorems": [
    "repeated_pubrec_unanswered_refuted",
    "repeated_pubrec_harmless_partial"
   ],
   "note": "False: IllegalState, no reply. Proved instead: a repeated PUBREC changes nothing, and the PUBREL still goes out at the next resumption."
  },
  {
   "property": "C61",
   "status": "partial",
   "theorems": [
    "connect_overruns_timeout_refuted",
    "calls_end",
    "connect_in_time",
    "connected_in_time"
   ],
   "note": "Refuted: after the CONNACK header the rest is read by recvExact, which only ends when nothing arrives; the call takes more than three times its timeout. What does hold: the call makes a bounded number of transport calls (calls_end, C44), and it ends within the timeout plus the time to read a buffer full of bytes one at a time and the time to send (connect_in_time, connected_in_time, C103)."
  },
  {
   "property": "C62",
   "status": "partial",
   "theorems": [
    "topic_nul_sound_refuted",
    "topic_matching_exact_nul"
   ],
   "note": "Refuted: strncmp stops at a common NUL, so \"a\\0b\" is reported as matched by \"a\\0c\". The second theorem gives the exact set of matches with NUL allowed."
  },
  {
   "property": "C63",
   "status": "proved",
   "theorems": [
    "alone_as_sequential",
    "alone_recursive"
   ],
   "note": "The exception is the deadlock of C65; a recursive mutex has none."
  },
  {
   "property": "C64",
   "status": "proved",
   "theorems": [
    "threads_safe",
    "threads_state"
   ],
   "note": "Other threads do not call MQTT_Disconnect (C72); threads interleave, accesses without the mutex count as atomic."
  },
  {
   "property": "C65",
   "status": "partial",
   "theorems": [
    "hangs_only_in_connect_partial",
    "recursive_never_hangs",
    "connect_deadlock_refuted"
   ],
   "note": "Refuted for a plain mutex: recvExact takes the mutex that MQTT_Connect holds when recv fails. Proved: there is no other deadlock, and none with a recursive mutex."
  },
  {
   "property": "C66",
   "status": "proved",
   "theorems": [
    "threads_stream_framed"
   ],
   "note": ""
  },
  {
   "property": "C67",
   "status": "proved",
   "theorems": [
    "threads_qos2_once"
   ],
   "note": ""
  },
  {
   "property": "C68",
   "status": "proved",
   "theorems": [
    "threads_acknowledged",
    "threads_connect"
   ],
   "note": ""
  },
  {
   "property": "C69",
   "status": "partial",
   "theorems": [
    "threads_sends_partial",
    "threads_error_noticed",
    "send_after_recv_error_refuted",
    "resume_after_send_error_refuted",
    "resume_after_disconnect_refuted"
   ],
   "note": "Refuted in three ways: after a failed recv, by the resumption of a session after a failed send, and by the resumption after another thread's MQTT_Disconnect. Proved: no sends without a connection, none after a failed send on an established connection, and the error is recorded when the call returns."
  },
  {
   "property": "C70",
   "status": "partial",
   "theorems": [
    "keep_alive_race_refuted",
    "keep_alive_threads_partial"
   ],
   "note": "Refuted in general. Proved: when no other thread sends a PINGREQ during the pass, a timeout is real."
  },
  {
   "property": "C71",
   "status": "partial",
   "theorems": [
    "resume_skips_publish_refuted",
    "threads_resume_partial"
   ],
   "note": "Refuted in general. Proved: complete when the other threads meanwhile neither publish with QoS 1 or 2 nor cancel."
  },
  {
   "property": "C72",
   "status": "partial",
   "theorems": [
    "disconnect_by_thread_refuted",
    "disconnect_elsewhere_partial"
   ],
   "note": "Refuted in general. Proved: harmless, also during MQTT_Connect, when not during a pass of the loop."
  },
  {
   "property": "C73",
   "status": "proved",
   "theorems": [
    "machine_run",
    "machine_run_alone"
   ],
   "note": "Arguments within size_t (all_fit), little-endian; histories that end without deadlock."
  },
  {
   "property": "C74",
   "status": "proved",
   "theorems": [
    "stream_of_packets"
   ],
   "note": "Password without user name and an empty will topic (C48) are not excluded."
  },
  {
   "property": "C75",
   "status": "proved",
   "theorems": [
    "acks_answer"
   ],
   "note": ""
  },
  {
   "property": "C76",
   "status": "proved",
   "theorems": [
    "pubrel_earned"
   ],
   "note": "Order of publish and PUBREC is not stated: another thread may publish between the PUBREC and its handling."
  },
  {
   "property": "C77",
   "status": "partial",
   "theorems": [
    "store_before_send",
    "fetch_stored_partial",
    "fetch_stored_refuted",
    "fetch_stored_alone"
   ],
   "note": "Stored before the send: proved. Fetched only while stored: refuted by a race of the clear function; proved for histories without it, and for one thread without condition."
  },
  {
   "property": "C78",
   "status": "proved",
   "theorems": [
    "ids_in_turn"
   ],
   "note": ""
  },
  {
   "property": "C79",
   "status": "proved",
   "theorems": [
    "told_once"
   ],
   "note": ""
  },
  {
   "property": "C80",
   "status": "proved",
   "theorems": [
    "sends_online"
   ],
   "note": "After a failed receive: see C69. Retrieved copies may follow a send error (C69)."
  },
  {
   "property": "C81",
   "status": "proved",
   "theorems": [
    "exactly_once_in_order"
   ],
   "note": "terms: one_session, no_dups, keeps_copies and no MQTT_CancelCallback. Of the network: what the client sends after a part of a packet does not arrive on that connection (otherwise see C110)."
  },
  {
   "property": "C82",
   "status": "proved",
   "theorems": [
    "told_means_passed_on"
   ],
   "note": "terms as in C81"
  },
  {
   "property": "C83",
   "status": "partial",
   "theorems": [
    "discarded_not_resumed_partial",
    "discarded_not_resumed_refuted"
   ],
   "note": "false when the CONNACK to a clean CONNECT is lost; holds when the clean connection was used"
  },
  {
   "property": "C84",
   "status": "proved",
   "theorems": [
    "inbound_delivery"
   ],
   "note": "the server keeps the session; contents equal but for the DUP flag. Of the network: what the client sends after a part of a packet does not arrive on that connection (otherwise see C110)."
  },
  {
   "property": "C85",
   "status": "partial",
   "theorems": [
    "lost_pubcomp_refuted",
    "pubrel_answered_partial"
   ],
   "note": "Refuted: a PUBREL without a record is refused with MQTTBadResponse and not answered; the server waits for ever. Proved instead: as long as PUBCOMP has not gone out, every PUBREL is answered, now or at its next arrival."
  },
  {
   "property": "C86",
   "status": "proved",
   "theorems": [
    "init_all_or_nothing",
    "init_stateful_all_or_nothing",
    "init_retransmits_all_or_nothing",
    "init_starts_anew",
    "every_start_is_reached"
   ],
   "note": "the arrays' contents are the caller's: MQTT_InitStatefulQoS does not clear them"
  },
  {
   "property": "C87",
   "status": "partial",
   "theorems": [
    "accepted_is_usable_refuted",
    "accepted_is_usable_partial"
   ],
   "note": "Refuted: pBuffer NULL is accepted by MQTT_Init"
  },
  {
   "property": "C88",
   "status": "proved",
   "theorems": [
    "status_names_distinct",
    "state_names_distinct"
   ],
   "note": "strings as the functions return them"
  },
  {
   "property": "C89",
   "status": "proved",
   "theorems": [
    "at_least_once_in_order"
   ],
   "note": "For one thread. delivered1 is the first half of the conclusion. Of the network: what the client sends after a part of a packet does not arrive on that connection (otherwise see C110)."
  },
  {
   "property": "C90",
   "status": "proved",
   "theorems": [
    "at_least_once_in_order"
   ],
   "note": "For one thread. confirmed1 is the second half of the conclusion. Of the network as in C89."
  },
  {
   "property": "C91",
   "status": "partial",
   "theorems": [
    "at_least_once_threads_partial",
    "at_least_once_threads_refuted"
   ],
   "note": "Refuted by a race of a publish with the resumption of the session; proved for histories without it."
  },
  {
   "property": "C92",
   "status": "proved",
   "theorems": [
    "acknowledged_session_drains"
   ],
   "note": "Calls of the two loops with results MQTTSuccess or MQTTNeedMoreBytes, callback making no API calls; each publish in flight is awaiting an acknowledgement."
  },
  {
   "property": "C93",
   "status": "proved",
   "theorems": [
    "dead_server_noticed",
    "timeout_means_silence",
    "unanswered_ping_reported_refuted"
   ],
   "note": "Both directions proved. Refuted: a pass that reads bytes does not look at the clock, so an unanswered PINGREQ is not reported while a server sends parts of a packet."
  },
  {
   "property": "C94",
   "status": "partial",
   "theorems": [
    "fresh_identifier_partial",
    "fresh_identifier_refuted"
   ],
   "note": "Refuted: MQTT_GetPacketId does not look at the publishes in flight; an identifier still in use comes round after 65535 calls. Proved: not among the 65534 handed out last."
  },
  {
   "property": "C95",
   "status": "partial",
   "theorems": [
    "nested_model_same",
    "nested_loop_undefined_refuted",
    "nested_loop_loses_refuted",
    "nested_error_harmless_partial"
   ],
   "note": "Refuted: the inner call handles the same packet again; then the outer one takes away bytes that are gone (memmove of a wrapped length) or are the next packet's."
  },
  {
   "property": "C96",
   "status": "partial",
   "theorems": [
    "null_context_refused",
    "null_argument_refused",
    "null_argument_harmless_refuted",
    "given_arguments_same",
    "null_serializer_refused",
    "null_decoder_refused",
    "given_serializer_same",
    "given_decoder_same",
    "null_state_refused_partial",
    "null_reserve_refuted",
    "given_state_same"
   ],
   "note": "True but for two exceptions, both stated: MQTT_Connect (see also C50) and MQTT_ReserveState with QoS 0. MQTT_SerializePublishHeaderWithoutTopic, the two header functions for SUBSCRIBE and UNSUBSCRIBE and the two functions on MQTTVec check nothing and are not included; the initialisation functions are in C86."
  },
  {
   "property": "C97",
   "status": "proved",
   "theorems": [
    "calm_calls_send",
    "calm_calls_succeed",
    "calm_connect_succeeds"
   ],
   "note": "The first two bytes of the CONNACK have to come in consecutive polls (C53). The store function must not fail for a publish, nor the retrieve function for a persistent session."
  },
  {
   "property": "C98",
   "status": "partial",
   "theorems": [
    "invalid_qos_refused_refuted",
    "invalid_qos_described",
    "invalid_record_stays",
    "integer_qos_engine",
    "integer_qos_publish"
   ],
   "note": "Refuted. What happens instead is described for every such value: the packet goes out as a QoS 0 publish whose payload begins with the identifier, the call returns MQTTIllegalState, and the record stays until a clean session: acknowledgements do not complete it, it cannot be removed, its identifier stays taken and it is resent at every resumption. The field is taken as unsigned, as common compilers do for this enumeration."
  },
  {
   "property": "C99",
   "status": "proved",
   "theorems": [
    "stream_read_one_way",
    "sent_read_one_way"
   ],
   "note": "For histories: if no packet was cut off by the transport and the copies the application returned for retransmission are packets. A QoS 0 publish is read without the identifier the caller passed, which it does not carry."
  },
  {
   "property": "C100",
   "status": "partial",
   "theorems": [
    "sending_converts",
    "receiving_converts",
    "records_convert",
    "lengths_small",
    "copies_sent_refuted",
    "free_slot_found_refuted"
   ],
   "note": "Holds for all packets the library makes or accepts and for fewer than 2^31 records. Refuted for copies of 2^32 bytes returned by the retrieve function (size_t of more than 32 bits): MQTT_Connect succeeds without sending a byte of them; and for arrays of more than 2^31 slots. The conversion of a value that does not fit is taken as reduction modulo 2^32."
  },
  {
   "property": "C101",
   "status": "partial",
   "theorems": [
    "starts_empty_partial",
    "bytes_at_connect",
    "garbage_stays",
    "starts_empty_refuted"
   ],
   "note": "Holds for histories in which MQTT_ProcessLoop and MQTT_ReceiveLoop are called only while connected, and for every connection the broker begins with a new session. Refuted otherwise: the loops do not look at the connection status before they read, a pass after MQTT_Disconnect fills the buffer, and a MQTT_Connect that resumes the session reads its CONNACK into the buffer from position 0 without resetting the index. From then on no packet is handled, however often the loop is called."
  },
  {
   "property": "C102",
   "status": "partial",
   "theorems": [
    "nested_connect_refused_partial",
    "nested_connect_undefined_refuted",
    "nested_reconnect_undefined_refuted"
   ],
   "note": "Proved for clients that are not disconnected, arguments MQTT_Connect takes, and applications that do not call MQTT_Disconnect from the callback: the pass is the same as without the calls. Refuted in a pass without a connection and after MQTT_Disconnect in the same callback: the index is reset under the running pass, which then wraps it."
  },
  {
   "property": "C103",
   "status": "proved",
   "theorems": [
    "calls_in_time",
    "connect_in_time",
    "connected_in_time"
   ],
   "note": "The time the application's callbacks and the platform's functions take is in D. Skipping a packet that does not fit the buffer is charged per byte: the code has no overall limit there (C104)."
  },
  {
   "property": "C104",
   "status": "partial",
   "theorems": [
    "keep_alive_kept_partial",
    "keep_alive_under_traffic_refuted",
    "pass_outlasts_keep_alive_refuted"
   ],
   "note": "Proved for passes that read nothing: something was sent within the interval, or a PINGREQ within its timeout, or one goes out now. Refuted when every pass reads something (handleKeepAlive is called only if recvBytes == 0), and for one pass that skips a large packet arriving slowly."
  },
  {
   "property": "C105",
   "status": "partial",
   "theorems": [
    "no_clock_calls_end_partial",
    "no_clock_vector_whole",
    "no_clock_buffer_once",
    "no_clock_no_ping",
    "no_clock_publish_refuted",
    "no_clock_ack_cut_refuted"
   ],
   "note": "Proved: calls that send no packet through the vector send end; a vector send that returns success or failure has sent everything or the transport failed; a buffer send asks the transport exactly once; no PINGREQ is sent by MQTT_ProcessLoop. Refuted: MQTT_Publish never returns when the transport takes nothing (sendMessageVector compares with >), and a PUBACK is cut when the transport takes part of it (sendBuffer compares with >=)."
  },
  {
   "property": "C106",
   "status": "partial",
   "theorems": [
    "packets_of_the_stream",
    "careless_refuted"
   ],
   "note": "Proved for applications that call the loops only on a connection and, after MQTTRecvFailed, not again until MQTT_Connect. Refuted without this: MQTTRecvFailed while a large packet is skipped leaves the connection up, and the next call takes the rest of that packet for packets."
  },
  {
   "property": "C107",
   "status": "proved",
   "theorems": [
    "bytes_exactly_once"
   ],
   "note": "Terms as in C81, also of the network, and of the application as in C106."
  },
  {
   "property": "C108",
   "status": "partial",
   "theorems": [
    "bytes_at_least_once",
    "bytes_at_least_once_threads_partial"
   ],
   "note": "Proved for one thread; for several as far as C91: resuming the session is not disturbed by another thread."
  },
  {
   "property": "C109",
   "status": "proved",
   "theorems": [
    "bytes_inbound_delivery"
   ],
   "note": "Terms as in C84, also of the network, and of the application as in C106."
  },
  {
   "property": "C110",
   "status": "partial",
   "theorems": [
    "streams_exactly_once",
    "half_sent_refuted",
    "without_timeouts"
   ],
   "note": "Proved when nothing is sent on a connection that is still up after a send on it timed out, so always when no send times out. Refuted without this: MQTT_Disconnect, which must be called before MQTT_Connect, sends DISCONNECT after the half of a publish."
  },
  {
   "property": "C111",
   "status": "partial",
   "theorems": [
    "streams_at_least_once",
    "streams_at_least_once_threads_partial"
   ],
   "note": "Proved for one thread; for several as far as C91: resuming the session is not disturbed by another thread."
  },
  {
   "property": "C112",
   "status": "partial",
   "theorems": [
    "streams_inbound_delivery",
    "without_timeouts_in",
    "half_acknowledged_refuted"
   ],
   "note": "Proved when nothing is sent on a connection that is still up after a send on it timed out, so always when no send times out. Refuted without this: DISCONNECT after three bytes of a PUBACK acknowledges the message with identifier 224."
  },
  {
   "property": "C113",
   "status": "partial",
   "theorems": [
    "integer_qos_subscribe",
    "subscribe_options_described",
    "serialize_options_described",
    "subscribe_options_refuted"
   ],
   "note": "Refuted. What happens instead is described for all values: the call succeeds and the low byte of each field goes out; the packet is legal just when these are 0, 1 or 2."
  },
  {
   "property": "C114",
   "status": "partial",
   "theorems": [
    "answers_to_requests",
    "without_timeouts_requests",
    "half_subscribed_refuted"
   ],
   "note": "Proved when nothing is sent on a connection after a send that timed out, in particular when no send times out. Refuted otherwise: after a half-sent SUBSCRIBE the bytes of a PUBLISH complete it, the server subscribes the client to a filter nobody asked for, and the application is told of a SUBACK for a call that returned MQTTSendFailed. The application must store the copies of its publishes faithfully (keeps_copies) and heed MQTTRecvFailed (careful)."
  },
  {
   "property": "C115",
   "status": "partial",
   "theorems": [
    "packets_as_sent",
    "without_timeouts_lines",
    "packets_as_sent_refuted"
   ],
   "note": "Proved when nothing is sent on a connection after a send that timed out, in particular when no send times out, and when the application stores the copies of its publishes faithfully (keeps_copies). Refuted otherwise: after the half of a SUBSCRIBE the bytes of a QoS 0 PUBLISH complete it; the server reads a SUBSCRIBE nobody sent, and the message, whose MQTT_Publish returned MQTTSuccess, is not read though the connection stays up."
  },
  {
   "property": "C116",
   "status": "partial",
   "theorems": [
    "connections_in_order",
    "server_finds_order",
    "server_finds_order_refuted"
   ],
   "note": "The packets sent whole on each connection are in order without condition (connections_in_order). What the server reads: proved when nothing is sent on a connection after a send that timed out, and when the application stores the copies of its publishes faithfully (keeps_copies). Refuted otherwise: after the half of a SUBSCRIBE, completed by the bytes of a PUBLISH, the rest of the PUBLISH begins no packet, on a connection that both sides take to be up."
  },
  {
   "property": "C117",
   "status": "proved",
   "theorems": [
    "whole_unless_failed",
    "failed_means_cut",
    "whole_until_failed"
   ],
   "note": "Tells the application when the stream is no longer at a packet boundary: C46, C110, C112 and C114 to C116 show what happens when it goes on sending then. A call made from inside the event callback reports its own MQTTSendFailed to the callback, not to the loop around it; hence the restriction."
  },
  {
   "property": "C118",
   "status": "partial",
   "theorems": [
    "statuses_returned_partial",
    "statuses_reached",
    "statuses_documented_refuted"
   ],
   "note": "Refuted for four functions. Not listed but returned: MQTTStateCollision and MQTTIllegalState by MQTT_Publish; MQTTBadResponse and MQTTServerRefused by MQTT_Connect; MQTTNoMemory by both loops (no record free for an incoming publish); MQTTStatusNotConnected and MQTTStatusDisconnectPending by MQTT_ReceiveLoop. Proved: these are the only exceptions, and the set of statuses of each function is exact; MQTTNoMemory is listed but never returned by MQTT_Connect, MQTT_Subscribe, MQTT_Unsubscribe, MQTT_Ping and MQTT_Disconnect."
  },
  {
   "property": "C119",
   "status": "partial",
   "theorems": [
    "low_statuses_partial",
    "low_statuses_reached",
    "low_documented_refuted"
   ],
   "note": "Refuted for three functions: MQTT_ReserveState returns MQTTBadParameter (packet id 0), MQTT_UpdateStatePublish returns MQTTNoMemory (no record free for an incoming publish), MQTT_ProcessIncomingPacketTypeAndLength returns MQTTNeedMoreBytes (length not complete in the buffer); none is listed. Proved: these are the only exceptions, and the set of statuses of each function is exact. MQTT_SerializePublishHeaderWithoutTopic and the size functions of DISCONNECT and PINGREQ are left out: they fail for NULL pointers only or not at all."
  },
  {
   "property": "C120",
   "status": "proved",
   "theorems": [
    "refused_call_no_effect",
    "refused_serializer_no_effect",
    "refused_dup_no_effect"
   ],
   "note": "Output parameters of the deserializers are not covered: MQTT_DeserializeAck and MQTT_DeserializePublish may write them before they fail."
  }
 ]
}
