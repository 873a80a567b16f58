# Formal model of coreMQTT in Rocq/Coq 8.16.1

The code in `/repo` is read as text; nothing of it is compiled or run.  The
theorems are about the Gallina model in `rocq/theories`.  The link between the
model and the C code is a transcription by hand, function by function; every
definition cites the file and lines it models.  No tool checks that link.

## 1. Trusted base

* The Coq 8.16.1 kernel, including `vm_compute` (used for examples, for the
  witnesses of refuted claims and for finite sweeps over bytes).
* Axioms: none.  `Print Assumptions` stands below every property theorem and
  prints `Closed under the global context` for each one (section 6).
  `vcheck` also lists seven assumptions of the standard library
  (`Coq.ssr.ssrunder.Under_rel.*`).  They are the fields of a sealed module in
  `Coq.ssr.ssrunder`, which is loaded with `ZArith` and `List`; no property theorem
  depends on them, as `Print Assumptions` shows.
* The transcription of the C code (section 2).
* The environment model.  The transport, the clock, the application callback and
  the store/retrieve/clear functions are scripts of arbitrary content, universally
  quantified in the theorems.  Their contracts (for instance: a receive returns at
  most the number of bytes asked for) are hypotheses of the theorems or are built
  into the script semantics in `CoreModel.v`, as said there.

## 2. What is modelled

| C code | model | remarks |
|---|---|---|
| `core_mqtt_serializer.c`, all functions | `SerModel.v` | pure functions on byte lists |
| `core_mqtt_state.c`, all but `MQTT_State_strerror` (in `InitModel.v`) | `StateModel.v` | record arrays with their free slots |
| `core_mqtt.c`, topic matching | `TopicModel.v` | the index loops of the C code |
| `core_mqtt.c`, the three initialisation functions, the two strerror functions | `InitModel.v` | NULL arguments and arbitrary memory contents |
| `core_mqtt.c`, the rest | `CoreModel.v` | state monad over context and environment |
| `core_mqtt.c`, the receive loop with the loops and `MQTT_Connect` called from the callback | `NestModel.v` | the functions of `CoreModel.v` with the callback as a parameter |
| `core_mqtt_state.c` and `MQTT_Publish` with QoS values outside the enumeration | `QosModel.v`, `QosSub.v` | the QoS field as an integer |
| the send, receive and record loops with their conversions to `int32_t` | `IntModel.v` | the functions of `CoreModel.v` and `StateModel.v` with the conversions |
| all public functions, NULL arguments | `NullModel.v` | the checks at their heads; the rest as in the models above |
| `core_mqtt.c` with its locking hooks | `ConcModel.v` | one thread connects and loops, others make the remaining calls when they get the mutex; the mutex may be recursive or not |

`Machine.v` is not a model of code but an abstract client; `MachProofs*.v` show that
`ConcModel.v` (and with it `CoreModel.v`) refines it, `MachFacts*.v` prove invariants of it.
`NetSpec.v` puts this client together with a server (the receiver of QoS 1 and QoS 2
of section 4.3 of the standard, method A) and a network that keeps the order of packets and may lose any
of them; `NetProofs*.v` (QoS 2) and `OutProofs*.v` (QoS 1) prove what the two do together.  Bytes the client reads after the
CONNACK are not related to packets there: a packet the client has read is the next one on
its way.  `InSpec.v` and `InProofs*.v` do the same for a server that sends QoS 1 and QoS 2
publishes to the client.  `ByteSpec.v` has both networks again with the server's packets as
a stream of bytes from which each read takes the next ones; `ByteProofs*.v` show that the
client finds the packets in it, and carry the theorems over.  In all of these, what the client
sends after a part of a packet does not arrive on that connection; in `FullSpec.v` the client's
packets are bytes too, and the server finds out for itself (`FullProofs.v`).  `ReqSpec.v` does so
for SUBSCRIBE, UNSUBSCRIBE and PINGREQ and their answers, on the last connection only; `LineSpec.v` for all the client's packets on
all connections (`LegalSpec.v`: a server that checks their order).  `DocSpec.v` copies the statuses
listed in the documentation of `core_mqtt.h`, function by function.

Conventions

* C integers are `Z`.  Wrap-around of `uint8_t`, `uint16_t`, `uint32_t` and `size_t`
  is written out with `mod`.  The width of `size_t`, the byte order, the presence of
  `writev` and every configuration macro are parameters.
* A pointer is `option (list Z)` (`None` is NULL) with its length kept apart.
* Reading or writing outside a block and a failing `assert` are the outcome `Ub` in
  the pure part and `Undef` in the core.
* Loops that depend on the environment run on fuel.  Running out is the outcome
  `Stuck` in the core (`Ub` in the pure part), so no theorem can hold by running out.

Not modelled

* Data races: threads interleave, and an access without the mutex is one step
  (`ConcModel.v` says which). Two threads in the loops at once.
* Conversions between `size_t` and `int32_t` of lengths of 2^31 and more, except in `IntModel.v`.
* Logging, padding and other ABI matters.

## 3. Properties: model, proof, theorems

`partial` includes refuted claims: the full statement stands beside the theorems.

| id | title | status | model and proof | theorems | remarks |
|---|---|---|---|---|---|
| C01 | Remaining Length encode/decode round trip | proved | SerModel; equality with the packet grammar of WireSpec, frame of the buffer | `remaining_length_round_trip` | All lengths, all allowed first bytes, any continuation; minimality and uniqueness included. |
| C02 | Incoming fixed header recognised exactly | proved | SerModel; equality with the packet grammar of WireSpec, frame of the buffer | `header_recognised_exactly` | Against the header grammar in WireSpec.v. |
| C03 | Header decision is stable and looks only at received bytes | proved | SerModel; equality with the packet grammar of WireSpec, frame of the buffer | `header_ignores_unreceived_bytes`, `header_decision_final`, `header_needs_at_most_five_bytes` |  |
| C04 | Pull parser agrees with the buffer parser | proved | SerModel; equality with the packet grammar of WireSpec, frame of the buffer | `pull_parser_agrees` | Transport delivers one byte per read until it ends with 0 or a negative result. |
| C05 | CONNECT serialisation is exact | proved | SerModel; equality with the packet grammar of WireSpec, frame of the buffer | `connect_size_exact`, `connect_bytes_exact` | For arguments that describe a message (pointers valid for their lengths); see C48, C49 for the rest. |
| C06 | SUBSCRIBE and UNSUBSCRIBE serialisation is exact | proved | SerModel; equality with the packet grammar of WireSpec, frame of the buffer | `subscribe_size_exact`, `subscribe_bytes_exact`, `unsubscribe_size_exact`, `unsubscribe_bytes_exact`, `subscription_bad_filter_refused`, `subscription_bad_parameters_refused` | Size functions under 'true size < SIZE_MAX+1', see C07. |
| C07 | Subscription packet size cannot be under-reported | partial | SerModel; equality with the packet grammar of WireSpec, frame of the buffer | `subscription_size_exact_64bit_partial`, `subscription_size_32bit_refuted`, `subscribe_size_exact`, `unsubscribe_size_exact` | False for a 32-bit size_t (witness: 65535 filters of 65535 bytes; the serialiser then writes outside a buffer of the reported size). Proved for a 64-bit size_t and up to 2^47 filters, and for every width when the true size is below SIZE_MAX + 1 (subscribe_size_exact, unsubscribe_size_exact). |
| C08 | PUBLISH serialisation is exact | proved | SerModel; equality with the packet grammar of WireSpec, frame of the buffer | `publish_size_exact`, `publish_bytes_exact`, `publish_header_exact`, `publish_bad_parameters_refused` |  |
| C09 | PUBLISH round trip | proved | SerModel; equality with the packet grammar of WireSpec, frame of the buffer | `publish_round_trip` |  |
| C10 | PUBLISH decoding is exact and memory safe | proved | SerModel; equality with the packet grammar of WireSpec, frame of the buffer | `publish_decoding_exact`, `publish_meaning_unique` | The decoder refuses only the message with empty topic and empty payload in addition; it accepts other empty topics and DUP with QoS 0. |
| C11 | Acknowledgement packets: encode, decode and rejection | proved | SerModel; equality with the packet grammar of WireSpec, frame of the buffer | `ack_bytes_exact`, `ack_other_refused`, `ack_decoding_exact`, `pingresp_decoding_exact`, `unknown_ack_refused`, `pingreq_bytes_exact`, `disconnect_bytes_exact` |  |
| C12 | CONNACK decoding table | proved | SerModel; equality with the packet grammar of WireSpec, frame of the buffer | `connack_decoding_exact` |  |
| C13 | SUBACK decoding | proved | SerModel; equality with the packet grammar of WireSpec, frame of the buffer | `suback_decoding_exact`, `suback_codes_exact` |  |
| C14 | No packet beyond the protocol maximum | partial | SerModel; equality with the packet grammar of WireSpec, frame of the buffer | `publish_size_within_limit_partial`, `connect_size_within_limit`, `subscription_size_within_limit`, `publish_size_exact`, `publish_size_limit_refuted` | No accepted packet exceeds the maximum. The converse is false for PUBLISH: remaining lengths 268435451..268435455 are legal but refused. |
| C15 | DUP flag patch touches one bit | proved | SerModel; equality with the packet grammar of WireSpec, frame of the buffer | `dup_flag_exact`, `dup_flag_one_bit` |  |
| C16 | In-flight packet ids stay unique | proved | StateModel; simulation of an ordered map, induction over call sequences (StateSpec) | `inflight_ids_unique`, `reserve_in_use_refused`, `receive_in_use_reported` | State engine calls in any sequence from zeroed arrays. |
| C17 | Capacity is exact | proved | StateModel; simulation of an ordered map, induction over call sequences (StateSpec) | `outgoing_capacity_exact`, `incoming_capacity_exact`, `capacity_never_exceeded` | Any history; needs a non-empty array for the direction used. |
| C18 | Acknowledgements drive exactly the MQTT QoS flows | proved | StateModel; simulation of an ordered map, induction over call sequences (StateSpec) | `acks_follow_protocol`, `acks_touch_only_their_publish` | Against the MQTT 3.1.1 tables in StateSpec.v. |
| C19 | The record array behaves like an ordered map | proved | StateModel; simulation of an ordered map, induction over call sequences (StateSpec) | `record_array_is_ordered_map` | Refinement to an ordered list with a capacity, no undefined behaviour. |
| C20 | Retransmission order equals original order | proved | StateModel; simulation of an ordered map, induction over call sequences (StateSpec) | `resend_lists_exact`, `resend_walk_deterministic` | Queues are defined from the call history only. |
| C21 | A publish completes once | proved | StateModel; simulation of an ordered map, induction over call sequences (StateSpec) | `completion_frees_id`, `completed_stays_completed`, `completes_once_per_reservation` |  |
| C22 | Cancelling a publish removes only that publish | proved | StateModel; simulation of an ordered map, induction over call sequences (StateSpec) | `cancel_removes_exactly` | Id 0 trips the assert in findInRecord (modelled as undefined behaviour). |
| C23 | Packet ids handed out are never zero and do not repeat early | proved | CoreModel; outcome theorems per call, invariant over histories for any environment | `packet_ids_distinct`, `packet_id_returned` | Every history of calls, including calls made from the callback, from every reachable state. |
| C24 | Topic matching is sound | proved | TopicModel; loops shown equal to a recursive matcher, that to the level spec (TopicSpec) | `topic_matching_sound`, `topic_matching_exact` | For every valid name and every filter, valid or not. |
| C25 | Topic matching is complete | partial | TopicModel; loops shown equal to a recursive matcher, that to the level spec (TopicSpec) | `topic_matching_complete_refuted`, `topic_matching_complete_partial`, `topic_gap_never_matched`, `topic_no_plus_no_gap` | False: '+/#' misses 'a', '+/+' misses 'a/'. The missed pairs are exactly plus_gap; complete for filters without '+'. |
| C26 | Topic matching is memory safe | proved | TopicModel; loops shown equal to a recursive matcher, that to the level spec (TopicSpec) | `topic_matching_safe`, `topic_matching_bad_parameters` |  |
| C27 | Timer wrap-around is harmless | proved | CoreModel; loop invariants and equality of bytes, any environment | `elapsed_time_exact` | calculateElapsedTime on 32-bit readings; every timeout in the model goes through it |
| C28 | Partial writes never corrupt a packet | proved | CoreModel; loop invariants and equality of bytes, any environment | `send_vector_prefix`, `send_buffer_prefix`, `call_sends_its_packet` | sendMessageVector, sendBuffer and every API call, for every transport behaviour and clock; call level assumes a little-endian machine for SUBSCRIBE (see C29) |
| C29 | Zero-copy send equals serialisation | partial | CoreModel; loop invariants and equality of bytes, any environment | `publish_same_as_serializer`, `subscribe_same_as_serializer`, `unsubscribe_same_as_serializer`, `connect_same_as_serializer`, `publish_same_dup_qos0_refuted`, `subscribe_same_big_endian_refuted` | Proved except for two refuted cases: DUP with QoS 0 is sent by MQTT_Publish but refused by the serializer; on a big-endian machine MQTT_Subscribe sends the wrong QoS byte |
| C30 | Stored copy of a publish is the packet itself | proved | CoreModel; loop invariants and equality of bytes, any environment | `stored_copy_exact`, `vector_size_exact`, `vector_copy_exact` |  |
| C31 | No traffic without a connection | proved | CoreModel; outcome theorems per call, invariant over histories for any environment | `refused_without_connection`, `silent_without_connection` |  |
| C32 | A broken transport stays broken until disconnect | proved | CoreModel; outcome theorems per call, invariant over histories for any environment | `broken_stays_broken` | MQTT_Disconnect called by the application from its callback is excluded (see C45) |
| C33 | Connect succeeds only on an accepted CONNACK | proved | CoreModel; outcome theorems per call, invariant over histories for any environment | `connect_outcomes`, `connect_when_not_disconnected` |  |
| C34 | Clean session forgets, resumed session resends | proved | CoreModel; outcome theorems per call, invariant over histories for any environment | `connect_outcomes` |  |
| C35 | Receiving is independent of chunking | proved | CoreModel; simulation of a stream parser, induction over histories (CoreSpec, CoreHarness) | `chunking_irrelevant`, `stream_framed`, `idle_pass_means_done` | Two clients reading the same bytes in any pieces, with any other calls in between, as long as no pass reports a receive failure (after which bytes of a skipped packet are lost: see the findings) and no Connect/Disconnect drops the buffer. |
| C36 | Receive buffer is never overrun | proved | CoreModel; outcome theorems per call, invariant over histories for any environment | `histories_safe`, `buffer_never_overrun` | Arguments sound; MQTT_Disconnect from inside the callback excluded (see C45); integer casts to int32_t not modelled |
| C37 | Oversized packets are skipped exactly | proved | CoreModel; simulation of a stream parser, induction over histories (CoreSpec, CoreHarness) | `oversized_skipped`, `stream_framed` | Both loops. The pass reports success exactly if the whole packet was read; a failed skip reports MQTTRecvFailed and resets the buffer in the middle of the packet. |
| C38 | Incoming QoS 2 messages are delivered exactly once | proved | CoreModel; simulation of a stream parser, induction over histories (CoreSpec, CoreHarness) | `qos2_delivered_once` | Whole histories within one session; callbacks may make any API call except Disconnect, Connect and the loops. |
| C39 | Incoming QoS 1/2 publishes are acknowledged with the right packet | proved | CoreModel; outcome theorems per call, invariant over histories for any environment | `packets_acknowledged`, `others_not_acknowledged`, `receive_loop_outcomes`, `process_loop_outcomes` | The outcome theorems describe every pass completely, including refused packets. |
| C40 | Callback only for valid packets | proved | CoreModel; outcome theorems per call, invariant over histories for any environment | `callbacks_served` | Every call of every history. |
| C41 | Keep alive: ping on idle, timeout on silence | proved | CoreModel; outcome theorems per call, invariant over histories for any environment | `idle_pass_pings`, `timeout_exact`, `receive_loop_no_timeout`, `outstanding_ping`, `last_transmission` | Clock readings are arbitrary 32-bit values, wrap-around included. |
| C42 | A failed publish leaves a consistent in-flight set | proved | CoreModel; outcome theorems per call, invariant over histories for any environment | `publish_outcomes` |  |
| C43 | Disconnect resets the session transport | proved | CoreModel; outcome theorems per call, invariant over histories for any environment | `disconnect_outcomes` | DISCONNECT is also offered to a transport already known to be broken (status MQTTDisconnectPending) |
| C44 | Receive and send loops are bounded in time | proved | CoreModel; budget of transport calls per function (CoreTime), induction over histories | `calls_end`, `frozen_clock_never_ends`, `silent_server_retries` | calls_end: every history of calls ends within a budget of transport calls when each reading of the clock is 1..D ms later than the one before and the configured timeouts end before the 32-bit clock wraps (clock_suits, call_suits). frozen_clock_never_ends: without an advancing clock a send need not end. silent_server_retries: with timeout 0 exactly g_retry retries. |
| C45 | Calling the API from the callback is safe | partial | CoreModel; outcome theorems per call, invariant over histories for any environment | `disconnect_in_callback_refuted`, `histories_safe`, `buffer_never_overrun` | False: MQTT_Disconnect from the callback makes the buffer index wrap. True for all other API calls from the callback (histories_safe). |
| C46 | Failed sends do not desynchronise the connection | partial | CoreModel; outcome theorems per call, invariant over histories for any environment | `send_after_partial_refuted`, `broken_stays_broken`, `calm_calls_send` | False when a send times out: the connection stays Connected and the next packet follows half a packet. True after a transport error (broken_stays_broken). While the clock moves by less than the limit no packet is sent in part (calm_calls_send). |
| C47 | Every resent publish can be completed | partial | CoreModel; outcome theorems per call, invariant over histories for any environment | `resent_publish_refused_refuted`, `awaited_ack_accepted_partial` | False: a publish whose first send failed stays in PublishSend after being resent and its PUBACK is refused. Acks for publishes in a pending state are accepted in every history. |
| C48 | Serialised CONNECT packets are protocol legal | partial | SerModel; equality with the packet grammar of WireSpec, frame of the buffer | `connect_legal_refuted`, `connect_will_topic_refuted`, `connect_legal_partial` | False: CONNECT with password and no user name is produced, and one with an empty will topic. Proved instead: all other arguments, and only those, have a legal packet, which is produced. |
| C49 | Serialised bytes depend on the arguments only | partial | SerModel; equality with the packet grammar of WireSpec, frame of the buffer | `connect_null_will_payload_refuted`, `connect_bytes_exact` | False for a will with NULL payload and non-zero length; proved for well-formed arguments. |
| C50 | A refused MQTT_Connect leaves a working connection alone | partial | CoreModel; outcome theorems per call, invariant over histories for any environment | `refused_connect_breaks_refuted`, `connect_when_not_disconnected` | False: a call with bad arguments on a working connection makes the status DisconnectPending. What MQTT_Connect does when not disconnected is characterised by connect_when_not_disconnected. |
| C51 | A packet whose skipping failed is not mistaken for packets | partial | CoreModel; simulation of a stream parser, induction over histories (CoreSpec, CoreHarness) | `skipped_payload_delivered_refuted`, `stream_framed`, `oversized_skipped`, `packets_of_the_stream` | False when skipping times out. As long as no call returned RecvFailed the packets handled and skipped are those of the stream (stream_framed); so too when the application connects anew after RecvFailed (packets_of_the_stream). |
| C52 | No keep-alive timeout when the PINGRESP has arrived | partial | CoreModel; outcome theorems per call, invariant over histories for any environment | `timeout_with_pingresp_refuted`, `timeout_exact`, `outstanding_ping` | False: the PINGRESP may lie in the buffer. The exact condition for the timeout is proved in timeout_exact. |
| C53 | CONNACK arriving in pieces is accepted | partial | CoreModel; outcome theorems per call, invariant over histories for any environment | `split_connack_refused_refuted`, `connect_outcomes`, `calm_connect_succeeds` | False: a header split over two polls gives BadResponse. True when the second byte is there at the poll after the first: any number of empty polls before it, and any splitting of the other two bytes, within the limits (calm_connect_succeeds). |
| C54 | Nothing is delivered without a connection | partial | CoreModel; outcome theorems per call, invariant over histories for any environment | `delivery_unconnected_refuted`, `silent_without_connection`, `nothing_before_connect_partial` | False: packets are handled and delivered. Nothing is sent without a connection (silent_without_connection). When the loops are called only while connected, nothing is delivered before an MQTT_Connect that returned MQTTSuccess (nothing_before_connect_partial). |
| C55 | A publish refused by the state engine is not sent | partial | CoreModel; outcome theorems per call, invariant over histories for any environment | `refused_publish_sent_refuted`, `publish_outcomes`, `refused_publish_not_sent_partial`, `bad_parameter_sent_refuted`, `refused_publish_sent_only_dup` | False: the state is updated after sending. MQTTIllegalState (the exchange is past the PUBLISH) and MQTTBadParameter (a DUP publish whose QoS is not that of the publish in flight with its identifier: bad_parameter_sent_refuted) are returned after the whole packet went out. Proved instead: these two cases, both with DUP and an identifier in flight, are the only ones; otherwise a refused publish is not sent. All outcomes of MQTT_Publish are characterised by publish_outcomes. |
| C56 | Malformed topics are not delivered | partial | CoreModel; outcome theorems per call, invariant over histories for any environment | `empty_topic_delivered_refuted`, `topic_as_sent_partial` | False: empty topics are accepted when there is a payload. Proved instead: the topic the application sees is exactly the one of the packet handled. |
| C57 | A failed store affects only its publish | partial | CoreModel; outcome theorems per call, invariant over histories for any environment | `store_failure_sticks_refuted`, `store_failure_undone_partial` | False: the record reserved before the store failure is kept and makes every resumption fail. Proved instead: nothing was sent, and one MQTT_CancelCallback restores the session exactly. |
| C58 | The receive loop can always make progress | partial | CoreModel; outcome theorems per call, invariant over histories for any environment | `small_buffer_stuck_refuted`, `more_bytes_fit_partial` | False for buffers under 5 bytes; proved for 5 bytes and more in every history. |
| C59 | No ping before the interval has passed | partial | CoreModel; outcome theorems per call, invariant over histories for any environment | `early_ping_refuted`, `idle_pass_pings`, `no_early_ping_partial` | False: lastPacketRxTime is not set by MQTT_Connect. Proved instead: no ping while less than the intervals has passed since the recorded times of the last packet sent and received. The exact condition for a ping is proved in idle_pass_pings. |
| C60 | A repeated PUBREC is answered | partial | CoreModel; outcome theorems per call, invariant over histories for any environment | `repeated_pubrec_unanswered_refuted`, `repeated_pubrec_harmless_partial` | False: IllegalState, no reply. Proved instead: a repeated PUBREC changes nothing, and the PUBREL still goes out at the next resumption. |
| C61 | MQTT_Connect gives up after its timeout | partial | CoreModel; budget of transport calls per function (CoreTime), induction over histories | `connect_overruns_timeout_refuted`, `calls_end`, `connect_in_time`, `connected_in_time` | Refuted: after the CONNACK header the rest is read by recvExact, which only ends when nothing arrives; the call takes more than three times its timeout. What does hold: the call makes a bounded number of transport calls (calls_end, C44), and it ends within the timeout plus the time to read a buffer full of bytes one at a time and the time to send (connect_in_time, connected_in_time, C103). |
| C62 | Topic names with a NUL byte are compared by all their bytes | partial | TopicModel; loops shown equal to a recursive matcher, that to the level spec (TopicSpec) | `topic_nul_sound_refuted`, `topic_matching_exact_nul` | Refuted: strncmp stops at a common NUL, so "a\0b" is reported as matched by "a\0c". The second theorem gives the exact set of matches with NUL allowed. |
| C63 | With no other thread's calls, the threaded client behaves as the plain one | proved | ConcModel; each step of the loop thread and each foreign call keeps a relation between states, induction over schedules | `alone_as_sequential`, `alone_recursive` | The exception is the deadlock of C65; a recursive mutex has none. |
| C64 | Calls from other threads cause no undefined behaviour | proved | ConcModel; each step of the loop thread and each foreign call keeps a relation between states, induction over schedules | `threads_safe`, `threads_state` | Other threads do not call MQTT_Disconnect (C72); threads interleave, accesses without the mutex count as atomic. |
| C65 | No deadlock | partial | ConcModel; each step of the loop thread and each foreign call keeps a relation between states, induction over schedules | `hangs_only_in_connect_partial`, `recursive_never_hangs`, `connect_deadlock_refuted` | Refuted for a plain mutex: recvExact takes the mutex that MQTT_Connect holds when recv fails. Proved: there is no other deadlock, and none with a recursive mutex. |
| C66 | Incoming packets stay framed with threads | proved | ConcModel; each step of the loop thread and each foreign call keeps a relation between states, induction over schedules | `threads_stream_framed` |  |
| C67 | QoS 2 exactly once with threads | proved | ConcModel; each step of the loop thread and each foreign call keeps a relation between states, induction over schedules | `threads_qos2_once` |  |
| C68 | Acknowledgments and CONNECT go out unbroken with threads | proved | ConcModel; each step of the loop thread and each foreign call keeps a relation between states, induction over schedules | `threads_acknowledged`, `threads_connect` |  |
| C69 | No sends on a broken connection with threads | partial | ConcModel; each step of the loop thread and each foreign call keeps a relation between states, induction over schedules | `threads_sends_partial`, `threads_error_noticed`, `send_after_recv_error_refuted`, `resume_after_send_error_refuted`, `resume_after_disconnect_refuted` | Refuted in three ways: after a failed recv, by the resumption of a session after a failed send, and by the resumption after another thread's MQTT_Disconnect. Proved: no sends without a connection, none after a failed send on an established connection, and the error is recorded when the call returns. |
| C70 | Keep-alive timeout with threads | partial | ConcModel; each step of the loop thread and each foreign call keeps a relation between states, induction over schedules | `keep_alive_race_refuted`, `keep_alive_threads_partial` | Refuted in general. Proved: when no other thread sends a PINGREQ during the pass, a timeout is real. |
| C71 | Resumption is complete with threads | partial | ConcModel; each step of the loop thread and each foreign call keeps a relation between states, induction over schedules | `resume_skips_publish_refuted`, `threads_resume_partial` | Refuted in general. Proved: complete when the other threads meanwhile neither publish with QoS 1 or 2 nor cancel. |
| C72 | MQTT_Disconnect may be called by another thread | partial | ConcModel; each step of the loop thread and each foreign call keeps a relation between states, induction over schedules | `disconnect_by_thread_refuted`, `disconnect_elsewhere_partial` | Refuted in general. Proved: harmless, also during MQTT_Connect, when not during a pass of the loop. |
| C73 | The client refines an abstract MQTT client machine | proved | ConcModel and Machine; forward simulation of the machine by each step of each thread, then invariants of the machine | `machine_run`, `machine_run_alone` | Arguments within size_t (all_fit), little-endian; histories that end without deadlock. |
| C74 | What is sent is a stream of legal packets | proved | ConcModel and Machine; forward simulation of the machine by each step of each thread, then invariants of the machine | `stream_of_packets` | Password without user name and an empty will topic (C48) are not excluded. |
| C75 | Acknowledgements answer packets one to one | proved | ConcModel and Machine; forward simulation of the machine by each step of each thread, then invariants of the machine | `acks_answer` |  |
| C76 | PUBREL only for a QoS 2 publish whose PUBREC came | proved | ConcModel and Machine; forward simulation of the machine by each step of each thread, then invariants of the machine | `pubrel_earned` | Order of publish and PUBREC is not stated: another thread may publish between the PUBREC and its handling. |
| C77 | Stored copies: stored before the send, fetched only while stored | partial | ConcModel and Machine; forward simulation of the machine by each step of each thread, then invariants of the machine | `store_before_send`, `fetch_stored_partial`, `fetch_stored_refuted`, `fetch_stored_alone` | Stored before the send: proved. Fetched only while stored: refuted by a race of the clear function; proved for histories without it, and for one thread without condition. |
| C78 | Packet identifiers in turn over all threads | proved | ConcModel and Machine; forward simulation of the machine by each step of each thread, then invariants of the machine | `ids_in_turn` |  |
| C79 | The application is told of each packet at most once and truthfully | proved | ConcModel and Machine; forward simulation of the machine by each step of each thread, then invariants of the machine | `told_once` |  |
| C80 | Packets only on an accepted connection | proved | ConcModel and Machine; forward simulation of the machine by each step of each thread, then invariants of the machine | `sends_online` | After a failed receive: see C69. Retrieved copies may follow a send error (C69). |
| C81 | QoS 2 messages arrive exactly once and in order | proved | ConcModel, Machine and NetSpec; an invariant of client, network and server for each packet identifier, induction over joint runs | `exactly_once_in_order` | terms: one_session, no_dups, keeps_copies and no MQTT_CancelCallback. Of the network: what the client sends after a part of a packet does not arrive on that connection (otherwise see C110). |
| C82 | PUBCOMP told to the application means the message was passed on | proved | ConcModel, Machine and NetSpec; an invariant of client, network and server for each packet identifier, induction over joint runs | `told_means_passed_on` | terms as in C81 |
| C83 | A discarded session is not resumed | partial | ConcModel and Machine; an invariant of the machine, a computed witness | `discarded_not_resumed_partial`, `discarded_not_resumed_refuted` | false when the CONNACK to a clean CONNECT is lost; holds when the clean connection was used |
| C84 | Messages from the server reach the application, QoS 2 just once | proved | ConcModel, Machine and InSpec; an invariant of client, network and sending server for each packet identifier, induction over joint runs | `inbound_delivery` | the server keeps the session; contents equal but for the DUP flag. Of the network: what the client sends after a part of a packet does not arrive on that connection (otherwise see C110). |
| C85 | An incoming QoS 2 exchange can be completed after a loss | partial | ConcModel, Machine and InSpec; an invariant of client, network and sending server for each packet identifier, induction over joint runs | `lost_pubcomp_refuted`, `pubrel_answered_partial` | Refuted: a PUBREL without a record is refused with MQTTBadResponse and not answered; the server waits for ever. Proved instead: as long as PUBCOMP has not gone out, every PUBREL is answered, now or at its next arrival. |
| C86 | Setting up a context is all or nothing and starts anew | proved | InitModel; case analysis on the arguments, induction over sequences of calls | `init_all_or_nothing`, `init_stateful_all_or_nothing`, `init_retransmits_all_or_nothing`, `init_starts_anew`, `every_start_is_reached` | the arrays' contents are the caller's: MQTT_InitStatefulQoS does not clear them |
| C87 | What MQTT_Init accepts can be used | partial | InitModel; case analysis on the arguments, induction over sequences of calls | `accepted_is_usable_refuted`, `accepted_is_usable_partial` | Refuted: pBuffer NULL is accepted by MQTT_Init |
| C88 | Names of codes are unambiguous | proved | InitModel; case analysis on the arguments, induction over sequences of calls | `status_names_distinct`, `state_names_distinct` | strings as the functions return them |
| C89 | QoS 1 messages arrive at least once, in order | proved | CoreModel (ConcModel for C91), Machine, NetSpec and OutSpec; an invariant of client, network and server for each packet identifier, induction over joint runs; a computed witness for C91 | `at_least_once_in_order` | For one thread. delivered1 is the first half of the conclusion. Of the network: what the client sends after a part of a packet does not arrive on that connection (otherwise see C110). |
| C90 | A PUBACK means the message arrived | proved | CoreModel (ConcModel for C91), Machine, NetSpec and OutSpec; an invariant of client, network and server for each packet identifier, induction over joint runs; a computed witness for C91 | `at_least_once_in_order` | For one thread. confirmed1 is the second half of the conclusion. Of the network as in C89. |
| C91 | The same with several threads | partial | CoreModel (ConcModel for C91), Machine, NetSpec and OutSpec; an invariant of client, network and server for each packet identifier, induction over joint runs; a computed witness for C91 | `at_least_once_threads_partial`, `at_least_once_threads_refuted` | Refuted by a race of a publish with the resumption of the session; proved for histories without it. |
| C92 | A server that acknowledges completes the session | proved | CoreModel and DrainSpec; the effect of one handled packet on the publishes in flight, induction over the calls | `acknowledged_session_drains` | Calls of the two loops with results MQTTSuccess or MQTTNeedMoreBytes, callback making no API calls; each publish in flight is awaiting an acknowledgement. |
| C93 | A dead server is noticed, one that answers is not declared dead | proved | CoreModel; cases of one idle pass, induction over the calls with the time of the last packet and of the last PINGREQ as integers | `dead_server_noticed`, `timeout_means_silence`, `unanswered_ping_reported_refuted` | Both directions proved. Refuted: a pass that reads bytes does not look at the clock, so an unanswered PINGREQ is not reported while a server sends parts of a packet. |
| C94 | An identifier handed out is not in use | partial | CoreModel; the identifiers handed out are counted modulo 65535 | `fresh_identifier_partial`, `fresh_identifier_refuted` | Refuted: MQTT_GetPacketId does not look at the publishes in flight; an identifier still in use comes round after 65535 calls. Proved: not among the 65534 handed out last. |
| C95 | The loops may be called from the event callback | partial | NestModel; the loops of CoreModel with the callback as a parameter, shown equal to CoreModel's | `nested_model_same`, `nested_loop_undefined_refuted`, `nested_loop_loses_refuted`, `nested_error_harmless_partial` | Refuted: the inner call handles the same packet again; then the outer one takes away bytes that are gone (memmove of a wrapped length) or are the next packet's. |
| C96 | NULL arguments are refused | partial | NullModel; the checks at the head of each function in front of the models of the others, which are reached with the pointers given | `null_context_refused`, `null_argument_refused`, `null_argument_harmless_refuted`, `given_arguments_same`, `null_serializer_refused`, `null_decoder_refused`, `given_serializer_same`, `given_decoder_same`, `null_state_refused_partial`, `null_reserve_refuted`, `given_state_same` | True but for two exceptions, both stated: MQTT_Connect (see also C50) and MQTT_ReserveState with QoS 0. MQTT_SerializePublishHeaderWithoutTopic, the two header functions for SUBSCRIBE and UNSUBSCRIBE and the two functions on MQTTVec check nothing and are not included; the initialisation functions are in C86. |
| C97 | In a calm environment calls succeed | proved | Calm spec (CalmSpec.v) of the clock readings and answers consumed by a call; a small calculus of results of smooth runs over the model of the core; induction over the sending and receiving loops. | `calm_calls_send`, `calm_calls_succeed`, `calm_connect_succeeds` | The first two bytes of the CONNACK have to come in consecutive polls (C53). The store function must not fail for a publish, nor the retrieve function for a persistent session. |
| C98 | A QoS value outside the enumeration is refused | partial | QosModel: the state engine and MQTT_Publish with the QoS as an integer, proved equal to the other models on 0, 1 and 2; the engine proofs carried over along maps of the QoS values | `invalid_qos_refused_refuted`, `invalid_qos_described`, `invalid_record_stays`, `integer_qos_engine`, `integer_qos_publish` | Refuted. What happens instead is described for every such value: the packet goes out as a QoS 0 publish whose payload begins with the identifier, the call returns MQTTIllegalState, and the record stays until a clean session: acknowledgements do not complete it, it cannot be removed, its identifier stays taken and it is resent at every resumption. The field is taken as unsigned, as common compilers do for this enumeration. |
| C99 | The bytes sent can be read in one way only | proved | unique readability of the wire format: the fixed header gives the type and the length, the length ends the packet, and each body can be split in one way (packet_split, mstr_split, connect_body_inj, publish_body_inj); then by induction over the sequence; carried to the histories of the machine by completed_legal | `stream_read_one_way`, `sent_read_one_way` | For histories: if no packet was cut off by the transport and the copies the application returned for retransmission are packets. A QoS 0 publish is read without the identifier the caller passed, which it does not carry. |
| C100 | Converting lengths to int32_t loses nothing | partial | IntModel: the functions with the conversions and with signed overflow; equal to those of StateModel and CoreModel below 2^31; sizes from the tokens of the machine; an abstract copy of 2^32 bytes and an abstract array of more than 2^31 slots | `sending_converts`, `receiving_converts`, `records_convert`, `lengths_small`, `copies_sent_refuted`, `free_slot_found_refuted` | Holds for all packets the library makes or accepts and for fewer than 2^31 records. Refuted for copies of 2^32 bytes returned by the retrieve function (size_t of more than 32 bits): MQTT_Connect succeeds without sending a byte of them; and for arrays of more than 2^31 slots. The conversion of a value that does not fit is taken as reduction modulo 2^32. |
| C101 | A new connection begins with nothing in the receive buffer | partial | Invariant of histories: not connected implies index 0, kept by every call if the loops are called with a connection only; what MQTT_Connect does to the index; framing of the stream when the buffer begins with bytes no packet begins with | `starts_empty_partial`, `bytes_at_connect`, `garbage_stays`, `starts_empty_refuted` | Holds for histories in which MQTT_ProcessLoop and MQTT_ReceiveLoop are called only while connected, and for every connection the broker begins with a new session. Refuted otherwise: the loops do not look at the connection status before they read, a pass after MQTT_Disconnect fills the buffer, and a MQTT_Connect that resumes the session reads its CONNACK into the buffer from position 0 without resetting the index. From then on no packet is handled, however often the loop is called. |
| C102 | MQTT_Connect may be called from the event callback | partial | NestModel with MQTT_Connect among the actions of the application; every function of a pass keeps a client that is not disconnected so; agreement of the two passes by congruence; executions | `nested_connect_refused_partial`, `nested_connect_undefined_refuted`, `nested_reconnect_undefined_refuted` | Proved for clients that are not disconnected, arguments MQTT_Connect takes, and applications that do not call MQTT_Disconnect from the callback: the pass is the same as without the calls. Refuted in a pass without a connection and after MQTT_Disconnect in the same callback: the index is reset under the running pass, which then wraps it. |
| C103 | Every call ends within the time set for it | proved | time bounds composed along the program text, with the readings used so far as part of the invariant; the loops by induction on the script of the transport | `calls_in_time`, `connect_in_time`, `connected_in_time` | The time the application's callbacks and the platform's functions take is in D. Skipping a packet that does not fit the buffer is charged per byte: the code has no overall limit there (C104). |
| C104 | A PINGREQ is sent within the keep-alive interval | partial | from the exact effect of an idle pass (C41); executions with a chatty and a dripping broker | `keep_alive_kept_partial`, `keep_alive_under_traffic_refuted`, `pass_outlasts_keep_alive_refuted` | Proved for passes that read nothing: something was sent within the interval, or a PINGREQ within its timeout, or one goes out now. Refuted when every pass reads something (handleKeepAlive is called only if recvBytes == 0), and for one pass that skips a large packet arriving slowly. |
| C105 | A client without a clock works as documented | partial | time-free bounds composed along the program text with the clock frozen; executions of one publish and of one incoming QoS 1 PUBLISH | `no_clock_calls_end_partial`, `no_clock_vector_whole`, `no_clock_buffer_once`, `no_clock_no_ping`, `no_clock_publish_refuted`, `no_clock_ack_cut_refuted` | Proved: calls that send no packet through the vector send end; a vector send that returns success or failure has sent everything or the transport failed; a buffer send asks the transport exactly once; no PINGREQ is sent by MQTT_ProcessLoop. Refuted: MQTT_Publish never returns when the transport takes nothing (sendMessageVector compares with >), and a PUBACK is cut when the transport takes part of it (sendBuffer compares with >=). |
| C106 | The packets handled are the packets sent | partial | ConcModel, Machine and ByteSpec; the bytes read since the last CONNECT are followed through each call (history_fed), and with unique readability of headers each packet handled is the next of the server's (bytes_joint, bytes_linked); a computed witness | `packets_of_the_stream`, `careless_refuted` | Proved for applications that call the loops only on a connection and, after MQTTRecvFailed, not again until MQTT_Connect. Refuted without this: MQTTRecvFailed while a large packet is skipped leaves the connection up, and the next call takes the rest of that packet for packets. |
| C107 | QoS 2 messages arrive exactly once, over a stream of bytes | proved | C81 and C82 for the network of packets, and the simulation of C106 | `bytes_exactly_once` | Terms as in C81, also of the network, and of the application as in C106. |
| C108 | QoS 1 messages arrive at least once, over a stream of bytes | partial | C89 to C91 for the network of packets, and the simulation of C106 | `bytes_at_least_once`, `bytes_at_least_once_threads_partial` | Proved for one thread; for several as far as C91: resuming the session is not disturbed by another thread. |
| C109 | Messages of the server reach the application, over a stream of bytes | proved | C84 for the network of packets, and the simulation of C106 | `bytes_inbound_delivery` | Terms as in C84, also of the network, and of the application as in C106. |
| C110 | QoS 2 messages arrive exactly once, over bytes in both directions | partial | FullSpec: one stream of bytes for each connection; a simulation by the network of C107 (full_sim), with unique readability of what the client sends (good, run_good); a computed witness | `streams_exactly_once`, `half_sent_refuted`, `without_timeouts` | Proved when nothing is sent on a connection that is still up after a send on it timed out, so always when no send times out. Refuted without this: MQTT_Disconnect, which must be called before MQTT_Connect, sends DISCONNECT after the half of a publish. |
| C111 | QoS 1 messages arrive at least once, over bytes in both directions | partial | C108 and the simulation of C110 | `streams_at_least_once`, `streams_at_least_once_threads_partial` | Proved for one thread; for several as far as C91: resuming the session is not disturbed by another thread. |
| C112 | Messages of the server reach the application, over bytes in both directions | partial | C109 and a simulation as in C110 (full_in_sim); a computed witness | `streams_inbound_delivery`, `without_timeouts_in`, `half_acknowledged_refuted` | Proved when nothing is sent on a connection that is still up after a send on it timed out, so always when no send times out. Refuted without this: DISCONNECT after three bytes of a PUBACK acknowledges the message with identifier 224. |
| C113 | Subscription options are those of MQTT 3.1.1 | partial | QosSub: the functions with integer fields; the bytes by induction over the lists; unique readability of the packet | `integer_qos_subscribe`, `subscribe_options_described`, `serialize_options_described`, `subscribe_options_refuted` | Refuted. What happens instead is described for all values: the call succeeds and the low byte of each field goes out; the packet is legal just when these are 0, 1 or 2. |
| C114 | Each answer belongs to a request of its own | partial | ReqSpec: the last connection with bytes in both directions; invariant: the packets the server read are the first of those sent (unique readability), the answers belong to those it has answered; FullSpec and MachFacts for the rest | `answers_to_requests`, `without_timeouts_requests`, `half_subscribed_refuted` | Proved when nothing is sent on a connection after a send that timed out, in particular when no send times out. Refuted otherwise: after a half-sent SUBSCRIBE the bytes of a PUBLISH complete it, the server subscribes the client to a filter nobody asked for, and the application is told of a SUBACK for a call that returned MQTTSendFailed. The application must store the copies of its publishes faithfully (keeps_copies) and heed MQTTRecvFailed (careful). |
| C115 | What the server reads on a connection is the first part of what was sent on it | partial | LineSpec: all connections as lines of bytes; invariant by unique readability of the client's packets; refinement (MachFinal) for the packets the client sends | `packets_as_sent`, `without_timeouts_lines`, `packets_as_sent_refuted` | Proved when nothing is sent on a connection after a send that timed out, in particular when no send times out, and when the application stores the copies of its publishes faithfully (keeps_copies). Refuted otherwise: after the half of a SUBSCRIBE the bytes of a QoS 0 PUBLISH complete it; the server reads a SUBSCRIBE nobody sent, and the message, whose MQTT_Publish returned MQTTSuccess, is not read though the connection stays up. |
| C116 | A server that checks the packets finds nothing wrong | partial | LegalSpec over LineSpec; invariant of the machine: every packet but CONNECT follows a CONNECT sent whole with no DISCONNECT or CONNECT in between | `connections_in_order`, `server_finds_order`, `server_finds_order_refuted` | The packets sent whole on each connection are in order without condition (connections_in_order). What the server reads: proved when nothing is sent on a connection after a send that timed out, and when the application stores the copies of its publishes faithfully (keeps_copies). Refuted otherwise: after the half of a SUBSCRIBE, completed by the bytes of a PUBLISH, the rest of the PUBLISH begins no packet, on a connection that both sides take to be up. |
| C117 | MQTTSendFailed is returned exactly when a packet was cut | proved | WholeProofs: case analysis over the outcome lemmas of each call (publish_spec, connect_spec, resume_spec, loop_handled) | `whole_unless_failed`, `failed_means_cut`, `whole_until_failed` | Tells the application when the stream is no longer at a packet boundary: C46, C110, C112 and C114 to C116 show what happens when it goes on sending then. A call made from inside the event callback reports its own MQTTSendFailed to the callback, not to the loop around it; hence the restriction. |
| C118 | Each function returns the statuses its documentation lists | partial | DocSpec (the lists of core_mqtt.h) and DocProofs: case analysis over the outcome lemmas of each call; DocCases: a run for every status | `statuses_returned_partial`, `statuses_reached`, `statuses_documented_refuted` | Refuted for four functions. Not listed but returned: MQTTStateCollision and MQTTIllegalState by MQTT_Publish; MQTTBadResponse and MQTTServerRefused by MQTT_Connect; MQTTNoMemory by both loops (no record free for an incoming publish); MQTTStatusNotConnected and MQTTStatusDisconnectPending by MQTT_ReceiveLoop. Proved: these are the only exceptions, and the set of statuses of each function is exact; MQTTNoMemory is listed but never returned by MQTT_Connect, MQTT_Subscribe, MQTT_Unsubscribe, MQTT_Ping and MQTT_Disconnect. |
| C119 | Serializer and state functions return the statuses their documentation lists | partial | LowSpec (the lists of the headers) and LowProofs: case analysis of each function; LowCases: a run for every status | `low_statuses_partial`, `low_statuses_reached`, `low_documented_refuted` | Refuted for three functions: MQTT_ReserveState returns MQTTBadParameter (packet id 0), MQTT_UpdateStatePublish returns MQTTNoMemory (no record free for an incoming publish), MQTT_ProcessIncomingPacketTypeAndLength returns MQTTNeedMoreBytes (length not complete in the buffer); none is listed. Proved: these are the only exceptions, and the set of statuses of each function is exact. MQTT_SerializePublishHeaderWithoutTopic and the size functions of DISCONNECT and PINGREQ are left out: they fail for NULL pointers only or not at all. |
| C120 | A refused call of the state engine or a serializer has no effect | proved | RefuseProofs: the specification of the state engine does nothing when it refuses, and runs from equal views give equal results; case analysis of each serializer | `refused_call_no_effect`, `refused_serializer_no_effect`, `refused_dup_no_effect` | Output parameters of the deserializers are not covered: MQTT_DeserializeAck and MQTT_DeserializePublish may write them before they fail. |

## 4. Findings: claims the code does not meet

Each is a theorem `..._refuted` with a concrete witness computed by the kernel.  The
witness is an execution of the model; it was not replayed on the C code.

| claim | what happens |
|---|---|
| C07 | With a 32-bit `size_t`, 65535 filters of 65535 bytes overflow the computed size and the serialiser writes outside a buffer of the reported size. |
| C14 | PUBLISH packets with remaining length 268435451..268435455 are legal but refused. |
| C25 | `+/#` does not match `a`, and `+/+` does not match `a/`. `plus_gap` is the exact set of misses. |
| C29 | DUP with QoS 0 is sent by `MQTT_Publish` but refused by the serialiser. On a big-endian machine `MQTT_Subscribe` sends a wrong QoS byte. |
| C45 | `MQTT_Disconnect` from the callback makes the buffer index wrap. |
| C46 | After a send that timed out the connection stays up, and the next packet follows half a packet. |
| C47 | A publish whose first send failed, resent on resumption, has its PUBACK refused. |
| C48 | A CONNECT with a password and no user name is produced, and one with an empty will topic. |
| C49 | A will with NULL payload and non-zero length leaves old buffer bytes in the CONNECT. |
| C50 | `MQTT_Connect` with bad arguments on a working connection sends nothing, but leaves the connection counted as broken. (With good arguments it is refused harmlessly.) |
| C51 | After skipping an oversized packet timed out, its payload is parsed as packets and delivered. |
| C52 | A keep-alive timeout is reported although the PINGRESP lies in the buffer. |
| C53 | A CONNACK header arriving in two pieces is refused. |
| C54 | Packets are handled and delivered without a connection. |
| C55 | A publish the state engine refuses has been sent by then. |
| C56 | A PUBLISH with an empty topic and a payload is delivered. |
| C57 | A failed store leaves its record, and every resumption fails from then on. |
| C58 | With a buffer under 5 bytes the loop can get stuck. |
| C59 | A ping is sent early, since `MQTT_Connect` does not set `lastPacketRxTime`. |
| C60 | A repeated PUBREC is answered with nothing. |
| C61 | `MQTT_Connect` takes more than three times its timeout when the CONNACK drips in. |
| C62 | A topic name with a NUL byte is matched by a different filter of the same length. |
| C65 | `MQTT_Connect` deadlocks when recv fails while it reads the CONNACK: it holds the mutex that `recvExact` asks for. With a recursive mutex there is no deadlock. |
| C69 | After a failed recv another thread can still send. A resumed session is resent although another thread's send failed, and `MQTT_Connect` reports success. |
| C70 | A ping by another thread between the clock and the flags read in `handleKeepAlive` causes `MQTTKeepAliveTimeout`. |
| C71 | A publish by another thread during resumption moves the records: one publish is never resent, the new one is sent twice. |
| C72 | `MQTT_Disconnect` by another thread during a pass makes the buffer index wrap. |
| C69 | `MQTT_Disconnect` by another thread during the resumption of a session: the stored publishes are sent behind the DISCONNECT packet and `MQTT_Connect` reports success. |
| C77 | The clear function is called after the mutex was given back: the copy of another thread's publish with the identifier just freed is cleared, and the next resumption fails with `MQTTPublishRetrieveFailed`. |
| C83 | The client forgets its session when a CONNACK accepts a clean one, not when it sends the CONNECT. When that CONNACK is lost, and the next one too, publishes of the session the server has discarded are resent in the new one. |
| C85 | A PUBREL for which the client has no record is refused (`MQTTBadResponse`) and not answered. When a PUBCOMP is lost, the server sends the PUBREL again on the next connection (4.4), gets no PUBCOMP and keeps the exchange and its identifier for ever; each reconnection makes `MQTT_ProcessLoop` fail once more. The standard asks for a PUBCOMP (MQTT-4.3.3-2). |
| C87 | `MQTT_Init` does not check `pNetworkBuffer->pBuffer`: NULL is accepted, after which both loops always answer `MQTTBadParameter` (and `MQTT_Connect` would read into NULL). |
| C91 | `MQTT_Connect` sets the status to connected and gives the mutex back before it sends the unacknowledged publishes again. A QoS 1 publish of another thread made meanwhile is sent twice on the same connection; the server acknowledges both. The second PUBACK arrives after the identifier is free: if it is used again, the new message is confirmed, and its copy cleared, although it never arrived. |
| C93 | A pass of `MQTT_ProcessLoop` that reads any bytes skips the keep-alive check: an unanswered PINGREQ is not reported while a server drips an unfinished packet. |
| C94 | `MQTT_GetPacketId` does not look at the publishes in flight: after 65535 calls it hands out the identifier of a publish still unacknowledged, and `MQTT_Publish` answers `MQTTStateCollision`. |
| C95 | A loop function called from the event callback finds the packet shown to the application still at the front of the buffer: it is handled a second time and taken away, and the outer call then subtracts its length again (core_mqtt.c:1840-1845). The index wraps and memmove gets a huge length, or, if the next packet was there, that packet is lost without an error. The header does not forbid such calls. |
| C96 | `MQTT_Connect` with a NULL pointer (other than the context) on a working connection answers `MQTTBadParameter` and marks the connection as broken. `MQTT_ReserveState` reports success for a NULL context and QoS 0. |
| C98 | `MQTT_Publish` with a QoS above 2 sends a QoS 0 packet with the identifier in front of the payload, returns `MQTTIllegalState` and leaves a record that only a clean session removes. |
| C100 | A stored copy whose length is a multiple of 2^32 counts as resent though nothing is sent; with more than 2^31 records no record can be added (64-bit `size_t`). |
| C101 | MQTT_Connect that resumes a session does not reset `index`: bytes read by a pass of the loop after MQTT_Disconnect are taken as the beginning of the first packet, and the client never handles a packet again on that connection. |
| C102 | MQTT_Connect from the callback of a pass made without a connection resets `index` under that pass: undefined behaviour. |
| C104 | Incoming traffic starves the keep-alive: with a QoS 0 PUBLISH in every pass no PINGREQ is sent for any length of time, so the broker closes the connection; a slowly arriving oversized packet does the same within one call. |
| C105 | With the documented dummy clock and timeouts of 0, MQTT_Publish spins for ever on a transport that takes nothing, while an acknowledgement of which the transport takes only a part is abandoned half sent. |
| C106 | When the bytes of a packet too large for the buffer come late (MQTT_RECV_POLLING_TIMEOUT_MS), the loop returns MQTTRecvFailed, the connection stays up, and the next call takes the rest of that packet for packets: a payload can contain a PUBACK, and the application is told that a message arrived that the server never got. |
| C110 | After a send timeout (MQTTSendFailed, connection still up) the next call sends its packet behind the part already sent. Even MQTT_Disconnect does: a server that got all but the last two bytes of a publish takes [224; 0] as the end of its payload and passes on a message nobody published, and the true one is never passed on. |
| C112 | When sending an acknowledgement times out in the middle, the next packet completes it: [64; 2; 0] and DISCONNECT are a PUBACK for identifier 224, [64; 2; 0] and PINGREQ one for 192. The server drops a message the client never got. |
| C113 | The qos fields of a subscription list are not checked: QoS 3 or an uninitialised field is sent as it is, and the server must close the connection. |
| C114 | After a timed-out send the connection stays up, and later packets complete the half-sent one: the server can make a subscription nobody asked for and a SUBACK answers a call that failed. |
| C115 | After a timed-out send the connection stays up; a QoS 0 message published next with MQTTSuccess is read by the server as the rest of the half-sent packet. |
| C116 | After a timed-out send the connection stays up and the server finds bytes in it that begin no packet. |
| C118 | Statuses missing from the documentation of MQTT_Connect, MQTT_Publish, MQTT_ProcessLoop and MQTT_ReceiveLoop: an application that handles the listed ones only misses a refused connection (MQTTServerRefused). |
| C119 | Statuses missing from the documentation of MQTT_ReserveState, MQTT_UpdateStatePublish and MQTT_ProcessIncomingPacketTypeAndLength; the last one returns MQTTNeedMoreBytes in ordinary use, when a header arrives in pieces. |

Seen while modelling, not stated as claims: `MQTT_CancelCallback` with id 0 trips an
assert; the two send loops compare their timeout differently (`>` and `>=`);
`discardStoredPacket` has no overall timeout. With threads: `MQTT_CancelCallback`
by another thread between the PUBREL and its state update makes the pass end with
`MQTTBadResponse`; the store function, and the clear function when a session begins, run with the
mutex held, so an API call from them would deadlock; `MQTT_Connect` can return `MQTTStatusDisconnectPending` when
another thread's send fails while a session is resumed.

## 5. Files

In the order of `rocq/_CoqProject`.  `*Model` transcribes the code, `*Spec` and `WireSpec`
hold the independent specifications, `*Harness` and `CoreTime` the vocabulary of the
statements (histories, traces, budgets), `*Proofs*`, `CoreFinal*` and `CoreCases` the
proofs, `Props_*` the property theorems with an Example beside each.

## 6. Print Assumptions

Output for each theorem of the manifest: `Closed under the global context`.

* `Props_Byte.v`: `bytes_at_least_once`, `bytes_at_least_once_threads_partial`, `bytes_exactly_once`, `bytes_inbound_delivery`, `careless_refuted`, `packets_of_the_stream`
* `Props_Calm.v`: `calm_calls_send`, `calm_calls_succeed`, `calm_connect_succeeds`
* `Props_Clock.v`: `calls_in_time`, `connect_in_time`, `connected_in_time`, `keep_alive_kept_partial`, `keep_alive_under_traffic_refuted`, `pass_outlasts_keep_alive_refuted`
* `Props_Conc.v`: `alone_as_sequential`, `alone_recursive`, `connect_deadlock_refuted`, `disconnect_by_thread_refuted`, `disconnect_elsewhere_partial`, `hangs_only_in_connect_partial`, `keep_alive_race_refuted`, `keep_alive_threads_partial`, `recursive_never_hangs`, `resume_after_disconnect_refuted`, `resume_after_send_error_refuted`, `resume_skips_publish_refuted`, `send_after_recv_error_refuted`, `threads_acknowledged`, `threads_connect`, `threads_error_noticed`, `threads_qos2_once`, `threads_resume_partial`, `threads_safe`, `threads_sends_partial`, `threads_state`, `threads_stream_framed`
* `Props_Core.v`: `broken_stays_broken`, `buffer_never_overrun`, `call_sends_its_packet`, `connect_outcomes`, `connect_same_as_serializer`, `connect_when_not_disconnected`, `disconnect_outcomes`, `elapsed_time_exact`, `histories_safe`, `publish_outcomes`, `publish_same_as_serializer`, `publish_same_dup_qos0_refuted`, `refused_without_connection`, `send_buffer_prefix`, `send_vector_prefix`, `silent_without_connection`, `stored_copy_exact`, `subscribe_same_as_serializer`, `subscribe_same_big_endian_refuted`, `unsubscribe_same_as_serializer`, `vector_copy_exact`, `vector_size_exact`
* `Props_Doc.v`: `statuses_documented_refuted`, `statuses_reached`, `statuses_returned_partial`
* `Props_Drain.v`: `acknowledged_session_drains`
* `Props_Findings.v`: `awaited_ack_accepted_partial`, `delivery_unconnected_refuted`, `disconnect_in_callback_refuted`, `early_ping_refuted`, `empty_topic_delivered_refuted`, `more_bytes_fit_partial`, `refused_connect_breaks_refuted`, `refused_publish_sent_refuted`, `repeated_pubrec_harmless_partial`, `repeated_pubrec_unanswered_refuted`, `resent_publish_refused_refuted`, `send_after_partial_refuted`, `skipped_payload_delivered_refuted`, `small_buffer_stuck_refuted`, `split_connack_refused_refuted`, `store_failure_sticks_refuted`, `store_failure_undone_partial`, `timeout_with_pingresp_refuted`, `topic_as_sent_partial`
* `Props_Fresh.v`: `bytes_at_connect`, `garbage_stays`, `starts_empty_partial`, `starts_empty_refuted`
* `Props_Full.v`: `half_acknowledged_refuted`, `half_sent_refuted`, `streams_at_least_once`, `streams_at_least_once_threads_partial`, `streams_exactly_once`, `streams_inbound_delivery`, `without_timeouts`, `without_timeouts_in`
* `Props_Ids.v`: `fresh_identifier_partial`, `fresh_identifier_refuted`
* `Props_In.v`: `inbound_delivery`, `lost_pubcomp_refuted`, `pubrel_answered_partial`
* `Props_Init.v`: `accepted_is_usable_partial`, `accepted_is_usable_refuted`, `every_start_is_reached`, `init_all_or_nothing`, `init_retransmits_all_or_nothing`, `init_starts_anew`, `init_stateful_all_or_nothing`, `state_names_distinct`, `status_names_distinct`
* `Props_Int.v`: `copies_sent_refuted`, `free_slot_found_refuted`, `lengths_small`, `receiving_converts`, `records_convert`, `sending_converts`
* `Props_Legal.v`: `connections_in_order`, `server_finds_order`, `server_finds_order_refuted`
* `Props_Life.v`: `dead_server_noticed`, `timeout_means_silence`, `unanswered_ping_reported_refuted`
* `Props_Line.v`: `packets_as_sent`, `packets_as_sent_refuted`, `without_timeouts_lines`
* `Props_Loop.v`: `callbacks_served`, `chunking_irrelevant`, `idle_pass_means_done`, `idle_pass_pings`, `last_transmission`, `others_not_acknowledged`, `outstanding_ping`, `oversized_skipped`, `packet_id_returned`, `packet_ids_distinct`, `packets_acknowledged`, `process_loop_outcomes`, `qos2_delivered_once`, `receive_loop_no_timeout`, `receive_loop_outcomes`, `stream_framed`, `timeout_exact`
* `Props_Low.v`: `low_documented_refuted`, `low_statuses_partial`, `low_statuses_reached`
* `Props_Mach.v`: `acks_answer`, `fetch_stored_partial`, `fetch_stored_refuted`, `ids_in_turn`, `machine_run`, `machine_run_alone`, `pubrel_earned`, `sends_online`, `store_before_send`, `stream_of_packets`, `told_once`
* `Props_Nest.v`: `nested_error_harmless_partial`, `nested_loop_loses_refuted`, `nested_loop_undefined_refuted`, `nested_model_same`
* `Props_Nest2.v`: `nested_connect_refused_partial`, `nested_connect_undefined_refuted`, `nested_reconnect_undefined_refuted`
* `Props_Net.v`: `exactly_once_in_order`, `told_means_passed_on`
* `Props_NoClock.v`: `no_clock_ack_cut_refuted`, `no_clock_buffer_once`, `no_clock_calls_end_partial`, `no_clock_no_ping`, `no_clock_publish_refuted`, `no_clock_vector_whole`
* `Props_Null.v`: `given_arguments_same`, `given_decoder_same`, `given_serializer_same`, `given_state_same`, `null_argument_harmless_refuted`, `null_argument_refused`, `null_context_refused`, `null_decoder_refused`, `null_reserve_refuted`, `null_serializer_refused`, `null_state_refused_partial`
* `Props_Out.v`: `at_least_once_in_order`, `at_least_once_threads_partial`, `at_least_once_threads_refuted`, `fetch_stored_alone`
* `Props_Qos.v`: `integer_qos_engine`, `integer_qos_publish`, `integer_qos_subscribe`, `invalid_qos_described`, `invalid_qos_refused_refuted`, `invalid_record_stays`, `serialize_options_described`, `subscribe_options_described`, `subscribe_options_refuted`
* `Props_Refuse.v`: `refused_call_no_effect`, `refused_dup_no_effect`, `refused_serializer_no_effect`
* `Props_Req.v`: `answers_to_requests`, `half_subscribed_refuted`, `without_timeouts_requests`
* `Props_Rest.v`: `connect_legal_partial`, `no_early_ping_partial`, `refused_publish_not_sent_partial`
* `Props_Sent.v`: `bad_parameter_sent_refuted`, `refused_publish_sent_only_dup`
* `Props_Ser.v`: `ack_bytes_exact`, `ack_decoding_exact`, `ack_other_refused`, `connack_decoding_exact`, `connect_bytes_exact`, `connect_legal_refuted`, `connect_null_will_payload_refuted`, `connect_size_exact`, `connect_size_within_limit`, `connect_will_topic_refuted`, `disconnect_bytes_exact`, `dup_flag_exact`, `dup_flag_one_bit`, `header_decision_final`, `header_ignores_unreceived_bytes`, `header_needs_at_most_five_bytes`, `header_recognised_exactly`, `pingreq_bytes_exact`, `pingresp_decoding_exact`, `publish_bad_parameters_refused`, `publish_bytes_exact`, `publish_decoding_exact`, `publish_header_exact`, `publish_meaning_unique`, `publish_round_trip`, `publish_size_exact`, `publish_size_limit_refuted`, `publish_size_within_limit_partial`, `pull_parser_agrees`, `remaining_length_round_trip`, `suback_codes_exact`, `suback_decoding_exact`, `subscribe_bytes_exact`, `subscribe_size_exact`, `subscription_bad_filter_refused`, `subscription_bad_parameters_refused`, `subscription_size_32bit_refuted`, `subscription_size_exact_64bit_partial`, `subscription_size_within_limit`, `unknown_ack_refused`, `unsubscribe_bytes_exact`, `unsubscribe_size_exact`
* `Props_Sess.v`: `discarded_not_resumed_partial`, `discarded_not_resumed_refuted`
* `Props_State.v`: `acks_follow_protocol`, `acks_touch_only_their_publish`, `cancel_removes_exactly`, `capacity_never_exceeded`, `completed_stays_completed`, `completes_once_per_reservation`, `completion_frees_id`, `incoming_capacity_exact`, `inflight_ids_unique`, `outgoing_capacity_exact`, `receive_in_use_reported`, `record_array_is_ordered_map`, `resend_lists_exact`, `resend_walk_deterministic`, `reserve_in_use_refused`
* `Props_Time.v`: `calls_end`, `connect_overruns_timeout_refuted`, `frozen_clock_never_ends`, `silent_server_retries`
* `Props_Topic.v`: `topic_gap_never_matched`, `topic_matching_bad_parameters`, `topic_matching_complete_partial`, `topic_matching_complete_refuted`, `topic_matching_exact`, `topic_matching_exact_nul`, `topic_matching_safe`, `topic_matching_sound`, `topic_no_plus_no_gap`, `topic_nul_sound_refuted`
* `Props_Up.v`: `nothing_before_connect_partial`
* `Props_Whole.v`: `failed_means_cut`, `whole_unless_failed`, `whole_until_failed`
* `Props_Wire.v`: `sent_read_one_way`, `stream_read_one_way`

## 7. Wrong programs

`seeded/LOG.jsonl` has one line per edit of the model, tried in a scratch copy.  A failing
proof is replaced by `Admitted` there and the build goes on.  `proofs_failed` lists these
proofs.  `theorems_failed` lists the manifest theorems that depend on one of them
according to the `.glob` files.  This is an upper bound: such a theorem cannot be built from
its present proof, but that does not show its statement to be false of the edited program.
For the serialiser, state and topic edits rebuilding stopped at that part once a
proof had failed there.
A proof may also fail because its script is brittle, so `failed` is weaker evidence than a
failing `Example` or `_refuted` theorem, which are computed.  `survived` is the strong result:
nothing noticed the edit, and each survivor was looked at and has a `note`.
