(** Behaviour of the faithful model that contradicts what one would expect, each with
    a concrete witness, next to what does hold. Proofs of the latter are in
    CoreFinal3.v and CoreFinal5.v and the files it uses. *)
From Verif Require Import Base StateModel StateSpec StateHarness SerModel WireSpec SerHarness CoreModel CoreSpec CoreHarness CoreCases
  CoreFinal3 CoreFinal5.

(** a client connected in its own environment; [inp] follows the CONNACK *)
Definition env_of (inp recvs sends times : list Z) : env := mkEnv ([32; 2; 0; 0] ++ inp) ([1; 1; 2] ++ recvs) (100 :: sends) times [] [] [].
Definition conn1 : call := CConnect con1 None 1000.
Definition linked (inp recvs sends times : list Z) : st := after_calls [conn1] (client1 (env_of inp recvs sends times)).
Lemma linked_begun inp recvs sends times : forallb (fun b => (0 <=? b) && (b <? 256)) inp = true ->
  ended [conn1] (client1 (env_of inp recvs sends times)) = true -> Begun cfg1 3 2 (linked inp recvs sends times).
Proof. intros H E. apply begun_after; [|reflexivity|exact E]. apply bytes_dec. cbn [env_of e_in app forallb]. now rewrite H. Qed.
Ltac linked := apply linked_begun; vm_compute; reflexivity.

(** *** C45 *)
(** MQTT_Disconnect called from the callback resets the receive buffer under
    receiveSingleIteration, whose [index -= totalMQTTPacketLength] then wraps
    (core_mqtt.c:1840-1845): the memmove leaves the buffer. Everything else about the
    history is sound. *)
Theorem disconnect_in_callback_refuted : exists buf e l,
  bytes_ok buf /\ bytes_ok (e_in e) /\ cbs_sound e /\ Forall call_sound l /\ e_cbs e = [[ODisconnect]] /\
  run_calls cfg1 l (mkSt (init_context buf (fresh_recs 3 2) true) e) = Undef.
Proof.
  exists (repeat 0 32), (mkEnv [32; 2; 0; 0; 48; 3; 0; 1; 97] [1; 1; 2; 5] (repeat 100 9) (repeat 0 99) [[ODisconnect]] [] []), [conn1; CProcess].
  split; [apply bytes_dec; reflexivity|]. split; [apply bytes_dec; reflexivity|]. split; [repeat constructor|].
  split; [|split; [vm_compute; reflexivity|vm_compute; reflexivity]].
  repeat constructor; cbn; unfold u16_ok; try lia; vm_compute; congruence.
Qed.
Print Assumptions disconnect_in_callback_refuted.

(** *** C46 *)
(** A PUBLISH of which only 3 bytes could be sent in time, then a PINGREQ on the same
    connection: the server reads the PINGREQ as part of the PUBLISH. *)
Theorem send_after_partial_refuted : exists s s1 t1 s2 t2, Begun cfg1 3 2 s /\
  run_call cfg1 (COp (OPublish (pub1 Q0) 0)) s = Ret SendFailed s1 t1 /\ x_status (s_ctx s1) = Connected /\
  (exists rest, rest <> [] /\ outs t1 <> [] /\ publish_packet (pub1_msg Q0 0) = outs t1 ++ rest) /\
  run_call cfg1 (COp OPing) s1 = Ret Success s2 t2 /\ outs t2 = [192; 0].
Proof.
  exists (linked [] [] [3; 0; 100; 100] (repeat 0 10 ++ repeat 30000 8)).
  eexists _, _, _, _. split; [linked|].
  split; [vm_compute; reflexivity|]. split; [vm_compute; reflexivity|]. split; [|split; vm_compute; reflexivity].
  exists [1; 97; 1; 2]. split; [discriminate|]. split; [discriminate|vm_compute; reflexivity].
Qed.
Print Assumptions send_after_partial_refuted.

(** *** C47 *)
(** A QoS 1 PUBLISH whose first transmission failed is resent when the session is
    resumed, but its record stays in PublishSend: the PUBACK for it is refused. *)
Theorem resent_publish_refused_refuted : exists s rs s1 t1 s2 t2, Begun cfg1 3 2 s /\
  run_calls cfg1 [COp (OPublish (pub1 Q1) 7); COp ODisconnect; conn1] s = Ret rs s1 t1 /\
  rs = [SendFailed; Success; Success] /\
  (exists a, outs t1 = a ++ publish_packet (with_dup (pub1_msg Q1 7))) /\ outgoing s1 = [F 7 Q1 PublishSend] /\
  run_call cfg1 CProcess s1 = Ret IllegalState s2 t2 /\ In (EPkt 64 (be16 7)) t2 /\ callbacks t2 = [] /\ outgoing s2 = [F 7 Q1 PublishSend].
Proof.
  exists (after_calls [conn1] (client1 (mkEnv [32; 2; 0; 0; 32; 2; 1; 0; 64; 2; 0; 7] [1; 1; 2; 1; 1; 2; 4] [100; -1; 100; 100; 100; 100] (repeat 0 99) []
    [true] [Some (publish_packet (with_dup (pub1_msg Q1 7)))]))).
  eexists _, _, _, _, _. split; [apply begun_after; [apply bytes_dec| |]; vm_compute; reflexivity|].
  split; [vm_compute; reflexivity|]. split; [vm_compute; reflexivity|]. split; [|split; [vm_compute; reflexivity|split; [vm_compute; reflexivity|]]].
  - exists [224; 0; 16; 15; 0; 4; 77; 81; 84; 84; 4; 0; 0; 60; 0; 3; 97; 98; 99]. vm_compute. reflexivity.
  - split; [vm_compute; right; left; reflexivity|]. split; vm_compute; reflexivity.
Qed.
Print Assumptions resent_publish_refused_refuted.
(** The PUBACK, PUBREC or PUBCOMP a publish waits for is accepted and given to the
    application, in every history. *)
Theorem awaited_ack_accepted_partial : forall G n m mk s st s' t ty id f k, Begun G n m s -> run_call G (if mk : bool then CProcess else CReceive) s = Ret st s' t ->
  In (EPkt ty (be16 id)) t -> 1 <= id <= 65535 -> lookup (outgoing s) id = Some f ->
  (k = Puback /\ f_st f = PubAckPending \/ k = Pubrec /\ f_st f = PubRecPending \/ k = Pubcomp /\ f_st f = PubCompPending) -> ty = ack_first (ack_of k) ->
  (reply_to k = None -> st = Success) /\ In (ECb ty (be16 id) id None Success) t.
Proof. exact awaited_ack. Qed.
Print Assumptions awaited_ack_accepted_partial.
Definition awaiting : st := after_calls [conn1; COp (OPublish (pub1 Q1) 7)] (client1 (env_of [64; 2; 0; 7] [4] [100; 100] (repeat 0 99))).
Example awaited_case : Begun cfg1 3 2 awaiting /\ lookup (outgoing awaiting) 7 = Some (F 7 Q1 PubAckPending) /\
  results [CProcess] awaiting = [Success] /\ In (EPkt 64 (be16 7)) (trace [CProcess] awaiting).
Proof.
  split; [apply begun_after; [apply bytes_dec| |]; vm_compute; reflexivity|]. split; [vm_compute; reflexivity|].
  split; [vm_compute; reflexivity|]. vm_compute. right. left. reflexivity.
Qed.

(** *** C50 *)
(** MQTT_Connect with a bad argument (no client id, length 3) on a working connection
    sends nothing, but the connection counts as broken afterwards. *)
Theorem refused_connect_breaks_refuted : exists s ci s', Begun cfg1 3 2 s /\ x_status (s_ctx s) = Connected /\
  run_call cfg1 (CConnect ci None 1000) s = Ret BadParameter s' [] /\ x_status (s_ctx s') = DisconnectPending /\
  run_call cfg1 (COp OPing) s' = Ret StDisconnectPending s' [].
Proof.
  exists (linked [] [] (repeat 100 5) (repeat 0 50)), (mkCon true 60 None 3 None 0 None 0). eexists.
  split; [linked|]. split; [vm_compute; reflexivity|]. split; [vm_compute; reflexivity|]. split; vm_compute; reflexivity.
Qed.
Print Assumptions refused_connect_breaks_refuted.

(** *** C51 *)
(** A PUBLISH of 42 bytes for a buffer of 32. Reading the rest is given up after
    MQTT_RECV_POLLING_TIMEOUT_MS without data, RecvFailed is returned, and the
    connection still counts as connected: the next pass takes the middle of the
    payload for a packet and delivers a message nobody published. *)
Definition big_payload : list Z := repeat 7 27 ++ [48; 6; 0; 1; 98; 1; 2; 3; 1; 1].
Theorem skipped_payload_delivered_refuted : exists s s1 t1 s2 t2, Begun cfg1 3 2 s /\
  e_in (s_env s) = [48; 40] ++ [0; 1; 97] ++ big_payload /\ zlen ([0; 1; 97] ++ big_payload) = 40 /\
  run_call cfg1 CProcess s = Ret RecvFailed s1 t1 /\ x_status (s_ctx s1) = Connected /\
  run_call cfg1 CProcess s1 = Ret Success s2 t2 /\
  callbacks t2 = [ECb 48 [0; 1; 98; 1; 2; 3] 0 (Some (mkDpub Q0 false false 2 1 (Some 3) 3)) Success].
Proof.
  exists (linked ([48; 40] ++ [0; 1; 97] ++ big_payload) [32; 0; 0; 10; 0] (repeat 100 5) (repeat 0 8 ++ [1; 1; 20; 20; 20; 20])).
  eexists _, _, _, _. split; [linked|]. split; [vm_compute; reflexivity|]. split; [vm_compute; reflexivity|].
  split; [vm_compute; reflexivity|]. split; [vm_compute; reflexivity|]. split; vm_compute; reflexivity.
Qed.
Print Assumptions skipped_payload_delivered_refuted.

(** *** C52 *)
(** KeepAliveTimeout although the PINGRESP has been received: it lies behind another
    packet in the buffer, and the keep-alive is looked at before the buffer. *)
Theorem timeout_with_pingresp_refuted : exists s s', Begun cfg1 3 2 s /\ x_waiting (s_ctx s) = true /\ pend (s_ctx s) = [208; 0] /\
  run_call cfg1 CProcess s = Ret KeepAliveTimeout s' [EIn []].
Proof.
  exists (after_calls [conn1; COp OPing; CProcess] (client1 (env_of [48; 3; 0; 1; 97; 208; 0] [7; 0] (repeat 100 5) (repeat 0 12 ++ [6000])))).
  eexists. split; [apply begun_after; [apply bytes_dec| |]; vm_compute; reflexivity|]. split; [vm_compute; reflexivity|]. split; vm_compute; reflexivity.
Qed.
Print Assumptions timeout_with_pingresp_refuted.

(** *** C53 *)
(** A CONNACK whose first byte arrives alone, the second one poll later. *)
Theorem split_connack_refused_refuted : exists e s' t, opened cfg1 3 2 (client1 e) /\ e_in e = [32; 2; 0; 0] /\ e_recvs e = [1; 0; 1; 2] /\
  run_call cfg1 conn1 (client1 e) = Ret BadResponse s' t /\ ins t = [32].
Proof.
  exists (mkEnv [32; 2; 0; 0] [1; 0; 1; 2] (repeat 100 5) (repeat 0 20) [] [] []). eexists _, _. split.
  - eexists (repeat 0 32), true, _. repeat split; try (vm_compute; congruence); apply bytes_dec; reflexivity.
  - split; [vm_compute; reflexivity|]. split; [vm_compute; reflexivity|]. split; vm_compute; reflexivity.
Qed.
Print Assumptions split_connack_refused_refuted.

(** *** C54 *)
(** A client that was never connected delivers a message. *)
Theorem delivery_unconnected_refuted : exists e s' t, opened cfg1 3 2 (client1 e) /\
  run_call cfg1 CProcess (client1 e) = Ret Success s' t /\ callbacks t <> [] /\ x_status (s_ctx s') = NotConnected.
Proof.
  exists (env1 [48; 3; 0; 1; 97] [5] []). eexists _, _. split.
  - eexists (repeat 0 32), true, _. repeat split; try (vm_compute; congruence); apply bytes_dec; reflexivity.
  - split; [vm_compute; reflexivity|]. split; [discriminate|vm_compute; reflexivity].
Qed.
Print Assumptions delivery_unconnected_refuted.

(** *** C55 *)
(** A QoS 2 publish repeated (with DUP) after its PUBREC: the PUBLISH is sent, and the
    caller is told IllegalState. *)
Theorem refused_publish_sent_refuted : exists s s' t, Begun cfg1 3 2 s /\ outgoing s = [F 7 Q2 PubCompPending] /\
  run_call cfg1 (COp (OPublish (mkPub Q2 false true (Some [97]) 1 (Some [1; 2]) 2) 7)) s = Ret IllegalState s' t /\
  outs t = publish_packet (with_dup (pub1_msg Q2 7)).
Proof.
  exists (after_calls [conn1; COp (OPublish (pub1 Q2) 7); CProcess] (client1 (env_of [80; 2; 0; 7] [4] (repeat 100 9) (repeat 0 50)))).
  eexists _, _. split; [apply begun_after; [apply bytes_dec| |]; vm_compute; reflexivity|].
  split; [vm_compute; reflexivity|]. split; vm_compute; reflexivity.
Qed.
Print Assumptions refused_publish_sent_refuted.

(** *** C56 *)
(** A PUBLISH with an empty topic (not allowed, MQTT 3.1.1 4.7.3) is delivered. *)
Theorem empty_topic_delivered_refuted : exists s s' t, Begun cfg1 3 2 s /\
  run_call cfg1 CProcess s = Ret Success s' t /\
  callbacks t = [ECb 48 [0; 0; 1] 0 (Some (mkDpub Q0 false false 2 0 (Some 2) 1)) Success].
Proof.
  exists (linked [48; 3; 0; 0; 1] [5] (repeat 100 5) (repeat 0 50)). eexists _, _. split; [linked|]. split; vm_compute; reflexivity.
Qed.
Print Assumptions empty_topic_delivered_refuted.
(** Whatever the topic is, the application gets exactly the one of the packet handled: only a server
    that breaks the standard makes it see an empty topic or one with wildcards. *)
Theorem topic_as_sent_partial : forall G n m c s st s' t, Begun G n m s -> run_call G c s = Ret st s' t ->
  forall ty body id d r, In (ECb ty body id (Some d) r) t ->
  exists msg, publish_means ty body msg /\ In (EPkt ty body) t /\ sub body (d_topicoff d) (d_topiclen d) = pm_topic msg.
Proof. exact topic_delivered. Qed.
Print Assumptions topic_as_sent_partial.
Example topic_as_sent_case : exists s' t, Begun cfg1 3 2 (linked [48; 6; 0; 3; 97; 47; 98; 1] [8] (repeat 100 5) (repeat 0 50)) /\
  run_call cfg1 CProcess (linked [48; 6; 0; 3; 97; 47; 98; 1] [8] (repeat 100 5) (repeat 0 50)) = Ret Success s' t /\
  In (ECb 48 [0; 3; 97; 47; 98; 1] 0 (Some (mkDpub Q0 false false 2 3 (Some 5) 1)) Success) t /\ sub [0; 3; 97; 47; 98; 1] 2 3 = [97; 47; 98].
Proof. eexists _, _. split; [linked|]. split; [vm_compute; reflexivity|]. split; [vm_compute; auto|vm_compute; reflexivity]. Qed.

(** *** C57 *)
(** A publish the store refused stays in the records. Every later connection that
    resumes the session then fails, as the publish cannot be retrieved. *)
Theorem store_failure_sticks_refuted : exists s s' t, Begun cfg1 3 2 s /\
  run_calls cfg1 [COp (OPublish (pub1 Q1) 7); COp ODisconnect; conn1; COp ODisconnect; conn1] s =
    Ret [PublishStoreFailed; Success; PublishRetrieveFailed; Success; PublishRetrieveFailed] s' t /\
  outgoing s' = [F 7 Q1 PublishSend].
Proof.
  exists (after_calls [conn1] (client1 (mkEnv [32; 2; 0; 0; 32; 2; 1; 0; 32; 2; 1; 0] [1; 1; 2; 1; 1; 2; 1; 1; 2] (repeat 100 10) (repeat 0 50) [] [false] []))).
  eexists _, _. split; [apply begun_after; [apply bytes_dec| |]; vm_compute; reflexivity|]. split; vm_compute; reflexivity.
Qed.
Print Assumptions store_failure_sticks_refuted.
(** One call repairs this: MQTT_CancelCallback succeeds and leaves exactly the publishes that were in
    flight before.  Nothing of the refused publish was sent. *)
Theorem store_failure_undone_partial : forall G n m p id msg s s' t, Begun G n m s -> pub_means p id msg -> lookup (outgoing s) id = None ->
  publish G p id s = Ret PublishStoreFailed s' t ->
  p_qos p <> Q0 /\ outs t = [] /\ x_status (s_ctx s) = Connected /\ incoming s' = incoming s /\ outgoing s' = outgoing s ++ [F id (p_qos p) PublishSend] /\
  exists s'', cancel id s' = Ret Success s'' [] /\ outgoing s'' = outgoing s /\ incoming s'' = incoming s /\ s_env s'' = s_env s' /\
    s_ctx s'' = set_recs (s_ctx s') (x_recs (s_ctx s'')).
Proof. exact store_failed. Qed.
Print Assumptions store_failure_undone_partial.
Definition refusing : st := after_calls [conn1; COp (OPublish (pub1 Q2) 3)] (client1 (mkEnv [32; 2; 0; 0] [1; 1; 2] (repeat 100 10) (repeat 0 50) [] [true; false] [])).
Example store_failure_undone_case : exists s' t, Begun cfg1 3 2 refusing /\ pub_means (pub1 Q1) 7 (pub1_msg Q1 7) /\ outgoing refusing = [F 3 Q2 PubRecPending] /\
  publish cfg1 (pub1 Q1) 7 refusing = Ret PublishStoreFailed s' t /\
  results [COp (OPublish (pub1 Q1) 7); COp (OCancel 7); COp (OPublish (pub1 Q1) 7)] refusing = [PublishStoreFailed; Success; Success].
Proof.
  eexists _, _. split; [apply begun_after; [apply bytes_dec| |]; vm_compute; reflexivity|]. split; [unfold pub_means, holds0, holds; repeat split; try lia; try left; eexists; repeat split; vm_compute; congruence|]. split; [vm_compute; reflexivity|]. split; vm_compute; reflexivity.
Qed.

(** *** C58 *)
(** With a buffer of 2 bytes the header of a large packet never fits: the buffer is
    full, nothing more can be read, and every pass says NeedMoreBytes. *)
Theorem small_buffer_stuck_refuted : exists s, Begun cfg1 3 2 s /\
  zlen (pend (s_ctx s)) = zlen (x_buf (s_ctx s)) /\ x_status (s_ctx s) = Connected /\
  exists s' t, run_call cfg1 CReceive s = Ret NeedMoreBytes s' t /\ items t = [] /\ s_ctx s' = s_ctx s.
Proof.
  pose (e := env1 ([32; 2; 0; 0; 48; 200; 1; 0; 1; 97] ++ repeat 1 100) ([1; 1; 2; 2] ++ repeat 0 9) (repeat 100 9)).
  pose (s0 := mkSt (init_context (repeat 0 2) (fresh_recs 3 2) true) e).
  destruct (run_calls cfg1 [conn1; CReceive] s0) as [rs s t| |] eqn:E; [|vm_compute in E; discriminate|vm_compute in E; discriminate].
  exists s. split; [|vm_compute in E; injection E as _ <- _; split; [vm_compute; reflexivity|]; split; [vm_compute; reflexivity|]; eexists _, _; split; [vm_compute; reflexivity|]; split; reflexivity].
  exists s0, [conn1; CReceive], rs, t. split; [|exact E]. exists (repeat 0 2), true, e.
  repeat split; try (vm_compute; congruence); apply bytes_dec; reflexivity.
Qed.
Print Assumptions small_buffer_stuck_refuted.
(** NeedMoreBytes from the receive loop means that nothing was handled and that the
    bytes held are the beginning of a packet; with a buffer of 5 bytes or more there
    is room for the next byte. *)
Theorem more_bytes_fit_partial : forall G n m mk s s' t, Begun G n m s -> run_call G (if mk : bool then CProcess else CReceive) s = Ret NeedMoreBytes s' t ->
  items t = [] /\ Incomplete (zlen (x_buf (s_ctx s'))) (pend (s_ctx s')) /\
  (5 <= zlen (x_buf (s_ctx s')) -> zlen (pend (s_ctx s')) < zlen (x_buf (s_ctx s'))).
Proof. exact loop_room. Qed.
Print Assumptions more_bytes_fit_partial.
Example more_bytes_case : exists s', Begun cfg1 3 2 (linked [48; 30; 0; 1] [3] [100] (repeat 0 50)) /\
  run_call cfg1 CProcess (linked [48; 30; 0; 1] [3] [100] (repeat 0 50)) = Ret NeedMoreBytes s' [EIn [48; 30; 0]] /\ 5 <= zlen (x_buf (s_ctx s')).
Proof. eexists. split; [linked|]. split; [vm_compute; reflexivity|vm_compute; congruence]. Qed.

(** *** C59 *)
(** The receive time is not set by MQTT_Connect: with a clock that does not start at
    0, the first pass without data sends a PINGREQ, at the very moment the CONNACK
    came in. *)
Theorem early_ping_refuted : exists s s' t, Begun cfg1 3 2 s /\ x_keep (s_ctx s) = 60 /\ x_lastTx (s_ctx s) = 100000 /\ hd 0 (e_times (s_env s)) = 100000 /\
  run_call cfg1 CProcess s = Ret Success s' t /\ outs t = pingreq_packet.
Proof.
  exists (linked [] [0] (repeat 100 5) (repeat 100000 50)). eexists _, _. split; [linked|].
  split; [vm_compute; reflexivity|]. split; [vm_compute; reflexivity|]. split; [vm_compute; reflexivity|]. split; vm_compute; reflexivity.
Qed.
Print Assumptions early_ping_refuted.

(** *** C60 *)
(** A second PUBREC for a publish whose PUBREL has been sent is refused, and not
    answered with another PUBREL (MQTT 3.1.1, 4.3.3). *)
Theorem repeated_pubrec_unanswered_refuted : exists s s' t, Begun cfg1 3 2 s /\ outgoing s = [F 7 Q2 PubCompPending] /\ x_status (s_ctx s) = Connected /\
  run_call cfg1 CProcess s = Ret IllegalState s' t /\ In (EPkt 80 (be16 7)) t /\ outs t = [] /\ callbacks t = [].
Proof.
  exists (after_calls [conn1; COp (OPublish (pub1 Q2) 7); CProcess] (client1 (env_of [80; 2; 0; 7; 80; 2; 0; 7] [4; 4] (repeat 100 9) (repeat 0 50)))).
  eexists _, _. split; [apply begun_after; [apply bytes_dec| |]; vm_compute; reflexivity|].
  split; [vm_compute; reflexivity|]. split; [vm_compute; reflexivity|]. split; [vm_compute; reflexivity|]. split; [vm_compute; right; left; reflexivity|]. split; vm_compute; reflexivity.
Qed.
Print Assumptions repeated_pubrec_unanswered_refuted.
(** It does no harm: the publishes in flight stay as they are, no callback is made, the stored copy is not
    cleared again, and the publish stays among those whose PUBREL goes out when the session is resumed (C33). *)
Theorem repeated_pubrec_harmless_partial : forall G n m mk s st s' t id f, Begun G n m s -> run_call G (if mk : bool then CProcess else CReceive) s = Ret st s' t ->
  In (EPkt 80 (be16 id)) t -> 1 <= id <= 65535 -> lookup (outgoing s) id = Some f -> f_st f = PubRelSend \/ f_st f = PubCompPending ->
  st = IllegalState /\ outgoing s' = outgoing s /\ incoming s' = incoming s /\ callbacks t = [] /\ cleared t = [] /\ In id (half_done (outgoing s')).
Proof. exact pubrec_again. Qed.
Print Assumptions repeated_pubrec_harmless_partial.
