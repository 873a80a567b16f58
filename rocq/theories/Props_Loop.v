(** Properties of the receive loop and of whole histories (core_mqtt.c).
    Statements only: proofs are in CoreProofs*.v and CoreFinal2.v. *)
From Verif Require Import Base StateModel StateSpec StateHarness SerModel WireSpec SerHarness CoreModel CoreSpec CoreHarness CoreCases
  CoreProofs22 CoreProofs23 CoreProofs24 CoreFinal2.

(** *** C23 *)
(** In every history the ids handed out are between 1 and 65535, follow one another
    (1 after 65535), and no two of 65535 successive ones are equal. *)
Theorem packet_ids_distinct : forall G n m l s rs s' t, Begun G n m s -> run_calls G l s = Ret rs s' t ->
  (forall x, In x (given t) -> 1 <= x <= 65535) /\
  (forall i j, (i < j < length (given t))%nat -> Z.of_nat j - Z.of_nat i < 65535 -> nth i (given t) 0 <> nth j (given t) 0) /\
  (forall i, (S i < length (given t))%nat -> nth (S i) (given t) 0 = next_id (nth i (given t) 0)).
Proof. exact ids_given. Qed.
Print Assumptions packet_ids_distinct.
(** The id recorded is the id returned; nothing is sent. *)
Theorem packet_id_returned : forall s a s' t, getPacketId s = Ret a s' t -> given t = [a] /\ outs t = [] /\ s_env s' = s_env s.
Proof. exact getId_gives. Qed.
Print Assumptions packet_id_returned.
Example packet_ids_case : Begun cfg1 3 2 up /\ given (trace [COp OGetId; COp OPing; COp OGetId; CProcess; COp OGetId] up) = [1; 2; 3].
Proof. split; [exact up_begun|vm_compute; reflexivity]. Qed.
(** the counter wraps *)
Example packet_ids_wrap : exists s', getPacketId (mkSt (set_nextId (s_ctx up) 65535) (s_env up)) = Ret 65535 s' [EId 65535] /\ x_nextId (s_ctx s') = 1.
Proof. eexists. split; vm_compute; reflexivity. Qed.

(** *** C35 *)
(** Two clients with buffers of the same size and the same bytes to come, whatever
    their transports deliver at a time, whenever the loops are called and whatever
    other calls are made in between: one has handled and skipped the packets the other
    has, in the same order, and possibly more; both have done the same once all
    bytes are read and no complete packet is left. *)
Theorem chunking_irrelevant : forall G n m G' n' m' l1 l2 s1 s2 rs1 rs2 s1' s2' t1 t2, Begun G n m s1 -> Begun G' n' m' s2 ->
  zlen (x_buf (s_ctx s1)) = zlen (x_buf (s_ctx s2)) -> pend (s_ctx s1) ++ e_in (s_env s1) = pend (s_ctx s2) ++ e_in (s_env s2) ->
  forallb plain l1 = true -> forallb plain l2 = true -> ~ In RecvFailed rs1 -> ~ In RecvFailed rs2 ->
  run_calls G l1 s1 = Ret rs1 s1' t1 -> run_calls G' l2 s2 = Ret rs2 s2' t2 ->
  ((exists more, items t2 = items t1 ++ more) \/ (exists more, items t1 = items t2 ++ more)) /\
  (e_in (s_env s1') = [] -> e_in (s_env s2') = [] ->
   no_packet (zlen (x_buf (s_ctx s1'))) (pend (s_ctx s1')) -> no_packet (zlen (x_buf (s_ctx s2'))) (pend (s_ctx s2')) ->
   items t1 = items t2 /\ pend (s_ctx s1') = pend (s_ctx s2')).
Proof. exact same_stream. Qed.
Print Assumptions chunking_irrelevant.
(** The packets handled and skipped are the ones the stream consists of. *)
Theorem stream_framed : forall G n m l s rs s' t, Begun G n m s -> forallb plain l = true -> run_calls G l s = Ret rs s' t -> ~ In RecvFailed rs ->
  zlen (x_buf (s_ctx s')) = zlen (x_buf (s_ctx s)) /\ e_in (s_env s) = ins t ++ e_in (s_env s') /\
  exists bytes, Frames (zlen (x_buf (s_ctx s))) (items t) bytes /\ pend (s_ctx s) ++ ins t = bytes ++ pend (s_ctx s').
Proof. exact begun_framed. Qed.
Print Assumptions stream_framed.
(** A pass that handles nothing and meets no error leaves no complete packet: the
    condition of the first theorem is reached by calling the loop. *)
Theorem idle_pass_means_done : forall G n m mk s st s' t, Begun G n m s -> run_call G (if mk : bool then CProcess else CReceive) s = Ret st s' t ->
  items t = [] -> st = Success \/ st = NeedMoreBytes \/ st = BadResponse -> no_packet (zlen (x_buf (s_ctx s'))) (pend (s_ctx s')).
Proof. exact idle_ended. Qed.
Print Assumptions idle_pass_means_done.
(** PUBLISH, PINGRESP, PUBLISH read at once, or one byte at a time *)
Definition stream1 : list Z := [48; 4; 0; 1; 97; 5; 208; 0; 49; 3; 0; 1; 98].
Definition at_once : st := after_calls [CConnect con1 None 1000] (client1 (env1 ([32; 2; 0; 0] ++ stream1) ([1; 1; 2] ++ repeat 32 40) (repeat 100 40))).
Definition bytewise : st := after_calls [CConnect con1 None 1000] (client1 (env1 ([32; 2; 0; 0] ++ stream1) (repeat 1 50) (repeat 100 40))).
Example chunking_case : Begun cfg1 3 2 at_once /\ Begun cfg1 3 2 bytewise /\
  pend (s_ctx at_once) ++ e_in (s_env at_once) = stream1 /\ pend (s_ctx bytewise) ++ e_in (s_env bytewise) = stream1 /\
  items (trace [CProcess; CReceive; CProcess; COp OPing] at_once) = items (trace (repeat CProcess 14) bytewise) /\
  items (trace (repeat CProcess 14) bytewise) = [Whole 48 [0; 1; 97; 5]; Whole 208 []; Whole 49 [0; 1; 98]] /\
  existsb (status_beq RecvFailed) (results (repeat CProcess 14) bytewise) = false /\
  existsb (status_beq RecvFailed) (results [CProcess; CReceive; CProcess; COp OPing] at_once) = false.
Proof.
  split; [apply begun_after; [apply bytes_dec| |]; vm_compute; reflexivity|].
  split; [apply begun_after; [apply bytes_dec| |]; vm_compute; reflexivity|each].
Qed.

(** *** C37 *)
(** Whenever a packet is skipped: it does not fit the buffer; neither it nor any
    other packet is handled or shown to the application in that pass; what was read is
    the header and a part of its body, never a byte of what follows; and the pass
    succeeds exactly if all of the body was read. *)
Theorem oversized_skipped : forall G n m mk s st s' t ty rem, Begun G n m s ->
  run_call G (if mk : bool then CProcess else CReceive) s = Ret st s' t -> In (EDrop ty rem) t ->
  exists h part, header h ty rem /\ pend (s_ctx s) ++ ins t = h ++ part /\ zlen (x_buf (s_ctx s)) < zlen h + rem /\ zlen part <= rem /\
    pend (s_ctx s') = [] /\ e_in (s_env s) = ins t ++ e_in (s_env s') /\
    (forall e, In e t -> match e with EPkt _ _ | ECb _ _ _ _ _ => False | _ => True end) /\
    st = (if negb (errs t) && (zlen part =? rem) then Success else RecvFailed).
Proof. exact begun_skipped. Qed.
Print Assumptions oversized_skipped.
(** a PUBLISH of 42 bytes, then a PINGRESP, with a buffer of 32 bytes *)
Definition oversized1 : st := after_calls [CConnect con1 None 1000]
  (client1 (env1 ([32; 2; 0; 0] ++ [48; 40; 0; 1; 97] ++ repeat 7 37 ++ [208; 0]) ([1; 1; 2] ++ repeat 32 40) (repeat 100 40))).
Example oversized_case : Begun cfg1 3 2 oversized1 /\ results [CProcess; CProcess] oversized1 = [Success; Success] /\
  items (trace [CProcess; CProcess] oversized1) = [Skipped 48 40; Whole 208 []].
Proof. split; [apply begun_after; [apply bytes_dec| |]; vm_compute; reflexivity|each]. Qed.

(** *** C38 *)
(** Once a QoS 2 publish has been handed to the application, a publish with its id is
    handed on again only after PUBREL has been received and PUBCOMP sent, unless the
    server starts a new session. *)
Theorem qos2_delivered_once : forall G n m id l s rs s' t, Begun G n m s -> same_session G l s -> run_calls G l s = Ret rs s' t ->
  forall t1 e q t2 e' t3, t = t1 ++ e :: t2 ++ e' :: t3 -> delivery e = Some (id, Q2) -> delivery e' = Some (id, q) -> completed id t2.
Proof. exact calls_once. Qed.
Print Assumptions qos2_delivered_once.
(** received twice, released, then received again with the same id *)
Definition qos2_bytes : list Z := [52; 6; 0; 1; 97; 0; 9; 1].
Definition qos2_state : st := after_calls [CConnect con1 None 1000]
  (client1 (env1 ([32; 2; 0; 0] ++ qos2_bytes ++ (60 :: tl qos2_bytes) ++ [98; 2; 0; 9] ++ qos2_bytes) ([1; 1; 2] ++ repeat 8 2 ++ [4] ++ repeat 8 20) (repeat 100 40))).
Example qos2_case : Begun cfg1 3 2 qos2_state /\ results (repeat CProcess 4) qos2_state = repeat Success 4 /\
  map delivery (callbacks (trace (repeat CProcess 4) qos2_state)) = [Some (9, Q2); None; Some (9, Q2)] /\
  outs (trace (repeat CProcess 4) qos2_state) = [80; 2; 0; 9; 80; 2; 0; 9; 112; 2; 0; 9; 80; 2; 0; 9].
Proof. split; [apply begun_after; [apply bytes_dec| |]; vm_compute; reflexivity|each]. Qed.
Example qos2_same_session : same_session cfg1 (repeat CProcess 4) qos2_state.
Proof. vm_compute. intuition discriminate. Qed.

(** *** C39 *)
(** What a pass of either loop does, completely. *)
Theorem receive_loop_outcomes : forall G n m s st s' t, Begun G n m s -> receiveLoop G s = Ret st s' t -> loop_handled G n m false s st s' t.
Proof. exact receive_outcome. Qed.
Print Assumptions receive_loop_outcomes.
Theorem process_loop_outcomes : forall G n m s st s' t, Begun G n m s -> processLoop G s = Ret st s' t ->
  loop_handled G n m true (mkSt (set_ctl (s_ctx s) false) (s_env s)) st s' t.
Proof. exact process_outcome. Qed.
Print Assumptions process_loop_outcomes.
(** A pass that handles a packet asking for an acknowledgement and reports success has
    sent it as the last thing. *)
Theorem packets_acknowledged : forall G n m mk s s' t ty body, Begun G n m s -> run_call G (if mk : bool then CProcess else CReceive) s = Ret Success s' t ->
  In (EPkt ty body) t -> forall kind id, asks_reply ty body kind id -> exists a, outs t = a ++ ack_packet kind id.
Proof. exact begun_replies. Qed.
Print Assumptions packets_acknowledged.
(** Nothing is sent for any other packet, if the application sends nothing. *)
Theorem others_not_acknowledged : forall G n m mk s st s' u ty body v, Begun G n m s ->
  run_call G (if mk : bool then CProcess else CReceive) s = Ret st s' (u ++ EPkt ty body :: v) ->
  Forall (fun l => l = []) (e_cbs (s_env s)) -> (forall kind id, ~ asks_reply ty body kind id) -> outs v = [].
Proof. exact begun_no_reply. Qed.
Print Assumptions others_not_acknowledged.
Definition qos1_state : st := after_calls [CConnect con1 None 1000]
  (client1 (env1 ([32; 2; 0; 0] ++ [50; 5; 0; 1; 97; 0; 9; 48; 3; 0; 1; 97]) ([1; 1; 2; 7; 5] ++ repeat 8 20) (repeat 100 40))).
Example acknowledged_case : Begun cfg1 3 2 qos1_state /\ results [CProcess; CReceive] qos1_state = [Success; Success] /\
  outs (trace [CProcess] qos1_state) = ack_packet KPuback 9 /\ trace [CReceive] (after_calls [CProcess] qos1_state) =
  [EIn [48; 3; 0; 1; 97]; EPkt 48 [0; 1; 97]; ECb 48 [0; 1; 97] 0 (Some (mkDpub Q0 false false 2 1 None 0)) Success].
Proof. split; [apply begun_after; [apply bytes_dec| |]; vm_compute; reflexivity|each]. Qed.
Example asks_reply_case : asks_reply 50 [0; 1; 97; 0; 9] KPuback 9.
Proof.
  apply (ar_qos1 _ _ (mkPublish false Q1 false [97] 9 [])); [|reflexivity].
  unfold publish_means. cbn [pm_topic pm_id pm_qos pm_payload]. repeat split; try (vm_compute; congruence); try lia; right; lia.
Qed.

(** *** C40 *)
(** In every call of every history, each callback shows the packet handled just
    before, once, and with the meaning the standard gives it. *)
Theorem callbacks_served : forall G n m c s st s' t, Begun G n m s -> run_call G c s = Ret st s' t -> served (manages c) None t.
Proof. exact call_served. Qed.
Print Assumptions callbacks_served.
Example callbacks_case : callbacks (trace (repeat CProcess 4) at_once) =
  [ECb 48 [0; 1; 97; 5] 0 (Some (mkDpub Q0 false false 2 1 (Some 3) 1)) Success; ECb 49 [0; 1; 98] 0 (Some (mkDpub Q0 true false 2 1 None 0)) Success].
Proof. vm_compute. reflexivity. Qed.

(** *** C41 *)
(** A pass that reads nothing pings exactly if no PINGREQ is outstanding and one is
    due; a pass that reads something does not ping. *)
Theorem idle_pass_pings : forall G n m s st s' bs u, Begun G n m s -> processLoop G s = Ret st s' (EIn bs :: u) ->
  bs <> [] /\ begins u \/
  bs = [] /\ exists x l t2 t3, e_times (s_env s) = x :: l /\ u = t2 ++ t3 /\ send_only t2 /\ begins t3 /\
    if negb (x_waiting (s_ctx s)) && ping_due G (s_ctx s) (x mod 4294967296)
    then match x_status (s_ctx s) with
         | Connected => st = SendFailed /\ t3 = [] /\ (exists j, (j < 2)%nat /\ outs t2 = firstn j pingreq_packet) \/
                        outs t2 = pingreq_packet /\ errs t2 = false
         | c => st = not_connected_result c /\ u = []
         end
    else t2 = [].
Proof. exact process_ping. Qed.
Print Assumptions idle_pass_pings.
(** MQTTKeepAliveTimeout exactly if nothing was read and the outstanding PINGREQ is
    older than the limit. *)
Theorem timeout_exact : forall G n m s st s' t, Begun G n m s -> processLoop G s = Ret st s' t ->
  (st = KeepAliveTimeout <->
   t = [EIn []] /\ x_waiting (s_ctx s) = true /\
   exists x l, e_times (s_env s) = x :: l /\ g_pingto G < since (x mod 4294967296) (x_pingTime (s_ctx s))).
Proof. exact process_timeout. Qed.
Print Assumptions timeout_exact.
Theorem receive_loop_no_timeout : forall G n m s st s' t, Begun G n m s -> receiveLoop G s = Ret st s' t -> st <> KeepAliveTimeout.
Proof. exact receive_no_timeout. Qed.
Print Assumptions receive_loop_no_timeout.
(** A PINGREQ is outstanding from the call that sent it, with the time then read from
    the clock, to the PINGRESP handled by MQTT_ProcessLoop or the next accepted
    MQTT_Connect. *)
Theorem outstanding_ping : forall G n m c s st s' t, Begun G n m s -> run_call G c s = Ret st s' t ->
  exists used, e_times (s_env s) = used ++ e_times (s_env s') /\
    (x_waiting (s_ctx s') = x_waiting (s_ctx s) /\ x_pingTime (s_ctx s') = x_pingTime (s_ctx s) \/
     x_waiting (s_ctx s') = true /\ (exists a b, outs t = a ++ pingreq_packet ++ b) /\
       (exists x, In x used /\ x_pingTime (s_ctx s') = x mod 4294967296) \/
     x_waiting (s_ctx s') = false /\ (In (EPkt 208 []) t \/ call_conn c = true /\ exists a p b, ins t = a ++ [32; 2; p; 0] ++ b)).
Proof. exact wait_call. Qed.
Print Assumptions outstanding_ping.
(** The time of the last transmission is a reading of the clock during the last call
    that sent something. *)
Theorem last_transmission : forall G l s rs s' t, run_calls G l s = Ret rs s' t ->
  exists used, e_times (s_env s) = used ++ e_times (s_env s') /\
    (outs t = [] -> x_lastTx (s_ctx s') = x_lastTx (s_ctx s)) /\
    (outs t <> [] -> exists x, In x used /\ x_lastTx (s_ctx s') = x mod 4294967296).
Proof. exact t_calls. Qed.
Print Assumptions last_transmission.
(** keep alive of 60 s, longer than PACKET_TX_TIMEOUT_MS of 30 s: silence for 29999 ms,
    30000 ms (ping), then too long without an answer *)
Definition quiet_client : st := after_calls [CConnect con1 None 1000]
  (client1 (mkEnv [32; 2; 0; 0] ([1; 1; 2] ++ repeat 8 20) (repeat 100 40) (repeat 0 8 ++ [29999; 30000; 30000; 30000; 30000; 34999; 35001]) [] [] [])).
Example keep_alive_case : Begun cfg1 3 2 quiet_client /\
  results [CProcess; CProcess; CProcess; CProcess] quiet_client = [Success; Success; Success; KeepAliveTimeout] /\
  trace [CProcess; CProcess; CProcess; CProcess] quiet_client = [EIn []; EIn []; EOut [192; 0]; EIn []; EIn []].
Proof. split; [apply begun_after; [apply bytes_dec| |]; vm_compute; reflexivity|each]. Qed.
