(** Property theorems: histories of the client with several threads, seen as a run of
    the machine of Machine.v, and what follows from it. *)
From Verif Require Import Base StateModel StateSpec StateHarness SerModel WireSpec SerHarness CoreModel CoreSpec CoreHarness CoreCases CoreFinal3 Props_Findings
  ConcModel ConcHarness ConcCases Machine MachSpec MachProofs MachProofs5 MachFinal MachCases.

(** *** C73 *)
(** What the client does - one thread connects and loops, others make calls in between,
    the application makes calls from the callback - is a run of the machine from a new
    session to the session, connection and packet identifier the client ends with. *)
Theorem machine_run : forall G n m cn l w s rs w' s' t, legal G n m l w s -> g_big G = false -> all_fit G cn l w s ->
  c_run_calls G l w s = Ret (Some rs, w') s' t ->
  exists k, Says t k /\ Run (x_retr (s_ctx s)) cn (mkM NotConnected (fresh_session n m) 1 Idle) k
    (mkM (x_status (s_ctx s')) (session_of n m s') (x_nextId (s_ctx s')) Idle).
Proof. exact refinement. Qed.
Print Assumptions machine_run.
Example machine_run_case : legal cfg1 3 2 tour_calls tour_world (client1 tour_env) /\ all_fit cfg1 true tour_calls tour_world (client1 tour_env) /\
  c_trace tour_calls tour_world (client1 tour_env) = Some (repeat Success 5, tour_trace) /\
  session_of 3 2 (c_after tour_calls tour_world (client1 tour_env)) = mkSession 3 [F 7 Q1 PubAckPending; F 8 Q2 PubCompPending] 2 [F 9 Q2 PubRelPending].
Proof. destruct tour_completed as (H1 & _ & H2 & _). split; [exact H1|]. split; [exact H2|]. split; vm_compute; reflexivity. Qed.
(** The same of the client without threads (CoreModel.v). *)
Theorem machine_run_alone : forall G n m cn l s rs s' t, opened G n m s -> 3 <= g_maxvec G -> cbs_sound (s_env s) -> Forall call_sound l ->
  g_big G = false -> all_fit G cn l (mkW false []) s -> run_calls G l s = Ret rs s' t ->
  exists k, Says t k /\ Run (x_retr (s_ctx s)) cn (mkM NotConnected (fresh_session n m) 1 Idle) k
    (mkM (x_status (s_ctx s')) (session_of n m s') (x_nextId (s_ctx s')) Idle).
Proof. exact refinement_seq. Qed.
Print Assumptions machine_run_alone.
Example machine_run_alone_case : opened cfg1 3 2 (client1 tour_env) /\ cbs_sound tour_env /\ Forall call_sound tour_calls /\
  all_fit cfg1 true tour_calls (mkW false []) (client1 tour_env) /\ length (trace tour_calls (client1 tour_env)) = 16%nat.
Proof.
  destruct tour_completed as ((H1 & _ & H2 & H3 & _) & _ & (F1 & _ & F3) & _). split; [exact H1|]. split; [exact H2|]. split; [exact H3|].
  split; [split; [exact F1|split; [exact (Forall_nil _)|exact F3]]|vm_compute; reflexivity].
Qed.

(** *** C74 *)
(** All that is sent is whole packets, packets cut off by the timeout or a transport
    error, and stored copies as the application returned them; every packet is within
    the bounds of the standard, and copies are sent only to resume a session. *)
Theorem stream_of_packets : forall G n m l w s s' t, completed G n m l w s s' t -> exists k, spells t k.
Proof. exact completed_legal. Qed.
Print Assumptions stream_of_packets.
Example stream_of_packets_case : completed cfg1 3 2 tour_calls tour_world (client1 tour_env) (c_after tour_calls tour_world (client1 tour_env)) tour_trace /\
  outs tour_trace = con_bytes ++ publish_packet (pub1_msg Q2 8) ++ [80; 2; 0; 9] ++ [192; 0] ++ publish_packet (pub1_msg Q1 7) ++ [98; 2; 0; 8] ++ [224; 0]
    ++ con_bytes ++ [98; 2; 0; 8] ++ publish_packet (with_dup (pub1_msg Q1 7)).
Proof. split; [exact tour_completed|vm_compute; reflexivity]. Qed.

(** *** C75 *)
(** Each acknowledgement is the answer to the packet just received, given once: the last
    packet received asks for it, and no acknowledgement was sent since.  Only PUBREL
    is also sent to resume a session. *)
Theorem acks_answer : forall G n m l w s s' t, completed G n m l w s s' t -> exists k, spells t k /\
  forall k1 x k2 a id, k = k1 ++ x :: k2 -> carries x = Some (KAck a id) -> since (asked a id) quiet k1 \/ a = Pubrel /\ resuming k1.
Proof. exact completed_acks. Qed.
Print Assumptions acks_answer.
Example acks_answer_case : completed cfg1 3 2 tour_calls tour_world (client1 tour_env) (c_after tour_calls tour_world (client1 tour_env)) tour_trace /\
  In (EPkt 52 [0; 1; 97; 0; 9; 5]) tour_trace /\ In (EOut (bytes (KAck Pubrec 9))) tour_trace /\ In (EOut (bytes (KAck Pubrel 8))) tour_trace.
Proof. split; [exact tour_completed|]. split; [|split]; vm_compute; tauto. Qed.

(** *** C76 *)
(** PUBREL is sent only for a publish that was sent at QoS 2 and for which PUBREC came;
    since that PUBREC the application was not told of a PUBCOMP for it. *)
Theorem pubrel_earned : forall G n m l w s s' t, completed G n m l w s s' t -> exists k, spells t k /\
  forall k1 x k2 id, k = k1 ++ x :: k2 -> carries x = Some (KAck Pubrel id) -> (exists m, In (Sent (KPublish m)) k1 /\ pm_id m = id /\ pm_qos m = Q2) /\
     since (eq (Did (EPkt 80 (be16 id)))) (fun x => ~ completes id x) k1.
Proof. exact completed_pubrels. Qed.
Print Assumptions pubrel_earned.
Example pubrel_earned_case : completed cfg1 3 2 tour_calls tour_world (client1 tour_env) (c_after tour_calls tour_world (client1 tour_env)) tour_trace /\
  exists a b, tour_trace = a ++ EOut (publish_packet (pub1_msg Q2 8)) :: b /\ In (EPkt 80 (be16 8)) b /\ In (EOut (bytes (KAck Pubrel 8))) b.
Proof. split; [exact tour_completed|]. eexists [_; _; _; _; _; _], _. split; [reflexivity|]. split; vm_compute; tauto. Qed.

(** *** C77 *)
(** With the functions for retransmission, every publish at QoS 1 or 2 is sent right
    after a copy of it, with DUP set, was stored. *)
Theorem store_before_send : forall G n m l w s s' t, completed G n m l w s s' t -> x_retr (s_ctx s) = true -> exists k, spells t k /\
  forall k1 x k2 m, k = k1 ++ x :: k2 -> carries x = Some (KPublish m) -> pm_qos m <> Q0 ->
     exists k0 v, k1 = k0 ++ [Did (EStore (pm_id m) v true)] /\ concat v = publish_packet (with_dup m).
Proof. exact completed_stores. Qed.
Print Assumptions store_before_send.
Example store_before_send_case : completed cfg1 3 2 tour_calls tour_world (client1 tour_env) (c_after tour_calls tour_world (client1 tour_env)) tour_trace /\
  x_retr (s_ctx (client1 tour_env)) = true /\ In (EOut (publish_packet (pub1_msg Q2 8))) tour_trace.
Proof. split; [exact tour_completed|]. split; [reflexivity|vm_compute; tauto]. Qed.
(** Only copies that were stored, and not cleared since, are fetched.  Partial: in
    histories in which no publish with the same identifier is stored between an
    acknowledgement and the clearing of its publish ([tidy]). *)
Theorem fetch_stored_partial : forall G n m l w s s' t, completed G n m l w s s' t -> tidy t -> forall a id r c, t = a ++ ERetrieve id r :: c ->
  exists v ok, copy_of id v /\ since (eq (EStore id v ok)) (fun e => e <> EClear id) a.
Proof. exact completed_retrieves. Qed.
Print Assumptions fetch_stored_partial.
Example fetch_stored_case : completed cfg1 3 2 tour_calls tour_world (client1 tour_env) (c_after tour_calls tour_world (client1 tour_env)) tour_trace /\
  tidy tour_trace /\ retrieved tour_trace = [(7, Some (publish_packet (with_dup (pub1_msg Q1 7))))] /\ In (EClear 8) tour_trace.
Proof. split; [exact tour_completed|]. split; [apply tidyb_sound; reflexivity|]. split; vm_compute; tauto. Qed.
(** handlePublishAcks calls the clear function after it gave the mutex back
    (core_mqtt.c:1585-1615).  A publish of another thread, which reuses the identifier
    just freed, is stored and sent before: its copy is cleared, and the next MQTT_Connect
    fails with MQTTPublishRetrieveFailed. *)
Definition gap_env : env := mkEnv [32; 2; 0; 0; 64; 2; 0; 7; 32; 2; 1; 0] [1; 1; 2; 4; 1; 1; 2] (repeat 100 20) (repeat 0 99) [] (repeat true 9) [None].
Definition gap_calls : list call := [conn1; COp (OPublish (pub1 Q1) 7); CProcess; COp ODisconnect; conn1].
Theorem fetch_stored_refuted : exists w t, legal cfg1 3 2 gap_calls w (client1 gap_env) /\
  c_trace gap_calls w (client1 gap_env) = Some ([Success; Success; Success; Success; PublishRetrieveFailed], t) /\
  outgoing (c_after gap_calls w (client1 gap_env)) = [F 7 Q1 PubAckPending] /\
  exists a b c d v, t = a ++ EPkt 64 (be16 7) :: EStore 7 v true :: EOut (publish_packet (pub1_msg Q1 7)) :: b ++ EClear 7 :: c ++ ERetrieve 7 None :: d /\
    (forall v ok, ~ In (EStore 7 v ok) c).
Proof.
  exists (meanwhile 11 [OPublish (pub1 Q1) 7]). eexists. split; [legal1|]. split; [vm_compute; reflexivity|]. split; [vm_compute; reflexivity|].
  eexists [_; _; _; _; _; _; _], [], [_; _; _; _; _; _], _, _. split; [reflexivity|]. cbn [In]. intros v ok H. repeat (destruct H as [H|H]; [discriminate|]). exact H.
Qed.
Print Assumptions fetch_stored_refuted.

(** *** C78 *)
(** The packet identifiers handed out to all threads and from callbacks are
    1, 2, ..., 65535, 1, 2, ... *)
Theorem ids_in_turn : forall G n m l w s s' t, completed G n m l w s s' t ->
  forall i, (i < length (given t))%nat -> nth i (given t) 0 = Z.of_nat i mod 65535 + 1.
Proof. exact completed_turn. Qed.
Print Assumptions ids_in_turn.
Example ids_in_turn_case : completed cfg1 3 2 tour_calls tour_world (client1 tour_env) (c_after tour_calls tour_world (client1 tour_env)) tour_trace /\
  given tour_trace = [1; 2].
Proof. split; [exact tour_completed|reflexivity]. Qed.

(** *** C79 *)
(** Each time the application is told of a packet, that packet is the last one received,
    it was not told of it before, and what it is told is what the packet says. *)
Theorem told_once : forall G n m l w s s' t, completed G n m l w s s' t -> forall a ty body id d r c, t = a ++ ECb ty body id d r :: c -> tells ty body id d r /\
  since (eq (EPkt ty body)) (fun e => match e with EPkt _ _ | ECb _ _ _ _ _ => False | _ => True end) a.
Proof. exact completed_shows. Qed.
Print Assumptions told_once.
Example told_once_case : completed cfg1 3 2 tour_calls tour_world (client1 tour_env) (c_after tour_calls tour_world (client1 tour_env)) tour_trace /\
  In (ECb 52 [0; 1; 97; 0; 9; 5] 9 (Some (mkDpub Q2 false false 2 1 (Some 5) 1)) Success) tour_trace /\ In (ECb 80 [0; 8] 8 None Success) tour_trace.
Proof. split; [exact tour_completed|]. split; vm_compute; tauto. Qed.

(** *** C80 *)
(** PUBLISH, SUBSCRIBE, UNSUBSCRIBE, PINGREQ and acknowledgements are sent only on a
    connection: a CONNECT was sent, a CONNACK accepting it was the first thing read since,
    and since then no DISCONNECT or CONNECT was sent and no send failed with a transport
    error.  DISCONNECT may follow such an error. *)
Theorem sends_online : forall G n m l w s s' t, completed G n m l w s s' t -> exists k, spells t k /\
  forall k1 x k2 p, k = k1 ++ x :: k2 -> carries x = Some p -> match p with
  | KPublish _ | KSubscribe _ _ | KUnsubscribe _ _ | KPing | KAck _ _ => online (fun x => ~ broken x) k1
  | KDisconnect => online (fun _ => True) k1
  | KConnect _ | KAgain _ _ => True
  end.
Proof. exact completed_online. Qed.
Print Assumptions sends_online.
Example sends_online_case : completed cfg1 3 2 tour_calls tour_world (client1 tour_env) (c_after tour_calls tour_world (client1 tour_env)) tour_trace /\
  In (EOut pingreq_packet) tour_trace /\ In (EOut disconnect_packet) tour_trace.
Proof. split; [exact tour_completed|]. split; vm_compute; tauto. Qed.
