(** Networks with bytes in both directions: C110 to C112. *)
From Verif Require Import Base StateModel StateSpec StateHarness SerModel WireSpec SerHarness CoreModel CoreSpec CoreHarness CoreCases CoreFinal3 Props_Findings
  ConcModel ConcHarness ConcCases Machine MachSpec MachProofs MachProofs5 MachFinal MachCases NetSpec NetCases InSpec InCases OutSpec OutHist OutCases WireProofs ByteSpec ByteFinal ByteCases ByteCases2 FullSpec FullFinal FullFinal2 FullCases FullCases2.

(** *** C110 *)
(** The server takes the packets from the bytes of the connections.  Each QoS 2 message is
    passed on once and in order, and is that which was published, when nothing is sent on a
    connection after a send that timed out. *)
Theorem streams_exactly_once : forall G n m l w s rs w' s' t, legal G n m l w s -> g_big G = false ->
  c_run_calls G l w s = Ret (Some rs, w') s' t -> careful G true l w s -> all_fit G false l w s ->
  exists k, Says t k /\ machine_run n m s s' k /\
  (one_session k -> no_dups k -> keeps_copies k ->
   (forall k1 k2 F id, k = k1 ++ k2 -> FJoint true k1 F -> id_ok id -> exists rest, published id k1 = f_passed_on id F ++ rest /\ (length rest <= 1)%nat) /\
   (forall F id, FJoint true k F -> id_ok id -> in_flight (sent (session_of n m s')) id = false -> published id k = f_passed_on id F) /\
   (forall k1 x k2 F id, k = k1 ++ x :: k2 -> FJoint true k F -> id_ok id -> completes id x ->
      exists a c rest, k1 = a ++ Did (EPkt 112 (be16 id)) :: c /\ Forall (fun x => ~ comes x) c /\ f_passed_on id F = published id a ++ rest)).
Proof. intros. eapply f_history_once; eauto. Qed.
Print Assumptions streams_exactly_once.
(** a part of the publish is sent, the connection is closed, and the session resumed *)
Example streams_exactly_once_case : (legal cfg1 3 2 half_calls (mkW false []) (client1 half_env) /\ all_fit cfg1 false half_calls (mkW false []) (client1 half_env) /\
  exists w', c_run_calls cfg1 half_calls (mkW false []) (client1 half_env) = Ret (Some half_results, w') (c_after half_calls (mkW false []) (client1 half_env)) half_trace) /\
  careful cfg1 true half_calls (mkW false []) (client1 half_env) /\ Says half_trace half_toks /\
  machine_run 3 2 (client1 half_env) (c_after half_calls (mkW false []) (client1 half_env)) half_toks /\
  (one_session half_toks /\ no_dups half_toks /\ keeps_copies half_toks) /\ FJoint true half_toks half_net /\
  published 8 half_toks = [pub1_msg Q2 8] /\ f_passed_on 8 half_net = [pub1_msg Q2 8].
Proof.
  split; [exact half_run|]. split; [exact half_careful|]. split; [exact half_says|]. split; [exact half_machine|]. split; [exact half_terms|]. split; [exact half_joint|]. split; reflexivity.
Qed.
(** Refuted otherwise.  After MQTT_Publish returned MQTTSendFailed the application calls
    MQTT_Disconnect, without which MQTT_Connect refuses to connect again.  The server reads the
    bytes of DISCONNECT as the end of the payload and passes on a message nobody published;
    when the publish is sent again it has this identifier already, and the message is lost. *)
Theorem half_sent_refuted : exists l w s rs w' s' t k F,
  legal cfg1 3 2 l w s /\ g_big cfg1 = false /\ all_fit cfg1 false l w s /\ c_run_calls cfg1 l w s = Ret (Some rs, w') s' t /\ careful cfg1 true l w s /\
  Says t k /\ machine_run 3 2 s s' k /\ (one_session k /\ no_dups k /\ keeps_copies k) /\ FJoint false k F /\
  l = [conn1; COp (OPublish (pub1 Q2) 8); COp ODisconnect; conn1] /\ rs = [Success; SendFailed; Success; Success] /\
  published 8 k = [mkPublish false Q2 false [97] 8 [1; 2]] /\ f_passed_on 8 F = [mkPublish false Q2 false [97] 8 [224; 0]] /\
  map t_bytes (f_up F) = [[]] /\ f_sent F = [(80, be16 8)].
Proof.
  destruct half_run as (H1 & H2 & w' & H3). exists half_calls, (mkW false []), (client1 half_env), half_results, w', (c_after half_calls (mkW false []) (client1 half_env)), half_trace, half_toks, odd_net.
  split; [exact H1|]. split; [reflexivity|]. split; [exact H2|]. split; [exact H3|]. split; [exact half_careful|]. split; [exact half_says|]. split; [exact half_machine|]. split; [exact half_terms|]. split; [exact odd_joint|].
  split; [reflexivity|]. split; [reflexivity|]. split; [reflexivity|]. split; [reflexivity|]. split; reflexivity.
Qed.
Print Assumptions half_sent_refuted.
(** The condition is met when no send times out. *)
Theorem without_timeouts : forall k F, FJoint false k F -> no_timeouts k -> FJoint true k F.
Proof. intros k F H1 H2. exact (proj1 (undelayed_strict k F H1 H2)). Qed.
Print Assumptions without_timeouts.
Example without_timeouts_case : no_timeouts lost_toks /\ ~ no_timeouts half_toks.
Proof.
  split; [intros p H; unfold lost_toks in H; cbn in H; repeat (destruct H as [H|H]; [discriminate|]); contradiction|].
  intro H. apply (H (KPublish (pub1_msg Q2 8))). do 5 right. left. reflexivity.
Qed.

(** *** C111 *)
(** QoS 1 messages arrive at least once and in order, as they were published, under the same
    condition. *)
Theorem streams_at_least_once : forall G n m l s rs s' t, opened G n m s -> 3 <= g_maxvec G -> cbs_sound (s_env s) -> Forall call_sound l -> g_big G = false ->
  all_fit G false l (mkW false []) s -> careful1 G true l s -> run_calls G l s = Ret rs s' t ->
  exists k, Says t k /\ machine_run n m s s' k /\ (one_session k -> no_dups k -> keeps_copies k -> f_delivered1 k (session_of n m s') /\ f_confirmed1 k).
Proof. exact f_alone_least. Qed.
Print Assumptions streams_at_least_once.
(** the message arrives twice *)
Example streams_at_least_once_case : careful1 cfg1 true lost_calls (client1 lost_env) /\
  run_calls cfg1 lost_calls (client1 lost_env) = Ret (repeat Success 5) (after_calls lost_calls (client1 lost_env)) lost_trace /\ Says lost_trace lost_toks /\
  machine_run 3 2 (client1 lost_env) (after_calls lost_calls (client1 lost_env)) lost_toks /\
  (one_session lost_toks /\ no_dups lost_toks /\ keeps_copies lost_toks) /\ FJoint true lost_toks lost_fnet /\
  published1 8 lost_toks = [pub1_msg Q1 8] /\ f_arrived 8 lost_fnet = [pub1_msg Q1 8; pub1_msg Q1 8].
Proof.
  split; [exact lost_careful|]. split; [apply lost_run|]. split; [exact lost_says|]. split; [exact lost_machine|]. split; [exact lost_terms|]. split; [exact lost_fjoint|]. split; reflexivity.
Qed.
(** Several threads.  Partial, as in C91: sending the session again is not disturbed. *)
Theorem streams_at_least_once_threads_partial : forall G n m l w s rs w' s' t, legal G n m l w s -> g_big G = false ->
  c_run_calls G l w s = Ret (Some rs, w') s' t -> careful G true l w s -> all_fit G false l w s -> undisturbed t ->
  exists k, Says t k /\ machine_run n m s s' k /\ (one_session k -> no_dups k -> keeps_copies k -> f_delivered1 k (session_of n m s') /\ f_confirmed1 k).
Proof. intros. eapply f_history_least; eauto. Qed.
Print Assumptions streams_at_least_once_threads_partial.

(** *** C112 *)
(** The application is given the messages the server sends (as C84), under the same condition. *)
Theorem streams_inbound_delivery : forall G n m l w s rs w' s' t, legal G n m l w s -> g_big G = false ->
  c_run_calls G l w s = Ret (Some rs, w') s' t -> careful G true l w s -> all_fit G true l w s ->
  exists k, Says t k /\
  Run (x_retr (s_ctx s)) true (mkM NotConnected (fresh_session n m) 1 Idle) k (mkM (x_status (s_ctx s')) (session_of n m s') (x_nextId (s_ctx s')) Idle) /\
  (same_session k -> keeps_copies k -> forall k1 k2 F id, k = k1 ++ k2 -> HLinked true k1 F ->
   (exists ms rest, h_messages id F = ms ++ rest /\ (length rest <= 1)%nat /\ handed ms (delivered id k1)) /\
   (h_acknowledged id F -> handed (h_messages id F) (delivered id k1))).
Proof. intros. eapply h_history_in; eauto. Qed.
Print Assumptions streams_inbound_delivery.
(** the publish reaches the client twice, and the application once *)
Example streams_inbound_delivery_case : careful cfg1 true in_calls in_world (client1 in_env) /\ all_fit cfg1 true in_calls in_world (client1 in_env) /\ Says in_trace in_toks /\
  Run true true (mkM NotConnected (fresh_session 3 2) 1 Idle) in_toks (mkM Connected (fresh_session 3 2) 1 Idle) /\
  same_session in_toks /\ keeps_copies in_toks /\ HLinked true in_toks in_hnet /\ h_acknowledged 8 in_hnet /\ h_messages 8 in_hnet = [pub1_msg Q2 8] /\
  delivered 8 in_toks = [Did in_cb] /\ handed [pub1_msg Q2 8] [Did in_cb].
Proof.
  split; [exact in_careful|]. split; [exact (proj1 (proj2 in_run))|]. split; [exact in_says|]. split; [exact in_machine|]. split; [exact (proj1 in_same)|]. split; [exact in_copies|]. split; [exact in_hlinked|].
  split; [intros m; discriminate|]. split; [reflexivity|]. split; [reflexivity|exact in_handed].
Qed.
Theorem without_timeouts_in : forall k F, HLinked false k F -> no_timeouts k -> HLinked true k F.
Proof. intros k F H1 H2. exact (proj1 (undelayed_linked k F H1 H2)). Qed.
Print Assumptions without_timeouts_in.
(** Refuted otherwise.  Three bytes of a PUBACK were sent, then DISCONNECT: the server reads a
    PUBACK for the identifier 224 and drops a message the client never got. *)
Theorem half_acknowledged_refuted : exists l w s rs w' s' t k F,
  legal cfg1 3 2 l w s /\ g_big cfg1 = false /\ all_fit cfg1 true l w s /\ c_run_calls cfg1 l w s = Ret (Some rs, w') s' t /\ careful cfg1 true l w s /\
  Says t k /\ (exists a, Run true true (mkM NotConnected (fresh_session 3 2) 1 Idle) k a) /\ (same_session k /\ keeps_copies k) /\ HLinked false k F /\
  l = [conn1; CProcess; COp ODisconnect] /\ rs = [Success; SendFailed; Success] /\
  h_messages 224 F = [pub1_msg Q1 224] /\ h_acknowledged 224 F /\ flying (h_srv F) 224 = None /\ delivered 224 k = [].
Proof.
  destruct ack_run as (H1 & H2 & w' & H3). exists ack_calls, (mkW false []), (client1 ack_env), ack_results, w', (c_after ack_calls (mkW false []) (client1 ack_env)), ack_trace, ack_toks, ack_hnet.
  split; [exact H1|]. split; [reflexivity|]. split; [exact H2|]. split; [exact H3|]. split; [exact ack_careful|]. split; [exact ack_says|]. split; [eexists; exact ack_machine|]. split; [exact ack_terms|]. split; [exact ack_hlinked|].
  split; [reflexivity|]. split; [reflexivity|]. split; [reflexivity|]. split; [intros m; discriminate|]. split; reflexivity.
Qed.
Print Assumptions half_acknowledged_refuted.
