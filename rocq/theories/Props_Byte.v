(** Property theorems: the client together with a server, when the server sends bytes, and
    the client finds the packets in them. *)
From Verif Require Import Base StateModel StateSpec StateHarness SerModel WireSpec SerHarness CoreModel CoreSpec CoreHarness CoreCases CoreFinal3 Props_Findings
  ConcModel ConcHarness ConcCases Machine MachSpec MachProofs MachProofs5 MachFinal MachCases NetSpec NetCases InSpec InCases OutSpec OutHist OutCases ByteSpec ByteFinal ByteCases ByteCases2.

(** *** C106 *)
(** The packets the client handles on a connection, and those it skips, are the first of the
    packets the server sent on it, in order and with the same contents, however the transport
    divides the bytes; with both kinds of network. *)
Theorem packets_of_the_stream : forall G n m l w s rs w' s' t cn, legal G n m l w s -> g_big G = false ->
  c_run_calls G l w s = Ret (Some rs, w') s' t -> careful G true l w s -> all_fit G cn l w s ->
  exists k, Says t k /\
  Run (x_retr (s_ctx s)) cn (mkM NotConnected (fresh_session n m) 1 Idle) k (mkM (x_status (s_ctx s')) (session_of n m s') (x_nextId (s_ctx s')) Idle) /\
  forall k1 k2, k = k1 ++ k2 ->
    (forall B, BJoint k1 B -> exists done rest, b_sent B = done ++ rest /\ Forall2 is_item done (titems (recent k1))) /\
    (forall B, BLinked k1 B -> exists done rest, bi_sent B = done ++ rest /\ Forall2 is_item (map wire done) (titems (recent k1))).
Proof. intros. eapply b_history_packets; eauto. Qed.
Print Assumptions packets_of_the_stream.
(** three packets, in two reads that end elsewhere *)
Example packets_of_the_stream_case : (legal cfg1 3 2 cut_calls once_world (client1 cut_env) /\ all_fit cfg1 false cut_calls once_world (client1 cut_env) /\
  exists w', c_run_calls cfg1 cut_calls once_world (client1 cut_env) = Ret (Some cut_results, w') (c_after cut_calls once_world (client1 cut_env)) cut_trace) /\
  careful cfg1 true cut_calls once_world (client1 cut_env) /\ Says cut_trace cut_toks /\ BJoint cut_toks cut_net /\
  b_sent cut_net = [(80, be16 8); (208, []); (112, be16 8)] /\ titems (recent cut_toks) = [Whole 80 (be16 8); Whole 208 []; Whole 112 (be16 8)] /\
  In (Did (EIn [80; 2])) cut_toks /\ In (Did (EIn [0; 8; 208; 0])) cut_toks.
Proof.
  split; [exact cut_run|]. split; [exact cut_careful|]. split; [exact cut_says|]. split; [exact cut_joint|]. split; [reflexivity|]. split; [reflexivity|].
  split; [do 13 right; left; reflexivity|do 14 right; left; reflexivity].
Qed.
(** Refuted without [careful]: MQTT_ReceiveLoop returns MQTTRecvFailed while it skips a packet
    that is too large, and the connection stays up.  When it is called again it takes the rest of
    that packet for packets.  The application is told of a PUBACK the server never sent, and the
    message never arrives. *)
Theorem careless_refuted : exists l w s rs w' s' t k B,
  legal cfg1 3 2 l w s /\ g_big cfg1 = false /\ all_fit cfg1 false l w s /\ c_run_calls cfg1 l w s = Ret (Some rs, w') s' t /\ Says t k /\
  (one_session k /\ no_dups k /\ keeps_copies k) /\ BJoint k B /\
  rs = [Success; Success; RecvFailed; Success] /\ x_status (s_ctx s') = Connected /\
  (exists body, b_sent B = [(48, body)]) /\ In (Did (EPkt 64 (be16 8))) k /\ (exists x, In x k /\ confirms 8 x) /\
  outgoing s' = [] /\ published1 8 k = [pub1_msg Q1 8] /\ b_arrived 8 B = [] /\ b_up B = [].
Proof.
  destruct gap_run as (H1 & H2 & w' & H3). exists gap_calls, (mkW false []), (client1 gap_env), gap_results, w', (c_after gap_calls (mkW false []) (client1 gap_env)), gap_trace, gap_toks, gap_bnet.
  split; [exact H1|]. split; [reflexivity|]. split; [exact H2|]. split; [exact H3|]. split; [exact gap_says|]. split; [exact gap_terms|]. split; [exact gap_bjoint|]. split; [reflexivity|].
  split; [vm_compute; reflexivity|]. split; [eexists; reflexivity|]. split; [do 10 right; left; reflexivity|].
  split; [exists (Did (ECb 64 (be16 8) 8 None Success)); split; [do 12 right; left; reflexivity|exists 8, None, Success; reflexivity]|].
  split; [vm_compute; reflexivity|]. split; [reflexivity|]. split; reflexivity.
Qed.
Print Assumptions careless_refuted.

(** *** C107 *)
(** QoS 2 messages arrive once and in order (as C81), and when the application is told of a
    PUBCOMP the messages have been passed on (as C82). *)
Theorem bytes_exactly_once : forall G n m l w s rs w' s' t, legal G n m l w s -> g_big G = false ->
  c_run_calls G l w s = Ret (Some rs, w') s' t -> careful G true l w s -> all_fit G false l w s ->
  exists k, Says t k /\ machine_run n m s s' k /\
  (one_session k -> no_dups k -> keeps_copies k ->
   (forall k1 k2 B id, k = k1 ++ k2 -> BJoint k1 B -> id_ok id -> exists rest, published id k1 = b_passed_on id B ++ rest /\ (length rest <= 1)%nat) /\
   (forall B id, BJoint k B -> id_ok id -> in_flight (sent (session_of n m s')) id = false -> published id k = b_passed_on id B) /\
   (forall k1 x k2 B id, k = k1 ++ x :: k2 -> BJoint k B -> id_ok id -> completes id x ->
      exists a c rest, k1 = a ++ Did (EPkt 112 (be16 id)) :: c /\ Forall (fun x => ~ comes x) c /\ b_passed_on id B = published id a ++ rest)).
Proof. intros. eapply b_history_once; eauto. Qed.
Print Assumptions bytes_exactly_once.
(** the publish reaches the server twice, and is passed on once *)
Example bytes_exactly_once_case : careful cfg1 true cut_calls once_world (client1 cut_env) /\ all_fit cfg1 false cut_calls once_world (client1 cut_env) /\ Says cut_trace cut_toks /\
  Run true false (mkM NotConnected (fresh_session 3 2) 1 Idle) cut_toks (mkM Connected (fresh_session 3 2) 1 Idle) /\
  (one_session cut_toks /\ no_dups cut_toks /\ keeps_copies cut_toks) /\ BJoint cut_toks cut_net /\
  published 8 cut_toks = [pub1_msg Q2 8] /\ b_passed_on 8 cut_net = [pub1_msg Q2 8] /\ In (Did (ECb 112 (be16 8) 8 None Success)) cut_toks.
Proof.
  split; [exact cut_careful|]. split; [exact (proj1 (proj2 cut_run))|]. split; [exact cut_says|]. split; [exact cut_machine|]. split; [exact cut_terms|]. split; [exact cut_joint|]. split; [reflexivity|]. split; [reflexivity|].
  do 23 right. left. reflexivity.
Qed.

(** *** C108 *)
(** QoS 1 messages arrive at least once and in order, and when the application is told of a
    PUBACK they have arrived (as C89 and C90).  One thread: *)
Theorem bytes_at_least_once : forall G n m l s rs s' t, opened G n m s -> 3 <= g_maxvec G -> cbs_sound (s_env s) -> Forall call_sound l -> g_big G = false ->
  all_fit G false l (mkW false []) s -> careful1 G true l s -> run_calls G l s = Ret rs s' t ->
  exists k, Says t k /\ machine_run n m s s' k /\ (one_session k -> no_dups k -> keeps_copies k -> b_delivered1 k (session_of n m s') /\ b_confirmed1 k).
Proof. exact b_alone_least. Qed.
Print Assumptions bytes_at_least_once.
(** the message arrives twice *)
Example bytes_at_least_once_case : careful1 cfg1 true lost_calls (client1 lost_env) /\
  run_calls cfg1 lost_calls (client1 lost_env) = Ret (repeat Success 5) (after_calls lost_calls (client1 lost_env)) lost_trace /\ Says lost_trace lost_toks /\
  machine_run 3 2 (client1 lost_env) (after_calls lost_calls (client1 lost_env)) lost_toks /\
  (one_session lost_toks /\ no_dups lost_toks /\ keeps_copies lost_toks) /\ BJoint lost_toks lost_bnet /\
  published1 8 lost_toks = [pub1_msg Q1 8] /\ b_arrived 8 lost_bnet = [pub1_msg Q1 8; pub1_msg Q1 8].
Proof.
  split; [exact lost_careful|]. split; [apply lost_run|]. split; [exact lost_says|]. split; [exact lost_machine|]. split; [exact lost_terms|]. split; [exact lost_bjoint|]. split; reflexivity.
Qed.
(** Several threads.  Partial, as in C91: sending the session again is not disturbed. *)
Theorem bytes_at_least_once_threads_partial : forall G n m l w s rs w' s' t, legal G n m l w s -> g_big G = false ->
  c_run_calls G l w s = Ret (Some rs, w') s' t -> careful G true l w s -> all_fit G false l w s -> undisturbed t ->
  exists k, Says t k /\ machine_run n m s s' k /\ (one_session k -> no_dups k -> keeps_copies k -> b_delivered1 k (session_of n m s') /\ b_confirmed1 k).
Proof. intros. eapply b_history_least; eauto. Qed.
Print Assumptions bytes_at_least_once_threads_partial.

(** *** C109 *)
(** The application is given the messages the server sends (as C84). *)
Theorem bytes_inbound_delivery : forall G n m l w s rs w' s' t, legal G n m l w s -> g_big G = false ->
  c_run_calls G l w s = Ret (Some rs, w') s' t -> careful G true l w s -> all_fit G true l w s ->
  exists k, Says t k /\
  Run (x_retr (s_ctx s)) true (mkM NotConnected (fresh_session n m) 1 Idle) k (mkM (x_status (s_ctx s')) (session_of n m s') (x_nextId (s_ctx s')) Idle) /\
  (same_session k -> forall k1 k2 B id, k = k1 ++ k2 -> BLinked k1 B ->
   (exists ms rest, b_messages id B = ms ++ rest /\ (length rest <= 1)%nat /\ handed ms (delivered id k1)) /\
   (b_acknowledged id B -> handed (b_messages id B) (delivered id k1))).
Proof. intros. eapply b_history_in; eauto. Qed.
Print Assumptions bytes_inbound_delivery.
(** the publish reaches the client twice, and the application once *)
Example bytes_inbound_delivery_case : careful cfg1 true in_calls in_world (client1 in_env) /\ all_fit cfg1 true in_calls in_world (client1 in_env) /\ Says in_trace in_toks /\
  Run true true (mkM NotConnected (fresh_session 3 2) 1 Idle) in_toks (mkM Connected (fresh_session 3 2) 1 Idle) /\
  same_session in_toks /\ BLinked in_toks in_bnet /\ b_acknowledged 8 in_bnet /\ b_messages 8 in_bnet = [pub1_msg Q2 8] /\
  delivered 8 in_toks = [Did in_cb] /\ handed [pub1_msg Q2 8] [Did in_cb] /\
  In (Did (EPkt 52 [0; 1; 97; 0; 8; 1; 2])) in_toks /\ In (Did (EPkt 60 [0; 1; 97; 0; 8; 1; 2])) in_toks.
Proof.
  split; [exact in_careful|]. split; [exact (proj1 (proj2 in_run))|]. split; [exact in_says|]. split; [exact in_machine|]. split; [exact (proj1 in_same)|]. split; [exact in_blinked|]. split; [intros m; discriminate|]. split; [reflexivity|].
  split; [reflexivity|]. split; [exact in_handed|]. split; [do 5 right; left; reflexivity|do 14 right; left; reflexivity].
Qed.
