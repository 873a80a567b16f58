(** Property theorems: publishes from a server, over a network that keeps the order of
    packets and loses some. *)
From Verif Require Import Base StateModel StateSpec StateHarness SerModel WireSpec SerHarness CoreModel CoreSpec CoreHarness CoreCases CoreFinal3 CoreFinal5 Props_Findings
  ConcModel ConcHarness ConcCases Machine MachSpec MachProofs MachProofs5 MachFinal MachCases NetCases InSpec InFinal InStuck InCases.

(** *** C84 *)
(** The application is given the messages the server sends: at any moment, and with each
    identifier, one after the other and with the same contents, each at least once, and a QoS 2
    message just once; but for the last message perhaps, and that one too when the server has the
    PUBACK or PUBREC for it. *)
Theorem inbound_delivery : forall G n m l w s rs w' s' t, legal G n m l w s -> g_big G = false -> all_fit G true l w s ->
  c_run_calls G l w s = Ret (Some rs, w') s' t ->
  exists k, Says t k /\
  Run (x_retr (s_ctx s)) true (mkM NotConnected (fresh_session n m) 1 Idle) k (mkM (x_status (s_ctx s')) (session_of n m s') (x_nextId (s_ctx s')) Idle) /\
  (same_session k -> forall k1 k2 N id, k = k1 ++ k2 -> Linked k1 N ->
   (exists ms rest, messages id N = ms ++ rest /\ (length rest <= 1)%nat /\ handed ms (delivered id k1)) /\
   (acknowledged id N -> handed (messages id N) (delivered id k1))).
Proof. exact history_in. Qed.
Print Assumptions inbound_delivery.
(** the publish reaches the client twice, and the application once *)
Example inbound_delivery_case : (legal cfg1 3 2 in_calls in_world (client1 in_env) /\ all_fit cfg1 true in_calls in_world (client1 in_env) /\
  exists w', c_run_calls cfg1 in_calls in_world (client1 in_env) = Ret (Some (repeat Success 6), w') (c_after in_calls in_world (client1 in_env)) in_trace) /\
  Says in_trace in_toks /\ Run true true (mkM NotConnected (fresh_session 3 2) 1 Idle) in_toks (mkM Connected (fresh_session 3 2) 1 Idle) /\
  same_session in_toks /\ Linked in_toks in_net /\ acknowledged 8 in_net /\ messages 8 in_net = [pub1_msg Q2 8] /\
  delivered 8 in_toks = [Did in_cb] /\ handed [pub1_msg Q2 8] [Did in_cb] /\
  In (Did (EPkt 52 [0; 1; 97; 0; 8; 1; 2])) in_toks /\ In (Did (EPkt 60 [0; 1; 97; 0; 8; 1; 2])) in_toks.
Proof.
  split; [exact in_run|]. split; [exact in_says|]. split; [exact in_machine|]. split; [exact (proj1 in_same)|]. split; [exact in_linked|]. split; [intros m; discriminate|]. split; [reflexivity|].
  split; [reflexivity|]. split; [exact in_handed|]. split; [do 5 right; left; reflexivity|do 14 right; left; reflexivity].
Qed.

(** *** C85 *)
(** The full claim: when the server sends PUBREL again on each new connection until it has the
    PUBCOMP (MQTT 3.1.1 section 4.4), and the network works from some moment on, then the exchange
    comes to its end.  It does not.  Once a PUBCOMP is lost, no history of the client, whatever the
    server, the network and the application do, ends it: the client does not answer the PUBREL it gets
    again, and MQTT_ProcessLoop fails with MQTTBadResponse. *)
Theorem lost_pubcomp_refuted : exists l w s w' s' t k N m,
  legal cfg1 3 2 l w s /\ all_fit cfg1 true l w s /\
  c_run_calls cfg1 l w s = Ret (Some (repeat Success 5 ++ [BadResponse]), w') s' t /\ Says t k /\
  Run true true (mkM NotConnected (fresh_session 3 2) 1 Idle) k (mkM (x_status (s_ctx s')) (session_of 3 2 s') (x_nextId (s_ctx s')) Idle) /\
  same_session k /\ Linked k N /\ In (Sent (KAck Pubcomp 8)) k /\
  (exists k1, k = k1 ++ [Did (EPkt 98 (be16 8))]) /\
  flying (i_srv N) 8 = Some (m, true) /\
  forall k' b k1 k2 N', Run true true (mkM (x_status (s_ctx s')) (session_of 3 2 s') (x_nextId (s_ctx s')) Idle) k' b -> k' = k1 ++ k2 ->
    Onward N k1 N' -> flying (i_srv N') 8 = Some (m, true).
Proof.
  destruct lost_run as (H1 & H2 & w' & H3). exists lost_calls, in_world, (client1 lost_env), w', (c_after lost_calls in_world (client1 lost_env)), lost_trace, lost_toks, lost_net, (pub1_msg Q2 8).
  assert (E : mkM (x_status (s_ctx (c_after lost_calls in_world (client1 lost_env)))) (session_of 3 2 (c_after lost_calls in_world (client1 lost_env))) (x_nextId (s_ctx (c_after lost_calls in_world (client1 lost_env)))) Idle
    = mkM Connected (fresh_session 3 2) 1 Idle) by (vm_compute; reflexivity). rewrite E. clear E.
  split; [exact H1|]. split; [exact H2|]. split; [exact H3|]. split; [exact lost_says|]. split; [exact lost_machine|]. split; [exact (proj2 in_same)|]. split; [exact lost_linked|]. split; [do 11 right; left; reflexivity|].
  split; [exists (removelast lost_toks); reflexivity|]. split; [reflexivity|]. apply (dead_forever true true 3 2 8 (pub1_msg Q2 8) lost_toks (mkM Connected (fresh_session 3 2) 1 Idle) lost_net lost_machine lost_linked).
  split; [reflexivity|]. split; [reflexivity|]. split; reflexivity.
Qed.
Print Assumptions lost_pubcomp_refuted.
(** As long as the client has not put PUBCOMP on the wire the exchange does come to its end: every PUBREL is
    shown to the application, and either PUBCOMP is sent completely and the id is free, or the pass fails and
    the next PUBREL is answered in the same way. *)
Theorem pubrel_answered_partial : forall G n m mk s st s' t id f, Begun G n m s -> run_call G (if mk : bool then CProcess else CReceive) s = Ret st s' t ->
  In (EPkt 98 (be16 id)) t -> 1 <= id <= 65535 -> lookup (incoming s) id = Some f -> f_st f = PubRelPending \/ f_st f = PubCompSend ->
  In (ECb 98 (be16 id) id None Success) t /\
  ((exists a, outs t = a ++ ack_packet KPubcomp id) /\ st = Success /\ lookup (incoming s') id = None \/
   st <> Success /\ lookup (incoming s') id = Some (F id Q2 PubCompSend)).
Proof. exact pubrel_open. Qed.
Print Assumptions pubrel_answered_partial.
(** a PUBLISH with QoS 2, then PUBREL twice; the transport takes no byte of the first PUBCOMP *)
Definition twice_env : env := mkEnv [32; 2; 0; 0; 52; 6; 0; 1; 97; 0; 8; 5; 98; 2; 0; 8; 98; 2; 0; 8] [1; 1; 2; 8; 4; 4] [100; 100; 0; 100] (repeat 0 13 ++ repeat 30000 20) [] [] [].
Example pubrel_answered_case : exists s1 t1 s2 t2, Begun cfg1 3 2 (after_calls [CConnect con1 None 1000; CProcess] (client1 twice_env)) /\
  incoming (after_calls [CConnect con1 None 1000; CProcess] (client1 twice_env)) = [F 8 Q2 PubRelPending] /\
  run_call cfg1 CProcess (after_calls [CConnect con1 None 1000; CProcess] (client1 twice_env)) = Ret SendFailed s1 t1 /\ In (EPkt 98 (be16 8)) t1 /\ incoming s1 = [F 8 Q2 PubCompSend] /\
  run_call cfg1 CProcess s1 = Ret Success s2 t2 /\ In (EPkt 98 (be16 8)) t2 /\ incoming s2 = [].
Proof.
  eexists _, _, _, _. split; [apply begun_after; [apply bytes_dec| |]; vm_compute; reflexivity|]. split; [vm_compute; reflexivity|]. split; [vm_compute; reflexivity|].
  split; [vm_compute; auto|]. split; [vm_compute; reflexivity|]. split; [vm_compute; reflexivity|]. split; [vm_compute; auto|vm_compute; reflexivity].
Qed.
