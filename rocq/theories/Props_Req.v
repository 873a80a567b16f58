(** Requests and their answers: C114. *)
From Coq Require Import Permutation.
From Verif Require Import Base StateModel StateSpec StateHarness SerModel WireSpec SerHarness CoreModel CoreSpec CoreHarness CoreCases CoreFinal3 Props_Findings
  ConcModel ConcHarness ConcCases Machine MachSpec MachProofs MachProofs5 MachFinal MachCases NetSpec NetCases WireProofs ByteSpec ByteCases FullSpec FullCases ReqSpec ReqFinal ReqCases.

(** *** C114 *)
(** Each SUBACK, UNSUBACK and PINGRESP taken from a connection is the answer to a request of its
    own that was sent before on this connection; and what the application is told of has the
    identifier of its request and as many return codes as that had topic filters.  With bytes in
    both directions and a server that answers in any order, when nothing is sent on a connection
    after a send that timed out. *)
Theorem answers_to_requests : forall G n m l w s rs w' s' t cn, legal G n m l w s -> g_big G = false ->
  c_run_calls G l w s = Ret (Some rs, w') s' t -> careful G true l w s -> all_fit G cn l w s ->
  exists k, Says t k /\
  Run (x_retr (s_ctx s)) cn (mkM NotConnected (fresh_session n m) 1 Idle) k (mkM (x_status (s_ctx s')) (session_of n m s') (x_nextId (s_ctx s')) Idle) /\
  (keeps_copies k -> forall k1 k2 N, k = k1 ++ k2 -> Asked true k1 N -> answers_match k1 /\ told_answers k1).
Proof. intros. eapply req_history; eauto. Qed.
Print Assumptions answers_to_requests.
(** two filters and a ping: the ping is answered first, and one of the filters refused *)
Example answers_to_requests_case : (legal cfg1 3 2 ask_calls (mkW false []) (client1 ask_env) /\ all_fit cfg1 true ask_calls (mkW false []) (client1 ask_env) /\
  exists w', c_run_calls cfg1 ask_calls (mkW false []) (client1 ask_env) = Ret (Some (repeat Success 5), w') (c_after ask_calls (mkW false []) (client1 ask_env)) ask_trace) /\
  careful cfg1 true ask_calls (mkW false []) (client1 ask_env) /\ Says ask_trace ask_toks /\
  Run true true (mkM NotConnected (fresh_session 3 2) 1 Idle) ask_toks (mkM Connected (fresh_session 3 2) 1 Idle) /\
  keeps_copies ask_toks /\ Asked true ask_toks ask_net /\
  requests ask_toks = [KSubscribe 3 [([97], Q1); ([98], Q0)]; KPing] /\ answers ask_toks = [Whole 208 []; Whole 144 [0; 3; 1; 128]] /\
  In (Did (ECb 144 [0; 3; 1; 128] 3 None ServerRefused)) ask_toks.
Proof.
  split; [exact ask_run|]. split; [exact ask_careful|]. split; [exact ask_says|]. split; [exact ask_machine|]. split; [exact ask_copies|]. split; [exact ask_asked|].
  split; [reflexivity|]. split; [reflexivity|]. do 10 right. left. reflexivity.
Qed.
(** The condition is met when no send times out. *)
Theorem without_timeouts_requests : forall k N, Asked false k N -> no_timeouts k -> Asked true k N.
Proof. intros k N H1 H2. exact (proj1 (undelayed_asked k N H1 H2)). Qed.
Print Assumptions without_timeouts_requests.
Example without_timeouts_requests_case : no_timeouts ask_toks /\ ~ no_timeouts mix_toks.
Proof.
  split; [intros p H; unfold ask_toks in H; cbn in H; repeat (destruct H as [H|H]; [discriminate|]); contradiction|].
  intro H. apply (H (KSubscribe 3 abc_filter)). do 4 right. left. reflexivity.
Qed.
(** Refuted otherwise.  MQTT_Subscribe returned MQTTSendFailed after 7 bytes, and the application
    publishes a message.  The server reads the first bytes of that as the end of the filter: it
    subscribes the client to a filter nobody asked for, and the application is told that the
    subscription it takes for failed is made. *)
Theorem half_subscribed_refuted : exists l w s rs w' s' t k N,
  legal cfg1 3 2 l w s /\ g_big cfg1 = false /\ all_fit cfg1 true l w s /\ c_run_calls cfg1 l w s = Ret (Some rs, w') s' t /\ careful cfg1 true l w s /\
  Says t k /\ (exists a, Run true true (mkM NotConnected (fresh_session 3 2) 1 Idle) k a) /\ keeps_copies k /\ Asked false k N /\
  l = [conn1; COp (OSubscribe (Some [mkSub Q1 (Some [97; 98; 99]) 3]) 1 3); COp (OPublish (pub1 Q0) 0); CProcess] /\ rs = [Success; SendFailed; Success; Success] /\
  In (Did (ECb 144 [0; 3; 0] 3 None Success)) k /\ requests k = [] /\ ~ answers_match k /\ ~ told_answers k.
Proof.
  destruct mix_run as (H1 & H2 & w' & H3). exists mix_calls, (mkW false []), (client1 mix_env), mix_results, w', (c_after mix_calls (mkW false []) (client1 mix_env)), mix_trace, mix_toks, mix_net.
  split; [exact H1|]. split; [reflexivity|]. split; [exact H2|]. split; [exact H3|]. split; [exact mix_careful|]. split; [exact mix_says|]. split; [eexists; exact mix_machine|]. split; [exact mix_copies|]. split; [exact mix_asked|].
  split; [reflexivity|]. split; [reflexivity|]. split; [do 8 right; left; reflexivity|]. split; [reflexivity|]. split.
  - intros (ps & rest & P & M). change (requests mix_toks) with (@nil cpkt) in P. apply Permutation_sym, Permutation_nil, app_eq_nil in P. destruct P as (-> & _). inversion M.
  - intro T. destruct (T (firstn 8 mix_toks) 144 [0; 3; 0] 3 None Success [] eq_refl eq_refl) as (a & c & E & (A & _)). destruct (A eq_refl) as (fs & codes & Hin & _).
    assert (K : forall x, In x (recent a) -> In x a) by (apply recent_in). apply K in Hin. assert (Hin2 : In (Sent (KSubscribe 3 fs)) (firstn 8 mix_toks)) by (rewrite E; apply in_app_iff; auto).
    unfold mix_toks in Hin2. cbn in Hin2. repeat (destruct Hin2 as [Hin2|Hin2]; [discriminate|]). contradiction.
Qed.
Print Assumptions half_subscribed_refuted.
