(** Property theorems: the client together with a server, over a network that keeps the
    order of packets and loses some. *)
From Verif Require Import Base StateModel StateSpec StateHarness SerModel WireSpec SerHarness CoreModel CoreSpec CoreHarness CoreCases CoreFinal3 Props_Findings
  ConcModel ConcHarness ConcCases Machine MachSpec MachProofs MachProofs5 MachFinal MachCases NetSpec NetFinal NetCases.

(** *** C81 *)
(** QoS 2 messages arrive once, and in order.  The history of the client is a run [k] of the
    machine; the network is in one of its states after a part [k1] of it.  With each identifier
    the server has passed on just the messages published, one after the other, but for the
    last one perhaps; and that one too when the client has no record of it. *)
Theorem exactly_once_in_order : forall G n m l w s rs w' s' t, legal G n m l w s -> g_big G = false -> all_fit G false l w s ->
  c_run_calls G l w s = Ret (Some rs, w') s' t ->
  exists k, Says t k /\
  Run (x_retr (s_ctx s)) false (mkM NotConnected (fresh_session n m) 1 Idle) k (mkM (x_status (s_ctx s')) (session_of n m s') (x_nextId (s_ctx s')) Idle) /\
  (one_session k -> no_dups k -> keeps_copies k ->
   (forall k1 k2 N id, k = k1 ++ k2 -> Joint k1 N -> id_ok id -> exists rest, published id k1 = passed_on id N ++ rest /\ (length rest <= 1)%nat) /\
   (forall N id, Joint k N -> id_ok id -> in_flight (sent (session_of n m s')) id = false -> published id k = passed_on id N)).
Proof. exact history_once. Qed.
Print Assumptions exactly_once_in_order.
(** the publish reaches the server twice, and is passed on once *)
Example exactly_once_case : (legal cfg1 3 2 once_calls once_world (client1 once_env) /\ all_fit cfg1 false once_calls once_world (client1 once_env) /\
  exists rs w', c_run_calls cfg1 once_calls once_world (client1 once_env) = Ret (Some rs, w') (c_after once_calls once_world (client1 once_env)) once_trace) /\
  Says once_trace once_toks /\ Run true false (mkM NotConnected (fresh_session 3 2) 1 Idle) once_toks (mkM Connected (fresh_session 3 2) 1 Idle) /\
  (one_session once_toks /\ no_dups once_toks /\ keeps_copies once_toks) /\
  Joint once_toks once_net /\ published 8 once_toks = [pub1_msg Q2 8] /\ passed_on 8 once_net = [pub1_msg Q2 8].
Proof.
  split; [exact once_run|]. split; [exact once_says|]. split; [exact once_machine|]. split; [exact once_terms|]. split; [exact once_joint|]. split; reflexivity.
Qed.

(** *** C82 *)
(** When the application is told of a PUBCOMP for an identifier, the server has passed on all
    messages published with it before the PUBCOMP came. *)
Theorem told_means_passed_on : forall G n m l w s rs w' s' t, legal G n m l w s -> g_big G = false -> all_fit G false l w s ->
  c_run_calls G l w s = Ret (Some rs, w') s' t ->
  exists k, Says t k /\
  Run (x_retr (s_ctx s)) false (mkM NotConnected (fresh_session n m) 1 Idle) k (mkM (x_status (s_ctx s')) (session_of n m s') (x_nextId (s_ctx s')) Idle) /\
  (one_session k -> no_dups k -> keeps_copies k ->
   forall k1 x k2 N id, k = k1 ++ x :: k2 -> Joint k N -> id_ok id -> completes id x ->
     exists a c rest, k1 = a ++ Did (EPkt 112 (be16 id)) :: c /\ Forall (fun x => ~ comes x) c /\ passed_on id N = published id a ++ rest).
Proof. exact history_told. Qed.
Print Assumptions told_means_passed_on.
Example told_means_passed_on_case : Says once_trace once_toks /\ Joint once_toks once_net /\
  exists k1 x, once_toks = k1 ++ [x] /\ completes 8 x /\ published 8 k1 = passed_on 8 once_net /\ passed_on 8 once_net <> [].
Proof.
  split; [exact once_says|]. split; [exact once_joint|]. exists (removelast once_toks), (Did (ECb 112 (be16 8) 8 None Success)). split; [reflexivity|]. split; [exists 8, None, Success; reflexivity|]. split; [reflexivity|discriminate].
Qed.
