(** Property theorems: QoS 1 messages between the client and the server of NetSpec.v. *)
From Verif Require Import Base StateModel StateSpec StateHarness SerModel WireSpec SerHarness CoreModel CoreSpec CoreHarness CoreCases CoreFinal3 Props_Findings
  ConcModel ConcHarness ConcCases Machine MachSpec MachProofs MachProofs5 MachFinal MachCases NetSpec NetFinal NetCases OutSpec OutFinal OutSeq OutHist OutCases.

(** *** C89 and C90 *)
(** One thread: with each identifier the messages the server passed on are the messages
    published, in this order, each at least once ([delivered1]); and when the application is
    told of a PUBACK, all messages published with its identifier before that PUBACK came have
    arrived ([confirmed1]). *)
Theorem at_least_once_in_order : forall G n m l s rs s' t, opened G n m s -> 3 <= g_maxvec G -> cbs_sound (s_env s) -> Forall call_sound l -> g_big G = false ->
  all_fit G false l (mkW false []) s -> run_calls G l s = Ret rs s' t ->
  exists k, Says t k /\ machine_run n m s s' k /\ (one_session k -> no_dups k -> keeps_copies k -> delivered1 k (session_of n m s') /\ confirmed1 k).
Proof. exact alone_out. Qed.
Print Assumptions at_least_once_in_order.
(** the message arrives twice *)
Example at_least_once_case : ((opened cfg1 3 2 (client1 lost_env) /\ 3 <= g_maxvec cfg1 /\ cbs_sound (s_env (client1 lost_env)) /\ Forall call_sound lost_calls) /\ g_big cfg1 = false /\
  all_fit cfg1 false lost_calls (mkW false []) (client1 lost_env) /\ run_calls cfg1 lost_calls (client1 lost_env) = Ret (repeat Success 5) (after_calls lost_calls (client1 lost_env)) lost_trace) /\
  Says lost_trace lost_toks /\ machine_run 3 2 (client1 lost_env) (after_calls lost_calls (client1 lost_env)) lost_toks /\
  (one_session lost_toks /\ no_dups lost_toks /\ keeps_copies lost_toks) /\ Joint lost_toks lost_net /\
  published1 8 lost_toks = [pub1_msg Q1 8] /\ arrived 8 lost_net = [pub1_msg Q1 8; pub1_msg Q1 8].
Proof.
  split; [exact lost_run|]. split; [exact lost_says|]. split; [exact lost_machine|]. split; [exact lost_terms|]. split; [exact lost_joint|]. split; reflexivity.
Qed.
Example confirmed_case : Joint lost_toks lost_net /\ exists k1 x, lost_toks = k1 ++ [x] /\ confirms 8 x /\ repeated (published1 8 k1) (arrived 8 lost_net) /\ published1 8 k1 <> [].
Proof.
  split; [exact lost_joint|]. exists (removelast lost_toks), (Did (ECb 64 (be16 8) 8 None Success)). split; [reflexivity|]. split; [exists 8, None, Success; reflexivity|].
  split; [|discriminate]. exact (repeated_snoc [] [] (pub1_msg Q1 8) 1 repeated_nil).
Qed.

(** *** C91 *)
(** Several threads.  Partial: when the session is resumed, no publish is fetched that was
    stored or fetched since bytes were last read ([undisturbed]). *)
Theorem at_least_once_threads_partial : forall G n m l w s rs w' s' t, legal G n m l w s -> g_big G = false -> all_fit G false l w s ->
  c_run_calls G l w s = Ret (Some rs, w') s' t -> undisturbed t ->
  exists k, Says t k /\ machine_run n m s s' k /\ (one_session k -> no_dups k -> keeps_copies k -> delivered1 k (session_of n m s') /\ confirmed1 k).
Proof. exact threads_out. Qed.
Print Assumptions at_least_once_threads_partial.
(** MQTT_Connect sets the status to connected and gives the mutex back before it sends the
    unacknowledged publishes again (core_mqtt.c:2986, 3014).  A publish of another thread made
    meanwhile is sent again too; the server acknowledges it twice, and the second PUBACK
    acknowledges the next publish with this identifier, which was lost. *)
Theorem at_least_once_threads_refuted : exists w t k N,
  (legal cfg1 3 2 twice_calls w (client1 twice_env) /\ g_big cfg1 = false /\ all_fit cfg1 false twice_calls w (client1 twice_env) /\
   exists w', c_run_calls cfg1 twice_calls w (client1 twice_env) = Ret (Some (repeat Success 6), w') (c_after twice_calls w (client1 twice_env)) t) /\
  Says t k /\ machine_run 3 2 (client1 twice_env) (c_after twice_calls w (client1 twice_env)) k /\ (one_session k /\ no_dups k /\ keeps_copies k) /\ Joint k N /\
  (exists k1 x, k = k1 ++ [x] /\ confirms 5 x) /\ outgoing (c_after twice_calls w (client1 twice_env)) = [] /\ n_up N = [] /\
  published1 5 k = [pub1_msg Q1 5; pub2_msg Q1 5] /\ arrived 5 N = [pub1_msg Q1 5; pub1_msg Q1 5].
Proof.
  exists twice_world, twice_trace, twice_toks, twice_net. split; [exact twice_run|]. split; [exact twice_says|]. split; [exact twice_machine|]. split; [exact twice_terms|].
  split; [exact twice_joint|]. split; [exists (removelast twice_toks), (Did (ECb 64 (be16 5) 5 None Success)); split; [reflexivity|exists 5, None, Success; reflexivity]|].
  split; [vm_compute; reflexivity|]. split; [reflexivity|]. split; reflexivity.
Qed.
Print Assumptions at_least_once_threads_refuted.
(** the tour of Props_Mach.v, with other threads, is undisturbed *)
Example at_least_once_threads_case : legal cfg1 3 2 tour_calls tour_world (client1 tour_env) /\ undisturbed tour_trace /\ retrieved tour_trace <> [].
Proof.
  split; [legal1|]. split; [|discriminate]. intros t1 id r t2 E.
  do 26 (destruct t1 as [|? t1]; [discriminate|]; cbn in E; injection E as <- E). destruct t1 as [|? t1].
  - cbn in E. injection E as <- <- <-. eexists (firstn 24 tour_trace), _, [_]. split; [reflexivity|]. split; [eexists; reflexivity|]. repeat constructor; [intros (? & ? & ?)|intros ? ?]; discriminate.
  - exfalso. cbn in E. injection E as <- E. destruct t1 as [|? t1]; [discriminate|]. cbn in E. injection E as <- E. destruct t1; discriminate.
Qed.

(** *** C77, one thread *)
(** Without other threads, only copies that were stored, and not cleared since, are fetched. *)
Theorem fetch_stored_alone : forall G n m l s rs s' t, opened G n m s -> 3 <= g_maxvec G -> cbs_sound (s_env s) -> Forall call_sound l -> g_big G = false ->
  all_fit G true l (mkW false []) s -> run_calls G l s = Ret rs s' t -> forall a id r c, t = a ++ ERetrieve id r :: c ->
  exists v ok, copy_of id v /\ since (eq (EStore id v ok)) (fun e => e <> EClear id) a.
Proof. exact alone_fetches. Qed.
Print Assumptions fetch_stored_alone.
Example fetch_stored_alone_case : all_fit cfg1 true lost_calls (mkW false []) (client1 lost_env) /\
  run_calls cfg1 lost_calls (client1 lost_env) = Ret (repeat Success 5) (after_calls lost_calls (client1 lost_env)) lost_trace /\
  exists a c, lost_trace = a ++ ERetrieve 8 (Some (publish_packet (with_dup (pub1_msg Q1 8)))) :: c.
Proof. split; [fits1|]. split; [apply lost_run|]. exists (firstn 11 lost_trace), (skipn 12 lost_trace). reflexivity. Qed.
