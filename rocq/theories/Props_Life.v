(** A dead server is noticed; one that answers is not declared dead. *)
From Verif Require Import Base StateModel StateSpec StateHarness SerModel WireSpec SerHarness CoreModel CoreSpec CoreHarness CoreCases LifeSpec LifeProofs.
From Coq Require Import Sorting.Sorted.

(** *** C93 *)
(** Calls of any kind but MQTT_Connect and MQTT_Ping, during which nothing arrives and
    no packet is handled.  The clock does not go back, and MQTT_ProcessLoop is called at
    least every [D] milliseconds.  If this goes on for longer than
    PACKET_RX_TIMEOUT_MS + MQTT_PINGRESP_TIMEOUT_MS + 2 D after the first such call then
    one of these calls has reported the loss of the connection; whatever the state of
    the client was before. *)
Theorem dead_server_noticed : forall G n m D l s rs s' t first rest, Begun G n m s -> run_calls G l s = Ret rs s' t -> forallb leaves_ping l = true ->
  ins t = [] -> handled t = [] -> 0 <= D -> 0 < g_rx G -> 0 <= g_pingto G -> Z.max (g_rx G) (g_pingto G) + D < 4294967296 ->
  Sorted Z.le (e_times (s_env s)) -> pass_times G l s = first :: rest -> spaced D first rest ->
  Exists (fun x => first + g_rx G + g_pingto G + 2 * D < x) rest -> Exists alarm (pass_results l rs).
Proof. exact dead_noticed. Qed.
Print Assumptions dead_server_noticed.
(** the server is gone after CONNACK; the application goes on publishing and calls
    MQTT_ProcessLoop every 10 seconds *)
Definition gone_env : env := mkEnv [32; 2; 0; 0] (1 :: 1 :: 2 :: repeat 0 40) (repeat 99 40)
  (repeat 0 8 ++ [10000; 10000; 10001; 10002; 20000; 30000; 30000; 30000; 30002; 40000; 50000; 60000; 70000; 80000]) [] [] [].
Definition gone_from : st := after_calls [CConnect con1 None 1000] (client1 gone_env).
Definition gone_calls : list call := [CProcess; COp (OPublish (pub1 Q0) 0); CProcess; CProcess; CProcess; CProcess; CProcess; CProcess; CProcess].
Example dead_server_noticed_case : Begun cfg1 3 2 gone_from /\ x_status (s_ctx gone_from) = Connected /\
  (exists s' t, run_calls cfg1 gone_calls gone_from = Ret (repeat Success 4 ++ repeat KeepAliveTimeout 5) s' t /\
    ins t = [] /\ handled t = [] /\ outs t = publish_packet (pub1_msg Q0 0) ++ pingreq_packet) /\
  forallb leaves_ping gone_calls = true /\ Sorted Z.le (e_times (s_env gone_from)) /\
  pass_times cfg1 gone_calls gone_from = [10000; 20000; 30000; 40000; 50000; 60000; 70000; 80000] /\ spaced 10000 10000 [20000; 30000; 40000; 50000; 60000; 70000; 80000] /\
  Exists (fun x => 10000 + g_rx cfg1 + g_pingto cfg1 + 2 * 10000 < x) [20000; 30000; 40000; 50000; 60000; 70000; 80000].
Proof.
  split; [apply begun_after; [apply bytes_dec| |]; vm_compute; reflexivity|]. split; [vm_compute; reflexivity|]. split.
  - assert (E : match run_calls cfg1 gone_calls gone_from with Ret r _ t => r = repeat Success 4 ++ repeat KeepAliveTimeout 5 /\
      ins t = [] /\ handled t = [] /\ outs t = publish_packet (pub1_msg Q0 0) ++ pingreq_packet | _ => False end) by (vm_compute; auto).
    destruct (run_calls cfg1 gone_calls gone_from) as [r s' t| |]; try contradiction. destruct E as (-> & E). now exists s', t.
  - split; [reflexivity|]. split; [|split; [vm_compute; reflexivity|]].
    + assert (e_times (s_env gone_from) = [10000; 10000; 10001; 10002; 20000; 30000; 30000; 30000; 30002; 40000; 50000; 60000; 70000; 80000]) as -> by (vm_compute; reflexivity).
      repeat constructor; lia.
    + split; [cbn; lia|]. do 6 right. left. vm_compute. reflexivity.
Qed.

(** When MQTT_ProcessLoop reports MQTTKeepAliveTimeout then an earlier call has sent a
    PINGREQ, MQTT_ProcessLoop has handled no PINGRESP since, and by the clock more than
    MQTT_PINGRESP_TIMEOUT_MS have passed since that PINGREQ was sent. *)
Theorem timeout_means_silence : forall G n m l s0 rs s t s' t', opened G n m s0 -> run_calls G l s0 = Ret rs s t -> processLoop G s = Ret KeepAliveTimeout s' t' ->
  exists l1 c l2 rs1 s1 t1 r s2 t2 rs2 t3 used x now later,
    l = l1 ++ c :: l2 /\ run_calls G l1 s0 = Ret rs1 s1 t1 /\ run_call G c s1 = Ret r s2 t2 /\ run_calls G l2 s2 = Ret rs2 s t3 /\
    (exists a b, outs t2 = a ++ pingreq_packet ++ b) /\ e_times (s_env s1) = used ++ e_times (s_env s2) /\ In x used /\
    ~ pingresp_handled G l2 s2 /\ e_times (s_env s) = now :: later /\ g_pingto G < since now x.
Proof. exact timeout_after_silence. Qed.
Print Assumptions timeout_means_silence.
Definition gone_before : list call := CConnect con1 None 1000 :: firstn 4 gone_calls.
Example timeout_means_silence_case : opened cfg1 3 2 (client1 gone_env) /\ results gone_before (client1 gone_env) = repeat Success 5 /\
  exists s' t', processLoop cfg1 (after_calls gone_before (client1 gone_env)) = Ret KeepAliveTimeout s' t'.
Proof.
  split.
  - exists (repeat 0 32), true, gone_env. repeat split; try (vm_compute; congruence); apply bytes_dec; reflexivity.
  - split; [vm_compute; reflexivity|]. assert (E : match processLoop cfg1 (after_calls gone_before (client1 gone_env)) with Ret KeepAliveTimeout _ _ => True | _ => False end) by (vm_compute; exact I).
    destruct (processLoop cfg1 _) as [[] s' t'| |]; try contradiction. eauto.
Qed.
(** a server that answers in time: no time-out although no pass came in time for a whole
    minute of other traffic *)
Definition alive_env : env := mkEnv [32; 2; 0; 0; 208; 0] ([1; 1; 2] ++ [0; 0; 0; 0; 2] ++ repeat 0 9) (repeat 99 40)
  (repeat 0 8 ++ [10000; 20000; 30000; 30000; 30000; 30002; 34000; 36000; 50000; 70000; 70001; 70002; 70003; 70004; 74000]) [] [] [].
Definition alive_calls : list call := CConnect con1 None 1000 :: repeat CProcess 8.
Example server_alive_case : results alive_calls (client1 alive_env) = repeat Success 9 /\ handled (trace alive_calls (client1 alive_env)) = [(208, [])].
Proof. vm_compute. auto. Qed.

(** Refuted: that an unanswered PINGREQ is reported by the next pass.  A pass that reads
    any bytes does not look at the clock: a server that sends a byte of an unfinished
    packet now and then is not declared dead. *)
Definition drip_env : env := mkEnv ([32; 2; 0; 0] ++ [48; 20; 0; 1; 97; 98]) ([1; 1; 2] ++ [0] ++ [1; 1; 1] ++ repeat 0 9) (repeat 99 40)
  (repeat 0 8 ++ [30000; 30000; 30000; 30001; 61000]) [] [] [].
Definition drip_from : st := after_calls [CConnect con1 None 1000; CProcess] (client1 drip_env).
Theorem unanswered_ping_reported_refuted : exists s s' t,
  Begun cfg1 3 2 s /\ x_status (s_ctx s) = Connected /\ x_waiting (s_ctx s) = true /\ x_pingTime (s_ctx s) = 30000 /\
  Forall (fun x => x_pingTime (s_ctx s) + g_pingto cfg1 < x) (e_times (s_env s)) /\
  run_calls cfg1 (repeat CProcess 3) s = Ret (repeat NeedMoreBytes 3) s' t /\ handled t = [] /\ x_waiting (s_ctx s') = true.
Proof.
  exists drip_from. assert (E : match run_calls cfg1 (repeat CProcess 3) drip_from with Ret r s' t => r = repeat NeedMoreBytes 3 /\ handled t = [] /\ x_waiting (s_ctx s') = true | _ => False end) by (vm_compute; auto).
  destruct (run_calls cfg1 (repeat CProcess 3) drip_from) as [r s' t| |]; try contradiction. destruct E as (-> & E1 & E2). exists s', t.
  split; [apply begun_after; [apply bytes_dec| |]; vm_compute; reflexivity|]. repeat (split; [vm_compute; reflexivity|]). split; [|auto].
  assert (e_times (s_env drip_from) = [61000] /\ x_pingTime (s_ctx drip_from) = 30000) as (-> & ->) by (vm_compute; auto). constructor; [vm_compute; reflexivity|constructor].
Qed.
Print Assumptions unanswered_ping_reported_refuted.
