(** Properties of the client used from several threads (core_mqtt.c with the hooks
    MQTT_PRE_STATE_UPDATE_HOOK and MQTT_POST_STATE_UPDATE_HOOK taking and releasing a
    mutex). One thread calls MQTT_Connect, the loops and anything else; other threads
    publish, subscribe, unsubscribe, ping and so on whenever they get the mutex.
    Statements only: proofs are in ConcProofs*.v. *)
From Verif Require Import Base StateModel StateSpec StateHarness SerModel WireSpec SerHarness CoreModel CoreSpec CoreHarness CoreCases CoreFinal3 Props_Findings
  ConcModel ConcHarness ConcCases ConcProofs7 ConcProofs8 ConcProofs9 ConcProofs10.

(** *** C63 *)
(** When the other threads make no calls, every history does what it does without
    threads, so that all theorems about histories apply; only MQTT_Connect may, right
    after an error of the transport's recv, wait for ever instead, if the mutex is not
    recursive. *)
Theorem alone_as_sequential : forall G l w s, w_held w = false -> still w ->
  match c_run_calls G l w s with
  | Ret (Some rs, _) s' t => run_calls G l s = Ret rs s' t
  | Ret (None, _) _ t => existsb call_conn l = true /\ g_nest G = false /\ dead t
  | Undef => run_calls G l s = Undef
  | Stuck => run_calls G l s = Stuck
  end.
Proof. exact ConcProofs7.alone. Qed.
Print Assumptions alone_as_sequential.
(** With a recursive mutex there is no exception. *)
Theorem alone_recursive : forall G l w s, g_nest G = true -> w_held w = false -> still w ->
  exists w', c_run_calls G l w s = (let* rs := run_calls G l in ret (Some rs, w')) s.
Proof. exact alone_nest. Qed.
Print Assumptions alone_recursive.
Definition chat : list call := [conn1; CProcess; COp (OPublish (pub1 Q1) 7); CProcess].
Definition chat_env : env := env_of [50; 5; 0; 1; 97; 0; 9; 64; 2; 0; 7] [7; 4] (repeat 100 9) (repeat 0 99).
Example alone_case : still (mkW false [[]; []]) /\ c_trace chat (mkW false [[]; []]) (client1 chat_env) =
  Some (results chat (client1 chat_env), trace chat (client1 chat_env)) /\ results chat (client1 chat_env) = repeat Success 4.
Proof. split; [repeat constructor|each]. Qed.

(** *** C64 *)
(** No history meets undefined behaviour, whatever the other threads do (sound
    arguments, no MQTT_Disconnect) and whenever they do it, *)
Theorem threads_safe : forall G n m l w s, legal G n m l w s -> c_run_calls G l w s <> Undef.
Proof. exact legal_safe. Qed.
Print Assumptions threads_safe.
(** the buffer is not overrun and no id is used twice. *)
Theorem threads_state : forall G n m w s, Shared G n m w s ->
  0 <= x_index (s_ctx s) <= zlen (x_buf (s_ctx s)) /\ NoDup (ids (outgoing s)) /\ NoDup (ids (incoming s)) /\
  ~ In 0 (ids (outgoing s)) /\ ~ In 0 (ids (incoming s)).
Proof. exact shared_state. Qed.
Print Assumptions threads_state.
(** while a QoS 2 publish comes in, others publish, subscribe and ping *)
Definition busy_env : env := env_of [52; 6; 0; 1; 97; 0; 9; 5; 98; 2; 0; 9] [8; 4] (repeat 100 9) (repeat 0 99).
Definition busy_world : world :=
  mkW false (repeat [] 6 ++ [[OPublish (pub1 Q1) 7]] ++ repeat [] 6 ++ [[OPing; OPublish (pub1 Q2) 8]] ++ repeat [] 6 ++ [[OPublish (pub1 Q0) 0]]).
Definition busy_calls : list call := [conn1; CProcess; CProcess].
Example threads_case : legal cfg1 3 2 busy_calls busy_world (client1 busy_env) /\
  Shared cfg1 3 2 (c_world busy_calls busy_world (client1 busy_env)) (c_after busy_calls busy_world (client1 busy_env)) /\
  option_map fst (c_trace busy_calls busy_world (client1 busy_env)) = Some [Success; Success; Success] /\
  option_map (fun x => skipn 4 (snd x)) (c_trace busy_calls busy_world (client1 busy_env)) = Some
    [EIn [52; 6; 0; 1; 97; 0; 9; 5];
     EStore 7 [[58; 7; 0; 1]; [97]; [0; 7]; [1; 2]] true; EOut [50; 7; 0; 1; 97; 0; 7; 1; 2];
     EPkt 52 [0; 1; 97; 0; 9; 5]; ECb 52 [0; 1; 97; 0; 9; 5] 9 (Some (mkDpub Q2 false false 2 1 (Some 5) 1)) Success; EOut [80; 2; 0; 9];
     EOut [192; 0]; EStore 8 [[60; 7; 0; 1]; [97]; [0; 8]; [1; 2]] true; EOut [52; 7; 0; 1; 97; 0; 8; 1; 2];
     EIn [98; 2; 0; 9]; EOut [48; 5; 0; 1; 97; 1; 2];
     EPkt 98 [0; 9]; ECb 98 [0; 9] 9 None Success; EOut [112; 2; 0; 9]].
Proof.
  assert (H : legal cfg1 3 2 busy_calls busy_world (client1 busy_env)) by legal1.
  split; [exact H|]. split; [apply shared_after; [exact H|vm_compute; discriminate]|]. each.
Qed.

(** *** C65 *)
(** Every call gets the mutex it waits for and returns, except that MQTT_Connect hangs
    when the transport's recv fails while it reads the CONNACK and the mutex is not
    recursive. *)
Theorem hangs_only_in_connect_partial : forall G n m l w s w' s' t, legal G n m l w s -> c_run_calls G l w s = Ret (None, w') s' t ->
  existsb call_conn l = true /\ g_nest G = false /\ dead t.
Proof. exact legal_hang. Qed.
Print Assumptions hangs_only_in_connect_partial.
Theorem recursive_never_hangs : forall G n m l w s w' s' t, legal G n m l w s -> g_nest G = true -> c_run_calls G l w s <> Ret (None, w') s' t.
Proof. exact legal_returns. Qed.
Print Assumptions recursive_never_hangs.
(** MQTT_Connect holds the mutex while it waits for the CONNACK (core_mqtt.c:2945-2986);
    recvExact takes it again on an error (1022). With no other thread about, and the
    connection lost after the first two bytes of the CONNACK, MQTT_Connect never
    returns, and the mutex stays taken. *)
Theorem connect_deadlock_refuted : exists s w' s' t, legal cfg1 3 2 [conn1] (mkW false []) s /\
  c_run_call cfg1 conn1 (mkW false []) s = Ret (None, w') s' t /\ w_held w' = true /\
  exists s1, run_call cfg1 conn1 s = Ret RecvFailed s1 t.
Proof.
  exists (client1 (mkEnv [32; 2] [1; 1; -1] [100] (repeat 0 20) [] [] [])).
  eexists _, _, _. split; [legal1|]. split; [vm_compute; reflexivity|]. split; [vm_compute; reflexivity|]. eexists. vm_compute. reflexivity.
Qed.
Print Assumptions connect_deadlock_refuted.
(** the same run with a recursive mutex *)
Definition cfg_nest : cfg := mkCfg (g_M cfg1) (g_big cfg1) (g_writev cfg1) (g_maxvec cfg1) (g_retry cfg1) (g_pingto cfg1) (g_tx cfg1) (g_rx cfg1) (g_poll cfg1) (g_sendto cfg1) true.
Example recursive_case : legal cfg_nest 3 2 [conn1] (mkW false []) (client1 (mkEnv [32; 2] [1; 1; -1] [100] (repeat 0 20) [] [] [])) /\
  exists w' s' t, c_run_calls cfg_nest [conn1] (mkW false []) (client1 (mkEnv [32; 2] [1; 1; -1] [100] (repeat 0 20) [] [] [])) = Ret (Some [RecvFailed], w') s' t /\
    run_calls cfg_nest [conn1] (client1 (mkEnv [32; 2] [1; 1; -1] [100] (repeat 0 20) [] [] [])) = Ret [RecvFailed] s' t.
Proof. split; [legal1|]. eexists _, _, _. split; vm_compute; reflexivity. Qed.

(** *** C66 *)
(** The packets handled and skipped are the ones the stream consists of, whatever
    other threads do meanwhile. *)
Theorem threads_stream_framed : forall G n m l w s rs w' s' t, Shared G n m w s -> Forall call_sound l -> forallb plain l = true -> ~ In RecvFailed rs ->
  c_run_calls G l w s = Ret (Some rs, w') s' t ->
  zlen (x_buf (s_ctx s')) = zlen (x_buf (s_ctx s)) /\ e_in (s_env s) = ins t ++ e_in (s_env s') /\
  exists bytes, Frames (zlen (x_buf (s_ctx s))) (items t) bytes /\ pend (s_ctx s) ++ ins t = bytes ++ pend (s_ctx s').
Proof. exact shared_frames. Qed.
Print Assumptions threads_stream_framed.
(** the state after MQTT_Connect in the example above *)
Definition mid : st := c_after [conn1] busy_world (client1 busy_env).
Definition mid_world : world := c_world [conn1] busy_world (client1 busy_env).
Example mid_shared : Shared cfg1 3 2 mid_world mid.
Proof. apply shared_after; [legal1|vm_compute; discriminate]. Qed.
Example threads_stream_case : forallb plain [CProcess; CProcess] = true /\
  option_map (fun x => (fst x, items (snd x))) (c_trace [CProcess; CProcess] mid_world mid) =
    Some ([Success; Success], [Whole 52 [0; 1; 97; 0; 9; 5]; Whole 98 [0; 9]]).
Proof. each. Qed.

(** *** C67 *)
(** A QoS 2 publish is handed to the application once, whatever other threads do. *)
Theorem threads_qos2_once : forall G n m id l w s rs w' s' t, Shared G n m w s -> Forall call_sound l -> c_same_session G l w s ->
  c_run_calls G l w s = Ret (Some rs, w') s' t ->
  forall t1 e q t2 e' t3, t = t1 ++ e :: t2 ++ e' :: t3 -> delivery e = Some (id, Q2) -> delivery e' = Some (id, q) -> completed id t2.
Proof. exact shared_delivered. Qed.
Print Assumptions threads_qos2_once.
(** sent twice, released, sent again with the same id; another thread cancels,
    publishes and pings *)
Definition again_env : env := env_of ([52; 6; 0; 1; 97; 0; 9; 1] ++ [60; 6; 0; 1; 97; 0; 9; 1] ++ [98; 2; 0; 9] ++ [52; 6; 0; 1; 97; 0; 9; 1]) [8; 8; 4; 8] (repeat 100 30) (repeat 0 99).
Definition again_world : world := mkW false (repeat [] 14 ++ [[OPing; OCancel 9]] ++ repeat [] 6 ++ [[OPublish (pub1 Q1) 9]]).
Definition again : st := c_after [conn1] again_world (client1 again_env).
Definition again_w : world := c_world [conn1] again_world (client1 again_env).
Example threads_qos2_case : Shared cfg1 3 2 again_w again /\ c_same_session cfg1 (repeat CProcess 4) again_w again /\
  option_map (fun x => (fst x, map delivery (callbacks (snd x)), outs (snd x))) (c_trace (repeat CProcess 4) again_w again) =
  Some (repeat Success 4, [Some (9, Q2); None; Some (9, Q2)],
    [80; 2; 0; 9] ++ [192; 0] ++ [50; 7; 0; 1; 97; 0; 9; 1; 2] ++ [80; 2; 0; 9] ++ [112; 2; 0; 9] ++ [80; 2; 0; 9]).
Proof.
  split; [apply shared_after; [legal1|vm_compute; discriminate]|]. split; [vm_compute; repeat split; discriminate|each].
Qed.

(** *** C68 *)
(** A pass that reports success has acknowledged, with an unbroken packet, each packet
    it handled that asks for it, whatever other threads send meanwhile. *)
Theorem threads_acknowledged : forall G n m mk w s w' s' t ty body, Shared G n m w s ->
  c_run_call G (if mk : bool then CProcess else CReceive) w s = Ret (Some Success, w') s' t ->
  In (EPkt ty body) t -> forall kind id, asks_reply ty body kind id -> exists a b, outs t = a ++ ack_packet kind id ++ b.
Proof. exact shared_answered. Qed.
Print Assumptions threads_acknowledged.
Example threads_acknowledged_case : asks_reply 52 [0; 1; 97; 0; 9; 5] KPubrec 9 /\
  option_map (fun x => existsb (fun e => match e with EPkt 52 [0; 1; 97; 0; 9; 5] => true | _ => false end) (snd x)) (c_trace [CProcess] mid_world mid) = Some true /\
  option_map (fun x => (fst x, outs (snd x))) (c_trace [CProcess] mid_world mid) =
    Some ([Success], [50; 7; 0; 1; 97; 0; 7; 1; 2] ++ ack_packet KPubrec 9 ++ [192; 0] ++ [52; 7; 0; 1; 97; 0; 8; 1; 2]).
Proof.
  split; [|each]. apply (ar_qos2 _ _ (mkPublish false Q2 false [97] 9 [5])); [|reflexivity].
  unfold publish_means. cbn [pm_topic pm_id pm_qos pm_payload]. repeat split; try (vm_compute; congruence); try lia; right; lia.
Qed.
(** MQTT_Connect sends its packet unbroken and succeeds on an accepted CONNACK only. *)
Theorem threads_connect : forall G n m ci will cm tmo w s w' s' t sp, Shared G n m w s -> con_sound ci will -> con_means ci will cm ->
  c_connect G ci will tmo w s = Ret (Some (Success, sp), w') s' t ->
  exists (p : bool) a b, sp = Some p /\ ins t = [32; 2; if p then 1 else 0; 0] /\ (c_clean ci = true -> p = false) /\ outs t = a ++ connect_packet cm ++ b.
Proof. exact shared_connect. Qed.
Print Assumptions threads_connect.
(** a ping of another thread between two resent publishes *)
Definition back_env : env := mkEnv [32; 2; 0; 0; 32; 2; 1; 0] [1; 1; 2; 1; 1; 2] (repeat 100 20) (repeat 0 99) [] (repeat true 9)
  [Some (publish_packet (with_dup (pub1_msg Q1 1))); Some (publish_packet (with_dup (pub1_msg Q1 2)))].
Definition back_calls : list call := [conn1; COp (OPublish (pub1 Q1) 1); COp (OPublish (pub1 Q1) 2); COp ODisconnect].
Definition back_world : world := meanwhile 9 [OPing].
Example threads_connect_case :
  Shared cfg1 3 2 (c_world back_calls back_world (client1 back_env)) (c_after back_calls back_world (client1 back_env)) /\
  con_sound con1 None /\ con_means con1 None con1_msg /\
  exists w' s' t, c_connect cfg1 con1 None 1000 (c_world back_calls back_world (client1 back_env)) (c_after back_calls back_world (client1 back_env)) =
    Ret (Some (Success, Some true), w') s' t /\
  outs t = connect_packet con1_msg ++ publish_packet (with_dup (pub1_msg Q1 1)) ++ pingreq_packet ++ publish_packet (with_dup (pub1_msg Q1 2)).
Proof.
  split; [apply shared_after; [legal1|vm_compute; discriminate]|]. split; [vm_compute; repeat split; congruence|].
  split; [unfold con_means, con1, con1_msg, holds_opt, holds0, holds; cbn; repeat match goal with |- _ /\ _ => split end; try reflexivity; try lia; try exact I; try (vm_compute; congruence); try (eexists; repeat split; try reflexivity; vm_compute; congruence)|].
  eexists _, _, _. split; vm_compute; reflexivity.
Qed.

(** *** C69 *)
(** Nothing is sent without a connection; after a failed send nothing more is sent on
    that connection, and only MQTT_Disconnect gets the client out of that state; an
    error is noticed by the end of the call. *)
Theorem threads_sends_partial : forall G n m l w s rs w' s' t, Shared G n m w s -> Forall call_sound l -> existsb call_disc l = false ->
  c_run_calls G l w s = Ret (Some rs, w') s' t ->
  (x_status (s_ctx s) = Connected -> hushed t /\ x_status (s_ctx s') <> NotConnected /\ (In EOutErr t -> x_status (s_ctx s') = DisconnectPending)) /\
  (x_status (s_ctx s) = DisconnectPending -> outs t = [] /\ x_status (s_ctx s') = DisconnectPending) /\
  (x_status (s_ctx s) = NotConnected -> existsb call_conn l = false -> outs t = [] /\ x_status (s_ctx s') = NotConnected).
Proof. exact shared_sends. Qed.
Print Assumptions threads_sends_partial.
Theorem threads_error_noticed : forall G n m c w s r w' s' t, Shared G n m w s -> call_sound c -> plain c = true ->
  c_run_call G c w s = Ret (Some r, w') s' t -> errs t = true -> x_status (s_ctx s') <> Connected.
Proof. exact shared_noticed. Qed.
Print Assumptions threads_error_noticed.
(** the other thread's PUBLISH fails: the PUBREC is not sent any more *)
Definition fail_env : env := env_of [52; 6; 0; 1; 97; 0; 9; 5] [8] [4; -1; 100; 100] (repeat 0 99).
Definition fail_world : world := meanwhile 6 [OPublish (pub1 Q0) 0].
Example threads_sends_case : Shared cfg1 3 2 (c_world [conn1] fail_world (client1 fail_env)) (c_after [conn1] fail_world (client1 fail_env)) /\
  x_status (s_ctx (c_after [conn1] fail_world (client1 fail_env))) = Connected /\
  option_map fst (c_trace [conn1; CProcess] fail_world (client1 fail_env)) = Some [Success; StDisconnectPending] /\
  option_map (fun x => skipn 4 (snd x)) (c_trace [conn1; CProcess] fail_world (client1 fail_env)) =
    Some [EIn [52; 6; 0; 1; 97; 0; 9; 5]; EOut [48; 5; 0; 1]; EOutErr; EPkt 52 [0; 1; 97; 0; 9; 5];
          ECb 52 [0; 1; 97; 0; 9; 5] 9 (Some (mkDpub Q2 false false 2 1 (Some 5) 1)) Success].
Proof. split; [apply shared_after; [legal1|vm_compute; discriminate]|each]. Qed.
(** Not so after a failed recv: the mutex is taken only afterwards to record it
    (core_mqtt.c:1738-1745), and another thread may send in between. *)
Theorem send_after_recv_error_refuted : exists s w rs t, legal cfg1 3 2 [conn1; CProcess] w s /\
  c_trace [conn1; CProcess] w s = Some (rs, t) /\ exists a b, t = a ++ EInErr :: b /\ outs b = pingreq_packet.
Proof.
  exists (client1 (env_of [] [-1] [100; 100] (repeat 0 99))), (meanwhile 4 [OPing]).
  eexists _, _. split; [legal1|]. split; [vm_compute; reflexivity|]. eexists [_; _; _; _], _. split; [reflexivity|reflexivity].
Qed.
Print Assumptions send_after_recv_error_refuted.
(** Nor while a session is resumed: handleUncleanSessionResumption sends the stored
    publishes without looking at the connection status (core_mqtt.c:2558-2580), also
    after another thread's send failed; MQTT_Connect reports success. *)
Definition resume_env : env := mkEnv [32; 2; 0; 0; 32; 2; 1; 0] [1; 1; 2; 1; 1; 2] [100; 100; 100; 100; -1; 100; 100] (repeat 0 99) [] (repeat true 9)
  [Some (publish_packet (with_dup (pub1_msg Q1 1)))].
Definition resume_calls : list call := [conn1; COp (OPublish (pub1 Q1) 1); COp ODisconnect; conn1].
Theorem resume_after_send_error_refuted : exists w t, legal cfg1 3 2 resume_calls w (client1 resume_env) /\
  c_trace resume_calls w (client1 resume_env) = Some (repeat Success 4, t) /\
  x_status (s_ctx (c_after resume_calls w (client1 resume_env))) = DisconnectPending /\
  exists a b, t = a ++ EOutErr :: b /\ outs b = publish_packet (with_dup (pub1_msg Q1 1)).
Proof.
  exists (meanwhile 7 [OPing]). eexists. split; [legal1|]. split; [vm_compute; reflexivity|]. split; [vm_compute; reflexivity|].
  eexists [_; _; _; _; _; _; _; _; _; _; _; _], _. split; [reflexivity|reflexivity].
Qed.
Print Assumptions resume_after_send_error_refuted.

(** *** C70 *)
(** handleKeepAlive reads the clock, then - without the mutex - whether and when a
    PINGREQ was sent (core_mqtt.c:1377-1428). A PINGREQ sent by another thread in
    between looks 2^32 - 1 ms old: the pass that read the clock at 1000 ends with
    MQTTKeepAliveTimeout, though the PINGREQ went out at 1001. *)
Theorem keep_alive_race_refuted : exists s w t, legal cfg1 3 2 [conn1; CProcess] w s /\
  c_trace [conn1; CProcess] w s = Some ([Success; KeepAliveTimeout], t) /\
  x_lastTx (s_ctx (c_after [conn1; CProcess] w s)) = 1001 /\ x_pingTime (s_ctx (c_after [conn1; CProcess] w s)) = 1001 /\
  exists a, t = a ++ [EIn []; EOut pingreq_packet].
Proof.
  exists (client1 (env_of [] [0] [100] (repeat 0 8 ++ [1000; 1001; 1001; 1001; 1001]))), (meanwhile 6 [OPing]).
  eexists. split; [legal1|]. split; [vm_compute; reflexivity|]. split; [vm_compute; reflexivity|]. split; [vm_compute; reflexivity|].
  eexists [_; _; _; _]. reflexivity.
Qed.
Print Assumptions keep_alive_race_refuted.
(** Unless another thread sends a PINGREQ during the pass, the timeout is real: whatever
    else the others do, the client was waiting for the answer to a PINGREQ since before
    the pass, for longer than the timeout by a clock reading of this pass, and nothing
    arrived. *)
Theorem keep_alive_threads_partial : forall G (mk : bool) w s w' s' t, w_held w = false -> only_calls not_ping w ->
  c_run_call G (if mk then CProcess else CReceive) w s = Ret (Some KeepAliveTimeout, w') s' t ->
  mk = true /\ overdue G s s' /\ ins t = [].
Proof. exact loops_overdue. Qed.
Print Assumptions keep_alive_threads_partial.
(** a PINGREQ at 0, no answer; at 9000 another thread publishes during the pass *)
Definition late_env : env := env_of [] [0] (repeat 100 9) (repeat 0 11 ++ repeat 9000 20).
Definition late_world : world := meanwhile 7 [OPublish (pub1 Q0) 0].
Definition late : st := c_after [conn1; COp OPing] late_world (client1 late_env).
Definition late_w : world := c_world [conn1; COp OPing] late_world (client1 late_env).
Example keep_alive_threads_case : w_held late_w = false /\ only_calls not_ping late_w /\
  option_map (fun x => (fst x, snd x)) (c_trace [CProcess] late_w late) = Some ([KeepAliveTimeout], [EIn []; EOut (publish_packet (pub1_msg Q0 0))]) /\
  x_waiting (s_ctx late) = true /\ x_pingTime (s_ctx late) = 0 /\ g_pingto cfg1 = 5000.
Proof. split; [reflexivity|]. split; [repeat constructor|]. each. Qed.

(** *** C71 *)
(** The mutex is not held between two packets of a resumed session. Another thread's
    MQTT_Publish moves the records together: publish 3 is never sent again, the new
    publish 4 is sent twice, and MQTT_Connect reports success. *)
Definition skip_env : env := mkEnv [32; 2; 0; 0; 64; 2; 0; 1; 32; 2; 1; 0] [1; 1; 2; 4; 1; 1; 2] (repeat 100 20) (repeat 0 99) [] (repeat true 9)
  [Some (publish_packet (with_dup (pub1_msg Q1 2))); Some (publish_packet (with_dup (pub1_msg Q1 4)))].
Definition skip_calls : list call :=
  [conn1; COp (OPublish (pub1 Q1) 1); COp (OPublish (pub1 Q1) 2); COp (OPublish (pub1 Q1) 3); CProcess; COp ODisconnect].
Theorem resume_skips_publish_refuted : exists w t, legal cfg1 3 2 (skip_calls ++ [conn1]) w (client1 skip_env) /\
  outgoing (c_after skip_calls w (client1 skip_env)) = [F 2 Q1 PubAckPending; F 3 Q1 PubAckPending] /\
  c_trace (skip_calls ++ [conn1]) w (client1 skip_env) = Some (repeat Success 7, t) /\
  retrieved t = [(2, Some (publish_packet (with_dup (pub1_msg Q1 2)))); (4, Some (publish_packet (with_dup (pub1_msg Q1 4))))] /\
  exists a, outs t = a ++ publish_packet (with_dup (pub1_msg Q1 2)) ++ publish_packet (pub1_msg Q1 4) ++ publish_packet (with_dup (pub1_msg Q1 4)).
Proof.
  exists (meanwhile 24 [OPublish (pub1 Q1) 4]). eexists. split; [legal1|]. split; [vm_compute; reflexivity|].
  split; [vm_compute; reflexivity|]. split; [vm_compute; reflexivity|].
  exists ([16; 15; 0; 4; 77; 81; 84; 84; 4; 0; 0; 60; 0; 3; 97; 98; 99; 50; 7; 0; 1; 97; 0; 1; 1; 2; 50; 7; 0; 1; 97; 0; 2; 1; 2; 50; 7; 0; 1; 97; 0; 3; 1; 2; 224; 0]
    ++ [16; 15; 0; 4; 77; 81; 84; 84; 4; 0; 0; 60; 0; 3; 97; 98; 99]). vm_compute. reflexivity.
Qed.
Print Assumptions resume_skips_publish_refuted.
(** When the others meanwhile neither publish with QoS 1 or 2 nor cancel, a resumed
    session is complete: behind the CONNECT packet, a PUBREL for each publish that got
    its PUBREC, then a copy from the store for each one not acknowledged, all unbroken
    and in order, whatever the others send between them; and the publishes in flight
    are what they should be. *)
Theorem threads_resume_partial : forall G n m ci will cm tmo w s w' s' t, Shared G n m w s -> con_means ci will cm -> only_calls leaves_session w ->
  c_connect G ci will tmo w s = Ret (Some (Success, Some true), w') s' t ->
  outgoing s' = mark (half_done (outgoing s)) (outgoing s) /\ incoming s' = incoming s /\
  exists copies, retrieved t = map (fun p => (fst p, Some (snd p))) copies /\
    map fst copies = (if x_retr (s_ctx s) then unacked (outgoing s) else []) /\
    within (connect_packet cm :: map pubrel (half_done (outgoing s)) ++ map snd copies) (outs t).
Proof. exact threads_resumed. Qed.
Print Assumptions threads_resume_partial.
(** publish 1 got its PUBREC, publish 2 is not acknowledged; pings and subscriptions of
    another thread in between *)
Definition mixed_env : env := mkEnv [32; 2; 0; 0; 80; 2; 0; 1; 32; 2; 1; 0] [1; 1; 2; 4; 1; 1; 2] (repeat 100 20) (repeat 0 99) [] (repeat true 9)
  [Some (publish_packet (with_dup (pub1_msg Q1 2)))].
Definition mixed_calls : list call := [conn1; COp (OPublish (pub1 Q2) 1); COp (OPublish (pub1 Q1) 2); CProcess; COp ODisconnect].
Definition mixed_world : world := mkW false (repeat [] 22 ++ [[OPing]; []; []; [OPublish (pub1 Q0) 0]]).
Definition mixed : st := c_after mixed_calls mixed_world (client1 mixed_env).
Definition mixed_w : world := c_world mixed_calls mixed_world (client1 mixed_env).
Example threads_resume_case : Shared cfg1 3 2 mixed_w mixed /\ only_calls leaves_session mixed_w /\
  outgoing mixed = [F 2 Q1 PubAckPending; F 1 Q2 PubCompPending] /\
  exists w' s' t, c_connect cfg1 con1 None 1000 mixed_w mixed = Ret (Some (Success, Some true), w') s' t /\
  outs t = connect_packet con1_msg ++ pingreq_packet ++ pubrel 1 ++ publish_packet (pub1_msg Q0 0) ++ publish_packet (with_dup (pub1_msg Q1 2)).
Proof.
  split; [apply shared_after; [legal1|vm_compute; discriminate]|]. split; [vm_compute; repeat constructor|]. split; [vm_compute; reflexivity|].
  eexists _, _, _. split; vm_compute; reflexivity.
Qed.

(** *** C72 *)
(** MQTT_Disconnect by another thread during a pass of the loop empties the buffer
    under it, as when called from the callback (C45): undefined behaviour. *)
Theorem disconnect_by_thread_refuted : exists s, legal cfg1 3 2 [conn1; CProcess] (mkW false []) s /\
  c_run_calls cfg1 [conn1; CProcess] (meanwhile 8 [ODisconnect]) s = Undef.
Proof.
  exists (client1 (env_of [48; 3; 0; 1; 97] [5] [100; 100] (repeat 0 99))). split; [legal1|]. vm_compute. reflexivity.
Qed.
Print Assumptions disconnect_by_thread_refuted.
(** During any other call it does no harm of that kind: when MQTT_Disconnect is called
    by another thread, also during MQTT_Connect, but not during a pass of the loop, no
    undefined behaviour occurs. *)
Theorem disconnect_elsewhere_partial : forall G n m l s, opened G n m s -> 3 <= g_maxvec G -> cbs_sound (s_env s) -> Forall kept_apart l ->
  c_run_each G l s <> Undef.
Proof. exact apart_safe. Qed.
Print Assumptions disconnect_elsewhere_partial.
(** MQTT_Disconnect by another thread while the session is resumed: MQTT_Connect goes on
    to send the stored publish, behind the DISCONNECT packet, and reports success. *)
Definition gone_env : env := mkEnv [32; 2; 0; 0; 32; 2; 1; 0] [1; 1; 2; 1; 1; 2] (repeat 100 20) (repeat 0 99) [] (repeat true 9)
  [Some (publish_packet (with_dup (pub1_msg Q1 1)))].
Definition gone_calls : list (call * list (list op)) :=
  [(conn1, []); (COp (OPublish (pub1 Q1) 1), []); (COp ODisconnect, []); (conn1, [[]; []; []; [ODisconnect]])].
Theorem resume_after_disconnect_refuted : opened cfg1 3 2 (client1 gone_env) /\ Forall kept_apart gone_calls /\
  exists s t, c_run_each cfg1 gone_calls (client1 gone_env) = Ret (Some (repeat Success 4)) s t /\ x_status (s_ctx s) = NotConnected /\
  exists a, outs t = a ++ connect_packet con1_msg ++ disconnect_packet ++ publish_packet (with_dup (pub1_msg Q1 1)).
Proof.
  assert (L : legal cfg1 3 2 [COp (OPublish (pub1 Q1) 1); conn1] (mkW false []) (client1 gone_env)) by legal1.
  destruct L as (L1 & _ & _ & L2 & _). split; [exact L1|]. inversion L2 as [|x y S1 S2]; subst. inversion S2 as [|x y S3 _]; subst.
  split; [repeat constructor; cbn [fst snd is_loop]; try exact S3; try exact S1; try discriminate|].
  eexists _, _. split; [vm_compute; reflexivity|]. split; [reflexivity|].
  exists (connect_packet con1_msg ++ publish_packet (pub1_msg Q1 1) ++ disconnect_packet). vm_compute. reflexivity.
Qed.
Print Assumptions resume_after_disconnect_refuted.
(** the same calls satisfy the premises of the theorem above *)
Example disconnect_elsewhere_case : 3 <= g_maxvec cfg1 /\ cbs_sound (s_env (client1 gone_env)) /\ c_run_each cfg1 gone_calls (client1 gone_env) <> Undef.
Proof. split; [vm_compute; discriminate|]. split; [constructor|]. vm_compute. discriminate. Qed.
