(** Properties of the client core (core_mqtt.c).
    Statements only: proofs are in CoreProofs*.v and CoreFinal.v. *)
From Verif Require Import Base StateModel StateSpec StateHarness SerModel WireSpec SerHarness CoreModel CoreSpec CoreHarness CoreCases
  CoreProofs14 CoreProofs15 CoreProofs16 CoreProofs18 CoreFinal.

(** *** C27 *)
(** Two readings of a 32-bit clock less than 2^32 ms apart give the true distance. *)
Theorem elapsed_time_exact : forall T1 T2, 0 <= T2 - T1 < 4294967296 -> elapsed (u32 T2) (u32 T1) = T2 - T1.
Proof. exact elapsed_true. Qed.
Print Assumptions elapsed_time_exact.
Example elapsed_time_case : elapsed (u32 4294967300) (u32 4294967290) = 10 /\ u32 4294967300 = 4.
Proof. split; reflexivity. Qed.

(** *** C28 *)
(** The bytes the transport takes are a prefix of the packet, whatever it takes at
    a time; the result is the whole length exactly if all of it was taken; an error
    of the transport is the last thing that happens and breaks the connection. *)
Theorem send_vector_prefix : forall G vs s r s' t, sendMessageVector G vs s = Ret r s' t ->
  exists k, (k <= length (concat vs))%nat /\ outs t = firstn k (concat vs) /\ quiet t /\
    (r = zlen (concat vs) <-> k = length (concat vs)) /\
    (errs t = true -> r < 0) /\ (errs t = false -> r = Z.of_nat k) /\
    x_status (s_ctx s') = if errs t then match x_status (s_ctx s) with Connected => DisconnectPending | x => x end
                          else x_status (s_ctx s).
Proof. exact send_vector_exact. Qed.
Print Assumptions send_vector_prefix.
Theorem send_buffer_prefix : forall G bs s r s' t, sendBuffer G bs s = Ret r s' t ->
  exists k, (k <= length bs)%nat /\ outs t = firstn k bs /\ quiet t /\ (r = zlen bs <-> k = length bs) /\
    (errs t = true -> r < 0) /\ (errs t = false -> r = Z.of_nat k) /\
    x_status (s_ctx s') = if errs t then match x_status (s_ctx s) with Connected => DisconnectPending | x => x end
                          else x_status (s_ctx s).
Proof. exact send_buffer_exact. Qed.
Print Assumptions send_buffer_prefix.
(** Each API call puts a prefix of its one packet on the wire, all of it if and only
    if it does not end with SendFailed or a refusal. *)
Theorem call_sends_its_packet : forall G o bs s st s' t, 4294967296 <= g_M G -> g_big G = false -> op_packet (g_M G) o bs ->
  run_op G o s = Ret st s' t -> wire bs st s s' t.
Proof. exact op_wire. Qed.
Print Assumptions call_sends_its_packet.
(** three vectors through a transport that takes 2, 0 and then up to 4 bytes *)
Example send_vector_case : exists s' t,
  sendMessageVector cfg1 [[1; 2; 3]; []; [4; 5]] (client1 (env1 [] [] [2; 0; 4])) = Ret 5 s' t /\ t = [EOut [1; 2]; EOut []; EOut [3; 4; 5]].
Proof. eexists _, _. split; vm_compute; reflexivity. Qed.
Example call_sends_case : pub_means (pub1 Q1) 7 (pub1_msg Q1 7) /\ exists s' t, run_op cfg1 (OPublish (pub1 Q1) 7) up = Ret Success s' t /\
  outs t = [50; 7; 0; 1; 97; 0; 7; 1; 2].
Proof.
  split; [|eexists _, _; split; vm_compute; reflexivity].
  unfold pub_means, holds0, holds. repeat split; try lia; try left; eexists; repeat split; vm_compute; congruence.
Qed.

(** *** C29 *)
(** The bytes sent on success are what the serialiser writes into a buffer of any
    sufficient size. *)
Theorem publish_same_as_serializer : forall G p id m M s s' t b, 4294967296 <= M -> pub_means p id m -> (p_dup p = true -> p_qos p <> Q0) ->
  publish G p id s = Ret Success s' t -> zlen (outs t) <= zlen b ->
  exists rl, getPublishPacketSize p = (Success, Some (rl, zlen (outs t))) /\
    serializePublish M p id rl (Some b) = Ok (Success, Some (outs t ++ skipn (length (outs t)) b)).
Proof. exact publish_serialized. Qed.
Print Assumptions publish_same_as_serializer.
Theorem subscribe_same_as_serializer : forall G l fs id s s' t b, 4294967296 <= g_M G -> g_big G = false -> subs_mean l fs -> fs <> [] -> 0 < id < 65536 ->
  zlen (subscribe_body id fs) < g_M G ->
  subscribe G (Some l) (zlen l) id s = Ret Success s' t -> zlen (outs t) <= zlen b ->
  exists rl, getSubscribePacketSize (g_M G) (Some l) (zlen l) = Ok (Success, Some (rl, zlen (outs t))) /\
    serializeSubscribe (g_M G) (Some l) (zlen l) id rl (Some b) = Ok (Success, Some (outs t ++ skipn (length (outs t)) b)).
Proof. exact subscribe_serialized. Qed.
Print Assumptions subscribe_same_as_serializer.
Theorem unsubscribe_same_as_serializer : forall G l fs id s s' t b, 4294967296 <= g_M G -> subs_mean l fs -> fs <> [] -> 0 < id < 65536 ->
  zlen (unsubscribe_body id (map fst fs)) < g_M G ->
  unsubscribe G (Some l) (zlen l) id s = Ret Success s' t -> zlen (outs t) <= zlen b ->
  exists rl, getUnsubscribePacketSize (g_M G) (Some l) (zlen l) = Ok (Success, Some (rl, zlen (outs t))) /\
    serializeUnsubscribe (g_M G) (Some l) (zlen l) id rl (Some b) = Ok (Success, Some (outs t ++ skipn (length (outs t)) b)).
Proof. exact unsubscribe_serialized. Qed.
Print Assumptions unsubscribe_same_as_serializer.
Theorem connect_same_as_serializer : forall G n m ci will cm tmo s sp s' t b M, 4294967296 <= M -> con_means ci will cm -> Begun G n m s ->
  connect G ci will tmo s = Ret (Success, sp) s' t -> zlen (connect_packet cm) <= zlen b ->
  exists rl bs rest, getConnectPacketSize ci will = (Success, Some (rl, zlen bs)) /\
    serializeConnect M ci will rl (Some b) = Ok (Success, Some (bs ++ skipn (length bs) b)) /\
    outs t = bs ++ rest /\ (sp = Some false -> rest = []).
Proof. exact connect_serialized. Qed.
Print Assumptions connect_same_as_serializer.
Definition subs1 : list subinfo := [mkSub Q1 (Some [97; 47; 35]) 3; mkSub Q2 (Some [98]) 1].
Example subscribe_same_case : exists s' t, subscribe cfg1 (Some subs1) 2 258 up = Ret Success s' t /\
  outs t = [130; 12; 1; 2; 0; 3; 97; 47; 35; 1; 0; 1; 98; 2].
Proof. eexists _, _. split; vm_compute; reflexivity. Qed.
Example connect_same_case : exists s' t, connect cfg1 con1 None 1000 (client1 env_up) = Ret (Success, Some false) s' t /\
  outs t = connect_packet con1_msg.
Proof. eexists _, _. split; vm_compute; reflexivity. Qed.
(** MQTT_Publish sends a QoS 0 PUBLISH with the DUP flag, which MQTT_SerializePublish refuses
    (and MQTT 3.1.1 section 3.3.1.1 forbids). *)
Theorem publish_same_dup_qos0_refuted : exists p m s' t, pub_means p 0 m /\ publish cfg1 p 0 up = Ret Success s' t /\
  outs t = publish_packet m /\ forall M rl b, serializePublish M p 0 rl (Some b) = Ok (BadParameter, Some b).
Proof.
  exists (mkPub Q0 false true (Some [97]) 1 None 0), (mkPublish true Q0 false [97] 0 []). eexists _, _.
  split; [|split; [vm_compute; reflexivity|split; [vm_compute; reflexivity|intros; reflexivity]]].
  unfold pub_means, holds0, holds. cbn. repeat match goal with |- _ /\ _ => split end; try reflexivity; try lia; try (left; eexists; repeat split; vm_compute; congruence); try (right; auto); eexists; repeat split; vm_compute; congruence.
Qed.
Print Assumptions publish_same_dup_qos0_refuted.
(** On a big-endian machine MQTT_Subscribe asks for QoS 0 whatever was requested. *)
Theorem subscribe_same_big_endian_refuted : exists G l fs s' t, 4294967296 <= g_M G /\ subs_mean l fs /\
  subscribe G (Some l) (zlen l) 1 up = Ret Success s' t /\ outs t <> subscribe_packet 1 fs.
Proof.
  exists (mkCfg 4294967296 true true 4 5 5000 30000 30000 10 20000 false), [mkSub Q1 (Some [97]) 1], [([97], Q1)].
  eexists _, _. split; [cbn; lia|]. split; [|split; [vm_compute; reflexivity|vm_compute; congruence]].
  repeat constructor. unfold sub_means, holds. cbn. repeat split; try lia; eexists; repeat split; vm_compute; congruence.
Qed.
Print Assumptions subscribe_same_big_endian_refuted.

(** *** C30 *)
(** The copy is stored before anything is sent and is the packet with DUP set. *)
Theorem stored_copy_exact : forall G p id msg s st s' t, pub_means p id msg -> publish G p id s = Ret st s' t ->
  stores t = [] /\ (outs t <> [] -> p_qos p = Q0 \/ x_retr (s_ctx s) = false) /\ st <> PublishStoreFailed \/
  p_qos p <> Q0 /\ x_retr (s_ctx s) = true /\ exists vec ok t1, t = EStore id vec ok :: t1 /\ send_only t1 /\
    concat vec = publish_packet (with_dup msg) /\ (ok = false -> t1 = [] /\ st = PublishStoreFailed).
Proof. exact publish_stored. Qed.
Print Assumptions stored_copy_exact.
Theorem vector_size_exact : forall M vec, zlen (concat vec) < M -> getBytesInMQTTVec M vec = zlen (concat vec).
Proof. exact vec_bytes. Qed.
Print Assumptions vector_size_exact.
Theorem vector_copy_exact : forall mem vec, zlen (concat vec) <= zlen mem ->
  serializeMQTTVec (mem, 0%nat) vec = Ok (concat vec ++ skipn (length (concat vec)) mem, length (concat vec)).
Proof. exact vec_serialize. Qed.
Print Assumptions vector_copy_exact.
Example stored_copy_case : exists s' t, publish cfg1 (pub1 Q2) 7 up = Ret Success s' t /\ x_retr (s_ctx up) = true /\
  t = [EStore 7 [[60; 7; 0; 1]; [97]; [0; 7]; [1; 2]] true; EOut [52; 7; 0; 1; 97; 0; 7; 1; 2]].
Proof. eexists _, _. each. Qed.
Example vector_case : serializeMQTTVec ([9; 9; 9; 9], 0%nat) [[1]; []; [2; 3]] = Ok ([1; 2; 3; 9], 3%nat) /\
  getBytesInMQTTVec 65536 [[1]; []; [2; 3]] = 3.
Proof. split; reflexivity. Qed.

(** *** C31 *)
(** Without a connection a call that would send is refused and changes nothing, *)
Theorem refused_without_connection : forall G o s st s' t, asks_traffic o = true -> run_op G o s = Ret st s' t -> x_status (s_ctx s) <> Connected ->
  s' = s /\ t = [] /\ (st = BadParameter \/ st = not_connected_result (x_status (s_ctx s))).
Proof. exact op_refused. Qed.
Print Assumptions refused_without_connection.
(** and no history of calls without MQTT_Connect and MQTT_Disconnect sends a byte,
    whatever is still received. *)
Theorem silent_without_connection : forall G n m l s rs s' t, Begun G n m s -> run_calls G l s = Ret rs s' t ->
  existsb call_disc l = false -> existsb call_conn l = false -> x_status (s_ctx s) <> Connected ->
  outs t = [] /\ x_status (s_ctx s') = x_status (s_ctx s).
Proof. exact no_traffic. Qed.
Print Assumptions silent_without_connection.
(** a client that was never connected handles a QoS 1 publish (and cannot answer) *)
Definition env_never : env := env1 [50; 7; 0; 1; 97; 0; 7; 1; 2] (repeat 32 5) (repeat 100 5).
Example silent_case : Begun cfg1 3 2 (client1 env_never) /\ x_status (s_ctx (client1 env_never)) = NotConnected /\
  results [CProcess; COp OPing] (client1 env_never) = [StNotConnected; StNotConnected] /\
  trace [CProcess; COp OPing] (client1 env_never) =
    [EIn [50; 7; 0; 1; 97; 0; 7; 1; 2]; EPkt 50 [0; 1; 97; 0; 7; 1; 2];
     ECb 50 [0; 1; 97; 0; 7; 1; 2] 7 (Some (mkDpub Q1 false false 2 1 (Some 5) 2)) Success].
Proof.
  split; [|each].
  apply (begun_after [] env_never); [apply bytes_dec| |]; vm_compute; reflexivity.
Qed.

(** *** C32 *)
(** A transport error ends all sending on this connection: nothing is sent after it
    and only MQTT_Disconnect leaves the state MQTTDisconnectPending. *)
Theorem broken_stays_broken : forall G n m l s rs s' t, Begun G n m s -> run_calls G l s = Ret rs s' t ->
  existsb call_disc l = false ->
  (x_status (s_ctx s) = Connected -> quiet t /\ x_status (s_ctx s') <> NotConnected /\
     (errs t = true -> x_status (s_ctx s') = DisconnectPending)) /\
  (x_status (s_ctx s) = DisconnectPending -> outs t = [] /\ x_status (s_ctx s') = DisconnectPending).
Proof. exact broken_connection. Qed.
Print Assumptions broken_stays_broken.
Definition env_broken : env := env1 [32; 2; 0; 0] (repeat 32 30) [100; 5; -1; 100; 100].
Definition calls_broken : list call :=
  [COp (OPublish (pub1 Q1) 7); COp OPing; CProcess; CConnect con1 None 1000; COp (OPublish (pub1 Q0) 0)].
Definition broken_from : st := after_calls [CConnect con1 None 1000] (client1 env_broken).
Example broken_case : Begun cfg1 3 2 broken_from /\ x_status (s_ctx broken_from) = Connected /\
  results calls_broken broken_from = [SendFailed; StDisconnectPending; Success; StDisconnectPending; StDisconnectPending] /\
  outs (trace calls_broken broken_from) = [50; 7; 0; 1; 97] /\ errs (trace calls_broken broken_from) = true.
Proof.
  split; [|each].
  apply begun_after; [apply bytes_dec| |]; vm_compute; reflexivity.
Qed.

(** *** C33, C34 *)
(** Everything MQTT_Connect can do from the disconnected state: refuse its
    parameters; fail without side effects, not connected; be accepted without a
    session, forgetting all publishes in flight; or resume the session, sending one
    PUBREL per half-finished publish and then the stored publishes, in order. *)
Theorem connect_outcomes : forall G n m ci will cm tmo s st sp s' t, con_means ci will cm -> Begun G n m s ->
  connect G ci will tmo s = Ret (st, sp) s' t -> x_status (s_ctx s) = NotConnected ->
  (st = BadParameter /\ sp = None /\ s' = s /\ t = []) \/
  cm_id cm <> [] /\ will_fits cm = true /\
  ((exists k, (k <= length (connect_packet cm))%nat /\ outs t = firstn k (connect_packet cm)) /\
    st <> Success /\ x_status (s_ctx s') = NotConnected /\ x_recs (s_ctx s') = x_recs (s_ctx s) /\ x_index (s_ctx s') = x_index (s_ctx s) /\ cleared t = [] \/
   st = Success /\ sp = Some false /\ outs t = connect_packet cm /\ ins t = [32; 2; 0; 0] /\ x_status (s_ctx s') = Connected /\
     outgoing s' = [] /\ incoming s' = [] /\ x_index (s_ctx s') = 0 /\
     cleared t = (if x_retr (s_ctx s) then unacked (outgoing s) else []) \/
   c_clean ci = false /\ sp = Some true /\ ins t = [32; 2; 1; 0] /\ cleared t = [] /\ incoming s' = incoming s /\
     x_status (s_ctx s') = (if status_beq st Success then Connected else DisconnectPending) /\
     exists copies rest,
       retrieved t = map (fun p => (fst p, Some (snd p))) copies ++ rest /\
       let all := connect_packet cm ++ flat_map pubrel (half_done (outgoing s)) ++ flat_map snd copies in
       (st = Success /\ rest = [] /\ map fst copies = (if x_retr (s_ctx s) then unacked (outgoing s) else []) /\ outs t = all /\
          outgoing s' = mark (half_done (outgoing s)) (outgoing s) \/
        st = SendFailed /\ copies = [] /\ rest = [] /\ (exists rels id more k, half_done (outgoing s) = rels ++ id :: more /\ (k < 4)%nat /\
          outs t = connect_packet cm ++ flat_map pubrel rels ++ firstn k (pubrel id) /\ outgoing s' = mark rels (outgoing s)) \/
        (exists id more, unacked (outgoing s) = map fst copies ++ id :: more /\ outgoing s' = mark (half_done (outgoing s)) (outgoing s) /\
          (st = PublishRetrieveFailed /\ rest = [(id, None)] /\ outs t = all \/
           st = SendFailed /\ exists bs k, rest = [(id, Some bs)] /\ (k < length bs)%nat /\ outs t = all ++ firstn k bs)))).
Proof. exact begun_connect. Qed.
Print Assumptions connect_outcomes.
(** On a client that is connected or waiting for MQTT_Disconnect nothing is sent. *)
Theorem connect_when_not_disconnected : forall G ci will tmo s st sp s' t, x_status (s_ctx s) <> NotConnected ->
  connect G ci will tmo s = Ret (st, sp) s' t ->
  t = [] /\ sp = None /\ s_env s' = s_env s /\
  (fst (getConnectPacketSize ci will) = Success /\ s' = s /\
     st = match x_status (s_ctx s) with Connected => StConnected | _ => StDisconnectPending end \/
   fst (getConnectPacketSize ci will) <> Success /\ st = fst (getConnectPacketSize ci will) /\ s_ctx s' = transport_broke (s_ctx s)).
Proof. exact connect_when_up. Qed.
Print Assumptions connect_when_not_disconnected.
(** a QoS 2 publish waiting for PUBCOMP and a QoS 1 publish waiting for PUBACK are
    resumed after a lost connection *)
Definition env_resume : env :=
  mkEnv [32; 2; 0; 0; 80; 2; 0; 8; 32; 2; 1; 0] [1; 1; 2; 4; 1; 1; 2] (repeat 100 30) (repeat 0 200) [] [] [Some [50; 5; 58; 58]].
Definition calls_resume : list call :=
  [CConnect con1 None 1000; COp (OPublish (pub1 Q2) 8); COp (OPublish (pub1 Q1) 9); CProcess; COp ODisconnect].
Definition resume_from : st := after_calls calls_resume (client1 env_resume).
Example connect_resume_case : Begun cfg1 3 2 resume_from /\ x_status (s_ctx resume_from) = NotConnected /\
  half_done (outgoing resume_from) = [8] /\ unacked (outgoing resume_from) = [9] /\
  exists s' t, connect cfg1 con1 None 1000 resume_from = Ret (Success, Some true) s' t /\
    outs t = connect_packet con1_msg ++ pubrel 8 ++ [50; 5; 58; 58] /\ outgoing s' = outgoing resume_from.
Proof.
  split; [|repeat match goal with |- _ /\ _ => split end; try (vm_compute; reflexivity); eexists _, _; each].
  apply begun_after; [apply bytes_dec| |]; vm_compute; reflexivity.
Qed.

(** *** C36 *)
(** With sound arguments no history of API calls - also from inside the callback,
    except MQTT_Disconnect there - reaches a failed assertion or an access outside
    an array, whatever the server, the transport and the clock do. *)
Theorem histories_safe : forall G n m l s, 4294967296 <= g_M G -> 3 <= g_maxvec G ->
  opened G n m s -> cbs_sound (s_env s) -> Forall call_sound l -> run_calls G l s <> Undef.
Proof. exact opened_safe'. Qed.
Print Assumptions histories_safe.
Theorem buffer_never_overrun : forall G n m s, Begun G n m s -> 0 <= x_index (s_ctx s) <= zlen (x_buf (s_ctx s)).
Proof. exact begun_buffer. Qed.
Print Assumptions buffer_never_overrun.
Example histories_safe_case : opened cfg1 3 2 (client1 env_resume) /\ cbs_sound env_resume /\ Forall call_sound calls_resume /\
  3 <= g_maxvec cfg1.
Proof.
  split; [|split; [constructor|split; [|vm_compute; congruence]]].
  - exists (repeat 0 32), true, env_resume. repeat split; try (vm_compute; congruence); apply bytes_dec; reflexivity.
  - repeat constructor; cbn; unfold u16_ok; try lia; vm_compute; congruence.
Qed.

(** *** C42 *)
(** Every outcome of MQTT_Publish with its effect on the set of publishes in flight. *)
Theorem publish_outcomes : forall G n m p id msg s st s' t, Begun G n m s -> pub_means p id msg ->
  publish G p id s = Ret st s' t ->
  incoming s' = incoming s /\
  (s' = s /\ t = [] /\ (st = BadParameter \/ st = not_connected_result (x_status (s_ctx s)) /\ x_status (s_ctx s) <> Connected) \/
   x_status (s_ctx s) = Connected /\ pub_cases n p id (publish_packet msg) st (outgoing s) (outgoing s') t).
Proof. exact begun_publish. Qed.
Print Assumptions publish_outcomes.
Example publish_failed_case : exists s' t, publish cfg1 (pub1 Q2) 8 broken_from = Ret SendFailed s' t /\
  outs t = [52; 7; 0; 1; 97] /\ outgoing s' = [F 8 Q2 PublishSend].
Proof. eexists _, _. each. Qed.

(** *** C43 *)
Theorem disconnect_outcomes : forall G s st s' t, disconnect G s = Ret st s' t ->
  x_status (s_ctx s) = NotConnected /\ st = StNotConnected /\ s' = s /\ t = [] \/
  x_status (s_ctx s) <> NotConnected /\ (st = Success \/ st = SendFailed) /\
    (exists k, (k <= 2)%nat /\ outs t = firstn k disconnect_packet /\ (st = Success <-> k = 2%nat)) /\
    quiet t /\ ins t = [] /\
    x_status (s_ctx s') = NotConnected /\ x_index (s_ctx s') = 0 /\ x_recs (s_ctx s') = x_recs (s_ctx s) /\
    x_retr (s_ctx s') = x_retr (s_ctx s) /\ e_in (s_env s') = e_in (s_env s).
Proof. exact disconnect_effect. Qed.
Print Assumptions disconnect_outcomes.
Example disconnect_case : exists s' t, disconnect cfg1 up = Ret Success s' t /\ t = [EOut [224; 0]] /\ x_status (s_ctx s') = NotConnected.
Proof. eexists _, _. each. Qed.
