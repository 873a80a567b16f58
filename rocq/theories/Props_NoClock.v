(** A client without a clock, set up as the documentation asks for: the time function
    returns the same value always, MQTT_SEND_TIMEOUT_MS and MQTT_RECV_POLLING_TIMEOUT_MS are 0
    (core_mqtt.h:341-347).  Proofs are in NoClockProofs.v. *)
From Verif Require Import Base StateModel StateSpec StateHarness SerModel WireSpec SerHarness CoreModel CoreSpec CoreHarness CoreTime CoreCases CoreProofs25
  Props_Findings Props_Loop NoClockProofs.

Definition cfg0 (writev : bool) : cfg := mkCfg 18446744073709551616 false writev 4 5 5000 30000 30000 0 0 false.

(** *** C105 *)
(** Histories of passes of the loops, of MQTT_Ping, MQTT_Disconnect and calls that send
    nothing come to an end, whatever the transport does: one transport call for a message,
    and no more reads than bytes. *)
Theorem no_clock_calls_end_partial : forall G K x s l, g_sendto G = 0 -> g_poll G = 0 -> 0 <= K -> largest < g_M G ->
  1 <= zlen (x_buf (s_ctx s)) < g_M G -> 0 <= x_index (s_ctx s) <= zlen (x_buf (s_ctx s)) ->
  Forall (eq x) (e_times (s_env s)) -> Forall (fun o => Forall plain_op o /\ ops_msgs o <= K) (e_cbs (s_env s)) -> Forall plain_call l ->
  let N := zlen (arr (outRecs (x_recs (s_ctx s)))) in
  let msgs := calls_sum (call_msgs N K) l in
  let reads := calls_sum (call_recvs G) l in
  msgs <= zlen (e_sends (s_env s)) -> reads <= zlen (e_recvs (s_env s)) -> calls_sum (call_times G N K) l <= zlen (e_times (s_env s)) ->
  match run_calls G l s with
  | Ret rs s' t => sendn t <= msgs /\ recvn t <= reads
  | Undef => True
  | Stuck => False
  end.
Proof.
  intros G K x s l H1 H2 HK HM HB HX HT HO HL N msgs reads L1 L2 L3.
  assert (HI : Inv (zlen (x_buf (s_ctx s))) N K x s).
  { split; [exact HT|]. split; [exact HO|]. split; [reflexivity|]. split; [reflexivity|lia]. }
  assert (E : msg_sends G = 1) by (unfold msg_sends; lia).
  pose proof (Bd_calls G (zlen (x_buf (s_ctx s))) N K (conj H1 H2) ltac:(lia) ltac:(lia) HK l HL x s HI ltac:(rewrite E; fold msgs; lia) L2 L3) as HA.
  rewrite E, Z.mul_1_r in HA. destruct (run_calls G l s) as [rs s' t| |]; auto. destruct HA as (_ & _ & (_ & _ & U3 & U4 & _)). split; assumption.
Qed.
Print Assumptions no_clock_calls_end_partial.
Definition quiet_env : env := mkEnv ([32; 2; 0; 0] ++ [50; 6; 0; 1; 97; 0; 9; 5]) ([1; 1; 2] ++ [4; 0; 4; 0]) (100 :: [1; 100; 100]) (repeat 0 40) [] [] [].
Definition quiet : st := match run_calls (cfg0 true) [CConnect con1 None 0] (client1 quiet_env) with Ret _ s _ => s | _ => client1 quiet_env end.
Example no_clock_calls_end_case : exists rs s' t, run_calls (cfg0 true) [CReceive; CReceive; CReceive; COp OPing; CProcess] quiet = Ret rs s' t /\
  rs = [NeedMoreBytes; NeedMoreBytes; SendFailed; Success; Success] /\ sendn t = 2 /\ recvn t = 4 /\ Forall (eq 0) (e_times (s_env quiet)) /\ x_status (s_ctx quiet) = Connected.
Proof. eexists _, _, _. split; [vm_compute; reflexivity|]. repeat split; try (vm_compute; reflexivity). vm_compute. repeat constructor. Qed.

(** A message given to the transport as a vector of buffers (CONNECT, PUBLISH, SUBSCRIBE and
    UNSUBSCRIBE) is never given up: the call ends with all of it sent, or an error of the
    transport. *)
Theorem no_clock_vector_whole : forall G vs x s r s' t, 0 <= g_sendto G -> Forall (eq x) (e_times (s_env s)) ->
  sendMessageVector G vs s = Ret r s' t -> r = zlen (concat vs) \/ errs t = true.
Proof. exact whole_vector. Qed.
Print Assumptions no_clock_vector_whole.
Example no_clock_vector_whole_case : exists s' t,
  sendMessageVector (cfg0 false) [[1; 2]; [3]] (client1 (mkEnv [] [] [0; 1; 0; 0; 1; 1] (repeat 0 20) [] [] [])) = Ret 3 s' t /\ outs t = [1; 2; 3] /\ sendn t = 6.
Proof. eexists _, _. split; [vm_compute; reflexivity|]. split; vm_compute; reflexivity. Qed.
(** A message in one buffer (acknowledgments, PINGREQ, DISCONNECT, PUBLISH sent again) is
    given to the transport once, and the rest, if any, is not sent. *)
Theorem no_clock_buffer_once : forall G bs x s r s' t, g_sendto G = 0 -> Forall (eq x) (e_times (s_env s)) -> sendBuffer G bs s = Ret r s' t ->
  bs = [] /\ t = [] \/
  bs <> [] /\ exists e, t = [e] /\ match e with EOut out => out = firstn (Z.to_nat r) bs /\ 0 <= r <= zlen bs | e => e = EOutErr /\ r < 0 end.
Proof. exact once_sendb. Qed.
Print Assumptions no_clock_buffer_once.
Example no_clock_buffer_once_case : exists s', sendBuffer (cfg0 false) [1; 2; 3] (client1 (mkEnv [] [] [2; 2] (repeat 0 20) [] [] [])) = Ret 2 s' [EOut [1; 2]].
Proof. eexists. vm_compute. reflexivity. Qed.

(** MQTT_ProcessLoop sends no PINGREQ: documented as not supported. *)
Theorem no_clock_no_ping : forall G n m x s st s' u, 0 <= g_tx G -> Begun G n m s -> processLoop G s = Ret st s' (EIn [] :: u) ->
  Forall (eq x) (e_times (s_env s)) -> x_lastTx (s_ctx s) = u32 x -> x_lastRx (s_ctx s) = u32 x -> begins u.
Proof.
  intros G n m x s st s' u HG HB H HT H1 H2. destruct (idle_pass_pings G n m s st s' [] u HB H) as [(F & _)|(_ & y & l & t2 & t3 & E & -> & _ & HB3 & C)]; [congruence|].
  rewrite E in HT. inversion HT as [|? ? Ex _]; subst y. unfold ping_due, since in C. rewrite H1, H2 in C. unfold u32 in C. rewrite Z.sub_diag in C. change (0 mod 4294967296) with 0 in C.
  change (0 =? 0) with true in C. cbn [negb andb] in C. rewrite orb_false_r in C.
  destruct (negb (x_waiting (s_ctx s)) && _) eqn:Ed; [|now rewrite C].
  apply andb_prop in Ed as [_ Ed]. apply andb_prop in Ed as [E1 E2]. exfalso. assert (0 <= 1000 * x_keep (s_ctx s) mod 4294967296) by (apply Z.mod_pos_bound; lia). lia.
Qed.
Print Assumptions no_clock_no_ping.
Example no_clock_no_ping_case : exists s', let s := mkSt (s_ctx quiet) (mkEnv [] [0] [] (repeat 0 9) [] [] []) in
  processLoop (cfg0 true) s = Ret Success s' [EIn []] /\ x_lastTx (s_ctx s) = u32 0 /\ x_lastRx (s_ctx s) = u32 0 /\ x_keep (s_ctx s) = 60.
Proof. eexists. split; [vm_compute; reflexivity|]. repeat split; vm_compute; reflexivity. Qed.

(** So the client without a clock does not work as documented.  A transport that takes
    nothing: MQTT_Publish never returns, though the timeout is 0, because sendMessageVector
    compares with > (core_mqtt.c:849). *)
Lemma quiet_begun e : bytes_ok (e_in e) -> calm e ->
  (match run_calls (cfg0 true) [CConnect con1 None 0] (client1 e) with Ret _ _ _ => true | _ => false end) = true ->
  Begun (cfg0 true) 3 2 (match run_calls (cfg0 true) [CConnect con1 None 0] (client1 e) with Ret _ s _ => s | _ => client1 e end).
Proof.
  intros Hb Hc H. destruct (run_calls (cfg0 true) [CConnect con1 None 0] (client1 e)) as [rs s t| |] eqn:E; try discriminate.
  exists (client1 e), [CConnect con1 None 0], rs, t. split; [|exact E]. exists (repeat 0 32), true, e.
  repeat split; auto; try (vm_compute; congruence); try (apply bytes_dec; vm_compute; reflexivity).
Qed.
Theorem no_clock_publish_refuted : exists s, Begun (cfg0 true) 3 2 s /\ x_status (s_ctx s) = Connected /\
  forall n m e, e_sends e = repeat 0 n -> e_times e = repeat 0 m -> run_call (cfg0 true) (COp (OPublish (pub1 Q0) 0)) (mkSt (s_ctx s) e) = Stuck.
Proof.
  exists quiet. split; [apply quiet_begun; [apply bytes_dec| |]; vm_compute; reflexivity|]. split; [vm_compute; reflexivity|].
  intros n m e E1 E2. set (c := s_ctx quiet). vm_compute in c. subst c.
  cbv -[sendMessageVector]. rewrite (waits_vector _ _ _ n m 0); [reflexivity|vm_compute; congruence|exact E1|exact E2|discriminate].
Qed.
Print Assumptions no_clock_publish_refuted.
(** A transport that takes 2 of the 4 bytes of a PUBACK and would take the rest at once: the
    rest is not offered, since sendBuffer compares with >= (core_mqtt.c:933).  The client
    goes on: to the server the PINGREQ that follows is the packet identifier of the PUBACK. *)
Definition cut_env : env := mkEnv ([32; 2; 0; 0] ++ [50; 6; 0; 1; 97; 0; 9; 5]) ([1; 1; 2] ++ [8]) (100 :: [2; 100; 100]) (repeat 0 40) [] [] [].
Theorem no_clock_ack_cut_refuted : exists s s1 t1 s2 t2, Begun (cfg0 true) 3 2 s /\ x_status (s_ctx s) = Connected /\ Forall (eq 0) (e_times (s_env s)) /\
  run_call (cfg0 true) CReceive s = Ret SendFailed s1 t1 /\ outs t1 = [64; 2] /\ hd 0 (e_sends (s_env s1)) = 100 /\ x_status (s_ctx s1) = Connected /\
  run_call (cfg0 true) (COp OPing) s1 = Ret Success s2 t2 /\ outs (t1 ++ t2) = [64; 2; 192; 0].
Proof.
  exists (match run_calls (cfg0 true) [CConnect con1 None 0] (client1 cut_env) with Ret _ s _ => s | _ => client1 cut_env end). eexists _, _, _, _.
  split; [apply quiet_begun; [apply bytes_dec| |]; vm_compute; reflexivity|]. split; [vm_compute; reflexivity|]. split; [vm_compute; repeat constructor|].
  split; [vm_compute; reflexivity|]. split; [vm_compute; reflexivity|]. split; [vm_compute; reflexivity|]. split; [vm_compute; reflexivity|]. split; vm_compute; reflexivity.
Qed.
Print Assumptions no_clock_ack_cut_refuted.
