(** Every call ends, and what that rests on. Proofs are in CoreProofs25.v and
    CoreFinal4.v. *)
From Verif Require Import Base StateModel StateSpec StateHarness SerModel WireSpec SerHarness CoreModel CoreSpec CoreHarness CoreTime CoreCases
  CoreFinal4 Props_Findings.

(** *** C44 *)
(** A clock whose readings advance by 1 to D milliseconds; timeouts that end before the
    32-bit clock has wrapped; any behaviour of the transport and the callbacks (which
    send at most K messages each).  Every history of calls then comes to an end (it is
    not [Stuck]: the scripts of the environment need only be as long as the budget),
    after at most the budgeted number of transport calls.  N is the number of outgoing
    records. *)
Theorem calls_end : forall G D K last s l, clock_suits G D -> 0 <= K -> largest < g_M G ->
  1 <= zlen (x_buf (s_ctx s)) < g_M G -> 0 <= x_index (s_ctx s) <= zlen (x_buf (s_ctx s)) ->
  ticking D last (e_times (s_env s)) -> Forall (fun o => ops_msgs o <= K) (e_cbs (s_env s)) -> Forall (call_suits D) l ->
  let N := zlen (arr (outRecs (x_recs (s_ctx s)))) in
  let msgs := calls_sum (call_msgs N K) l in
  let reads := calls_sum (call_recvs G) l in
  msgs * msg_sends G <= zlen (e_sends (s_env s)) -> reads <= zlen (e_recvs (s_env s)) ->
  calls_sum (call_times G N K) l <= zlen (e_times (s_env s)) ->
  match run_calls G l s with
  | Ret rs s' t => sendn t <= msgs * msg_sends G /\ recvn t <= reads
  | Undef => True
  | Stuck => False
  end.
Proof. exact calls_bounded. Qed.
Print Assumptions calls_end.
(** the hypotheses of a history with all kinds of calls, whose transport never takes
    or delivers a byte *)
Example calls_end_applies : let l := [CConnect con1 None 1000; COp (OPublish (pub1 Q1) 7); COp OPing; CProcess; CReceive; CConnect con1 None 0; COp ODisconnect] in
  exists s, s_ctx s = init_context (repeat 0 32) (fresh_recs 3 2) true /\
  clock_suits cfg1 5 /\ largest < g_M cfg1 /\ ticking 5 0 (e_times (s_env s)) /\ Forall (fun o => ops_msgs o <= 2) (e_cbs (s_env s)) /\ Forall (call_suits 5) l /\
  e_cbs (s_env s) = [[OPing; OPublish (pub1 Q0) 0]] /\
  calls_sum (call_msgs 3 2) l * msg_sends cfg1 <= zlen (e_sends (s_env s)) /\ calls_sum (call_recvs cfg1) l <= zlen (e_recvs (s_env s)) /\
  calls_sum (call_times cfg1 3 2) l <= zlen (e_times (s_env s)).
Proof.
  intro l. exists (mkSt (init_context (repeat 0 32) (fresh_recs 3 2) true)
    (mkEnv [] (repeat 0 (Z.to_nat (calls_sum (call_recvs cfg1) l))) (repeat 0 (Z.to_nat (calls_sum (call_msgs 3 2) l * msg_sends cfg1)))
       (readings (Z.to_nat (calls_sum (call_times cfg1 3 2) l))) [[OPing; OPublish (pub1 Q0) 0]] [] [])).
  cbn [s_ctx s_env e_times e_cbs e_sends e_recvs]. rewrite zlen_readings, !zlen_zeros.
  split; [reflexivity|]. split; [vm_compute; repeat split; congruence|]. split; [vm_compute; reflexivity|].
  split; [apply (ticking_seq 5 _ 0); lia|]. split; [repeat constructor; vm_compute; congruence|].
  split; [repeat constructor; vm_compute; congruence|]. split; [reflexivity|]. rewrite !Z2Nat.id by (vm_compute; congruence). lia.
Qed.
(** a small case, run: nothing is ever accepted by the transport, the send gives up *)
Definition cfg_quick : cfg := mkCfg 18446744073709551616 false true 4 5 5000 30000 30000 10 20 false.
Example publish_gives_up : exists s s' t, Begun cfg1 3 2 s /\ x_status (s_ctx s) = Connected /\ ticking 1 8 (e_times (s_env s)) /\ clock_suits cfg_quick 1 /\
  msg_sends cfg_quick <= zlen (e_sends (s_env s)) /\ msg_times cfg_quick <= zlen (e_times (s_env s)) /\
  run_call cfg_quick (COp (OPublish (pub1 Q0) 0)) s = Ret SendFailed s' t /\ sendn t = 21.
Proof.
  exists (linked [] [] (repeat 0 30) (readings 99)). eexists _, _. split; [linked|].
  split; [vm_compute; reflexivity|]. split; [vm_compute; repeat split; congruence|]. split; [vm_compute; repeat split; congruence|].
  split; [vm_compute; congruence|]. split; [vm_compute; congruence|]. split; vm_compute; reflexivity.
Qed.

(** The budget rests on the clock alone: with a clock that stands still and a
    transport that accepts nothing, a send never returns, however long it is run. *)
Theorem frozen_clock_never_ends : forall G s n m x, 0 < g_sendto G -> x_status (s_ctx s) = Connected ->
  e_sends (s_env s) = repeat 0 n -> e_times (s_env s) = repeat x m -> run_call G (COp OPing) s = Stuck.
Proof. exact frozen_ping. Qed.
Print Assumptions frozen_clock_never_ends.
Example frozen_clock_never_ends_applies : exists s, Begun cfg1 3 2 s /\ 0 < g_sendto cfg1 /\ x_status (s_ctx s) = Connected /\
  e_sends (s_env s) = repeat 0 50 /\ e_times (s_env s) = repeat 7 91.
Proof. exists (linked [] [] (repeat 0 50) (repeat 7 99)). split; [linked|]. vm_compute. auto. Qed.

(** MQTT_Connect with time-out 0 and a server that says nothing: the first attempt and
    g_retry more, each one transport read, then NoDataAvailable. *)
Theorem silent_server_retries : forall G ci will s n st sp s' t, 0 <= g_retry G <= 65535 -> e_recvs (s_env s) = repeat 0 n ->
  connect G ci will 0 s = Ret (st, sp) s' t ->
  st <> Success /\ sp = None /\ ins t = [] /\ recvn t = if status_beq st NoDataAvailable then g_retry G + 1 else 0.
Proof. exact silent_connect. Qed.
Print Assumptions silent_server_retries.
Example silent_server_retries_applies : exists s' t,
  connect cfg1 con1 None 0 (client1 (mkEnv [] (repeat 0 9) [100] (repeat 0 20) [] [] [])) = Ret (NoDataAvailable, None) s' t /\ recvn t = 6.
Proof. eexists _, _. split; vm_compute; reflexivity. Qed.

(** *** C61 *)
(** MQTT_Connect does not give up after [timeoutMs]: once a CONNACK header has arrived
    the rest is read by recvExact, which ends only when nothing arrives for
    MQTT_RECV_POLLING_TIMEOUT_MS.  Here the timeout is 50 ms, a byte arrives every
    5 ms (and the clock is read at each), the packet pretends to be 30 bytes long and
    the call returns after more than 150 ms. *)
Definition dripping : env := mkEnv ([32; 30] ++ repeat 0 30) ([1; 1] ++ repeat 1 30) [100] (map (fun k => 5 * k) (readings 60)) [] [] [].
Theorem connect_overruns_timeout_refuted : exists s st sp s' t first last,
  x_status (s_ctx s) = NotConnected /\ ticking 5 0 (e_times (s_env s)) /\
  connect cfg1 con1 None 50 s = Ret (st, sp) s' t /\
  (exists used, e_times (s_env s) = [first] ++ used ++ [last] ++ e_times (s_env s')) /\ last - first > 3 * 50 /\ st = BadResponse.
Proof.
  exists (client1 dripping). eexists _, _, _, _, 5, 185. split; [reflexivity|]. split; [vm_compute; repeat split; congruence|].
  split; [vm_compute; reflexivity|]. split; [|split; [lia|reflexivity]].
  exists (map (fun k => 5 * Z.of_nat k) (seq 2 35)). vm_compute. reflexivity.
Qed.
Print Assumptions connect_overruns_timeout_refuted.
