(** Calls in a calm environment. *)
From Verif Require Import Base StateModel StateSpec StateHarness SerModel WireSpec SerHarness CoreModel CoreSpec CoreHarness CoreCases CoreFinal CalmSpec CalmProofs.
From Coq Require Import Sorting.Sorted.

Ltac ticking := repeat (constructor; try lia).
Ltac all_in := repeat match goal with |- forall _, _ => intro end; cbn [In repeat app] in *; repeat match goal with H : _ \/ _ |- _ => destruct H as [H|H] end; try contradiction; subst; try lia.

(** *** C97 *)
(** A call fails to send only if the transport reports an error or the clock moves by
    MQTT_SEND_TIMEOUT_MS during the call; a transport that takes few bytes or none is
    no reason. *)
Theorem calm_calls_send : forall G c s r s' t, 0 <= g_sendto G < 4294967296 -> run_call G c s = Ret r s' t -> smooth G s s' t -> r <> SendFailed.
Proof. exact smooth_no_failure. Qed.
Print Assumptions calm_calls_send.
(** a publish of 9 bytes that leaves in pieces of 1, 0, 4, 0 and 4 bytes while 19999 ms
    pass; with 20001 ms it fails *)
Definition slow (d : Z) : st :=
  after_calls [CConnect con1 None 1000] (client1 (mkEnv [32; 2; 0; 0] [1; 1; 2] [99; 1; 0; 4; 0; 9] (repeat 0 8 ++ 5 :: repeat (5 + d) 8) [] [] [])).
Definition slow_run (d : Z) : res status := run_call cfg1 (COp (OPublish (pub1 Q1) 7)) (slow d).
Lemma slow_begun : Begun cfg1 3 2 (slow 19999).
Proof. apply begun_after; [apply bytes_dec| |]; vm_compute; reflexivity. Qed.
Example calm_calls_send_case :
  (exists s' t, slow_run 19999 = Ret Success s' t /\ smooth cfg1 (slow 19999) s' t /\ outs t = publish_packet (pub1_msg Q1 7)) /\
  exists s' t, slow_run 20001 = Ret SendFailed s' t /\ errs t = false.
Proof.
  split.
  - eexists _, _. split; [vm_compute; reflexivity|]. split; [|vm_compute; reflexivity]. split; [vm_compute; reflexivity|].
    exists (5 :: repeat 20004 8). split; [vm_compute; reflexivity|]. split; [cbn [repeat]; ticking|]. change (g_sendto cfg1) with 20000. all_in.
  - eexists _, _. split; vm_compute; reflexivity.
Qed.

(** On a connected client a call with legal arguments succeeds in a calm environment,
    and its whole packet is sent: MQTT_Publish (given a free record and identifier for
    QoS 1 and 2, and a store function that does not fail), MQTT_Subscribe,
    MQTT_Unsubscribe, MQTT_Ping and MQTT_Disconnect. *)
Theorem calm_calls_succeed : forall G n m o bs s r s' t, 0 <= g_sendto G < 4294967296 -> g_big G = false -> Begun G n m s -> x_status (s_ctx s) = Connected ->
  ready n m s o bs -> run_op G o s = Ret r s' t -> smooth G s s' t -> (forall id vs, ~ In (EStore id vs false) t) -> r = Success /\ outs t = bs.
Proof. intros G n m o bs s r s' t H. exact (ready_succeeds G n m H o bs s r s' t). Qed.
Print Assumptions calm_calls_succeed.
Example calm_calls_succeed_case : Begun cfg1 3 2 (slow 19999) /\ x_status (s_ctx (slow 19999)) = Connected /\
  ready 3 2 (slow 19999) (OPublish (pub1 Q1) 7) (publish_packet (pub1_msg Q1 7)).
Proof.
  split; [exact slow_begun|]. split; [vm_compute; reflexivity|]. constructor.
  - unfold pub_means, pub1, pub1_msg, holds0, holds. cbn. repeat match goal with |- _ /\ _ => split end; try reflexivity; try lia; try left; try (eexists; repeat split; try reflexivity; vm_compute; congruence); intros; try lia; try congruence.
  - discriminate.
  - vm_compute. congruence.
  - intros _. split; [lia|]. split; [vm_compute; reflexivity|]. vm_compute. lia.
Qed.

(** MQTT_Connect on a calm connection to a server that accepts succeeds, whatever the
    pieces in which the CONNACK comes, as long as it comes within the limits; the
    session-present flag is that of the server.  (With a persistent session no retrieve
    function may fail.) *)
Theorem calm_connect_succeeds : forall G B n m ci will cm tmo k p s st sp s' t, patient G tmo B k ->
  con_means ci will cm -> cm_id cm <> [] -> will_fits cm = true -> Begun G n m s -> x_status (s_ctx s) = NotConnected -> 2 <= zlen (x_buf (s_ctx s)) ->
  connack_on_its_way k p s -> (c_clean ci = true -> p = false) ->
  connect G ci will tmo s = Ret (st, sp) s' t -> errs t = false -> within B s s' -> (forall id, ~ In (id, None) (retrieved t)) ->
  st = Success /\ sp = Some p /\ x_status (s_ctx s') = Connected.
Proof. exact connect_calm. Qed.
Print Assumptions calm_connect_succeeds.
(** CONNECT leaves in three pieces; two empty polls, then the CONNACK byte by byte with
    one more empty poll *)
Definition env_accept (d : Z) : env := mkEnv [32; 2; 0; 0] [0; 0; 1; 1; 0; 1; 5] [5; 0; 99] (0 :: repeat d 14) [] [] [].
Example calm_connect_case : Begun cfg1 3 2 (client1 (env_accept 9)) /\ patient cfg1 0 10 2 /\ patient cfg1 1000 10 2 /\ connack_on_its_way 2 false (client1 (env_accept 9)) /\
  exists s' t, connect cfg1 con1 None 1000 (client1 (env_accept 9)) = Ret (Success, Some false) s' t /\ errs t = false /\ within 10 (client1 (env_accept 9)) s' /\ retrieved t = [].
Proof.
  split; [apply (begun_after [] (env_accept 9)); [apply bytes_dec| |]; vm_compute; reflexivity|].
  split; [unfold patient; change (g_retry cfg1) with 5; change (g_sendto cfg1) with 20000; change (g_poll cfg1) with 10; cbn; lia|].
  split; [unfold patient; change (g_retry cfg1) with 5; change (g_sendto cfg1) with 20000; change (g_poll cfg1) with 10; cbn; lia|].
  split; [exists 1, 1, [0; 1; 5], [], []; split; [lia|]; split; [lia|]; split; [apply arr_none; [lia|]; apply arr_some; [lia|lia|]; apply arr_some; [cbn; lia|lia|]; constructor|split; reflexivity]|].
  eexists _, _. split; [vm_compute; reflexivity|]. split; [vm_compute; reflexivity|]. split; [|vm_compute; reflexivity].
  exists (0 :: repeat 9 14). split; [vm_compute; reflexivity|]. split; [cbn [repeat]; ticking|all_in].
Qed.
