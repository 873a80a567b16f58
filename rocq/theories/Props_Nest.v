(** Calls of the loop functions from the event callback. *)
From Verif Require Import Base StateModel StateSpec StateHarness SerModel WireSpec SerHarness CoreModel CoreSpec CoreHarness CoreCases NestModel NestProofs.

(** *** C95 *)
(** The loops with the callback of CoreModel are those of CoreModel. *)
Theorem nested_model_same : forall G, n_processLoop G (callback G) = processLoop G /\ n_receiveLoop G (callback G) = receiveLoop G.
Proof. intro G. split; [exact (nest_process G)|exact (nest_receive G)]. Qed.
Print Assumptions nested_model_same.

(** an application that calls MQTT_ReceiveLoop once, from the first callback: when
    three answers of recv are still to come *)
Definition poller : application := fun _ _ _ _ _ s => if (length (e_recvs (s_env s)) =? 3)%nat then [AReceive] else [].
(** one PUBLISH at QoS 0 *)
Definition nest_env : env := mkEnv ([32; 2; 0; 0] ++ [48; 3; 0; 1; 97]) ([1; 1; 2] ++ [5; 0; 0; 0]) (repeat 99 40) (repeat 0 40) [] [] [].
Definition nest_from : st := after_calls [CConnect con1 None 1000] (client1 nest_env).
(** two of them *)
Definition nest2_env : env := mkEnv ([32; 2; 0; 0] ++ [48; 4; 0; 1; 97; 1] ++ [48; 4; 0; 1; 97; 2]) ([1; 1; 2] ++ [12; 0; 0; 0]) (repeat 99 40) (repeat 0 40) [] [] [].
Definition nest2_from : st := after_calls [CConnect con1 None 1000] (client1 nest2_env).

(** Refuted: the packet shown to the application is still at the front of the buffer.
    The inner call handles it again and takes it away; then the outer one takes away
    as many bytes again.  When there are none, the buffer index wraps and memmove is
    given a huge length: undefined behaviour. *)
Theorem nested_loop_undefined_refuted : exists app s, Begun cfg1 3 2 s /\ x_status (s_ctx s) = Connected /\ n_receiveLoop cfg1 (n_callback cfg1 app 2) s = Undef.
Proof.
  exists poller, nest_from. split; [apply begun_after; [apply bytes_dec| |]; vm_compute; reflexivity|]. split; vm_compute; reflexivity.
Qed.
Print Assumptions nested_loop_undefined_refuted.
(** the same client with an application that makes no nested call *)
Example nested_loop_case : exists s' t, n_receiveLoop cfg1 (n_callback cfg1 (fun _ _ _ _ _ _ => []) 2) nest_from = Ret Success s' t /\ handled t = [(48, [0; 1; 97])].
Proof. eexists. eexists. split; vm_compute; reflexivity. Qed.
(** When the next packet has arrived already, the message is delivered twice and the
    next one is lost; both calls report success. *)
Theorem nested_loop_loses_refuted : exists app s s' t, Begun cfg1 3 2 s /\ e_in (s_env s) = [48; 4; 0; 1; 97; 1] ++ [48; 4; 0; 1; 97; 2] /\
  n_receiveLoop cfg1 (n_callback cfg1 app 2) s = Ret Success s' t /\
  handled t = [(48, [0; 1; 97; 1]); (48, [0; 1; 97; 1])] /\ length (callbacks t) = 2%nat /\ pend (s_ctx s') = [] /\ e_in (s_env s') = [].
Proof.
  exists poller, nest2_from. assert (E : match n_receiveLoop cfg1 (n_callback cfg1 poller 2) nest2_from with
    | Ret r s' t => r = Success /\ handled t = [(48, [0; 1; 97; 1]); (48, [0; 1; 97; 1])] /\ length (callbacks t) = 2%nat /\ pend (s_ctx s') = [] /\ e_in (s_env s') = []
    | _ => False end) by (vm_compute; auto 10).
  destruct (n_receiveLoop cfg1 (n_callback cfg1 poller 2) nest2_from) as [r s' t| |]; try contradiction. destruct E as (-> & E). exists s', t.
  split; [apply begun_after; [apply bytes_dec| |]; vm_compute; reflexivity|]. split; [vm_compute; reflexivity|]. split; [reflexivity|exact E].
Qed.
Print Assumptions nested_loop_loses_refuted.
(** A nested call is harmless when its recv fails: it answers MQTTRecvFailed, and only
    the connection status is changed. *)
Theorem nested_error_harmless_partial : forall G cb mk s x rest, e_recvs (s_env s) = x :: rest -> x < 0 -> 0 <= x_index (s_ctx s) <= zlen (x_buf (s_ctx s)) -> zlen (x_buf (s_ctx s)) < g_M G ->
  n_receiveSingleIteration G cb mk s = Ret RecvFailed (mkSt (transport_broke (s_ctx s)) (env_recv (s_env s) (e_in (s_env s)) rest)) [EInErr].
Proof. exact nest_error. Qed.
Print Assumptions nested_error_harmless_partial.
Definition nest3_from : st := after_calls [CConnect con1 None 1000] (client1 (env_recv nest_env (e_in nest_env) ([1; 1; 2] ++ [5; -1; 0; 0]))).
Example nested_error_case : exists s' t, n_receiveLoop cfg1 (n_callback cfg1 poller 2) nest3_from = Ret Success s' t /\ handled t = [(48, [0; 1; 97])] /\
  errs t = true /\ x_status (s_ctx s') = DisconnectPending.
Proof. eexists. eexists. split; [vm_compute; reflexivity|]. vm_compute. auto. Qed.
