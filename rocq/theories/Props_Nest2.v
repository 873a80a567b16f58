(** MQTT_Connect from the event callback. *)
From Verif Require Import Base StateModel StateSpec StateHarness SerModel WireSpec SerHarness CoreModel CoreSpec CoreHarness CoreCases NestModel NestProofs NestProofs2 Props_Nest.

(** *** C102 *)
(** On a client that is not disconnected MQTT_Connect is refused: a pass of either loop
    with an application that calls it from its callback, with arguments MQTT_Connect
    takes, is the pass without these calls. *)
Theorem nested_connect_refused_partial : forall G app fuel s, (forall ty data id pub r s, Forall only_connects (app ty data id pub r s)) ->
  x_status (s_ctx s) <> NotConnected ->
  n_processLoop G (n_callback G app fuel) s = n_processLoop G (n_callback G (without_connects app) fuel) s /\
  n_receiveLoop G (n_callback G app fuel) s = n_receiveLoop G (n_callback G (without_connects app) fuel) s.
Proof.
  intros G app fuel s Ha U. destruct (agree_loops G (n_callback G app fuel) (n_callback G (without_connects app) fuel)) as (H1 & H2); [|split; [now apply H1|now apply H2]].
  intros. now apply agree_app.
Qed.
Print Assumptions nested_connect_refused_partial.
(** an application that connects and publishes in its callback *)
Definition connector : application := fun _ _ _ _ _ _ => [AConnect con1 None 1000; AOp (OPublish (pub1 Q1) 9)].
Example nested_connect_case : (forall ty data id pub r s, Forall only_connects (connector ty data id pub r s)) /\
  x_status (s_ctx nest_from) = Connected /\ exists s' t, n_receiveLoop cfg1 (n_callback cfg1 connector 0) nest_from = Ret Success s' t /\
  handled t = [(48, [0; 1; 97])] /\ outs t = [50; 7; 0; 1; 97; 0; 9; 1; 2].
Proof.
  split; [|split; [vm_compute; reflexivity|eexists; eexists; split; [vm_compute; reflexivity|split; vm_compute; reflexivity]]].
  intros. constructor; [|constructor; [discriminate|constructor]]. eexists _, _. vm_compute. reflexivity.
Qed.

(** Refuted in general.  The loops also deliver packets without a connection (C54).  An
    application that connects from its callback then has the packet that is being handled
    overwritten, and, when the session is new, the index reset under the running pass:
    undefined behaviour. *)
Definition nest4_env : env := mkEnv ([48; 3; 0; 1; 97] ++ [32; 2; 0; 0]) [5; 1; 1; 2] (repeat 99 40) (repeat 0 40) [] [] [].
Definition reconnector : application := fun _ _ _ _ _ _ => [AConnect con1 None 1000].
Theorem nested_connect_undefined_refuted : exists app s, Begun cfg1 3 2 s /\ (forall ty data id pub r s, Forall only_connects (app ty data id pub r s)) /\
  n_receiveLoop cfg1 (n_callback cfg1 app 0) s = Undef.
Proof.
  exists reconnector, (after_calls [] (client1 nest4_env)). split; [apply begun_after; [apply bytes_dec| |]; vm_compute; reflexivity|]. split; [|vm_compute; reflexivity].
  intros. constructor; [|constructor]. eexists _, _. vm_compute. reflexivity.
Qed.
Print Assumptions nested_connect_undefined_refuted.
(** The usual way to reconnect, MQTT_Disconnect and then MQTT_Connect, on a working
    connection. *)
Definition renewer : application := fun _ _ _ _ _ _ => [AOp ODisconnect; AConnect con1 None 1000].
Definition nest5_env : env := mkEnv ([32; 2; 0; 0] ++ [48; 3; 0; 1; 97] ++ [32; 2; 0; 0]) ([1; 1; 2] ++ [5; 1; 1; 2]) (repeat 99 40) (repeat 0 40) [] [] [].
Theorem nested_reconnect_undefined_refuted : exists app s, Begun cfg1 3 2 s /\ x_status (s_ctx s) = Connected /\
  (forall ty data id pub r s, app ty data id pub r s = [AOp ODisconnect; AConnect con1 None 1000]) /\ n_receiveLoop cfg1 (n_callback cfg1 app 0) s = Undef.
Proof.
  exists renewer, (after_calls [CConnect con1 None 1000] (client1 nest5_env)). split; [apply begun_after; [apply bytes_dec| |]; vm_compute; reflexivity|].
  split; [vm_compute; reflexivity|]. split; [reflexivity|vm_compute; reflexivity].
Qed.
Print Assumptions nested_reconnect_undefined_refuted.
(** the first client, resuming a session: no undefined behaviour, but the QoS 1 message is
    acknowledged on the new connection *)
Definition nest6_env : env := mkEnv ([50; 5; 0; 1; 97; 0; 7] ++ [32; 2; 1; 0]) [7; 1; 1; 2] (repeat 99 40) (repeat 0 40) [] [] [].
Example nested_connect_resumed_case : exists s' t, n_receiveLoop cfg1 (n_callback cfg1 reconnector 0) (client1 nest6_env) = Ret Success s' t /\
  outs t = connect_packet con1_msg ++ [64; 2; 0; 7] /\ pend (s_ctx s') = [].
Proof. eexists; eexists; split; [vm_compute; reflexivity|split; vm_compute; reflexivity]. Qed.
