(** Publishes sent although MQTT_Publish reports an error: C55. *)
From Verif Require Import Base StateModel StateSpec StateHarness SerModel WireSpec SerHarness CoreModel CoreSpec CoreHarness CoreCases Props_Core Props_Findings.

(** *** C55 *)
(** When MQTT_Publish returns an error other than MQTTSendFailed, nothing was sent, or the whole
    packet was: then the publish has DUP, its identifier is in flight, and the QoS differs (MQTTBadParameter) or
    the exchange is past the PUBLISH (MQTTIllegalState); the publishes in flight are unchanged. *)
Theorem refused_publish_sent_only_dup : forall G n m p id msg s st s' t, Begun G n m s -> pub_means p id msg ->
  publish G p id s = Ret st s' t -> st <> Success -> st <> SendFailed ->
  outs t = [] \/
  outs t = publish_packet msg /\ p_dup p = true /\ outgoing s' = outgoing s /\ exists f, lookup (outgoing s) id = Some f /\
    (st = BadParameter /\ f_qos f <> p_qos p \/
     st = IllegalState /\ f_qos f = p_qos p /\ ~ In (f_st f) [PublishSend; PubAckPending; PubRecPending]).
Proof.
  intros G n m p id msg s st s' t HB Hm H N1 N2. apply (publish_outcomes _ _ _ _ _ _ _ _ _ _ HB Hm) in H.
  destruct H as (_ & [(_ & -> & _)|(_ & K)]); [left; auto|].
  unfold pub_cases in K. destruct (qos_beq (p_qos p) Q0). { destruct K as (_ & [(K & _)|(K & _)]); congruence. }
  destruct (lookup (outgoing s) id) as [f|] eqn:E.
  - destruct (p_dup p); [|destruct K as (_ & _ & ->); left; auto].
    destruct K as [(_ & [(_ & ->)|(K & _)])|(K0 & K)]; [left; auto|congruence|]. right. split; [exact K0|]. split; [reflexivity|].
    destruct K as [(_ & K & _)|[(_ & K & _)|[(K1 & K2 & K3 & K4)|(K1 & K2 & K3)]]]; try congruence; (split; [assumption|]); exists f; (split; [reflexivity|]); tauto.
  - destruct (_ <? _)%nat; [|destruct K as (_ & _ & ->); left; auto].
    destruct K as [(_ & K & _)|(_ & [(_ & ->)|(K & _)])]; [congruence|left; auto|congruence].
Qed.
Print Assumptions refused_publish_sent_only_dup.
(** A QoS 1 publish with DUP and the identifier of a QoS 2 publish in flight: the caller is told
    MQTTBadParameter, the packet is sent, and the PUBACK that answers it makes the loop fail. *)
Theorem bad_parameter_sent_refuted : exists s s' t s2 t2, Begun cfg1 3 2 s /\ outgoing s = [F 7 Q2 PubRecPending] /\
  run_call cfg1 (COp (OPublish (mkPub Q1 false true (Some [97]) 1 (Some [1; 2]) 2) 7)) s = Ret BadParameter s' t /\
  outs t = publish_packet (mkPublish true Q1 false [97] 7 [1; 2]) /\ outgoing s' = outgoing s /\
  run_call cfg1 CProcess s' = Ret IllegalState s2 t2 /\ handled t2 = [(64, [0; 7])].
Proof.
  exists (after_calls [conn1; COp (OPublish (pub1 Q2) 7)] (client1 (env_of [64; 2; 0; 7] [4] (repeat 100 9) (repeat 0 50)))).
  eexists _, _, _, _. split; [apply begun_after; [apply bytes_dec| |]; vm_compute; reflexivity|].
  split; [vm_compute; reflexivity|]. split; [vm_compute; reflexivity|]. split; [vm_compute; reflexivity|]. split; [vm_compute; reflexivity|]. split; vm_compute; reflexivity.
Qed.
Print Assumptions bad_parameter_sent_refuted.
