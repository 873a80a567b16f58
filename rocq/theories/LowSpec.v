(** The statuses the functions of the serializer and of the state engine are documented to
    return (C119). *)
From Verif Require Import Base StateModel StateSpec StateHarness SerModel.

(** A call of one of these functions, no pointer to an output or a context being NULL. *)
Inductive low : Type :=
| LReserve (r : recs) (id : Z) (q : qos)                        (* MQTT_ReserveState *)
| LPublished (r : recs) (id : Z) (op : stateop) (q : qos)       (* MQTT_UpdateStatePublish *)
| LAcked (r : recs) (id : Z) (k : acktype) (op : stateop)       (* MQTT_UpdateStateAck *)
| LRemove (r : recs) (id : Z)                                   (* MQTT_RemoveStateRecord *)
| LConnectSize (c : coninfo) (will : option pubinfo)            (* MQTT_GetConnectPacketSize *)
| LConnect (M : Z) (c : coninfo) (will : option pubinfo) (rl : Z) (b : option (list Z)) (* MQTT_SerializeConnect *)
| LSubSize (M : Z) (l : option (list subinfo)) (n : Z)          (* MQTT_GetSubscribePacketSize *)
| LSub (M : Z) (l : option (list subinfo)) (n id rl : Z) (b : option (list Z)) (* MQTT_SerializeSubscribe *)
| LUnsubSize (M : Z) (l : option (list subinfo)) (n : Z)        (* MQTT_GetUnsubscribePacketSize *)
| LUnsub (M : Z) (l : option (list subinfo)) (n id rl : Z) (b : option (list Z)) (* MQTT_SerializeUnsubscribe *)
| LPubSize (p : pubinfo)                                        (* MQTT_GetPublishPacketSize *)
| LPub (M : Z) (p : pubinfo) (id rl : Z) (b : option (list Z))  (* MQTT_SerializePublish *)
| LPubHeader (M : Z) (p : pubinfo) (id rl : Z) (b : option (list Z)) (* MQTT_SerializePublishHeader *)
| LAck (b : option (list Z)) (ty id : Z)                        (* MQTT_SerializeAck *)
| LDisconnect (b : option (list Z))                             (* MQTT_SerializeDisconnect *)
| LPingreq (b : option (list Z))                                (* MQTT_SerializePingreq *)
| LReadPublish (M : Z) (k : pktinfo)                            (* MQTT_DeserializePublish *)
| LReadAck (k : pktinfo)                                        (* MQTT_DeserializeAck *)
| LIncoming (recv1 : nat -> Z * Z * nat) (w : nat)              (* MQTT_GetIncomingPacketTypeAndLength *)
| LProcess (b : list Z) (index : Z)                             (* MQTT_ProcessIncomingPacketTypeAndLength *)
| LDup (header : Z) (set : bool)                                (* MQTT_UpdateDuplicatePublishFlag *)
| LCodes (k : pktinfo).                                         (* MQTT_GetSubAckStatusCodes *)

Definition one {A} (r : R (status * A)) : R status := let! (st, _) := r in Ok st.
Definition two {A B} (r : R (status * A * B)) : R status := let! (st, _, _) := r in Ok st.
(** the status the call returns *)
Definition low_status (c : low) : R status :=
  match c with
  | LReserve r id q => one (reserveState r id q)
  | LPublished r id op q => two (updateStatePublishApi r id op q)
  | LAcked r id k op => two (updateStateAckApi r id k op)
  | LRemove r id => one (removeStateRecord r id)
  | LConnectSize c will => Ok (fst (getConnectPacketSize c will))
  | LConnect M c will rl b => one (serializeConnect M c will rl b)
  | LSubSize M l n => one (getSubscribePacketSize M l n)
  | LSub M l n id rl b => one (serializeSubscribe M l n id rl b)
  | LUnsubSize M l n => one (getUnsubscribePacketSize M l n)
  | LUnsub M l n id rl b => one (serializeUnsubscribe M l n id rl b)
  | LPubSize p => Ok (fst (getPublishPacketSize p))
  | LPub M p id rl b => one (serializePublish M p id rl b)
  | LPubHeader M p id rl b => two (serializePublishHeader M p id rl b)
  | LAck b ty id => one (serializeAck b ty id)
  | LDisconnect b => one (serializeDisconnect b)
  | LPingreq b => one (serializePingreq b)
  | LReadPublish M k => one (deserializePublishApi M k)
  | LReadAck k => two (deserializeAck k)
  | LIncoming recv1 w => two (getIncomingPacketTypeAndLength recv1 w)
  | LProcess b i => one (processIncomingPacketTypeAndLength b i)
  | LDup h set => Ok (fst (updateDuplicatePublishFlag h set))
  | LCodes k => Ok (fst (getSubAckStatusCodes k))
  end.

(** the @return of source/include/core_mqtt_state.h, core_mqtt_serializer.h and core_mqtt.h *)
Definition low_documented (c : low) : list status :=
  match c with
  | LReserve _ _ _ => (* core_mqtt_state.h:74 *) [Success; NoMemory; StateCollision]
  | LPublished _ _ _ _ => (* core_mqtt_state.h:114-115 *) [BadParameter; IllegalState; StateCollision; Success]
  | LAcked _ _ _ _ => (* core_mqtt_state.h:177-180 *) [BadParameter; BadResponse; IllegalState; Success]
  | LRemove _ _ => (* core_mqtt_state.h:136 *) [BadParameter; Success]
  | LConnectSize _ _ (* core_mqtt_serializer.h:290 *) | LSubSize _ _ _ (* 400 *) | LUnsubSize _ _ _ (* 525 *)
  | LPubSize _ (* 641 *) => [BadParameter; Success]
  | LConnect _ _ _ _ _ (* 341 *) | LSub _ _ _ _ _ _ (* 456 *) | LUnsub _ _ _ _ _ _ (* 573 *)
  | LPub _ _ _ _ _ (* 696 *) | LPubHeader _ _ _ _ _ (* 785 *) | LAck _ _ _ (* 854 *)
  | LDisconnect _ (* 928 *) | LPingreq _ (* 997 *) => [NoMemory; BadParameter; Success]
  | LReadPublish _ _ => (* 1037 *) [BadParameter; BadResponse; Success]
  | LReadAck _ => (* 1102 *) [BadParameter; BadResponse; ServerRefused; Success]
  | LIncoming _ _ => (* 1149-1153 *) [Success; BadParameter; RecvFailed; BadResponse; NoDataAvailable]
  | LProcess _ _ => (* 1216-1219 *) [Success; BadParameter; BadResponse; NoDataAvailable]
  | LDup _ _ => (* 1233-1234 *) [Success; BadParameter]
  | LCodes _ => (* core_mqtt.h:1150-1152 *) [BadParameter; Success]
  end.
(** statuses returned all the same *)
Definition low_undocumented (c : low) : list status :=
  match c with
  | LReserve _ _ _ => [BadParameter]
  | LPublished _ _ _ _ => [NoMemory]
  | LProcess _ _ => [NeedMoreBytes]
  | _ => []
  end.
(** documented, and returned for a NULL pointer to an output only *)
Definition low_null_only (c : low) : list status :=
  match c with LIncoming _ _ | LProcess _ _ => [BadParameter] | _ => [] end.
(** The records given to MQTT_UpdateStateAck are those of a session. *)
Definition low_ok (c : low) : Prop :=
  match c with LAcked r _ _ _ => exists n m, Reach n m r | _ => True end.
Definition low_possible (c : low) (st : status) : Prop :=
  (In st (low_documented c) \/ In st (low_undocumented c)) /\ ~ In st (low_null_only c).
Definition low_index (c : low) : nat :=
  match c with
  | LReserve _ _ _ => 0 | LPublished _ _ _ _ => 1 | LAcked _ _ _ _ => 2 | LRemove _ _ => 3 | LConnectSize _ _ => 4
  | LConnect _ _ _ _ _ => 5 | LSubSize _ _ _ => 6 | LSub _ _ _ _ _ _ => 7 | LUnsubSize _ _ _ => 8 | LUnsub _ _ _ _ _ _ => 9
  | LPubSize _ => 10 | LPub _ _ _ _ _ => 11 | LPubHeader _ _ _ _ _ => 12 | LAck _ _ _ => 13 | LDisconnect _ => 14
  | LPingreq _ => 15 | LReadPublish _ _ => 16 | LReadAck _ => 17 | LIncoming _ _ => 18 | LProcess _ _ => 19
  | LDup _ _ => 20 | LCodes _ => 21
  end%nat.
