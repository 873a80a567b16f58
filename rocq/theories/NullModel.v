(** The public functions with arguments that may be NULL: the checks at their heads,
    in the order of the code.  A pointer to something read is an option ([None] is
    NULL), a pointer that is only written through is a bool ([false] is NULL).  The
    remaining code is that of SerModel, StateModel, TopicModel and CoreModel; storing a
    result through NULL there is [Ub] or [Undef]. *)
From Verif Require Import Base StateModel SerModel TopicModel CoreModel.

(** *pOut = v where the model of the function says what it wrote *)
Definition out {A} (given : bool) (v : option A) : R (option A) :=
  match v with None => Ok None | Some _ => if given then Ok v else Ub end.
Definition absent {A} (o : option A) : bool := match o with None => true | Some _ => false end.

(** ** The serialiser *)

(** core_mqtt_serializer.c:1686-1782 MQTT_GetConnectPacketSize *)
Definition n_getConnectPacketSize (c : option coninfo) (will : option pubinfo) (pRem pSize : bool) : R (status * option (Z * Z)) :=
  match c with
  | None => Ok (BadParameter, None)
  | Some c => if negb pRem || negb pSize then Ok (BadParameter, None)
              else let '(st, o) := getConnectPacketSize c will in let! o := out (pRem && pSize) o in Ok (st, o)
  end.
(** core_mqtt_serializer.c:1786-1840 MQTT_SerializeConnect; [None] is a NULL pFixedBuffer,
    [Some None] one whose pBuffer is NULL *)
Definition n_serializeConnect (M : Z) (c : option coninfo) (will : option pubinfo) (remainingLength : Z)
    (buf : option (option (list Z))) : R (status * option (option (list Z))) :=
  match c, buf with
  | Some c, Some b => let! (st, b) := serializeConnect M c will remainingLength b in Ok (st, Some b)
  | _, _ => Ok (BadParameter, buf)
  end.
(** core_mqtt_serializer.c:1844-1878 MQTT_GetSubscribePacketSize *)
Definition n_getSubscribePacketSize (M : Z) (subs : option (list subinfo)) (count : Z) (pRem pSize : bool) : R (status * option (Z * Z)) :=
  if absent subs || negb pRem || negb pSize then Ok (BadParameter, None)
  else let! (st, o) := getSubscribePacketSize M subs count in let! o := out (pRem && pSize) o in Ok (st, o).
(** core_mqtt_serializer.c:1974-2008 MQTT_GetUnsubscribePacketSize *)
Definition n_getUnsubscribePacketSize (M : Z) (subs : option (list subinfo)) (count : Z) (pRem pSize : bool) : R (status * option (Z * Z)) :=
  if absent subs || negb pRem || negb pSize then Ok (BadParameter, None)
  else let! (st, o) := getUnsubscribePacketSize M subs count in let! o := out (pRem && pSize) o in Ok (st, o).
(** core_mqtt_serializer.c:1343-1396 validateSubscriptionSerializeParams comes first in
    core_mqtt_serializer.c:1928-1970 MQTT_SerializeSubscribe *)
Definition n_serializeSubscribe (M : Z) (subs : option (list subinfo)) (count packetId remainingLength : Z)
    (buf : option (option (list Z))) : R (status * option (option (list Z))) :=
  match buf with
  | None => Ok (BadParameter, None)
  | Some b => let! (st, b) := serializeSubscribe M subs count packetId remainingLength b in Ok (st, Some b)
  end.
(** core_mqtt_serializer.c:2012-2049 MQTT_SerializeUnsubscribe *)
Definition n_serializeUnsubscribe (M : Z) (subs : option (list subinfo)) (count packetId remainingLength : Z)
    (buf : option (option (list Z))) : R (status * option (option (list Z))) :=
  match buf with
  | None => Ok (BadParameter, None)
  | Some b => let! (st, b) := serializeUnsubscribe M subs count packetId remainingLength b in Ok (st, Some b)
  end.
(** core_mqtt_serializer.c:2053-2090 MQTT_GetPublishPacketSize *)
Definition n_getPublishPacketSize (p : option pubinfo) (pRem pSize : bool) : R (status * option (Z * Z)) :=
  match p with
  | None => Ok (BadParameter, None)
  | Some p => if negb pRem || negb pSize then Ok (BadParameter, None)
              else let '(st, o) := getPublishPacketSize p in let! o := out (pRem && pSize) o in Ok (st, o)
  end.
(** core_mqtt_serializer.c:2094-2175 MQTT_SerializePublish *)
Definition n_serializePublish (M : Z) (p : option pubinfo) (packetId remainingLength : Z)
    (buf : option (option (list Z))) : R (status * option (option (list Z))) :=
  match buf, p with
  | Some b, Some p => let! (st, b) := serializePublish M p packetId remainingLength b in Ok (st, Some b)
  | _, _ => Ok (BadParameter, buf)
  end.
(** core_mqtt_serializer.c:2179-2258 MQTT_SerializePublishHeader *)
Definition n_serializePublishHeader (M : Z) (p : option pubinfo) (packetId remainingLength : Z)
    (buf : option (option (list Z))) (pSize : bool) : R (status * option (option (list Z)) * option Z) :=
  match buf, p with
  | Some b, Some p =>
      if negb pSize then Ok (BadParameter, buf, None)
      else let! (st, b, n) := serializePublishHeader M p packetId remainingLength b in
           let! n := out pSize n in Ok (st, Some b, n)
  | _, _ => Ok (BadParameter, buf, None)
  end.
(** core_mqtt_serializer.c:2262-2313 MQTT_SerializeAck *)
Definition n_serializeAck (buf : option (option (list Z))) (packetType packetId : Z) : R (status * option (option (list Z))) :=
  match buf with
  | None => Ok (BadParameter, None)
  | Some b => let! (st, b) := serializeAck b packetType packetId in Ok (st, Some b)
  end.
(** core_mqtt_serializer.c:2337-2376 MQTT_SerializeDisconnect *)
Definition n_serializeDisconnect (buf : option (option (list Z))) : R (status * option (option (list Z))) :=
  match buf with
  | None => Ok (BadParameter, None)
  | Some b => let! (st, b) := serializeDisconnect b in Ok (st, Some b)
  end.
(** core_mqtt_serializer.c:2400-2439 MQTT_SerializePingreq *)
Definition n_serializePingreq (buf : option (option (list Z))) : R (status * option (option (list Z))) :=
  match buf with
  | None => Ok (BadParameter, None)
  | Some b => let! (st, b) := serializePingreq b in Ok (st, Some b)
  end.
(** core_mqtt_serializer.c:2317-2333 MQTT_GetDisconnectPacketSize *)
Definition n_getDisconnectPacketSize (pSize : bool) : R (status * option Z) :=
  if negb pSize then Ok (BadParameter, None)
  else let '(st, n) := getDisconnectPacketSize in let! o := out pSize (Some n) in Ok (st, o).
(** core_mqtt_serializer.c:2380-2396 MQTT_GetPingreqPacketSize *)
Definition n_getPingreqPacketSize (pSize : bool) : R (status * option Z) :=
  if negb pSize then Ok (BadParameter, None)
  else let '(st, n) := getPingreqPacketSize in let! o := out pSize (Some n) in Ok (st, o).
(** core_mqtt_serializer.c:2443-2476 MQTT_DeserializePublish *)
Definition n_deserializePublish (M : Z) (k : option pktinfo) (pId pInfo : bool) : R (status * option (dpub * option Z)) :=
  match k with
  | None => Ok (BadParameter, None)
  | Some k =>
      if negb pId || negb pInfo then Ok (BadParameter, None)
      else let! (st, o) := deserializePublishApi M k in
           match o with
           | None => Ok (st, None)
           | Some (d, id) => let! d := out pInfo (Some d) in let! id := out pId id in
                             Ok (st, match d with Some d => Some (d, id) | None => None end)
           end
  end.
(** core_mqtt_serializer.c:2480-2553 MQTT_DeserializeAck: the packet identifier is only
    wanted for some types, the session present flag for CONNACK *)
Definition n_deserializeAck (k : option pktinfo) (pId pPresent : bool) : R (status * option Z * option bool) :=
  match k with
  | None => Ok (BadParameter, None, None)
  | Some k =>
      if negb pId && (negb (k_type k =? PKT_CONNACK) && negb (k_type k =? PKT_PINGRESP)) then Ok (BadParameter, None, None)
      else if negb pPresent && (k_type k =? PKT_CONNACK) then Ok (BadParameter, None, None)
      else let! (st, id, sp) := deserializeAck k in
           let! id := out pId id in let! sp := out pPresent sp in Ok (st, id, sp)
  end.
(** core_mqtt_serializer.c:2557-2618 MQTT_GetIncomingPacketTypeAndLength: with NULL for
    the packet nothing is read *)
Definition n_getIncomingPacketTypeAndLength {W} (recv1 : W -> Z * Z * W) (w : W) (pPacket : bool) : R (status * option (Z * Z) * W) :=
  if negb pPacket then Ok (BadParameter, None, w) else getIncomingPacketTypeAndLength recv1 w.
(** core_mqtt_serializer.c:2622-2647 MQTT_UpdateDuplicatePublishFlag *)
Definition n_updateDuplicatePublishFlag (header : option Z) (set : bool) : status * option Z :=
  match header with
  | None => (BadParameter, None)
  | Some h => let '(st, h) := updateDuplicatePublishFlag h set in (st, Some h)
  end.
(** core_mqtt_serializer.c:2651-2703 MQTT_ProcessIncomingPacketTypeAndLength *)
Definition n_processIncomingPacketTypeAndLength (buf : option (list Z)) (index : option Z) (pPacket : bool) : R (status * option (Z * Z * Z)) :=
  if negb pPacket then Ok (BadParameter, None)
  else match index, buf with
       | Some i, Some b => let! (st, o) := processIncomingPacketTypeAndLength b i in let! o := out pPacket o in Ok (st, o)
       | _, _ => Ok (BadParameter, None)
       end.
(** core_mqtt.c:3589-3644 MQTT_GetSubAckStatusCodes *)
Definition n_getSubAckStatusCodes (k : option pktinfo) (pStart pSize : bool) : R (status * option (Z * Z)) :=
  match k with
  | None => Ok (BadParameter, None)
  | Some k => if negb pStart then Ok (BadParameter, None) else if negb pSize then Ok (BadParameter, None)
              else let '(st, o) := getSubAckStatusCodes k in let! o := out (pStart && pSize) o in Ok (st, o)
  end.
(** core_mqtt.c:3520-3585 MQTT_MatchTopic *)
Definition n_matchTopic (n : option (list Z)) (nl : Z) (f : option (list Z)) (fl : Z) (pMatch : bool) : R (status * option bool) :=
  if absent n || (nl =? 0) then Ok (BadParameter, None)
  else if absent f || (fl =? 0) then Ok (BadParameter, None)
  else if negb pMatch then Ok (BadParameter, None)
  else let! (st, o) := matchTopic n nl f fl in let! o := out pMatch o in Ok (st, o).

(** ** The state engine; [None] is a NULL context *)

(** core_mqtt_state.c:819-844 MQTT_ReserveState: QoS 0 is answered before the context is
    looked at *)
Definition n_reserveState (s : option recs) (packetId : Z) (q : qos) : R (status * option recs) :=
  if qos_beq q Q0 then Ok (Success, s)
  else match s with
       | None => Ok (BadParameter, None)
       | Some r => let! (st, r) := reserveState r packetId q in Ok (st, Some r)
       end.
(** core_mqtt_state.c:877-947 MQTT_UpdateStatePublish *)
Definition n_updateStatePublish (s : option recs) (packetId : Z) (op : stateop) (q : qos) (pNew : bool) : R (status * option pstate * option recs) :=
  match s with
  | None => Ok (BadParameter, None, None)
  | Some r => if negb pNew then Ok (BadParameter, None, s)
              else let! (st, ns, r) := updateStatePublishApi r packetId op q in let! ns := out pNew ns in Ok (st, ns, Some r)
  end.
(** core_mqtt_state.c:951-995 MQTT_RemoveStateRecord *)
Definition n_removeStateRecord (s : option recs) (packetId : Z) : R (status * option recs) :=
  match s with
  | None => Ok (BadParameter, None)
  | Some r => let! (st, r) := removeStateRecord r packetId in Ok (st, Some r)
  end.
(** core_mqtt_state.c:999-1077 MQTT_UpdateStateAck *)
Definition n_updateStateAck (s : option recs) (packetId : Z) (t : acktype) (op : stateop) (pNew : bool) : R (status * option pstate * option recs) :=
  match s with
  | None => Ok (BadParameter, None, None)
  | Some r => if negb pNew then Ok (BadParameter, None, s)
              else let! (st, ns, r) := updateStateAckApi r packetId t op in let! ns := out pNew ns in Ok (st, ns, Some r)
  end.
(** core_mqtt_state.c:1081-1113 MQTT_PubrelToResend; 0 is MQTT_PACKET_ID_INVALID *)
Definition n_pubrelToResend (s : option recs) (cursor : option nat) (pState : bool) : R (Z * option nat) :=
  match s, cursor with
  | Some r, Some c =>
      if negb pState then Ok (0, cursor)
      else let '(id, c) := pubrelToResend r c in
           let! _ := out pState (if id =? 0 then None else Some PubRelSend) in Ok (id, Some c)
  | _, _ => Ok (0, cursor)
  end.
(** core_mqtt_state.c:1117-1143 MQTT_PublishToResend *)
Definition n_publishToResend (s : option recs) (cursor : option nat) : Z * option nat :=
  match s, cursor with
  | Some r, Some c => let '(id, c) := publishToResend r c in (id, Some c)
  | _, _ => (0, cursor)
  end.

(** ** The client; [ctx] is false for a NULL pContext *)
Section Null.
Variable G : cfg.
Variable ctx : bool.

(** core_mqtt.c:3090-3207 MQTT_Publish: 2633-2675 validatePublishParams comes first *)
Definition n_publish (p : option pubinfo) (packetId : Z) : Mo status :=
  match p with
  | Some p => if negb ctx then ret BadParameter else massert ctx ;; publish G p packetId
  | None => ret BadParameter
  end.
(** core_mqtt.c:3035-3086 MQTT_Subscribe: 1865-1912 validateSubscribeUnsubscribeParams
    comes first *)
Definition n_subscribe (subs : option (list subinfo)) (count packetId : Z) : Mo status :=
  if negb ctx || absent subs then ret BadParameter else massert ctx ;; subscribe G subs count packetId.
(** core_mqtt.c:3300-3351 MQTT_Unsubscribe *)
Definition n_unsubscribe (subs : option (list subinfo)) (count packetId : Z) : Mo status :=
  if negb ctx || absent subs then ret BadParameter else massert ctx ;; unsubscribe G subs count packetId.
(** core_mqtt.c:3211-3296 MQTT_Ping *)
Definition n_ping : Mo status := if negb ctx then ret BadParameter else massert ctx ;; ping G.
(** core_mqtt.c:3355-3434 MQTT_Disconnect *)
Definition n_disconnect : Mo status := if negb ctx then ret BadParameter else massert ctx ;; disconnect G.
(** core_mqtt.c:3491-3516 MQTT_GetPacketId *)
Definition n_getPacketId : Mo Z := if ctx then massert ctx ;; getPacketId else ret 0.
(** core_mqtt.c:2835-2863 MQTT_CancelCallback *)
Definition n_cancel (packetId : Z) : Mo status := if negb ctx then ret BadParameter else massert ctx ;; cancel packetId.
(** core_mqtt.c:2867-2904 MQTT_CheckConnectStatus *)
Definition n_checkConnectStatus : Mo status := if negb ctx then ret BadParameter else massert ctx ;; checkConnectStatus.
(** core_mqtt.c:3438-3461 MQTT_ProcessLoop, 3465-3487 MQTT_ReceiveLoop *)
Definition n_processLoop : Mo status := if negb ctx then ret BadParameter else massert ctx ;; processLoop G.
Definition n_receiveLoop : Mo status := if negb ctx then ret BadParameter else massert ctx ;; receiveLoop G.
(** core_mqtt.c:2908-3031 MQTT_Connect: a NULL argument goes through the end of the
    function (3000-3028), where only a NULL context is kept from the status change *)
Definition n_connect (ci : option coninfo) (will : option pubinfo) (timeoutMs : Z) (pPresent : bool) : Mo (status * option bool) :=
  match ci with
  | Some ci =>
      if negb ctx || negb pPresent
      then (if negb ctx then ret tt else massert ctx ;; modc transport_broke) ;; ret (BadParameter, None)
      else massert ctx ;;
           let* (st, sp) := connect G ci will timeoutMs in
           let* sp := lift (out pPresent sp) in ret (st, sp)
  | None => (if negb ctx then ret tt else massert ctx ;; modc transport_broke) ;; ret (BadParameter, None)
  end.

(** Calls of the client with arguments that may be NULL (dispatch, not a C function) *)
Inductive ncall : Type :=
| NPublish (p : option pubinfo) (id : Z) | NSubscribe (l : option (list subinfo)) (n id : Z)
| NUnsubscribe (l : option (list subinfo)) (n id : Z) | NPing | NDisconnect | NCancel (id : Z) | NCheck
| NConnect (ci : option coninfo) (will : option pubinfo) (timeoutMs : Z) (pPresent : bool) | NProcess | NReceive.
Definition n_call (c : ncall) : Mo status :=
  match c with
  | NPublish p id => n_publish p id
  | NSubscribe l n id => n_subscribe l n id
  | NUnsubscribe l n id => n_unsubscribe l n id
  | NPing => n_ping
  | NDisconnect => n_disconnect
  | NCancel id => n_cancel id
  | NCheck => n_checkConnectStatus
  | NConnect ci w t sp => let* (st, _) := n_connect ci w t sp in ret st
  | NProcess => n_processLoop
  | NReceive => n_receiveLoop
  end.
End Null.
