(** Model of source/core_mqtt_serializer.c, function by function.

    Conventions.
    - A pointer to caller memory is [option (list Z)]: None is NULL, Some m is a
      block holding the bytes m; lengths are separate fields, exactly as in C.
      Reading more bytes than the block holds is Ub.
    - Struct pointers that every caller must pass (pConnectInfo, pPublishInfo,
      output pointers, ...) are never NULL here; the C functions return
      MQTTBadParameter for NULL ones.
    - size_t arithmetic that can wrap is reduced modulo [M] (2^32 or 2^64 on real
      targets), the explicit parameter of these functions.
    - Logging is left out (LogDebug/LogError only format values). *)
From Verif Require Import Base.

(** ** Structures: core_mqtt_serializer.h:129-271 *)
(** MQTTConnectInfo_t *)
Record coninfo : Type := mkCon {
  c_clean : bool; c_keepalive : Z;
  c_id : option (list Z); c_idlen : Z;
  c_user : option (list Z); c_userlen : Z;
  c_pass : option (list Z); c_passlen : Z }.
(** MQTTSubscribeInfo_t *)
Record subinfo : Type := mkSub { s_qos : qos; s_filter : option (list Z); s_len : Z }.
(** MQTTPublishInfo_t *)
Record pubinfo : Type := mkPub {
  p_qos : qos; p_retain : bool; p_dup : bool;
  p_topic : option (list Z); p_topiclen : Z;
  p_payload : option (list Z); p_paylen : Z }.
(** MQTTPacketInfo_t without headerLength (type, remainingLength, pRemainingData) *)
Record pktinfo : Type := mkPkt { k_type : Z; k_rem : Z; k_data : option (list Z) }.

(** ** Constants: core_mqtt_serializer.h:44-73, core_mqtt_serializer.c:40-148 *)
Definition PKT_CONNECT := 16.      Definition PKT_CONNACK := 32.
Definition PKT_PUBLISH := 48.      Definition PKT_PUBACK := 64.
Definition PKT_PUBREC := 80.       Definition PKT_PUBREL := 98.
Definition PKT_PUBCOMP := 112.     Definition PKT_SUBSCRIBE := 130.
Definition PKT_SUBACK := 144.      Definition PKT_UNSUBSCRIBE := 162.
Definition PKT_UNSUBACK := 176.    Definition PKT_PINGREQ := 192.
Definition PKT_PINGRESP := 208.    Definition PKT_DISCONNECT := 224.
Definition MAX_REMAINING_LENGTH := 268435455.      (* c:97 *)
Definition REMAINING_LENGTH_INVALID := 268435456.  (* c:141 *)
Definition CONNECT_HEADER_SIZE := 10.              (* c:45 *)

(** UINT8_SET_BIT / CLEAR_BIT / CHECK_BIT: core_mqtt_serializer.c:102-115 *)
Definition set_bit (x p : Z) : Z := u8 (Z.lor x (Z.shiftl 1 p)).
Definition clear_bit (x p : Z) : Z := u8 (Z.land x (Z.lnot (Z.shiftl 1 p))).
Definition check_bit (x p : Z) : bool := Z.land x (Z.shiftl 1 p) =? Z.shiftl 1 p.
(** UINT16_HIGH_BYTE / LOW_BYTE: core_mqtt_serializer.c:120-125 *)
Definition hi8 (x : Z) : Z := u8 (Z.shiftr x 8).
Definition lo8 (x : Z) : Z := u8 (Z.land x 255).
(** Read one byte of a block; out of range is Ub. *)
Definition rd (m : list Z) (i : Z) : R Z :=
  if (0 <=? i) && (i <? zlen m) then Ok (nth (Z.to_nat i) m 0) else Ub.
(** UINT16_DECODE( ptr ): core_mqtt_serializer.c:132-134 *)
Definition rd16 (m : list Z) (i : Z) : R Z :=
  let! h := rd m i in let! l := rd m (i + 1) in Ok (u16 (Z.lor (Z.shiftl h 8) l)).

(** ** Writing through a uint8_t pointer: the whole target buffer and a position.
    put stores bytes at the position and advances; skip only advances (a pointer
    may go one past the end of its buffer, not further). *)
Definition wbuf : Type := (list Z * nat)%type.
Definition put (w : wbuf) (bs : list Z) : R wbuf :=
  let '(b, pos) := w in
  if (pos + length bs <=? length b)%nat
  then Ok (firstn pos b ++ bs ++ skipn (pos + length bs) b, (pos + length bs)%nat)
  else Ub.
Definition skip (w : wbuf) (n : Z) : R wbuf :=
  let '(b, pos) := w in
  if (pos + Z.to_nat n <=? length b)%nat then Ok (b, (pos + Z.to_nat n)%nat) else Ub.
(** memcpy of n bytes from a block (NULL source with n = 0 is tolerated). *)
Definition copy_from (w : wbuf) (src : option (list Z)) (n : Z) : R wbuf :=
  match src with
  | Some m => if n <=? zlen m then put w (firstn (Z.to_nat n) m) else Ub
  | None => if n =? 0 then Ok w else Ub
  end.

(** core_mqtt_serializer.c:456-489 remainingLengthEncodedSize *)
Definition remainingLengthEncodedSize (length : Z) : Z :=
  if length <? 128 then 1 else if length <? 16384 then 2
  else if length <? 2097152 then 3 else 4.

(** core_mqtt_serializer.c:493-522 encodeRemainingLength; ten iterations are enough
    for any 64-bit size_t, running out of them is Ub. *)
Fixpoint encode_loop (fuel : nat) (w : wbuf) (remainingLength : Z) : R wbuf :=
  match fuel with
  | O => Ub
  | S fuel' =>
      let lengthByte := u8 (remainingLength mod 128) in
      let remainingLength := remainingLength / 128 in
      let lengthByte := if 0 <? remainingLength then set_bit lengthByte 7 else lengthByte in
      let! w := put w [lengthByte] in
      if 0 <? remainingLength then encode_loop fuel' w remainingLength else Ok w
  end.
Definition encodeRemainingLength (w : wbuf) (length : Z) : R wbuf := encode_loop 10 w length.

(** core_mqtt_serializer.c:526-554 encodeString; a NULL source leaves the bytes of
    the target as they were and still advances. *)
Definition encodeString (w : wbuf) (src : option (list Z)) (len : Z) : R wbuf :=
  let! w := put w [hi8 len; lo8 len] in
  match src with
  | Some _ => copy_from w src len
  | None => skip w len
  end.

(** core_mqtt_serializer.c:558-633 calculatePublishPacketSize: (remainingLength,
    packetSize) when true is returned.  No wrap is possible: topicNameLength is 16
    bits and the first comparison bounds payloadLength. *)
Definition calculatePublishPacketSize (p : pubinfo) : option (Z * Z) :=
  let packetSize := p_topiclen p + 2 in
  let packetSize := match p_qos p with Q0 => packetSize | _ => packetSize + 2 end in
  let payloadLimit := MAX_REMAINING_LENGTH - packetSize - 1 in
  if payloadLimit <? p_paylen p then None
  else
    let packetSize := packetSize + p_paylen p in
    let payloadLimit := payloadLimit - remainingLengthEncodedSize packetSize in
    if payloadLimit <? p_paylen p then None
    else Some (packetSize, packetSize + (1 + remainingLengthEncodedSize packetSize)).

(** core_mqtt_serializer.c:644-681 and 713-750: the first byte of a PUBLISH *)
Definition publishFlags (p : pubinfo) : Z :=
  let f := PKT_PUBLISH in
  let f := match p_qos p with Q1 => set_bit f 1 | Q2 => set_bit f 2 | Q0 => f end in
  let f := if p_retain p then set_bit f 0 else f in
  if p_dup p then set_bit f 3 else f.

(** core_mqtt_serializer.c:637-701 MQTT_SerializePublishHeaderWithoutTopic: the
    buffer written and *headerSize (the status is always MQTTSuccess). *)
Definition serializePublishHeaderWithoutTopic (p : pubinfo) (remainingLength : Z) (buf : list Z)
  : R (list Z * Z) :=
  let headerLength := 1 + remainingLengthEncodedSize remainingLength + 2 in
  let! w := put (buf, O) [publishFlags p] in
  let! w := encodeRemainingLength w remainingLength in
  let! w := put w [hi8 (p_topiclen p)] in
  let! w := put w [lo8 (p_topiclen p)] in
  Ok (fst w, headerLength).

(** core_mqtt_serializer.c:705-793 serializePublishCommon *)
Definition serializePublishCommon (p : pubinfo) (remainingLength packetIdentifier : Z)
    (buf : list Z) (serializePayload : bool) : R (list Z) :=
  rassert (qos_beq (p_qos p) Q0 || negb (packetIdentifier =? 0)) (
  rassert (negb (p_dup p) || negb (qos_beq (p_qos p) Q0)) (
  let! w := put (buf, O) [publishFlags p] in
  let! w := encodeRemainingLength w remainingLength in
  let! w := encodeString w (p_topic p) (p_topiclen p) in
  let! w := match p_qos p with
            | Q0 => Ok w
            | _ => put w [hi8 packetIdentifier; lo8 packetIdentifier]
            end in
  let! w := if (0 <? p_paylen p) && serializePayload
            then copy_from w (p_payload p) (p_paylen p) else Ok w in
  rassert (snd w <=? length buf)%nat (Ok (fst w)))).

(** core_mqtt_serializer.c:795-843 getRemainingLength.  The receive function is a
    parameter: from a world w it returns the int32_t result, the byte stored when
    the result is 1, and the next world.  At most four bytes are read, so the loop
    runs at most five times. *)
Section Pull.
Context {W : Type}.
Variable recv1 : W -> Z * Z * W.

Fixpoint getRemainingLength_loop (fuel : nat) (w : W) (remainingLength multiplier bytesDecoded : Z)
  : R (Z * Z * W) :=
  match fuel with
  | O => Ub
  | S fuel' =>
      if 2097152 <? multiplier then Ok (REMAINING_LENGTH_INVALID, bytesDecoded, w)
      else
        let '(bytesReceived, encodedByte, w') := recv1 w in
        if bytesReceived =? 1 then
          let remainingLength := remainingLength + Z.land encodedByte 127 * multiplier in
          let multiplier := multiplier * 128 in
          let bytesDecoded := bytesDecoded + 1 in
          if remainingLength =? REMAINING_LENGTH_INVALID then Ok (remainingLength, bytesDecoded, w')
          else if negb (Z.land encodedByte 128 =? 0)
               then getRemainingLength_loop fuel' w' remainingLength multiplier bytesDecoded
               else Ok (remainingLength, bytesDecoded, w')
        else Ok (REMAINING_LENGTH_INVALID, bytesDecoded, w')
  end.
Definition getRemainingLength (w : W) : R (Z * W) :=
  let! (rl, n, w') := getRemainingLength_loop 5 w 0 1 0 in
  if negb (rl =? REMAINING_LENGTH_INVALID) && negb (n =? remainingLengthEncodedSize rl)
  then Ok (REMAINING_LENGTH_INVALID, w') else Ok (rl, w').
End Pull.

(** core_mqtt_serializer.c:847-914 processRemainingLength: status and, on success,
    (remainingLength, headerLength). *)
Fixpoint processRemainingLength_loop (fuel : nat) (buf : list Z) (index : Z)
    (remainingLength multiplier bytesDecoded : Z) : R (status * Z * Z) :=
  match fuel with
  | O => Ub
  | S fuel' =>
      if 2097152 <? multiplier then Ok (BadResponse, REMAINING_LENGTH_INVALID, bytesDecoded)
      else if bytesDecoded + 1 <? index then
        let! encodedByte := rd buf (bytesDecoded + 1) in
        let remainingLength := remainingLength + Z.land encodedByte 127 * multiplier in
        let multiplier := multiplier * 128 in
        let bytesDecoded := bytesDecoded + 1 in
        if remainingLength =? REMAINING_LENGTH_INVALID
        then Ok (Success, remainingLength, bytesDecoded)
        else if negb (Z.land encodedByte 128 =? 0)
             then processRemainingLength_loop fuel' buf index remainingLength multiplier bytesDecoded
             else Ok (Success, remainingLength, bytesDecoded)
      else Ok (NeedMoreBytes, remainingLength, bytesDecoded)
  end.
Definition processRemainingLength (buf : list Z) (index : Z) : R (status * option (Z * Z)) :=
  let! (st, rl, n) := processRemainingLength_loop 5 buf index 0 1 0 in
  if status_beq st Success
  then if negb (n =? remainingLengthEncodedSize rl) then Ok (BadResponse, None)
       else Ok (Success, Some (rl, n + 1))
  else Ok (st, None).

(** core_mqtt_serializer.c:918-955 incomingPacketValid *)
Definition incomingPacketValid (packetType : Z) : bool :=
  let t := Z.land packetType 240 in
  if (t =? PKT_CONNACK) || (t =? PKT_PUBLISH) || (t =? PKT_PUBACK) || (t =? PKT_PUBREC) ||
     (t =? PKT_PUBCOMP) || (t =? PKT_SUBACK) || (t =? PKT_UNSUBACK) || (t =? PKT_PINGRESP)
  then true
  else if t =? Z.land PKT_PUBREL 240 then 0 <? Z.land packetType 2
  else false.

(** core_mqtt_serializer.c:959-992 checkPublishRemainingLength *)
Definition checkPublishRemainingLength (remainingLength : Z) (q : qos) (qos0Minimum : Z) : status :=
  match q with
  | Q0 => if remainingLength <? qos0Minimum then BadResponse else Success
  | _ => if remainingLength <? qos0Minimum + 2 then BadResponse else Success
  end.

(** core_mqtt_serializer.c:996-1045 processPublishFlags: (qos, retain, dup) *)
Definition processPublishFlags (publishFlags : Z) : option (qos * bool * bool) :=
  let rest q := Some (q, check_bit publishFlags 0, check_bit publishFlags 3) in
  if check_bit publishFlags 2
  then if check_bit publishFlags 1 then None else rest Q2
  else if check_bit publishFlags 1 then rest Q1 else rest Q0.

(** core_mqtt_serializer.c:1081-1160 deserializeConnack (and 1049-1077
    logConnackResponse, whose table index is checked by its assert): status and
    *pSessionPresent when written. *)
Definition deserializeConnack (rem : Z) (data : list Z) : R (status * option bool) :=
  if negb (rem =? 2) then Ok (BadResponse, None)
  else
    let! b0 := rd data 0 in
    if negb (Z.lor b0 1 =? 1) then Ok (BadResponse, None)
    else
      let sp := Z.land b0 1 =? 1 in
      let! st := if sp then let! b1 := rd data 1 in
                            Ok (if negb (b1 =? 0) then BadResponse else Success)
                 else Ok Success in
      if status_beq st Success
      then let! b1 := rd data 1 in
           if 5 <? b1 then Ok (BadResponse, Some sp)
           else rassert (b1 <=? 5) (
                if 0 <? b1 then Ok (ServerRefused, Some sp) else Ok (Success, Some sp))
      else Ok (st, Some sp).

(** MQTTSubscriptionType_t: core_mqtt_serializer.c:156-160 *)
Inductive subtype : Type := SUBSCRIBE | UNSUBSCRIBE.

(** The caller's array pSubscriptionList with subscriptionCount entries; an array
    shorter than the count is Ub. *)
Definition sub_entries (subs : list subinfo) (count : Z) : R (list subinfo) :=
  if count <=? zlen subs then Ok (firstn (Z.to_nat count) subs) else Ub.

(** core_mqtt_serializer.c:1164-1238 calculateSubscriptionPacketSize.  Sums are
    size_t sums modulo M. *)
Fixpoint subscription_size_loop (M : Z) (l : list subinfo) (t : subtype) (packetSize : Z) (st : status)
  : Z * status :=
  match l with
  | [] => (packetSize, st)
  | x :: l' =>
      let packetSize := (packetSize + (s_len x + 2)) mod M in
      let packetSize := match t with SUBSCRIBE => (packetSize + 1) mod M | UNSUBSCRIBE => packetSize end in
      let bad := (s_len x =? 0) || match s_filter x with None => true | Some _ => false end in
      subscription_size_loop M l' t packetSize (if bad then BadParameter else st)
  end.
Definition calculateSubscriptionPacketSize (M : Z) (subs : list subinfo) (count : Z) (t : subtype)
  : R (status * option (Z * Z)) :=
  rassert (negb (count =? 0)) (
  let! l := sub_entries subs count in
  let '(packetSize, st) := subscription_size_loop M l t 2 Success in
  let st := if MAX_REMAINING_LENGTH <? packetSize then BadParameter else st in
  if status_beq st Success
  then Ok (Success, Some (packetSize, (packetSize + (1 + remainingLengthEncodedSize packetSize)) mod M))
  else Ok (st, None)).

(** core_mqtt_serializer.c:1242-1295 readSubackStatus; off is the index of
    pStatusStart in data. *)
Fixpoint readSubackStatus_loop (n : nat) (data : list Z) (off : Z) (st : status) : R status :=
  match n with
  | O => Ok st
  | S n' =>
      let! b := rd data off in
      let st := if (b =? 0) || (b =? 1) || (b =? 2) then st
                else if b =? 128 then ServerRefused else BadResponse in
      if status_beq st BadResponse then Ok st
      else readSubackStatus_loop n' data (off + 1) st
  end.
Definition readSubackStatus (count : Z) (data : list Z) (off : Z) : R status :=
  readSubackStatus_loop (Z.to_nat count) data off Success.

(** core_mqtt_serializer.c:1299-1339 deserializeSuback *)
Definition deserializeSuback (rem : Z) (data : list Z) : R (status * option Z) :=
  if rem <? 3 then Ok (BadResponse, None)
  else
    let! id := rd16 data 0 in
    if id =? 0 then Ok (BadResponse, Some id)
    else let! st := readSubackStatus (rem - 2) data 2 in Ok (st, Some id).

(** core_mqtt_serializer.c:1343-1396 validateSubscriptionSerializeParams *)
Definition validateSubscriptionSerializeParams (M : Z) (subs : option (list subinfo)) (count packetId
    remainingLength : Z) (buf : option (list Z)) : status :=
  match subs, buf with
  | Some _, Some b =>
      if count =? 0 then BadParameter
      else if packetId =? 0 then BadParameter
      else if zlen b <? (1 + remainingLengthEncodedSize remainingLength + remainingLength) mod M
           then NoMemory else Success
  | _, _ => BadParameter
  end.

(** Result of PUBLISH deserialisation: pTopicName and pPayload are offsets into
    the packet data (None: NULL payload). *)
Record dpub : Type := mkDpub {
  d_qos : qos; d_retain : bool; d_dup : bool;
  d_topicoff : Z; d_topiclen : Z; d_payoff : option Z; d_paylen : Z }.

(** core_mqtt_serializer.c:1400-1490 deserializePublish.  Output structures are
    modelled only for MQTTSuccess (on failure the C code leaves them half
    written).  The packet id is only written for QoS 1 and 2. *)
Definition deserializePublish (M type rem : Z) (data : list Z) : R (status * option (dpub * option Z)) :=
  match processPublishFlags (Z.land type 15) with
  | None => Ok (BadResponse, None)
  | Some (q, retain, dup) =>
      if negb (status_beq (checkPublishRemainingLength rem q 3) Success) then Ok (BadResponse, None)
      else
        let! topicNameLength := rd16 data 0 in
        if negb (status_beq (checkPublishRemainingLength rem q (topicNameLength + 2)) Success)
        then Ok (BadResponse, None)
        else
          let pid_off := 2 + topicNameLength in
          let! (pid, payoff) :=
            match q with
            | Q0 => Ok (None, pid_off)
            | _ => let! id := rd16 data pid_off in Ok (Some id, pid_off + 2)
            end in
          if match pid with Some id => id =? 0 | None => false end then Ok (BadResponse, None)
          else
            let payloadLength := (rem - topicNameLength - 2) mod M in
            let payloadLength := match q with Q0 => payloadLength | _ => (payloadLength - 2) mod M end in
            Ok (Success, Some (mkDpub q retain dup 2 topicNameLength
                                 (if payloadLength =? 0 then None else Some payoff) payloadLength, pid))
  end.

(** core_mqtt_serializer.c:1494-1527 deserializeSimpleAck *)
Definition deserializeSimpleAck (rem : Z) (data : list Z) : R (status * option Z) :=
  if negb (rem =? 2) then Ok (BadResponse, None)
  else let! id := rd16 data 0 in
       Ok (if id =? 0 then BadResponse else Success, Some id).

(** core_mqtt_serializer.c:1531-1547 deserializePingresp *)
Definition deserializePingresp (rem : Z) : status := if negb (rem =? 0) then BadResponse else Success.

(** core_mqtt_serializer.c:1573-1612: CONNECT flags *)
Definition connectFlags (c : coninfo) (will : option pubinfo) : Z :=
  let f := 0 in
  let f := if c_clean c then set_bit f 1 else f in
  let f := match c_user c with Some _ => set_bit f 7 | None => f end in
  let f := match c_pass c with Some _ => set_bit f 6 | None => f end in
  match will with
  | None => f
  | Some wl =>
      let f := set_bit f 2 in
      let f := match p_qos wl with Q1 => set_bit f 3 | Q2 => set_bit f 4 | Q0 => f end in
      if p_retain wl then set_bit f 5 else f
  end.

(** core_mqtt_serializer.c:1549-1625 MQTT_SerializeConnectFixedHeader *)
Definition serializeConnectFixedHeader (w : wbuf) (c : coninfo) (will : option pubinfo)
    (remainingLength : Z) : R wbuf :=
  let! w := put w [PKT_CONNECT] in
  let! w := encodeRemainingLength w remainingLength in
  let! w := encodeString w (Some [77; 81; 84; 84]) 4 in
  let! w := put w [4] in
  let! w := put w [connectFlags c will] in
  put w [hi8 (c_keepalive c); lo8 (c_keepalive c)].

(** core_mqtt_serializer.c:1628-1682 serializeConnectPacket *)
Definition serializeConnectPacket (c : coninfo) (will : option pubinfo) (remainingLength : Z)
    (buf : list Z) : R (list Z) :=
  let! w := serializeConnectFixedHeader (buf, O) c will remainingLength in
  let! w := encodeString w (c_id c) (c_idlen c) in
  let! w := match will with
            | None => Ok w
            | Some wl => let! w := encodeString w (p_topic wl) (p_topiclen wl) in
                         encodeString w (p_payload wl) (u16 (p_paylen wl))
            end in
  let! w := match c_user c with
            | None => Ok w | Some _ => encodeString w (c_user c) (c_userlen c) end in
  let! w := match c_pass c with
            | None => Ok w | Some _ => encodeString w (c_pass c) (c_passlen c) end in
  rassert (snd w <=? length buf)%nat (Ok (fst w)).

(** core_mqtt_serializer.c:1686-1782 MQTT_GetConnectPacketSize.  At most 327699, so
    no wrap. *)
Definition getConnectPacketSize (c : coninfo) (will : option pubinfo) : status * option (Z * Z) :=
  if (c_idlen c =? 0) || match c_id c with None => true | Some _ => false end
  then (BadParameter, None)
  else if match will with Some wl => 65535 <? p_paylen wl | None => false end
  then (BadParameter, None)
  else
    let n := CONNECT_HEADER_SIZE in
    let n := n + (c_idlen c + 2) in
    let n := match will with Some wl => n + (p_topiclen wl + 2 + p_paylen wl + 2) | None => n end in
    let n := match c_user c with Some _ => n + (c_userlen c + 2) | None => n end in
    let n := match c_pass c with Some _ => n + (c_passlen c + 2) | None => n end in
    (Success, Some (n, n + (1 + remainingLengthEncodedSize n))).

(** core_mqtt_serializer.c:1786-1840 MQTT_SerializeConnect: status and the buffer
    after the call (None buffer: pFixedBuffer->pBuffer is NULL). *)
Definition serializeConnect (M : Z) (c : coninfo) (will : option pubinfo) (remainingLength : Z)
    (buf : option (list Z)) : R (status * option (list Z)) :=
  match buf with
  | None => Ok (BadParameter, None)
  | Some b =>
      if match will with Some wl => match p_topic wl with None => true | _ => false end | None => false end
      then Ok (BadParameter, buf)
      else if zlen b <? (remainingLength + remainingLengthEncodedSize remainingLength + 1) mod M
      then Ok (NoMemory, buf)
      else let! b' := serializeConnectPacket c will remainingLength b in Ok (Success, Some b')
  end.

(** core_mqtt_serializer.c:1844-1878 MQTT_GetSubscribePacketSize *)
Definition getSubscribePacketSize (M : Z) (subs : option (list subinfo)) (count : Z)
  : R (status * option (Z * Z)) :=
  match subs with
  | None => Ok (BadParameter, None)
  | Some l => if count =? 0 then Ok (BadParameter, None)
              else calculateSubscriptionPacketSize M l count SUBSCRIBE
  end.

(** core_mqtt_serializer.c:1882-1902 MQTT_SerializeSubscribeHeader *)
Definition serializeSubscribeHeader (remainingLength : Z) (w : wbuf) (packetId : Z) : R wbuf :=
  let! w := put w [PKT_SUBSCRIBE] in
  let! w := encodeRemainingLength w remainingLength in
  put w [hi8 packetId; lo8 packetId].

(** core_mqtt_serializer.c:1906-1926 MQTT_SerializeUnsubscribeHeader *)
Definition serializeUnsubscribeHeader (remainingLength : Z) (w : wbuf) (packetId : Z) : R wbuf :=
  let! w := put w [PKT_UNSUBSCRIBE] in
  let! w := encodeRemainingLength w remainingLength in
  put w [hi8 packetId; lo8 packetId].

(** core_mqtt_serializer.c:1953-1963: loop of MQTT_SerializeSubscribe *)
Fixpoint subscribe_loop (w : wbuf) (l : list subinfo) : R wbuf :=
  match l with
  | [] => Ok w
  | x :: l' => let! w := encodeString w (s_filter x) (s_len x) in
               let! w := put w [u8 (qos_val (s_qos x))] in
               subscribe_loop w l'
  end.
(** core_mqtt_serializer.c:2037-2042: loop of MQTT_SerializeUnsubscribe *)
Fixpoint unsubscribe_loop (w : wbuf) (l : list subinfo) : R wbuf :=
  match l with
  | [] => Ok w
  | x :: l' => let! w := encodeString w (s_filter x) (s_len x) in unsubscribe_loop w l'
  end.

(** core_mqtt_serializer.c:1928-1970 MQTT_SerializeSubscribe *)
Definition serializeSubscribe (M : Z) (subs : option (list subinfo)) (count packetId remainingLength : Z)
    (buf : option (list Z)) : R (status * option (list Z)) :=
  match validateSubscriptionSerializeParams M subs count packetId remainingLength buf, subs, buf with
  | Success, Some l, Some b =>
      let! l := sub_entries l count in
      let! w := serializeSubscribeHeader remainingLength (b, O) packetId in
      let! w := subscribe_loop w l in
      Ok (Success, Some (fst w))
  | st, _, _ => Ok (st, buf)
  end.

(** core_mqtt_serializer.c:1974-2008 MQTT_GetUnsubscribePacketSize *)
Definition getUnsubscribePacketSize (M : Z) (subs : option (list subinfo)) (count : Z)
  : R (status * option (Z * Z)) :=
  match subs with
  | None => Ok (BadParameter, None)
  | Some l => if count =? 0 then Ok (BadParameter, None)
              else calculateSubscriptionPacketSize M l count UNSUBSCRIBE
  end.

(** core_mqtt_serializer.c:2012-2049 MQTT_SerializeUnsubscribe *)
Definition serializeUnsubscribe (M : Z) (subs : option (list subinfo)) (count packetId remainingLength : Z)
    (buf : option (list Z)) : R (status * option (list Z)) :=
  match validateSubscriptionSerializeParams M subs count packetId remainingLength buf, subs, buf with
  | Success, Some l, Some b =>
      let! l := sub_entries l count in
      let! w := serializeUnsubscribeHeader remainingLength (b, O) packetId in
      let! w := unsubscribe_loop w l in
      Ok (Success, Some (fst w))
  | st, _, _ => Ok (st, buf)
  end.

(** core_mqtt_serializer.c:2053-2090 MQTT_GetPublishPacketSize *)
Definition getPublishPacketSize (p : pubinfo) : status * option (Z * Z) :=
  if match p_topic p with None => true | _ => false end || (p_topiclen p =? 0)
  then (BadParameter, None)
  else match calculatePublishPacketSize p with
       | None => (BadParameter, None)
       | Some r => (Success, Some r)
       end.

(** core_mqtt_serializer.c:2094-2175 MQTT_SerializePublish *)
Definition serializePublish (M : Z) (p : pubinfo) (packetId remainingLength : Z) (buf : option (list Z))
  : R (status * option (list Z)) :=
  match buf with
  | None => Ok (BadParameter, None)
  | Some b =>
      if (0 <? p_paylen p) && match p_payload p with None => true | _ => false end
      then Ok (BadParameter, buf)
      else if match p_topic p with None => true | _ => false end || (p_topiclen p =? 0)
      then Ok (BadParameter, buf)
      else if negb (qos_beq (p_qos p) Q0) && (packetId =? 0) then Ok (BadParameter, buf)
      else if p_dup p && qos_beq (p_qos p) Q0 then Ok (BadParameter, buf)
      else if zlen b <? (1 + remainingLengthEncodedSize remainingLength + remainingLength) mod M
      then Ok (NoMemory, buf)
      else let! b' := serializePublishCommon p remainingLength packetId b true in
           Ok (Success, Some b')
  end.

(** core_mqtt_serializer.c:2179-2258 MQTT_SerializePublishHeader: status, buffer and
    *pHeaderSize *)
Definition serializePublishHeader (M : Z) (p : pubinfo) (packetId remainingLength : Z)
    (buf : option (list Z)) : R (status * option (list Z) * option Z) :=
  match buf with
  | None => Ok (BadParameter, None, None)
  | Some b =>
      if match p_topic p with None => true | _ => false end || (p_topiclen p =? 0)
      then Ok (BadParameter, buf, None)
      else if negb (qos_beq (p_qos p) Q0) && (packetId =? 0) then Ok (BadParameter, buf, None)
      else if p_dup p && qos_beq (p_qos p) Q0 then Ok (BadParameter, buf, None)
      else
        let packetSize := (1 + remainingLengthEncodedSize remainingLength + remainingLength
                             - p_paylen p) mod M in
        if zlen b <? packetSize then Ok (NoMemory, buf, None)
        else let! b' := serializePublishCommon p remainingLength packetId b false in
             Ok (Success, Some b', Some packetSize)
  end.

(** core_mqtt_serializer.c:2262-2313 MQTT_SerializeAck *)
Definition serializeAck (buf : option (list Z)) (packetType packetId : Z) : R (status * option (list Z)) :=
  match buf with
  | None => Ok (BadParameter, None)
  | Some b =>
      if zlen b <? 4 then Ok (NoMemory, buf)
      else if packetId =? 0 then Ok (BadParameter, buf)
      else if (packetType =? PKT_PUBACK) || (packetType =? PKT_PUBREC) ||
              (packetType =? PKT_PUBREL) || (packetType =? PKT_PUBCOMP)
      then let! w := put (b, O) [packetType; 2; hi8 packetId; lo8 packetId] in
           Ok (Success, Some (fst w))
      else Ok (BadParameter, buf)
  end.

(** core_mqtt_serializer.c:2317-2333 MQTT_GetDisconnectPacketSize and 2380-2396
    MQTT_GetPingreqPacketSize *)
Definition getDisconnectPacketSize : status * Z := (Success, 2).
Definition getPingreqPacketSize : status * Z := (Success, 2).

(** core_mqtt_serializer.c:2337-2376 MQTT_SerializeDisconnect *)
Definition serializeDisconnect (buf : option (list Z)) : R (status * option (list Z)) :=
  match buf with
  | None => Ok (BadParameter, None)
  | Some b =>
      if zlen b <? 2 then Ok (NoMemory, buf)
      else let! w := put (b, O) [PKT_DISCONNECT; 0] in Ok (Success, Some (fst w))
  end.

(** core_mqtt_serializer.c:2400-2439 MQTT_SerializePingreq *)
Definition serializePingreq (buf : option (list Z)) : R (status * option (list Z)) :=
  match buf with
  | None => Ok (BadParameter, None)
  | Some b =>
      if zlen b <? 2 then Ok (NoMemory, buf)
      else let! w := put (b, O) [PKT_PINGREQ; 0] in Ok (Success, Some (fst w))
  end.

(** core_mqtt_serializer.c:2443-2476 MQTT_DeserializePublish *)
Definition deserializePublishApi (M : Z) (k : pktinfo) : R (status * option (dpub * option Z)) :=
  if negb (Z.land (k_type k) 240 =? PKT_PUBLISH) then Ok (BadParameter, None)
  else match k_data k with
       | None => Ok (BadParameter, None)
       | Some d => deserializePublish M (k_type k) (k_rem k) d
       end.

(** core_mqtt_serializer.c:2480-2553 MQTT_DeserializeAck, output pointers given.
    Results: status, *pPacketId when written, *pSessionPresent when written. *)
Definition deserializeAck (k : pktinfo) : R (status * option Z * option bool) :=
  let t := k_type k in
  match k_data k with
  | None => if t =? PKT_PINGRESP then Ok (deserializePingresp (k_rem k), None, None)
            else Ok (BadParameter, None, None)
  | Some d =>
      if t =? PKT_CONNACK then
        let! (st, sp) := deserializeConnack (k_rem k) d in Ok (st, None, sp)
      else if t =? PKT_SUBACK then
        let! (st, id) := deserializeSuback (k_rem k) d in Ok (st, id, None)
      else if t =? PKT_PINGRESP then Ok (deserializePingresp (k_rem k), None, None)
      else if (t =? PKT_UNSUBACK) || (t =? PKT_PUBACK) || (t =? PKT_PUBREC) ||
              (t =? PKT_PUBREL) || (t =? PKT_PUBCOMP) then
        let! (st, id) := deserializeSimpleAck (k_rem k) d in Ok (st, id, None)
      else Ok (BadResponse, None, None)
  end.

(** core_mqtt_serializer.c:2557-2618 MQTT_GetIncomingPacketTypeAndLength: status,
    (type, remainingLength) on success, next world. *)
Definition getIncomingPacketTypeAndLength {W} (recv1 : W -> Z * Z * W) (w : W)
  : R (status * option (Z * Z) * W) :=
  let '(bytesReceived, type, w1) := recv1 w in
  if bytesReceived =? 1 then
    if incomingPacketValid type then
      let! (rl, w2) := getRemainingLength recv1 w1 in
      if rl =? REMAINING_LENGTH_INVALID then Ok (BadResponse, None, w2)
      else Ok (Success, Some (type, rl), w2)
    else Ok (BadResponse, None, w1)
  else if bytesReceived =? 0 then Ok (NoDataAvailable, None, w1)
  else Ok (RecvFailed, None, w1).

(** core_mqtt_serializer.c:2622-2647 MQTT_UpdateDuplicatePublishFlag: status and
    the header byte afterwards *)
Definition updateDuplicatePublishFlag (header : Z) (set : bool) : status * Z :=
  if negb (Z.land header 240 =? PKT_PUBLISH) then (BadParameter, header)
  else (Success, if set then set_bit header 3 else clear_bit header 3).

(** core_mqtt_serializer.c:2651-2703 MQTT_ProcessIncomingPacketTypeAndLength: status
    and (type, remainingLength, headerLength) on success. *)
Definition processIncomingPacketTypeAndLength (buf : list Z) (index : Z)
  : R (status * option (Z * Z * Z)) :=
  if index <? 1 then Ok (NoDataAvailable, None)
  else
    let! type := rd buf 0 in
    if incomingPacketValid type then
      let! (st, r) := processRemainingLength buf index in
      Ok (st, match r with Some (rl, hl) => Some (type, rl, hl) | None => None end)
    else Ok (BadResponse, None).

(** core_mqtt.c:3589-3644 MQTT_GetSubAckStatusCodes: status and (offset of the
    codes in the packet data, number of codes). *)
Definition getSubAckStatusCodes (k : pktinfo) : status * option (Z * Z) :=
  if negb (k_type k =? PKT_SUBACK) then (BadParameter, None)
  else match k_data k with
       | None => (BadParameter, None)
       | Some _ => if k_rem k <? 3 then (BadParameter, None) else (Success, Some (2, k_rem k - 2))
       end.
