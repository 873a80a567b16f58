(** QoS values outside the enumeration in the entries of a subscription list.  An entry is
    a MQTTSubscribeInfo_t and the integer its qos field holds; the field of the record is
    not read. *)
From Verif Require Import Base StateModel SerModel CoreModel.

(** what the tests for "above MQTTQoS0" see (core_mqtt.c:1898) *)
Definition lowsub (x : subinfo * Z) : subinfo :=
  mkSub (if snd x =? 1 then Q1 else if snd x =? 0 then Q0 else Q2) (s_filter (fst x)) (s_len (fst x)).

Section Sub.
Variable G : cfg.

(** core_mqtt.c:2023-2024: the byte at &( pSubscriptionList[ i ].qos ), of an enumeration
    of four bytes *)
Definition z_qos_byte (q : Z) : Z := if g_big G then (q / 16777216) mod 256 else q mod 256.
(** core_mqtt.c:2009-2038: inner loop of sendSubscribeWithoutCopy *)
Fixpoint z_fill_sub (l : list (subinfo * Z)) (vs : list (list Z)) : R (list (list Z) * list (subinfo * Z)) :=
  match l with
  | [] => Ok (vs, [])
  | x :: l' =>
      if zlen vs <=? g_maxvec G - 3 then
        let! e := encodedString (s_filter (fst x)) (s_len (fst x)) in
        let vs := vs ++ e ++ [[z_qos_byte (snd x)]] in
        rassert (zlen vs <=? g_maxvec G) (z_fill_sub l' vs)
      else Ok (vs, l)
  end.
(** core_mqtt.c:2002-2053: outer loop *)
Fixpoint z_sub_send_loop (fuel : nat) (l : list (subinfo * Z)) (vs : list (list Z)) : Mo status :=
  match fuel with
  | O => stuck
  | S fuel' =>
      match l with
      | [] => ret Success
      | _ =>
          let* (vs, l) := lift (z_fill_sub l vs) in
          let* r := sendMessageVector G vs in
          if negb (r =? zlen (concat vs)) then ret SendFailed
          else z_sub_send_loop fuel' l []
      end
  end.
(** core_mqtt.c:1956-2056 sendSubscribeWithoutCopy *)
Definition z_sendSubscribeWithoutCopy (l : list (subinfo * Z)) (packetId remainingLength : Z) : Mo status :=
  massert (3 <=? g_maxvec G) ;;
  let* (h, n) := lift (serializeSubscribeHeader remainingLength (repeat 0 7, O) packetId) in
  z_sub_send_loop (S (S (length l))) l [firstn n h].
(** core_mqtt.c:3035-3086 MQTT_Subscribe *)
Definition z_subscribe (subs : option (list (subinfo * Z))) (count packetId : Z) : Mo status :=
  let* st := validateSubUnsub (option_map (map lowsub) subs) count packetId in
  if status_beq st Success then
    let* (st, size) := lift (getSubscribePacketSize (g_M G) (option_map (map lowsub) subs) count) in
    match st, size, subs with
    | Success, Some (remainingLength, _), Some l =>
        let* c := getc in
        let st := must_be_connected c in
        if status_beq st Success then
          let* _ := lift (sub_entries (map lowsub l) count) in
          z_sendSubscribeWithoutCopy (firstn (Z.to_nat count) l) packetId remainingLength
        else ret st
    | _, _, _ => ret st
    end
  else ret st.
End Sub.

(** core_mqtt_serializer.c:1953-1963: loop of MQTT_SerializeSubscribe *)
Fixpoint z_subscribe_loop (w : wbuf) (l : list (subinfo * Z)) : R wbuf :=
  match l with
  | [] => Ok w
  | x :: l' => let! w := encodeString w (s_filter (fst x)) (s_len (fst x)) in
               let! w := put w [u8 (snd x)] in
               z_subscribe_loop w l'
  end.
(** core_mqtt_serializer.c:1928-1970 MQTT_SerializeSubscribe *)
Definition z_serializeSubscribe (M : Z) (subs : option (list (subinfo * Z))) (count packetId remainingLength : Z)
    (buf : option (list Z)) : R (status * option (list Z)) :=
  match validateSubscriptionSerializeParams M (option_map (map lowsub) subs) count packetId remainingLength buf, subs, buf with
  | Success, Some l, Some b =>
      let! _ := sub_entries (map lowsub l) count in
      let! w := serializeSubscribeHeader remainingLength (b, O) packetId in
      let! w := z_subscribe_loop w (firstn (Z.to_nat count) l) in
      Ok (Success, Some (fst w))
  | st, _, _ => Ok (st, buf)
  end.
