(** The conversions of lengths to int32_t, which the other models leave out.  No
    proofs in this file.

    A conversion to int32_t of a value that does not fit is implementation-defined; it
    is taken as reduction modulo 2^32 (what gcc, clang, IAR and Arm compilers do).
    Signed overflow is [Undef] / [Ub].  The results of the transport are int32_t. *)
From Verif Require Import Base StateModel SerModel CoreModel.

Definition int32 (z : Z) : Z := (z + 2147483648) mod 4294967296 - 2147483648.

(** core_mqtt_state.c:514-577 addRecord with the count converted at 539; INT32_MIN - 1
    overflows.  The index never goes up, so the slots from there on are not seen. *)
Definition i_addRecord (records : list rec) (packetId : Z) (q : qos) (st : pstate) : R (status * list rec) :=
  rassert (negb (packetId =? 0) && negb (qos_beq q Q0))
    match length records with
    | O => Ub
    | S last =>
        let records := if negb (rid (nth last records empty_rec) =? 0)
                       then compactRecords records else records in
        let count := int32 (zlen records) in
        rassert (negb (count =? -2147483648))
        match add_scan records (Z.to_nat count) packetId None false with
        | (true, _) => Ok (StateCollision, records)
        | (false, None) => Ok (NoMemory, records)
        | (false, Some i) => Ok (Success, upd records i (mkRec packetId q st))
        end
    end.

Section Core.
Variable G : cfg.

(** core_mqtt.c:856-872 with the conversions at 857 and 859 *)
Fixpoint i_advance (vs : list (list Z)) (sendResult : Z) : option (list (list Z)) :=
  match vs with
  | [] => Some []
  | v :: r => if int32 (zlen v) <=? sendResult then
                if sendResult - int32 (zlen v) <=? 2147483647 then i_advance r (sendResult - int32 (zlen v)) else None
              else Some (if 0 <? sendResult then skipn (Z.to_nat sendResult) v :: r else vs)
  end.
(** core_mqtt.c:774-876 sendMessageVector; [bytesToSend] is ( int32_t ) bytesToSend
    (803, 822), where the sum of the lengths is a size_t *)
Fixpoint i_sendv_loop (fuel : nat) (vs : list (list Z)) (bytesToSend startTime sent : Z) : Mo Z :=
  match fuel with
  | O => stuck
  | S fuel' =>
      if (sent <? bytesToSend) && (0 <=? sent) then
        let* sendResult :=
          match vs with
          | [] => undef
          | v :: _ => tsend (if g_writev G then concat vs else v)
          end in
        let* sent :=
          (if 0 <? sendResult then
             massert (sendResult <=? bytesToSend - sent) ;;
             let* t := getTime in
             modc (fun c => set_lastTx c t) ;;
             ret (sent + sendResult)
           else if sendResult <? 0 then
             modc transport_broke ;; ret sendResult
           else ret sent) in
        let* now := getTime in
        if g_sendto G <? elapsed now startTime then ret sent
        else match i_advance vs sendResult with
             | Some vs => i_sendv_loop fuel' vs bytesToSend startTime sent
             | None => undef
             end
      else ret sent
  end.
Definition i_sendMessageVector (vs : list (list Z)) : Mo Z :=
  let* startTime := getTime in
  let* e := gete in
  i_sendv_loop (S (length (e_sends e))) vs (int32 (zlen (concat vs) mod g_M G)) startTime 0.

(** core_mqtt.c:878-941 sendBuffer with the conversions at 895 and 905.  The loop is
    the one of CoreModel: it has the number of bytes as a parameter. *)
Definition i_sendBuffer (bs : list Z) : Mo Z :=
  let* startTime := getTime in
  let* e := gete in
  sendb_loop G (S (length (e_sends e))) bs (int32 (zlen bs)) startTime 0.

(** core_mqtt.c:985-1067 recvExact: the sum at 1044 is an int32_t *)
Fixpoint i_recvExact_loop (fuel : nat) (off bytesRemaining total lastRecv : Z) : Mo Z :=
  match fuel with
  | O => stuck
  | S fuel' =>
      if 0 <? bytesRemaining then
        let* r := recv_into off bytesRemaining in
        if r <? 0 then modc transport_broke ;; ret r
        else if 0 <? r then
          let* now := getTime in
          massert (r <=? bytesRemaining) ;;
          massert (total + r <=? 2147483647) ;;
          i_recvExact_loop fuel' (off + r) (bytesRemaining - r) (total + r) now
        else
          let* now := getTime in
          if g_poll G <=? elapsed now lastRecv then ret total
          else i_recvExact_loop fuel' off bytesRemaining total lastRecv
      else ret total
  end.
Definition i_recvExact (bytesToRecv : Z) : Mo Z :=
  let* c := getc in
  massert (bytesToRecv <=? zlen (x_buf c)) ;;
  let* now := getTime in
  let* e := gete in
  i_recvExact_loop (S (length (e_recvs e))) 0 bytesToRecv 0 now.

(** core_mqtt.c:1071-1133 discardPacket, conversion at 1101 *)
Fixpoint i_discard_loop (fuel : nat) (bytesToReceive remainingLength total timeoutMs entryTime : Z) : Mo Z :=
  match fuel with
  | O => stuck
  | S fuel' =>
      if total <? remainingLength then
        let bytesToReceive := if remainingLength - total <? bytesToReceive
                              then remainingLength - total else bytesToReceive in
        let* r := i_recvExact bytesToReceive in
        if negb (r =? int32 bytesToReceive) then ret total
        else
          let total := u32 (total + r) in
          let* now := getTime in
          if timeoutMs <=? elapsed now entryTime then ret total
          else i_discard_loop fuel' bytesToReceive remainingLength total timeoutMs entryTime
      else ret total
  end.
Definition i_discardPacket (remainingLength timeoutMs : Z) : Mo status :=
  let* c := getc in
  let* entryTime := getTime in
  let* e := gete in
  let* total := i_discard_loop (S (length (e_times e))) (zlen (x_buf c)) remainingLength 0 timeoutMs entryTime in
  ret (if total =? remainingLength then NoDataAvailable else RecvFailed).

(** core_mqtt.c:1137-1203 discardStoredPacket, conversion at 1172 *)
Fixpoint i_discardStored_loop (fuel : nat) (bytesToReceive remainingLength total : Z) : Mo Z :=
  match fuel with
  | O => stuck
  | S fuel' =>
      if total <? remainingLength then
        let bytesToReceive := if remainingLength - total <? bytesToReceive
                              then remainingLength - total else bytesToReceive in
        let* r := i_recvExact bytesToReceive in
        if negb (r =? int32 bytesToReceive) then ret total
        else i_discardStored_loop fuel' bytesToReceive remainingLength (u32 (total + r))
      else ret total
  end.
Definition i_discardStoredPacket (type rem hdr : Z) : Mo status :=
  emit (EDrop type rem) ;;
  let* c := getc in
  let mqttPacketSize := rem + hdr in
  massert (zlen (x_buf c) <? mqttPacketSize) ;;
  let remainingLength := (mqttPacketSize - x_index c) mod g_M G in
  let* e := gete in
  let* total := i_discardStored_loop (S (length (e_times e))) (zlen (x_buf c)) remainingLength 0 in
  modc (fun c => set_index (set_buf c (repeat 0 (length (x_buf c)))) 0) ;;
  ret (if total =? remainingLength then NoDataAvailable else RecvFailed).

(** core_mqtt.c:1207-1251 receivePacket, conversion at 1234 *)
Definition i_receivePacket (rem remainingTimeMs : Z) : Mo status :=
  let* c := getc in
  if zlen (x_buf c) <? rem then i_discardPacket rem remainingTimeMs
  else let* r := i_recvExact rem in
       ret (if r =? int32 rem then Success else RecvFailed).

(** core_mqtt.c:2558-2580: the PUBLISH loop of handleUncleanSessionResumption,
    conversion at 2572 *)
Fixpoint i_publish_loop (fuel : nat) (cursor : nat) : Mo status :=
  match fuel with
  | O => stuck
  | S fuel' =>
      let* c := getc in
      let '(packetId, cursor) := publishToResend (x_recs c) cursor in
      if packetId =? 0 then ret Success
      else
        let* r := retrieve_publish packetId in
        match r with
        | None => ret PublishRetrieveFailed
        | Some bs =>
            let* n := i_sendBuffer bs in
            if negb (n =? int32 (zlen bs)) then ret SendFailed else i_publish_loop fuel' cursor
        end
  end.
(** core_mqtt.c:2528-2584 handleUncleanSessionResumption *)
Definition i_handleUncleanSessionResumption : Mo status :=
  let* c := getc in
  let n := length (arr (outRecs (x_recs c))) in
  let '(packetId, cursor) := pubrelToResend (x_recs c) 0 in
  let* st := pubrel_loop G (S (S n)) packetId cursor in
  if status_beq st Success && x_retr c then i_publish_loop (S (S n)) 0 else ret st.

(** core_mqtt.c:2908-3031 MQTT_Connect.  The other lengths converted in it are those of
    the CONNECT packet and of the CONNACK. *)
Definition i_connect (ci : coninfo) (will : option pubinfo) (timeoutMs : Z) : Mo (status * option bool) :=
  let '(st, size) := getConnectPacketSize ci will in
  let* (st, sp) :=
    match st, size with
    | Success, Some (remainingLength, _) =>
        let* c := getc in
        let st := match x_status c with
                  | NotConnected => Success | Connected => StConnected
                  | DisconnectPending => StDisconnectPending end in
        let* st := (if status_beq st Success then sendConnectWithoutCopy G ci will remainingLength
                    else ret st) in
        let* (st, sp) := (if status_beq st Success then receiveConnack G timeoutMs (c_clean ci)
                          else ret (st, None)) in
        let* st := (if status_beq st Success && match sp with Some true => false | _ => true end
                    then handleCleanSession else ret st) in
        (if status_beq st Success
         then modc (fun c => set_keep (set_status c Connected) (c_keepalive ci) 0 false)
         else ret tt) ;;
        ret (st, sp)
    | _, _ => ret (st, None)
    end in
  let* st := (if status_beq st Success && match sp with Some true => true | _ => false end
              then i_handleUncleanSessionResumption else ret st) in
  (if status_beq st Success || status_beq st StConnected || status_beq st StDisconnectPending
   then ret tt
   else modc transport_broke) ;;
  ret (st, sp).
End Core.
