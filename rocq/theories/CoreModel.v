(** Model of source/core_mqtt.c: transport loops, packet handling, API calls.

    Conventions.
    - A computation is a function from the client state to [Ret] (result, state,
      events), [Undef] (failed assert or access outside an array) or [Stuck] (the
      script of the environment is used up).
    - The environment (transport, clock, application callbacks) is an arbitrary
      script of answers (record [env]).  A theorem for all scripts is a theorem for
      all environments, including those that react to what the client does, because
      any finite run consumes finitely many answers.
    - The transport contract (transport_interface.h:169-231: a result is an error or
      at most the number of bytes asked for) holds by construction: answers are cut
      to the number of bytes asked for.
    - pContext and the other struct pointers are not NULL; the NULL checks of the
      API functions are left out.  Logging is left out.
    - MQTT_PRE/POST_STATE_UPDATE_HOOK (locks) are left out: one thread. *)
From Verif Require Import Base StateModel SerModel.

(** ** Configuration: core_mqtt_config_defaults.h:70-192 and platform *)
Record cfg : Type := mkCfg {
  g_M : Z;        (* modulus of size_t *)
  g_big : bool;   (* big-endian machine storing enums in more than one byte *)
  g_writev : bool; (* transportInterface.writev is not NULL *)
  g_maxvec : Z;   (* MQTT_SUB_UNSUB_MAX_VECTORS *)
  g_retry : Z;    (* MQTT_MAX_CONNACK_RECEIVE_RETRY_COUNT *)
  g_pingto : Z;   (* MQTT_PINGRESP_TIMEOUT_MS *)
  g_tx : Z;       (* PACKET_TX_TIMEOUT_MS *)
  g_rx : Z;       (* PACKET_RX_TIMEOUT_MS *)
  g_poll : Z;     (* MQTT_RECV_POLLING_TIMEOUT_MS *)
  g_sendto : Z;   (* MQTT_SEND_TIMEOUT_MS *)
  g_nest : bool }. (* the mutex of the hooks core_mqtt.c:54-69 is recursive: see ConcModel.v *)

(** MQTTConnectionStatus_t: core_mqtt.h:165-170 *)
Inductive cstatus : Type := NotConnected | DisconnectPending | Connected.
Scheme Equality for cstatus.

(** MQTTContext_t: core_mqtt.h:230-322.  The network buffer is its contents (one
    element per byte); the three retransmission callbacks are set together by
    MQTT_InitRetransmits (core_mqtt.c:2795-2831), hence one flag. *)
Record context : Type := mkCtx {
  x_recs : recs;       (* outgoing/incomingPublishRecords *)
  x_buf : list Z;      (* networkBuffer *)
  x_index : Z;         (* index *)
  x_nextId : Z;        (* nextPacketId *)
  x_status : cstatus;  (* connectStatus *)
  x_lastTx : Z;        (* lastPacketTxTime *)
  x_lastRx : Z;        (* lastPacketRxTime *)
  x_ctl : bool;        (* controlPacketSent *)
  x_keep : Z;          (* keepAliveIntervalSec *)
  x_pingTime : Z;      (* pingReqSendTimeMs *)
  x_waiting : bool;    (* waitingForPingResp *)
  x_retr : bool }.     (* store/retrieve/clearFunction not NULL *)

Definition set_recs (c : context) v := mkCtx v (x_buf c) (x_index c) (x_nextId c) (x_status c)
  (x_lastTx c) (x_lastRx c) (x_ctl c) (x_keep c) (x_pingTime c) (x_waiting c) (x_retr c).
Definition set_buf (c : context) v := mkCtx (x_recs c) v (x_index c) (x_nextId c) (x_status c)
  (x_lastTx c) (x_lastRx c) (x_ctl c) (x_keep c) (x_pingTime c) (x_waiting c) (x_retr c).
Definition set_index (c : context) v := mkCtx (x_recs c) (x_buf c) v (x_nextId c) (x_status c)
  (x_lastTx c) (x_lastRx c) (x_ctl c) (x_keep c) (x_pingTime c) (x_waiting c) (x_retr c).
Definition set_nextId (c : context) v := mkCtx (x_recs c) (x_buf c) (x_index c) v (x_status c)
  (x_lastTx c) (x_lastRx c) (x_ctl c) (x_keep c) (x_pingTime c) (x_waiting c) (x_retr c).
Definition set_status (c : context) v := mkCtx (x_recs c) (x_buf c) (x_index c) (x_nextId c) v
  (x_lastTx c) (x_lastRx c) (x_ctl c) (x_keep c) (x_pingTime c) (x_waiting c) (x_retr c).
Definition set_lastTx (c : context) v := mkCtx (x_recs c) (x_buf c) (x_index c) (x_nextId c) (x_status c)
  v (x_lastRx c) (x_ctl c) (x_keep c) (x_pingTime c) (x_waiting c) (x_retr c).
Definition set_lastRx (c : context) v := mkCtx (x_recs c) (x_buf c) (x_index c) (x_nextId c) (x_status c)
  (x_lastTx c) v (x_ctl c) (x_keep c) (x_pingTime c) (x_waiting c) (x_retr c).
Definition set_ctl (c : context) v := mkCtx (x_recs c) (x_buf c) (x_index c) (x_nextId c) (x_status c)
  (x_lastTx c) (x_lastRx c) v (x_keep c) (x_pingTime c) (x_waiting c) (x_retr c).
Definition set_keep (c : context) k p w := mkCtx (x_recs c) (x_buf c) (x_index c) (x_nextId c) (x_status c)
  (x_lastTx c) (x_lastRx c) (x_ctl c) k p w (x_retr c).

(** ** API calls the application may make from inside its callback *)
Inductive op : Type :=
| OPublish (p : pubinfo) (id : Z)
| OSubscribe (subs : option (list subinfo)) (count id : Z)
| OUnsubscribe (subs : option (list subinfo)) (count id : Z)
| OPing
| ODisconnect
| OGetId
| OCancel (id : Z)
| OCheck.

(** ** The environment's script *)
Record env : Type := mkEnv {
  e_in : list Z;               (* every byte the server will ever send on this transport *)
  e_recvs : list Z;            (* answers of recv: negative is an error, n means up to n bytes are there *)
  e_sends : list Z;            (* answers of send/writev: negative is an error, n means up to n bytes are taken *)
  e_times : list Z;            (* answers of getTime *)
  e_cbs : list (list op);      (* what the application does in successive event callbacks (then nothing) *)
  e_stores : list bool;        (* answers of storeFunction (then true) *)
  e_retrs : list (option (list Z)) }. (* answers of retrieveFunction (then failure) *)

(** ** Events *)
Inductive ev : Type :=
| EOut (bs : list Z)           (* the transport took these bytes *)
| EOutErr                      (* the transport reported a send error *)
| EIn (bs : list Z)            (* the transport delivered these bytes *)
| EInErr                       (* the transport reported a receive error *)
| EPkt (type : Z) (data : list Z)  (* not a C call: a complete packet starts being handled *)
| EDrop (type rem : Z)         (* not a C call: a packet larger than the buffer starts being dropped *)
| ECb (type : Z) (data : list Z) (id : Z) (pub : option dpub) (result : status) (* appCallback *)
| EStore (id : Z) (vec : list (list Z)) (ok : bool)  (* storeFunction *)
| ERetrieve (id : Z) (r : option (list Z))           (* retrieveFunction *)
| EClear (id : Z)                                    (* clearFunction *)
| EId (id : Z).                                      (* MQTT_GetPacketId returned id *)

Record st : Type := mkSt { s_ctx : context; s_env : env }.

Inductive res (A : Type) : Type := Ret (a : A) (s : st) (t : list ev) | Undef | Stuck.
Arguments Ret {A} a s t. Arguments Undef {A}. Arguments Stuck {A}.
Definition Mo (A : Type) : Type := st -> res A.

Definition ret {A} (a : A) : Mo A := fun s => Ret a s [].
Definition bind {A B} (m : Mo A) (f : A -> Mo B) : Mo B := fun s =>
  match m s with
  | Ret a s1 t1 => match f a s1 with
                   | Ret b s2 t2 => Ret b s2 (t1 ++ t2)
                   | Undef => Undef
                   | Stuck => Stuck
                   end
  | Undef => Undef
  | Stuck => Stuck
  end.
Notation "'let*' x ':=' m 'in' k" := (bind m (fun x => k))
  (at level 200, x pattern, m at level 100, k at level 200).
Notation "m ;; k" := (bind m (fun _ => k)) (at level 190, right associativity).

Definition undef {A} : Mo A := fun _ => Undef.
Definition stuck {A} : Mo A := fun _ => Stuck.
Definition lift {A} (r : R A) : Mo A := fun s => match r with Ok a => Ret a s [] | Ub => Undef end.
Definition massert (b : bool) : Mo unit := if b then ret tt else undef.
Definition getc : Mo context := fun s => Ret (s_ctx s) s [].
Definition gete : Mo env := fun s => Ret (s_env s) s [].
Definition modc (f : context -> context) : Mo unit := fun s => Ret tt (mkSt (f (s_ctx s)) (s_env s)) [].
Definition emit (e : ev) : Mo unit := fun s => Ret tt s [e].
(** run a state-engine function on the record arrays *)
Definition on_recs {A} (f : recs -> R (A * recs)) : Mo A := fun s =>
  match f (x_recs (s_ctx s)) with
  | Ok (a, r) => Ret a (mkSt (set_recs (s_ctx s) r) (s_env s)) []
  | Ub => Undef
  end.

(** Environment with one field changed *)
Definition env_times (e : env) v := mkEnv (e_in e) (e_recvs e) (e_sends e) v (e_cbs e) (e_stores e) (e_retrs e).
Definition env_sends (e : env) v := mkEnv (e_in e) (e_recvs e) v (e_times e) (e_cbs e) (e_stores e) (e_retrs e).
Definition env_recv (e : env) i v := mkEnv i v (e_sends e) (e_times e) (e_cbs e) (e_stores e) (e_retrs e).
Definition env_cbs (e : env) v := mkEnv (e_in e) (e_recvs e) (e_sends e) (e_times e) v (e_stores e) (e_retrs e).
Definition env_stores (e : env) v := mkEnv (e_in e) (e_recvs e) (e_sends e) (e_times e) (e_cbs e) v (e_retrs e).
Definition env_retrs (e : env) v := mkEnv (e_in e) (e_recvs e) (e_sends e) (e_times e) (e_cbs e) (e_stores e) v.

(** pContext->getTime() : a uint32_t *)
Definition getTime : Mo Z := fun s =>
  match e_times (s_env s) with
  | [] => Stuck
  | t :: r => Ret (u32 t) (mkSt (s_ctx s) (env_times (s_env s) r)) []
  end.
(** transportInterface.send( offered ) / writev with the same bytes on offer *)
Definition tsend (offered : list Z) : Mo Z := fun s =>
  match e_sends (s_env s) with
  | [] => Stuck
  | n :: r =>
      let s' := mkSt (s_ctx s) (env_sends (s_env s) r) in
      if n <? 0 then Ret n s' [EOutErr]
      else let k := Z.min n (zlen offered) in Ret k s' [EOut (firstn (Z.to_nat k) offered)]
  end.
(** transportInterface.recv: the bytes delivered, or the error code *)
Definition trecv (n : Z) : Mo (Z * list Z) := fun s =>
  match e_recvs (s_env s) with
  | [] => Stuck
  | a :: r =>
      if a <? 0 then Ret (a, []) (mkSt (s_ctx s) (env_recv (s_env s) (e_in (s_env s)) r)) [EInErr]
      else let k := Z.to_nat (Z.min a n) in
           let bs := firstn k (e_in (s_env s)) in
           Ret (zlen bs, bs) (mkSt (s_ctx s) (env_recv (s_env s) (skipn k (e_in (s_env s))) r)) [EIn bs]
  end.
(** recv into pBuffer[off .. off+n): the whole range must lie inside the buffer *)
Definition store_at (buf : list Z) (off : Z) (bs : list Z) : list Z :=
  firstn (Z.to_nat off) buf ++ bs ++ skipn (Z.to_nat off + length bs) buf.
Definition recv_into (off n : Z) : Mo Z :=
  let* c := getc in
  massert ((0 <=? off) && (0 <=? n) && (off + n <=? zlen (x_buf c))) ;;
  let* (r, bs) := trecv n in
  modc (fun c => set_buf c (store_at (x_buf c) off bs)) ;;
  ret r.

(** core_mqtt.c:945-949 calculateElapsedTime *)
Definition elapsed (later start : Z) : Z := u32 (later - start).

(** Connected -> DisconnectPending after a transport error: core_mqtt.c:838-841,
    922-925, 1024-1027, 1740-1743, 3016-3025 *)
Definition transport_broke (c : context) : context :=
  if cstatus_beq (x_status c) Connected then set_status c DisconnectPending else c.

Section Core.
Variable G : cfg.

(** ** Sending *)

(** core_mqtt.c:856-872: move past the vectors that were sent completely, then cut
    the part of the next one that was sent. *)
Fixpoint advance (vs : list (list Z)) (sendResult : Z) : list (list Z) :=
  match vs with
  | [] => []
  | v :: r => if zlen v <=? sendResult then advance r (sendResult - zlen v)
              else if 0 <? sendResult then skipn (Z.to_nat sendResult) v :: r else vs
  end.

(** core_mqtt.c:774-876 sendMessageVector.  [vs] are the vectors not completely
    sent; sizes are below 2^31, the int32_t casts are not modelled.  An empty
    vector array on offer is Undef (the code would read past its end). *)
Fixpoint sendv_loop (fuel : nat) (vs : list (list Z)) (bytesToSend startTime sent : Z) : Mo Z :=
  match fuel with
  | O => stuck
  | S fuel' =>
      if (sent <? bytesToSend) && (0 <=? sent) then
        let* sendResult :=
          match vs with
          | [] => undef
          | v :: _ => tsend (if g_writev G then concat vs else v)
          end in
        let* sent :=
          (if 0 <? sendResult then
             massert (sendResult <=? bytesToSend - sent) ;;
             let* t := getTime in
             modc (fun c => set_lastTx c t) ;;
             ret (sent + sendResult)
           else if sendResult <? 0 then
             modc transport_broke ;; ret sendResult
           else ret sent) in
        let* now := getTime in
        if g_sendto G <? elapsed now startTime then ret sent
        else sendv_loop fuel' (advance vs sendResult) bytesToSend startTime sent
      else ret sent
  end.
Definition sendMessageVector (vs : list (list Z)) : Mo Z :=
  let* startTime := getTime in
  let* e := gete in
  sendv_loop (S (length (e_sends e))) vs (zlen (concat vs)) startTime 0.

(** core_mqtt.c:878-941 sendBuffer *)
Fixpoint sendb_loop (fuel : nat) (rest : list Z) (bytesToSend startTime sent : Z) : Mo Z :=
  match fuel with
  | O => stuck
  | S fuel' =>
      if (sent <? bytesToSend) && (0 <=? sent) then
        let* sendResult := tsend rest in
        let* sent :=
          (if 0 <? sendResult then
             massert (sendResult <=? bytesToSend - sent) ;;
             let* t := getTime in
             modc (fun c => set_lastTx c t) ;;
             ret (sent + sendResult)
           else if sendResult <? 0 then
             modc transport_broke ;; ret sendResult
           else ret sent) in
        let* now := getTime in
        if g_sendto G <=? elapsed now startTime then ret sent
        else sendb_loop fuel' (skipn (Z.to_nat sendResult) rest) bytesToSend startTime sent
      else ret sent
  end.
Definition sendBuffer (bs : list Z) : Mo Z :=
  let* startTime := getTime in
  let* e := gete in
  sendb_loop (S (length (e_sends e))) bs (zlen bs) startTime 0.

(** ** Receiving *)

(** core_mqtt.c:985-1067 recvExact *)
Fixpoint recvExact_loop (fuel : nat) (off bytesRemaining total lastRecv : Z) : Mo Z :=
  match fuel with
  | O => stuck
  | S fuel' =>
      if 0 <? bytesRemaining then
        let* r := recv_into off bytesRemaining in
        if r <? 0 then modc transport_broke ;; ret r
        else if 0 <? r then
          let* now := getTime in
          massert (r <=? bytesRemaining) ;;
          recvExact_loop fuel' (off + r) (bytesRemaining - r) (total + r) now
        else
          let* now := getTime in
          if g_poll G <=? elapsed now lastRecv then ret total
          else recvExact_loop fuel' off bytesRemaining total lastRecv
      else ret total
  end.
Definition recvExact (bytesToRecv : Z) : Mo Z :=
  let* c := getc in
  massert (bytesToRecv <=? zlen (x_buf c)) ;;
  let* now := getTime in
  let* e := gete in
  recvExact_loop (S (length (e_recvs e))) 0 bytesToRecv 0 now.

(** core_mqtt.c:1071-1133 discardPacket; totalBytesReceived is a uint32_t *)
Fixpoint discard_loop (fuel : nat) (bytesToReceive remainingLength total timeoutMs entryTime : Z) : Mo Z :=
  match fuel with
  | O => stuck
  | S fuel' =>
      if total <? remainingLength then
        let bytesToReceive := if remainingLength - total <? bytesToReceive
                              then remainingLength - total else bytesToReceive in
        let* r := recvExact bytesToReceive in
        if negb (r =? bytesToReceive) then ret total
        else
          let total := u32 (total + r) in
          let* now := getTime in
          if timeoutMs <=? elapsed now entryTime then ret total
          else discard_loop fuel' bytesToReceive remainingLength total timeoutMs entryTime
      else ret total
  end.
Definition discardPacket (remainingLength timeoutMs : Z) : Mo status :=
  let* c := getc in
  let* entryTime := getTime in
  let* e := gete in
  let* total := discard_loop (S (length (e_times e))) (zlen (x_buf c)) remainingLength 0 timeoutMs entryTime in
  ret (if total =? remainingLength then NoDataAvailable else RecvFailed).

(** core_mqtt.c:1137-1203 discardStoredPacket.  With a buffer of size 0 the loop of
    the C code would spin without reading; the model runs out of fuel. *)
Fixpoint discardStored_loop (fuel : nat) (bytesToReceive remainingLength total : Z) : Mo Z :=
  match fuel with
  | O => stuck
  | S fuel' =>
      if total <? remainingLength then
        let bytesToReceive := if remainingLength - total <? bytesToReceive
                              then remainingLength - total else bytesToReceive in
        let* r := recvExact bytesToReceive in
        if negb (r =? bytesToReceive) then ret total
        else discardStored_loop fuel' bytesToReceive remainingLength (u32 (total + r))
      else ret total
  end.
Definition discardStoredPacket (type rem hdr : Z) : Mo status :=
  emit (EDrop type rem) ;;
  let* c := getc in
  let mqttPacketSize := rem + hdr in
  massert (zlen (x_buf c) <? mqttPacketSize) ;;
  let remainingLength := (mqttPacketSize - x_index c) mod g_M G in
  let* e := gete in
  let* total := discardStored_loop (S (length (e_times e))) (zlen (x_buf c)) remainingLength 0 in
  modc (fun c => set_index (set_buf c (repeat 0 (length (x_buf c)))) 0) ;;
  ret (if total =? remainingLength then NoDataAvailable else RecvFailed).

(** core_mqtt.c:1207-1251 receivePacket *)
Definition receivePacket (rem remainingTimeMs : Z) : Mo status :=
  let* c := getc in
  if zlen (x_buf c) <? rem then discardPacket rem remainingTimeMs
  else let* r := recvExact rem in
       ret (if r =? rem then Success else RecvFailed).

(** ** Acknowledgements *)

(** core_mqtt.c:1255-1283 getAckTypeToSend and 953-981 getAckFromPacketType: the
    packet type byte and the ack type it stands for (None: byte 0, nothing to send) *)
Definition ackToSend (s : pstate) : option (Z * acktype) :=
  match s with
  | PubAckSend => Some (PKT_PUBACK, Puback)
  | PubRecSend => Some (PKT_PUBREC, Pubrec)
  | PubRelSend => Some (PKT_PUBREL, Pubrel)
  | PubCompSend => Some (PKT_PUBCOMP, Pubcomp)
  | _ => None
  end.
(** core_mqtt.c:953-981 getAckFromPacketType *)
Definition getAckFromPacketType (t : Z) : R acktype :=
  if t =? PKT_PUBACK then Ok Puback
  else if t =? PKT_PUBREC then Ok Pubrec
  else if t =? PKT_PUBREL then Ok Pubrel
  else rassert (t =? PKT_PUBCOMP) (Ok Pubcomp).

(** The check before every send: core_mqtt.c:1319-1324, 3065-3070, 3138-3143,
    3260-3265, 3331-3336 *)
Definition must_be_connected (c : context) : status :=
  match x_status c with
  | Connected => Success
  | NotConnected => StNotConnected
  | DisconnectPending => StDisconnectPending
  end.

(** core_mqtt.c:1287-1373 sendPublishAcks *)
Definition sendPublishAcks (packetId : Z) (publishState : pstate) : Mo status :=
  match ackToSend publishState with
  | None => ret Success
  | Some (typeByte, packetType) =>
      let* (st, buf) := lift (serializeAck (Some (repeat 0 4)) typeByte packetId) in
      let* st :=
        (if status_beq st Success then
           let* c := getc in
           let st := must_be_connected c in
           if status_beq st Success then
             let* r := sendBuffer (match buf with Some b => b | None => [] end) in
             ret (if r <? 4 then SendFailed else Success)
           else ret st
         else ret st) in
      if status_beq st Success then
        modc (fun c => set_ctl c true) ;;
        let* (st, _) := on_recs (fun r => updateStateAckApi r packetId packetType OpSend) in
        ret st
      else ret st
  end.

(** ** Sending API packets *)

(** The bytes of a vector (iov_base, iov_len); a block shorter than iov_len or a NULL
    base with bytes to read is Undef (the model reads them when the vector is built). *)
Definition block (src : option (list Z)) (len : Z) : R (list Z) :=
  match src with
  | Some m => if len <=? zlen m then Ok (firstn (Z.to_nat len) m) else Ub
  | None => if len =? 0 then Ok [] else Ub
  end.

(** core_mqtt.c:1916-1952 addEncodedStringToVector: the vectors added *)
Definition encodedString (src : option (list Z)) (len : Z) : R (list (list Z)) :=
  rassert (if negb (len =? 0) then match src with Some _ => true | None => false end else true) (
  let l := [hi8 len; lo8 len] in
  match src with
  | Some _ => if negb (len =? 0) then let! b := block src len in Ok [l; b] else Ok [l]
  | None => Ok [l]
  end).

(** core_mqtt.c:2023-2024: the byte at &( pSubscriptionList[ i ].qos ) *)
Definition qos_byte (q : qos) : Z := if g_big G then 0 else qos_val q.

(** core_mqtt.c:2009-2038: inner loop of sendSubscribeWithoutCopy: fill the vector
    array; result: vectors, subscriptions not yet added.  Writing past the array of
    MQTT_SUB_UNSUB_MAX_VECTORS is Ub. *)
Fixpoint fill_sub (l : list subinfo) (vs : list (list Z)) : R (list (list Z) * list subinfo) :=
  match l with
  | [] => Ok (vs, [])
  | x :: l' =>
      if zlen vs <=? g_maxvec G - 3 then
        let! e := encodedString (s_filter x) (s_len x) in
        let vs := vs ++ e ++ [[qos_byte (s_qos x)]] in
        rassert (zlen vs <=? g_maxvec G) (fill_sub l' vs)
      else Ok (vs, l)
  end.
(** core_mqtt.c:2002-2053: outer loop *)
Fixpoint sub_send_loop (fuel : nat) (l : list subinfo) (vs : list (list Z)) : Mo status :=
  match fuel with
  | O => stuck
  | S fuel' =>
      match l with
      | [] => ret Success
      | _ =>
          let* (vs, l) := lift (fill_sub l vs) in
          let* r := sendMessageVector vs in
          if negb (r =? zlen (concat vs)) then ret SendFailed
          else sub_send_loop fuel' l []
      end
  end.
(** core_mqtt.c:1956-2056 sendSubscribeWithoutCopy *)
Definition sendSubscribeWithoutCopy (l : list subinfo) (packetId remainingLength : Z) : Mo status :=
  massert (3 <=? g_maxvec G) ;;
  let* (h, n) := lift (serializeSubscribeHeader remainingLength (repeat 0 7, O) packetId) in
  sub_send_loop (S (S (length l))) l [firstn n h].

(** core_mqtt.c:2112-2131: inner loop of sendUnsubscribeWithoutCopy *)
Fixpoint fill_unsub (l : list subinfo) (vs : list (list Z)) : R (list (list Z) * list subinfo) :=
  match l with
  | [] => Ok (vs, [])
  | x :: l' =>
      if zlen vs <=? g_maxvec G - 2 then
        let! e := encodedString (s_filter x) (s_len x) in
        let vs := vs ++ e in
        rassert (zlen vs <=? g_maxvec G) (fill_unsub l' vs)
      else Ok (vs, l)
  end.
(** core_mqtt.c:2106-2144: outer loop *)
Fixpoint unsub_send_loop (fuel : nat) (l : list subinfo) (vs : list (list Z)) : Mo status :=
  match fuel with
  | O => stuck
  | S fuel' =>
      match l with
      | [] => ret Success
      | _ =>
          let* (vs, l) := lift (fill_unsub l vs) in
          let* r := sendMessageVector vs in
          if negb (r =? zlen (concat vs)) then ret SendFailed
          else unsub_send_loop fuel' l []
      end
  end.
(** core_mqtt.c:2060-2147 sendUnsubscribeWithoutCopy *)
Definition sendUnsubscribeWithoutCopy (l : list subinfo) (packetId remainingLength : Z) : Mo status :=
  massert (2 <=? g_maxvec G) ;;
  let* (h, n) := lift (serializeUnsubscribeHeader remainingLength (repeat 0 7, O) packetId) in
  unsub_send_loop (S (S (length l))) l [firstn n h].

(** core_mqtt.c:2151-2253 sendPublishWithoutCopy.  [header] is the array
    mqttHeader[7] of the caller. *)
Definition pub_vectors (p : pubinfo) (header : list Z) (headerSize packetId : Z) : R (list (list Z)) :=
  let! h := block (Some header) headerSize in
  let! t := block (p_topic p) (p_topiclen p) in
  let! y := (if 0 <? p_paylen p then let! y := block (p_payload p) (p_paylen p) in Ok [y] else Ok []) in
  Ok ([h; t] ++ match p_qos p with Q0 => [] | _ => [[hi8 packetId; lo8 packetId]] end ++ y).
Definition set_first (l : list Z) (b : Z) : list Z := match l with [] => [] | _ :: t => b :: t end.
Definition store_publish (id : Z) (vs : list (list Z)) : Mo bool := fun s =>
  let ok := match e_stores (s_env s) with [] => true | b :: _ => b end in
  Ret ok (mkSt (s_ctx s) (env_stores (s_env s) (tl (e_stores (s_env s))))) [EStore id vs ok].
Definition sendPublishWithoutCopy (p : pubinfo) (header : list Z) (headerSize packetId : Z) : Mo status :=
  let* c := getc in
  let* (st, header) :=
    (if negb (qos_beq (p_qos p) Q0) && x_retr c then
       let '(st, b, changed) :=
         if negb (p_dup p)
         then let '(st, b) := updateDuplicatePublishFlag (nth 0 header 0) true in
              (st, b, status_beq st Success)
         else (Success, nth 0 header 0, false) in
       let header := set_first header b in
       let* st :=
         (if status_beq st Success then
            let* vs := lift (pub_vectors p header headerSize packetId) in
            let* ok := store_publish packetId vs in
            ret (if ok then Success else PublishStoreFailed)
          else ret st) in
       if status_beq st Success && changed
       then let '(st, b) := updateDuplicatePublishFlag (nth 0 header 0) false in
            ret (st, set_first header b)
       else ret (st, header)
     else ret (Success, header)) in
  if status_beq st Success then
    let* vs := lift (pub_vectors p header headerSize packetId) in
    let* r := sendMessageVector vs in
    ret (if negb (r =? zlen (concat vs)) then SendFailed else Success)
  else ret st.

(** core_mqtt.c:2257-2400 sendConnectWithoutCopy *)
Definition connect_vectors (c : coninfo) (will : option pubinfo) (remainingLength : Z) : R (list (list Z)) :=
  let! (h, n) := serializeConnectFixedHeader (repeat 0 15, O) c will remainingLength in
  let! i := encodedString (c_id c) (c_idlen c) in
  let! w := match will with
            | None => Ok []
            | Some wl => let! t := encodedString (p_topic wl) (p_topiclen wl) in
                         let! y := encodedString (p_payload wl) (u16 (p_paylen wl)) in
                         Ok (t ++ y)
            end in
  let! u := match c_user c with None => Ok [] | Some _ => encodedString (c_user c) (c_userlen c) end in
  let! q := match c_pass c with None => Ok [] | Some _ => encodedString (c_pass c) (c_passlen c) end in
  Ok ([firstn n h] ++ i ++ w ++ u ++ q).
Definition sendConnectWithoutCopy (c : coninfo) (will : option pubinfo) (remainingLength : Z) : Mo status :=
  if match will with Some wl => match p_topic wl with None => true | _ => false end | None => false end
  then ret BadParameter
  else
    let* vs := lift (connect_vectors c will remainingLength) in
    let* r := sendMessageVector vs in
    ret (if negb (r =? zlen (concat vs)) then SendFailed else Success).

(** ** API functions that never call the application's event callback *)

(** core_mqtt.c:1865-1912 validateSubscribeUnsubscribeParams *)
Definition validateSubUnsub (subs : option (list subinfo)) (count packetId : Z) : Mo status :=
  match subs with
  | None => ret BadParameter
  | Some l =>
      if count =? 0 then ret BadParameter
      else if packetId =? 0 then ret BadParameter
      else
        let* c := getc in
        match inRecs (x_recs c) with
        | Some _ => ret Success
        | None => let* l := lift (sub_entries l count) in
                  ret (if existsb (fun x => negb (qos_beq (s_qos x) Q0)) l then BadParameter else Success)
        end
  end.

(** core_mqtt.c:3035-3086 MQTT_Subscribe *)
Definition subscribe (subs : option (list subinfo)) (count packetId : Z) : Mo status :=
  let* st := validateSubUnsub subs count packetId in
  if status_beq st Success then
    let* (st, size) := lift (getSubscribePacketSize (g_M G) subs count) in
    match st, size, subs with
    | Success, Some (remainingLength, _), Some l =>
        let* c := getc in
        let st := must_be_connected c in
        if status_beq st Success then
          let* l := lift (sub_entries l count) in
          sendSubscribeWithoutCopy l packetId remainingLength
        else ret st
    | _, _, _ => ret st
    end
  else ret st.

(** core_mqtt.c:3300-3351 MQTT_Unsubscribe *)
Definition unsubscribe (subs : option (list subinfo)) (count packetId : Z) : Mo status :=
  let* st := validateSubUnsub subs count packetId in
  if status_beq st Success then
    let* (st, size) := lift (getUnsubscribePacketSize (g_M G) subs count) in
    match st, size, subs with
    | Success, Some (remainingLength, _), Some l =>
        let* c := getc in
        let st := must_be_connected c in
        if status_beq st Success then
          let* l := lift (sub_entries l count) in
          sendUnsubscribeWithoutCopy l packetId remainingLength
        else ret st
    | _, _, _ => ret st
    end
  else ret st.

(** core_mqtt.c:2633-2675 validatePublishParams *)
Definition validatePublishParams (c : context) (p : pubinfo) (packetId : Z) : status :=
  if negb (qos_beq (p_qos p) Q0) && (packetId =? 0) then BadParameter
  else if (0 <? p_paylen p) && match p_payload p with None => true | _ => false end then BadParameter
  else if match outRecs (x_recs c) with None => true | _ => false end && negb (qos_beq (p_qos p) Q0)
       then BadParameter
       else Success.

(** core_mqtt.c:3090-3207 MQTT_Publish *)
Definition publish (p : pubinfo) (packetId : Z) : Mo status :=
  let* c := getc in
  let st := validatePublishParams c p packetId in
  if status_beq st Success then
    match getPublishPacketSize p with
    | (Success, Some (remainingLength, _)) =>
        let* (header, headerSize) :=
          lift (serializePublishHeaderWithoutTopic p remainingLength (repeat 0 7)) in
        let st := must_be_connected c in
        if status_beq st Success then
          let* st :=
            (if negb (qos_beq (p_qos p) Q0) then
               let* st := on_recs (fun r => reserveState r packetId (p_qos p)) in
               ret (if status_beq st StateCollision && p_dup p then Success else st)
             else ret Success) in
          let* st := (if status_beq st Success
                      then sendPublishWithoutCopy p header headerSize packetId
                      else ret st) in
          if status_beq st Success && negb (qos_beq (p_qos p) Q0) then
            let* (st, _) := on_recs (fun r => updateStatePublishApi r packetId OpSend (p_qos p)) in
            ret st
          else ret st
        else ret st
    | (st, _) => ret st
    end
  else ret st.

(** core_mqtt.c:3211-3296 MQTT_Ping *)
Definition ping : Mo status :=
  let* (st, buf) := lift (serializePingreq (Some (repeat 0 2))) in
  if status_beq st Success then
    let* c := getc in
    let st := must_be_connected c in
    if status_beq st Success then
      let* r := sendBuffer (match buf with Some b => b | None => [] end) in
      if r <? 2 then ret SendFailed
      else modc (fun c => set_keep c (x_keep c) (x_lastTx c) true) ;; ret Success
    else ret st
  else ret st.

(** core_mqtt.c:3355-3434 MQTT_Disconnect *)
Definition disconnect : Mo status :=
  let* (st, buf) := lift (serializeDisconnect (Some (repeat 0 2))) in
  if status_beq st Success then
    let* c := getc in
    if cstatus_beq (x_status c) NotConnected then ret StNotConnected
    else
      modc (fun c => set_buf (set_index (set_status c NotConnected) 0) (repeat 0 (length (x_buf c)))) ;;
      let* r := sendBuffer (match buf with Some b => b | None => [] end) in
      ret (if r <? 2 then SendFailed else Success)
  else ret st.

(** core_mqtt.c:3491-3516 MQTT_GetPacketId *)
Definition getPacketId : Mo Z :=
  let* c := getc in
  let packetId := x_nextId c in
  modc (fun c => set_nextId c (if x_nextId c =? 65535 then 1 else u16 (x_nextId c + 1))) ;;
  emit (EId packetId) ;;
  ret packetId.

(** core_mqtt.c:2835-2863 MQTT_CancelCallback *)
Definition cancel (packetId : Z) : Mo status :=
  let* c := getc in
  match outRecs (x_recs c) with
  | None => ret BadParameter
  | Some _ => on_recs (fun r => removeStateRecord r packetId)
  end.

(** core_mqtt.c:2867-2904 MQTT_CheckConnectStatus *)
Definition checkConnectStatus : Mo status :=
  let* c := getc in
  ret (match x_status c with
       | Connected => StConnected | DisconnectPending => StDisconnectPending
       | NotConnected => StNotConnected end).

(** Dispatch of the calls above (not a C function) *)
Definition run_op (o : op) : Mo status :=
  match o with
  | OPublish p id => publish p id
  | OSubscribe l n id => subscribe l n id
  | OUnsubscribe l n id => unsubscribe l n id
  | OPing => ping
  | ODisconnect => disconnect
  | OGetId => let* _ := getPacketId in ret Success
  | OCancel id => cancel id
  | OCheck => checkConnectStatus
  end.
Fixpoint run_ops (l : list op) : Mo unit :=
  match l with
  | [] => ret tt
  | o :: r => let* _ := run_op o in run_ops r
  end.

(** ** The application's callbacks *)

(** pContext->appCallback: the application may make API calls before returning;
    it may not call MQTT_Connect or the two loop functions from there. *)
Definition callback (type : Z) (data : list Z) (id : Z) (pub : option dpub) (result : status) : Mo unit :=
  emit (ECb type data id pub result) ;;
  let* e := gete in
  (fun s => Ret tt (mkSt (s_ctx s) (env_cbs (s_env s) (tl (e_cbs (s_env s))))) []) ;;
  run_ops (match e_cbs e with [] => [] | l :: _ => l end).
Definition clear_publish (id : Z) : Mo unit := emit (EClear id).
Definition retrieve_publish (id : Z) : Mo (option (list Z)) := fun s =>
  let r := match e_retrs (s_env s) with [] => None | x :: _ => x end in
  Ret r (mkSt (s_ctx s) (env_retrs (s_env s) (tl (e_retrs (s_env s))))) [ERetrieve id r].

(** ** Handling of received packets *)

(** core_mqtt.c:1377-1428 handleKeepAlive *)
Definition handleKeepAlive : Mo status :=
  let* now := getTime in
  let* c := getc in
  let txTimeout := u32 (1000 * x_keep c) in
  let txTimeout := if g_tx G <? txTimeout then g_tx G else txTimeout in
  if x_waiting c then
    ret (if g_pingto G <? elapsed now (x_pingTime c) then KeepAliveTimeout else Success)
  else if negb (txTimeout =? 0) && (txTimeout <=? elapsed now (x_lastTx c)) then ping
  else
    let timeElapsed := elapsed now (x_lastRx c) in
    if negb (timeElapsed =? 0) && (g_rx G <=? timeElapsed) then ping else ret Success.

(** core_mqtt.c:1432-1557 handleIncomingPublish; [data] is pRemainingData, the part
    of the network buffer after the fixed header. *)
Definition handleIncomingPublish (type rem : Z) (data : list Z) : Mo status :=
  let* (st, d) := lift (deserializePublishApi (g_M G) (mkPkt type rem (Some data))) in
  match st, d with
  | Success, Some (pub, pid) =>
      let id := match pid with Some i => i | None => 0 end in
      let* c := getc in
      if match inRecs (x_recs c) with None => true | _ => false end && negb (qos_beq (d_qos pub) Q0)
      then ret RecvFailed
      else
        let* (st, ns) := on_recs (fun r => updateStatePublishApi r id OpReceive (d_qos pub)) in
        let '(st, duplicate, ns) :=
          if status_beq st Success
          then (Success, false, match ns with Some x => x | None => StateNull end)
          else if status_beq st StateCollision
          then (Success, true, calculateStatePublish OpReceive (d_qos pub))
          else (st, false, StateNull) in
        if status_beq st Success then
          (if duplicate then ret tt
           else callback type (firstn (Z.to_nat rem) data) id (Some pub) Success) ;;
          sendPublishAcks id ns
        else ret st
  | st, _ => ret st
  end.

(** core_mqtt.c:1561-1635 handlePublishAcks *)
Definition handlePublishAcks (type rem : Z) (data : list Z) : Mo status :=
  let* ackType := lift (getAckFromPacketType type) in
  let* (st, pid, _) := lift (deserializeAck (mkPkt type rem (Some data))) in
  let id := match pid with Some i => i | None => 0 end in
  let* (st, ns) :=
    (if status_beq st Success
     then on_recs (fun r => updateStateAckApi r id ackType OpReceive)
     else ret (st, None)) in
  let* c := getc in
  (if (acktype_beq ackType Puback || acktype_beq ackType Pubrec) && status_beq st Success && x_retr c
   then clear_publish id else ret tt) ;;
  if status_beq st Success then
    callback type (firstn (Z.to_nat rem) data) id None Success ;;
    sendPublishAcks id (match ns with Some x => x | None => StateNull end)
  else ret st.

(** core_mqtt.c:1639-1714 handleIncomingAck *)
Definition handleIncomingAck (type rem : Z) (data : list Z) (manageKeepAlive : bool) : Mo status :=
  if (type =? PKT_PUBACK) || (type =? PKT_PUBREC) || (type =? PKT_PUBREL) || (type =? PKT_PUBCOMP)
  then handlePublishAcks type rem data
  else
    let* (st, id, invoke) :=
      (if type =? PKT_PINGRESP then
         let* (st, pid, _) := lift (deserializeAck (mkPkt type rem (Some data))) in
         (if status_beq st Success && manageKeepAlive
          then modc (fun c => set_keep c (x_keep c) (x_pingTime c) false) else ret tt) ;;
         ret (st, 0, status_beq st Success && negb manageKeepAlive)
       else if (type =? PKT_SUBACK) || (type =? PKT_UNSUBACK) then
         let* (st, pid, _) := lift (deserializeAck (mkPkt type rem (Some data))) in
         ret (st, match pid with Some i => i | None => 0 end,
              status_beq st Success || status_beq st ServerRefused)
       else ret (BadResponse, 0, false)) in
    if invoke : bool
    then callback type (firstn (Z.to_nat rem) data) id None st ;; ret Success
    else ret st.

(** core_mqtt.c:1840-1845: move the bytes after the handled packet to the front;
    memmove outside the buffer is Undef. *)
Definition shift_buffer (total : Z) : Mo unit :=
  modc (fun c => set_index c ((x_index c - total) mod g_M G)) ;;
  let* c := getc in
  massert (total + x_index c <=? zlen (x_buf c)) ;;
  modc (fun c => set_buf c (store_at (x_buf c) 0 (sub (x_buf c) total (x_index c)))).

(** core_mqtt.c:1717-1861 receiveSingleIteration *)
Definition receiveSingleIteration (manageKeepAlive : bool) : Mo status :=
  let* c := getc in
  let* r := recv_into (x_index c) ((zlen (x_buf c) - x_index c) mod g_M G) in
  let* (st, type, rem, hdr) :=
    (if r <? 0 then modc transport_broke ;; ret (RecvFailed, 0, 0, 0)
     else if (r =? 0) && (x_index c =? 0) then ret (NoDataAvailable, 0, 0, 0)
     else
       modc (fun c => set_index c ((x_index c + r) mod g_M G)) ;;
       let* c := getc in
       let* (st, h) := lift (processIncomingPacketTypeAndLength (x_buf c) (x_index c)) in
       ret (match h with Some (t, rl, hl) => (st, t, rl, hl) | None => (st, 0, 0, 0) end)) in
  let total := rem + hdr in
  let* st :=
    (if (r =? 0) && manageKeepAlive then
       let* k := handleKeepAlive in
       ret (if status_beq k Success then st else k)
     else ret st) in
  let* c := getc in
  let* st :=
    (if negb (status_beq st Success) then ret st
     else if zlen (x_buf c) <? total then discardStoredPacket type rem hdr
     else if x_index c <? total then ret NeedMoreBytes
     else ret Success) in
  let* st :=
    (if status_beq st Success then
       let* c := getc in
       let data := skipn (Z.to_nat hdr) (x_buf c) in
       emit (EPkt type (firstn (Z.to_nat rem) data)) ;;
       let* st := (if Z.land type 240 =? PKT_PUBLISH then handleIncomingPublish type rem data
                   else handleIncomingAck type rem data manageKeepAlive) in
       shift_buffer total ;;
       (if status_beq st Success
        then let* now := getTime in modc (fun c => set_lastRx c now) else ret tt) ;;
       ret st
     else ret st) in
  ret (if status_beq st NoDataAvailable then Success else st).

(** core_mqtt.c:3438-3461 MQTT_ProcessLoop *)
Definition processLoop : Mo status :=
  modc (fun c => set_ctl c false) ;; receiveSingleIteration true.
(** core_mqtt.c:3465-3487 MQTT_ReceiveLoop *)
Definition receiveLoop : Mo status := receiveSingleIteration false.

(** ** Connecting *)

(** MQTT_GetIncomingPacketTypeAndLength (SerModel) reads one byte at a time through
    transportInterface.recv: its world is the client state, the events so far and
    whether the script ran out. *)
Definition pull_world : Type := (st * list ev * bool)%type.
Definition pull_recv (w : pull_world) : Z * Z * pull_world :=
  let '(s, t, over) := w in
  match trecv 1 s with
  | Ret (r, bs) s' t' => (r, nth 0 bs 0, (s', t ++ t', over))
  | _ => (-1, 0, (s, t, true))
  end.
Definition getIncomingHeader : Mo (status * option (Z * Z)) := fun s =>
  match getIncomingPacketTypeAndLength pull_recv (s, [], false) with
  | Ok (r, (s', t, over)) => if over then Stuck else Ret r s' t
  | Ub => Undef
  end.

(** core_mqtt.c:2425-2455: the loop of receiveConnack; loopCount is a uint16_t *)
Fixpoint connack_loop (fuel : nat) (timeoutMs entryTime loopCount : Z) : Mo (status * option (Z * Z)) :=
  match fuel with
  | O => stuck
  | S fuel' =>
      let* (st, h) := getIncomingHeader in
      let* (stop, loopCount) :=
        (if 0 <? timeoutMs then
           let* now := getTime in ret (timeoutMs <=? elapsed now entryTime, loopCount)
         else ret (g_retry G <=? loopCount, u16 (loopCount + 1))) in
      if status_beq st NoDataAvailable && negb stop
      then connack_loop fuel' timeoutMs entryTime loopCount
      else ret (st, h)
  end.

(** core_mqtt.c:2404-2524 receiveConnack: status and *pSessionPresent when written *)
Definition receiveConnack (timeoutMs : Z) (cleanSession : bool) : Mo (status * option bool) :=
  let* entryTime := getTime in
  let* e := gete in
  let* (st, h) := connack_loop (S (length (e_recvs e))) timeoutMs entryTime 0 in
  match st, h with
  | Success, Some (type, rem) =>
      let* now := getTime in
      let taken := elapsed now entryTime in
      let remaining := if taken <? timeoutMs then timeoutMs - taken else 0 in
      let* st := (if type =? PKT_CONNACK then receivePacket rem remaining else ret BadResponse) in
      if status_beq st Success then
        let* c := getc in
        let* (st, _, sp) := lift (deserializeAck (mkPkt type rem (Some (x_buf c)))) in
        ret (if status_beq st Success && cleanSession && match sp with Some true => true | _ => false end
             then BadResponse else st, sp)
      else ret (st, None)
  | _, _ => ret (st, None)
  end.

(** core_mqtt.c:2540-2549: the PUBREL loop of handleUncleanSessionResumption *)
Fixpoint pubrel_loop (fuel : nat) (packetId : Z) (cursor : nat) : Mo status :=
  match fuel with
  | O => stuck
  | S fuel' =>
      if packetId =? 0 then ret Success
      else
        let* st := sendPublishAcks packetId PubRelSend in
        if negb (status_beq st Success) then ret st
        else
          let* c := getc in
          let '(packetId, cursor) := pubrelToResend (x_recs c) cursor in
          pubrel_loop fuel' packetId cursor
  end.
(** core_mqtt.c:2558-2580: the PUBLISH loop *)
Fixpoint publish_loop (fuel : nat) (cursor : nat) : Mo status :=
  match fuel with
  | O => stuck
  | S fuel' =>
      let* c := getc in
      let '(packetId, cursor) := publishToResend (x_recs c) cursor in
      if packetId =? 0 then ret Success
      else
        let* r := retrieve_publish packetId in
        match r with
        | None => ret PublishRetrieveFailed
        | Some bs =>
            let* n := sendBuffer bs in
            if negb (n =? zlen bs) then ret SendFailed else publish_loop fuel' cursor
        end
  end.
(** core_mqtt.c:2528-2584 handleUncleanSessionResumption *)
Definition handleUncleanSessionResumption : Mo status :=
  let* c := getc in
  let n := length (arr (outRecs (x_recs c))) in
  let '(packetId, cursor) := pubrelToResend (x_recs c) 0 in
  let* st := pubrel_loop (S (S n)) packetId cursor in
  if status_beq st Success && x_retr c then publish_loop (S (S n)) 0 else ret st.

(** core_mqtt.c:2604-2612: the loop of handleCleanSession *)
Fixpoint clear_loop (fuel : nat) (cursor : nat) : Mo unit :=
  match fuel with
  | O => stuck
  | S fuel' =>
      let* c := getc in
      let '(packetId, cursor) := publishToResend (x_recs c) cursor in
      if packetId =? 0 then ret tt
      else clear_publish packetId ;; clear_loop fuel' cursor
  end.
(** core_mqtt.c:2586-2631 handleCleanSession *)
Definition handleCleanSession : Mo status :=
  modc (fun c => set_buf (set_index c 0) (repeat 0 (length (x_buf c)))) ;;
  let* c := getc in
  (if x_retr c then clear_loop (S (S (length (arr (outRecs (x_recs c)))))) 0 else ret tt) ;;
  modc (fun c => set_recs c (resetRecs (x_recs c))) ;;
  ret Success.

(** core_mqtt.c:2908-3031 MQTT_Connect: status and *pSessionPresent when written *)
Definition connect (ci : coninfo) (will : option pubinfo) (timeoutMs : Z) : Mo (status * option bool) :=
  let '(st, size) := getConnectPacketSize ci will in
  let* (st, sp) :=
    match st, size with
    | Success, Some (remainingLength, _) =>
        let* c := getc in
        let st := match x_status c with
                  | NotConnected => Success | Connected => StConnected
                  | DisconnectPending => StDisconnectPending end in
        let* st := (if status_beq st Success then sendConnectWithoutCopy ci will remainingLength
                    else ret st) in
        let* (st, sp) := (if status_beq st Success then receiveConnack timeoutMs (c_clean ci)
                          else ret (st, None)) in
        let* st := (if status_beq st Success && match sp with Some true => false | _ => true end
                    then handleCleanSession else ret st) in
        (if status_beq st Success
         then modc (fun c => set_keep (set_status c Connected) (c_keepalive ci) 0 false)
         else ret tt) ;;
        ret (st, sp)
    | _, _ => ret (st, None)
    end in
  let* st := (if status_beq st Success && match sp with Some true => true | _ => false end
              then handleUncleanSessionResumption else ret st) in
  (if status_beq st Success || status_beq st StConnected || status_beq st StDisconnectPending
   then ret tt
   else modc transport_broke) ;;
  ret (st, sp).

(** ** Histories: any sequence of API calls by the application (not a C function) *)
Inductive call : Type :=
| COp (o : op)
| CConnect (ci : coninfo) (will : option pubinfo) (timeoutMs : Z)
| CProcess
| CReceive.
Definition run_call (c : call) : Mo status :=
  match c with
  | COp o => run_op o
  | CConnect ci will t => let* (st, _) := connect ci will t in ret st
  | CProcess => processLoop
  | CReceive => receiveLoop
  end.
Fixpoint run_calls (l : list call) : Mo (list status) :=
  match l with
  | [] => ret []
  | c :: r => let* st := run_call c in let* sts := run_calls r in ret (st :: sts)
  end.
End Core.

(** core_mqtt.c:2679-2734 MQTT_Init followed by 2738-2791 MQTT_InitStatefulQoS (the
    arrays are given with their contents; they are not cleared) and, if [retr], by
    2795-2831 MQTT_InitRetransmits. *)
Definition init_context (buf : list Z) (records : recs) (retr : bool) : context :=
  mkCtx records buf 0 1 NotConnected 0 0 false 0 0 false retr.

(** core_mqtt.c:3732-3745 MQTT_GetBytesInMQTTVec and 3749-3762
    MQTT_SerializeMQTTVec (into memory [mem]; writing past its end is Ub). *)
Definition getBytesInMQTTVec (M : Z) (vec : list (list Z)) : Z :=
  fold_left (fun n v => (n + zlen v) mod M) vec 0.
Fixpoint serializeMQTTVec (w : wbuf) (vec : list (list Z)) : R wbuf :=
  match vec with
  | [] => Ok w
  | v :: r => let! w := put w v in serializeMQTTVec w r
  end.

(** core_mqtt_config_defaults.h with a 64-bit little-endian platform *)
Definition default_cfg (writev : bool) : cfg :=
  mkCfg 18446744073709551616 false writev 4 5 5000 30000 30000 10 20000 false.
