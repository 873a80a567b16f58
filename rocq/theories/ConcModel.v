(** The client core used from several threads.

    Executable model of /repo/source/core_mqtt.c at the level of its locking hooks
    MQTT_PRE_STATE_UPDATE_HOOK and MQTT_POST_STATE_UPDATE_HOOK (core_mqtt.c:54-69),
    which an application with several threads defines to take and to give back one
    mutex.  One thread runs MQTT_Connect, MQTT_ProcessLoop and MQTT_ReceiveLoop; the
    other threads make the remaining API calls.  Each of those calls keeps the mutex
    from its check of the connection status to its last change of the context
    (Subscribe 3063-3082, Publish 3136-3197, Ping 3258-3292, Unsubscribe 3329-3347,
    Disconnect 3391-3430, CancelCallback 2854-2859, CheckConnectStatus 2881-2885,
    GetPacketId 3497-3512), and reads nothing but its arguments and pointers that
    never change outside of it, so it is one step.  The loop thread works outside the
    mutex for most of the time; the schedule says which calls of other threads happen
    before each of its accesses to the context.

    Simplifications: threads interleave (accesses without the mutex are taken as
    atomic and in program order; in C they would be data races); one walk over the
    record array, one deserialization and one memmove are single accesses; there is
    one loop thread.  Whether the mutex may be taken again by the thread that holds it
    is a parameter ([g_nest]). *)
From Verif Require Import Base StateModel SerModel CoreModel.

Section Conc.
Variable G : cfg.

(** What the loop thread sees of the others: does it hold the mutex itself, and the
    calls others make at each point where they can run (not C objects) *)
Record world : Type := mkW { w_held : bool; w_sched : list (list op) }.

(** A computation of the loop thread.  [None]: it waits for ever, asking for the
    mutex that it holds itself and that is not recursive. *)
Definition Mc (A : Type) : Type := world -> Mo (option A * world).
Definition cret {A} (a : A) : Mc A := fun w => ret (Some a, w).
Definition cbind {A B} (m : Mc A) (k : A -> Mc B) : Mc B := fun w =>
  let* (oa, w') := m w in
  match oa with
  | Some a => k a w'
  | None => ret (None, w')
  end.
Notation "'let^' x ':=' m 'in' k" := (cbind m (fun x => k))
  (at level 200, x pattern, m at level 100, k at level 200).
Notation "m ;^ k" := (cbind m (fun _ => k)) (at level 190, right associativity).

(** one access, without letting the others in *)
Definition atomic {A} (m : Mo A) : Mc A := fun w => let* a := m in ret (Some a, w).
(** the other threads run: not while the mutex is held, all their calls need it *)
Definition yield : Mc unit := fun w =>
  if w_held w then ret (Some tt, w)
  else run_ops G (hd [] (w_sched w)) ;; ret (Some tt, mkW false (tl (w_sched w))).
(** an access of the loop thread to the context *)
Definition visit {A} (m : Mo A) : Mc A := yield ;^ atomic m.
(** MQTT_PRE_STATE_UPDATE_HOOK, MQTT_POST_STATE_UPDATE_HOOK: core_mqtt.c:54-69 *)
Definition acquire : Mc unit :=
  yield ;^ fun w => if w_held w && negb (g_nest G) then ret (None, w) else ret (Some tt, mkW true (w_sched w)).
Definition release (before : bool) : Mc unit := fun w => ret (Some tt, mkW before (w_sched w)).
Definition locked {A} (m : Mc A) : Mc A := fun w =>
  (acquire ;^ let^ a := m in release (w_held w) ;^ cret a) w.

(** An API call of the loop thread itself, from a callback or from the application:
    the lines cited at the top.  A call refused for its arguments does not take the
    mutex in C; here it does, to no effect. *)
Definition c_op (o : op) : Mc status := locked (atomic (run_op G o)).
Fixpoint c_ops (l : list op) : Mc unit :=
  match l with
  | [] => cret tt
  | o :: r => let^ _ := c_op o in c_ops r
  end.
(** pContext->appCallback, as [callback] *)
Definition c_callback (type : Z) (data : list Z) (id : Z) (pub : option dpub) (result : status) : Mc unit :=
  let^ l := visit (
    emit (ECb type data id pub result) ;;
    let* e := gete in
    (fun s => Ret tt (mkSt (s_ctx s) (env_cbs (s_env s) (tl (e_cbs (s_env s))))) []) ;;
    ret (match e_cbs e with [] => [] | l :: _ => l end)) in
  c_ops l.

(** core_mqtt.c:1738-1745 and 1022-1029: the connection status after a failed read *)
Definition c_broke : Mc unit := locked (atomic (modc transport_broke)).

(** core_mqtt.c:985-1067 recvExact, hooks at 1022 and 1029 *)
Fixpoint c_recvExact_loop (fuel : nat) (off bytesRemaining total lastRecv : Z) : Mc Z :=
  match fuel with
  | O => atomic stuck
  | S fuel' =>
      if 0 <? bytesRemaining then
        let^ r := visit (recv_into off bytesRemaining) in
        if r <? 0 then c_broke ;^ cret r
        else if 0 <? r then
          let^ now := visit getTime in
          atomic (massert (r <=? bytesRemaining)) ;^
          c_recvExact_loop fuel' (off + r) (bytesRemaining - r) (total + r) now
        else
          let^ now := visit getTime in
          if g_poll G <=? elapsed now lastRecv then cret total
          else c_recvExact_loop fuel' off bytesRemaining total lastRecv
      else cret total
  end.
Definition c_recvExact (bytesToRecv : Z) : Mc Z :=
  atomic (let* c := getc in massert (bytesToRecv <=? zlen (x_buf c))) ;^
  let^ now := visit getTime in
  let^ e := atomic gete in
  c_recvExact_loop (S (length (e_recvs e))) 0 bytesToRecv 0 now.

(** core_mqtt.c:1071-1133 discardPacket *)
Fixpoint c_discard_loop (fuel : nat) (bytesToReceive remainingLength total timeoutMs entryTime : Z) : Mc Z :=
  match fuel with
  | O => atomic stuck
  | S fuel' =>
      if total <? remainingLength then
        let bytesToReceive := if remainingLength - total <? bytesToReceive
                              then remainingLength - total else bytesToReceive in
        let^ r := c_recvExact bytesToReceive in
        if negb (r =? bytesToReceive) then cret total
        else
          let total := u32 (total + r) in
          let^ now := visit getTime in
          if timeoutMs <=? elapsed now entryTime then cret total
          else c_discard_loop fuel' bytesToReceive remainingLength total timeoutMs entryTime
      else cret total
  end.
Definition c_discardPacket (remainingLength timeoutMs : Z) : Mc status :=
  let^ c := atomic getc in
  let^ entryTime := visit getTime in
  let^ e := atomic gete in
  let^ total := c_discard_loop (S (length (e_times e))) (zlen (x_buf c)) remainingLength 0 timeoutMs entryTime in
  cret (if total =? remainingLength then NoDataAvailable else RecvFailed).

(** core_mqtt.c:1137-1203 discardStoredPacket *)
Fixpoint c_discardStored_loop (fuel : nat) (bytesToReceive remainingLength total : Z) : Mc Z :=
  match fuel with
  | O => atomic stuck
  | S fuel' =>
      if total <? remainingLength then
        let bytesToReceive := if remainingLength - total <? bytesToReceive
                              then remainingLength - total else bytesToReceive in
        let^ r := c_recvExact bytesToReceive in
        if negb (r =? bytesToReceive) then cret total
        else c_discardStored_loop fuel' bytesToReceive remainingLength (u32 (total + r))
      else cret total
  end.
Definition c_discardStoredPacket (type rem hdr : Z) : Mc status :=
  let mqttPacketSize := rem + hdr in
  let^ c := visit (emit (EDrop type rem) ;; getc) in
  atomic (massert (zlen (x_buf c) <? mqttPacketSize)) ;^
  let remainingLength := (mqttPacketSize - x_index c) mod g_M G in
  let^ e := atomic gete in
  let^ total := c_discardStored_loop (S (length (e_times e))) (zlen (x_buf c)) remainingLength 0 in
  visit (modc (fun c => set_index (set_buf c (repeat 0 (length (x_buf c)))) 0)) ;^
  cret (if total =? remainingLength then NoDataAvailable else RecvFailed).

(** core_mqtt.c:1207-1251 receivePacket *)
Definition c_receivePacket (rem remainingTimeMs : Z) : Mc status :=
  let^ c := atomic getc in
  if zlen (x_buf c) <? rem then c_discardPacket rem remainingTimeMs
  else let^ r := c_recvExact rem in
       cret (if r =? rem then Success else RecvFailed).

(** core_mqtt.c:1317-1340: the first region of sendPublishAcks *)
Definition ack_send (buf : option (list Z)) : Mo status :=
  let* c := getc in
  let st := must_be_connected c in
  if status_beq st Success then
    let* r := sendBuffer G (match buf with Some b => b | None => [] end) in
    ret (if r <? 4 then SendFailed else Success)
  else ret st.
(** core_mqtt.c:1347-1355: the second region *)
Definition ack_update (packetId : Z) (packetType : acktype) : Mo status :=
  let* (st, _) := on_recs (fun r => updateStateAckApi r packetId packetType OpSend) in ret st.
(** core_mqtt.c:1287-1373 sendPublishAcks *)
Definition c_sendPublishAcks (packetId : Z) (publishState : pstate) : Mc status :=
  match ackToSend publishState with
  | None => cret Success
  | Some (typeByte, packetType) =>
      let^ (st, buf) := atomic (lift (serializeAck (Some (repeat 0 4)) typeByte packetId)) in
      let^ st := (if status_beq st Success then locked (atomic (ack_send buf)) else cret st) in
      if status_beq st Success then
        visit (modc (fun c => set_ctl c true)) ;^
        locked (atomic (ack_update packetId packetType))
      else cret st
  end.

(** core_mqtt.c:1377-1428 handleKeepAlive, hooks at 1408 and 1410 *)
Definition c_handleKeepAlive : Mc status :=
  let^ now := visit getTime in
  let^ keep := visit (let* c := getc in ret (x_keep c)) in
  let txTimeout := u32 (1000 * keep) in
  let txTimeout := if g_tx G <? txTimeout then g_tx G else txTimeout in
  let^ waiting := visit (let* c := getc in ret (x_waiting c)) in
  if waiting : bool then
    let^ pingTime := visit (let* c := getc in ret (x_pingTime c)) in
    cret (if g_pingto G <? elapsed now pingTime then KeepAliveTimeout else Success)
  else
    let^ lastTx := locked (atomic (let* c := getc in ret (x_lastTx c))) in
    if negb (txTimeout =? 0) && (txTimeout <=? elapsed now lastTx) then c_op OPing
    else
      let^ lastRx := visit (let* c := getc in ret (x_lastRx c)) in
      let timeElapsed := elapsed now lastRx in
      if negb (timeElapsed =? 0) && (g_rx G <=? timeElapsed) then c_op OPing else cret Success.

(** core_mqtt.c:1432-1557 handleIncomingPublish, hooks at 1463 and 1471 *)
Definition c_handleIncomingPublish (type rem : Z) (data : list Z) : Mc status :=
  let^ (st, d) := atomic (lift (deserializePublishApi (g_M G) (mkPkt type rem (Some data)))) in
  match st, d with
  | Success, Some (pub, pid) =>
      let id := match pid with Some i => i | None => 0 end in
      let^ c := atomic getc in
      if match inRecs (x_recs c) with None => true | _ => false end && negb (qos_beq (d_qos pub) Q0)
      then cret RecvFailed
      else
        let^ (st, ns) := locked (atomic (on_recs (fun r => updateStatePublishApi r id OpReceive (d_qos pub)))) in
        let '(st, duplicate, ns) :=
          if status_beq st Success
          then (Success, false, match ns with Some x => x | None => StateNull end)
          else if status_beq st StateCollision
          then (Success, true, calculateStatePublish OpReceive (d_qos pub))
          else (st, false, StateNull) in
        if status_beq st Success then
          (if duplicate then cret tt
           else c_callback type (firstn (Z.to_nat rem) data) id (Some pub) Success) ;^
          c_sendPublishAcks id ns
        else cret st
  | st, _ => cret st
  end.

(** core_mqtt.c:1561-1635 handlePublishAcks, hooks at 1584 and 1592 *)
Definition c_handlePublishAcks (type rem : Z) (data : list Z) : Mc status :=
  let^ ackType := atomic (lift (getAckFromPacketType type)) in
  let^ (st, pid, _) := atomic (lift (deserializeAck (mkPkt type rem (Some data)))) in
  let id := match pid with Some i => i | None => 0 end in
  let^ (st, ns) :=
    (if status_beq st Success
     then locked (atomic (on_recs (fun r => updateStateAckApi r id ackType OpReceive)))
     else cret (st, None)) in
  let^ c := atomic getc in
  (if (acktype_beq ackType Puback || acktype_beq ackType Pubrec) && status_beq st Success && x_retr c
   then visit (clear_publish id) else cret tt) ;^
  if status_beq st Success then
    c_callback type (firstn (Z.to_nat rem) data) id None Success ;^
    c_sendPublishAcks id (match ns with Some x => x | None => StateNull end)
  else cret st.

(** core_mqtt.c:1639-1714 handleIncomingAck *)
Definition c_handleIncomingAck (type rem : Z) (data : list Z) (manageKeepAlive : bool) : Mc status :=
  if (type =? PKT_PUBACK) || (type =? PKT_PUBREC) || (type =? PKT_PUBREL) || (type =? PKT_PUBCOMP)
  then c_handlePublishAcks type rem data
  else
    let^ (st, id, invoke) :=
      (if type =? PKT_PINGRESP then
         let^ (st, pid, _) := atomic (lift (deserializeAck (mkPkt type rem (Some data)))) in
         (if status_beq st Success && manageKeepAlive
          then visit (modc (fun c => set_keep c (x_keep c) (x_pingTime c) false)) else cret tt) ;^
         cret (st, 0, status_beq st Success && negb manageKeepAlive)
       else if (type =? PKT_SUBACK) || (type =? PKT_UNSUBACK) then
         let^ (st, pid, _) := atomic (lift (deserializeAck (mkPkt type rem (Some data)))) in
         cret (st, match pid with Some i => i | None => 0 end,
              status_beq st Success || status_beq st ServerRefused)
       else cret (BadResponse, 0, false)) in
    if invoke : bool
    then c_callback type (firstn (Z.to_nat rem) data) id None st ;^ cret Success
    else cret st.

(** core_mqtt.c:1717-1861 receiveSingleIteration, hooks at 1738 and 1745 *)
Definition c_receiveSingleIteration (manageKeepAlive : bool) : Mc status :=
  let^ c := visit getc in
  let^ r := visit (recv_into (x_index c) ((zlen (x_buf c) - x_index c) mod g_M G)) in
  let^ (st, type, rem, hdr) :=
    (if r <? 0 then c_broke ;^ cret (RecvFailed, 0, 0, 0)
     else
       let^ c := visit getc in
       if (r =? 0) && (x_index c =? 0) then cret (NoDataAvailable, 0, 0, 0)
       else
         visit (modc (fun c => set_index c ((x_index c + r) mod g_M G))) ;^
         let^ c := visit getc in
         let^ (st, h) := atomic (lift (processIncomingPacketTypeAndLength (x_buf c) (x_index c))) in
         cret (match h with Some (t, rl, hl) => (st, t, rl, hl) | None => (st, 0, 0, 0) end)) in
  let total := rem + hdr in
  let^ st :=
    (if (r =? 0) && manageKeepAlive then
       let^ k := c_handleKeepAlive in
       cret (if status_beq k Success then st else k)
     else cret st) in
  let^ c := visit getc in
  let^ st :=
    (if negb (status_beq st Success) then cret st
     else if zlen (x_buf c) <? total then c_discardStoredPacket type rem hdr
     else if x_index c <? total then cret NeedMoreBytes
     else cret Success) in
  let^ st :=
    (if status_beq st Success then
       let^ data := visit (
         let* c := getc in
         let data := skipn (Z.to_nat hdr) (x_buf c) in
         emit (EPkt type (firstn (Z.to_nat rem) data)) ;;
         ret data) in
       let^ st := (if Z.land type 240 =? PKT_PUBLISH then c_handleIncomingPublish type rem data
                   else c_handleIncomingAck type rem data manageKeepAlive) in
       visit (shift_buffer G total) ;^
       (if status_beq st Success
        then let^ now := visit getTime in visit (modc (fun c => set_lastRx c now)) else cret tt) ;^
       cret st
     else cret st) in
  cret (if status_beq st NoDataAvailable then Success else st).

(** core_mqtt.c:3438-3461 MQTT_ProcessLoop *)
Definition c_processLoop : Mc status :=
  visit (modc (fun c => set_ctl c false)) ;^ c_receiveSingleIteration true.
(** core_mqtt.c:3465-3487 MQTT_ReceiveLoop *)
Definition c_receiveLoop : Mc status := c_receiveSingleIteration false.

(** core_mqtt.c:2404-2524 receiveConnack; called with the mutex held (2945-2986) *)
Definition c_receiveConnack (timeoutMs : Z) (cleanSession : bool) : Mc (status * option bool) :=
  let^ entryTime := visit getTime in
  let^ e := atomic gete in
  let^ (st, h) := atomic (connack_loop G (S (length (e_recvs e))) timeoutMs entryTime 0) in
  match st, h with
  | Success, Some (type, rem) =>
      let^ now := visit getTime in
      let taken := elapsed now entryTime in
      let remaining := if taken <? timeoutMs then timeoutMs - taken else 0 in
      let^ st := (if type =? PKT_CONNACK then c_receivePacket rem remaining else cret BadResponse) in
      if status_beq st Success then
        let^ c := visit getc in
        let^ (st, _, sp) := atomic (lift (deserializeAck (mkPkt type rem (Some (x_buf c))))) in
        cret (if status_beq st Success && cleanSession && match sp with Some true => true | _ => false end
             then BadResponse else st, sp)
      else cret (st, None)
  | _, _ => cret (st, None)
  end.

(** core_mqtt.c:2540-2549: the PUBREL loop of handleUncleanSessionResumption *)
Fixpoint c_pubrel_loop (fuel : nat) (packetId : Z) (cursor : nat) : Mc status :=
  match fuel with
  | O => atomic stuck
  | S fuel' =>
      if packetId =? 0 then cret Success
      else
        let^ st := c_sendPublishAcks packetId PubRelSend in
        if negb (status_beq st Success) then cret st
        else
          let^ c := visit getc in
          let '(packetId, cursor) := pubrelToResend (x_recs c) cursor in
          c_pubrel_loop fuel' packetId cursor
  end.
(** core_mqtt.c:2558-2580: the PUBLISH loop, hooks at 2570 and 2577 *)
Fixpoint c_publish_loop (fuel : nat) (cursor : nat) : Mc status :=
  match fuel with
  | O => atomic stuck
  | S fuel' =>
      let^ c := visit getc in
      let '(packetId, cursor) := publishToResend (x_recs c) cursor in
      if packetId =? 0 then cret Success
      else
        let^ r := visit (retrieve_publish packetId) in
        match r with
        | None => cret PublishRetrieveFailed
        | Some bs =>
            let^ n := locked (atomic (sendBuffer G bs)) in
            if negb (n =? zlen bs) then cret SendFailed else c_publish_loop fuel' cursor
        end
  end.
(** core_mqtt.c:2528-2584 handleUncleanSessionResumption *)
Definition c_handleUncleanSessionResumption : Mc status :=
  let^ c := visit getc in
  let n := length (arr (outRecs (x_recs c))) in
  let '(packetId, cursor) := pubrelToResend (x_recs c) 0 in
  let^ st := c_pubrel_loop (S (S n)) packetId cursor in
  if status_beq st Success && x_retr c then c_publish_loop (S (S n)) 0 else cret st.

(** core_mqtt.c:2945-2986: the part of MQTT_Connect under the mutex *)
Definition c_connect_region (ci : coninfo) (will : option pubinfo) (remainingLength timeoutMs : Z) : Mc (status * option bool) :=
  let^ c := visit getc in
  let st := match x_status c with
            | NotConnected => Success | Connected => StConnected
            | DisconnectPending => StDisconnectPending end in
  let^ st := (if status_beq st Success then atomic (sendConnectWithoutCopy G ci will remainingLength)
              else cret st) in
  let^ (st, sp) := (if status_beq st Success then c_receiveConnack timeoutMs (c_clean ci)
                    else cret (st, None)) in
  let^ st := (if status_beq st Success && match sp with Some true => false | _ => true end
              then atomic handleCleanSession else cret st) in
  (if status_beq st Success
   then atomic (modc (fun c => set_keep (set_status c Connected) (c_keepalive ci) 0 false))
   else cret tt) ;^
  cret (st, sp).
(** core_mqtt.c:2908-3031 MQTT_Connect, hooks at 2945, 2986, 3014 and 3027 *)
Definition c_connect (ci : coninfo) (will : option pubinfo) (timeoutMs : Z) : Mc (status * option bool) :=
  let '(st, size) := getConnectPacketSize ci will in
  let^ (st, sp) :=
    match st, size with
    | Success, Some (remainingLength, _) => locked (c_connect_region ci will remainingLength timeoutMs)
    | _, _ => cret (st, None)
    end in
  let^ st := (if status_beq st Success && match sp with Some true => true | _ => false end
              then c_handleUncleanSessionResumption else cret st) in
  (if status_beq st Success || status_beq st StConnected || status_beq st StDisconnectPending
   then cret tt
   else c_broke) ;^
  cret (st, sp).

(** Calls of the loop thread, one after the other (not C functions) *)
Definition c_run_call (c : call) : Mc status :=
  match c with
  | COp o => c_op o
  | CConnect ci will t => let^ (st, _) := c_connect ci will t in cret st
  | CProcess => c_processLoop
  | CReceive => c_receiveLoop
  end.
Fixpoint c_run_calls (l : list call) : Mc (list status) :=
  match l with
  | [] => cret []
  | c :: r => let^ st := c_run_call c in let^ sts := c_run_calls r in cret (st :: sts)
  end.
End Conc.
