(** The receive loop with an application that may also call the two loop functions and
    MQTT_Connect from its event callback, which the header does not forbid
    (core_mqtt.h:956-1019).  The
    functions below are those of CoreModel with the callback as a parameter;
    NestProofs.v shows that with CoreModel's callback they are the same. *)
From Verif Require Import Base StateModel SerModel CoreModel.

Section Nest.
Variable G : cfg.
Section Handlers.
Variable cb : Z -> list Z -> Z -> option dpub -> status -> Mo unit.

(** core_mqtt.c:1432-1557 handleIncomingPublish *)
Definition n_handleIncomingPublish (type rem : Z) (data : list Z) : Mo status :=
  let* (st, d) := lift (deserializePublishApi (g_M G) (mkPkt type rem (Some data))) in
  match st, d with
  | Success, Some (pub, pid) =>
      let id := match pid with Some i => i | None => 0 end in
      let* c := getc in
      if match inRecs (x_recs c) with None => true | _ => false end && negb (qos_beq (d_qos pub) Q0)
      then ret RecvFailed
      else
        let* (st, ns) := on_recs (fun r => updateStatePublishApi r id OpReceive (d_qos pub)) in
        let '(st, duplicate, ns) :=
          if status_beq st Success
          then (Success, false, match ns with Some x => x | None => StateNull end)
          else if status_beq st StateCollision
          then (Success, true, calculateStatePublish OpReceive (d_qos pub))
          else (st, false, StateNull) in
        if status_beq st Success then
          (if duplicate then ret tt
           else cb type (firstn (Z.to_nat rem) data) id (Some pub) Success) ;;
          sendPublishAcks G id ns
        else ret st
  | st, _ => ret st
  end.

(** core_mqtt.c:1561-1635 handlePublishAcks *)
Definition n_handlePublishAcks (type rem : Z) (data : list Z) : Mo status :=
  let* ackType := lift (getAckFromPacketType type) in
  let* (st, pid, _) := lift (deserializeAck (mkPkt type rem (Some data))) in
  let id := match pid with Some i => i | None => 0 end in
  let* (st, ns) :=
    (if status_beq st Success
     then on_recs (fun r => updateStateAckApi r id ackType OpReceive)
     else ret (st, None)) in
  let* c := getc in
  (if (acktype_beq ackType Puback || acktype_beq ackType Pubrec) && status_beq st Success && x_retr c
   then clear_publish id else ret tt) ;;
  if status_beq st Success then
    cb type (firstn (Z.to_nat rem) data) id None Success ;;
    sendPublishAcks G id (match ns with Some x => x | None => StateNull end)
  else ret st.

(** core_mqtt.c:1639-1714 handleIncomingAck *)
Definition n_handleIncomingAck (type rem : Z) (data : list Z) (manageKeepAlive : bool) : Mo status :=
  if (type =? PKT_PUBACK) || (type =? PKT_PUBREC) || (type =? PKT_PUBREL) || (type =? PKT_PUBCOMP)
  then n_handlePublishAcks type rem data
  else
    let* (st, id, invoke) :=
      (if type =? PKT_PINGRESP then
         let* (st, pid, _) := lift (deserializeAck (mkPkt type rem (Some data))) in
         (if status_beq st Success && manageKeepAlive
          then modc (fun c => set_keep c (x_keep c) (x_pingTime c) false) else ret tt) ;;
         ret (st, 0, status_beq st Success && negb manageKeepAlive)
       else if (type =? PKT_SUBACK) || (type =? PKT_UNSUBACK) then
         let* (st, pid, _) := lift (deserializeAck (mkPkt type rem (Some data))) in
         ret (st, match pid with Some i => i | None => 0 end,
              status_beq st Success || status_beq st ServerRefused)
       else ret (BadResponse, 0, false)) in
    if invoke : bool
    then cb type (firstn (Z.to_nat rem) data) id None st ;; ret Success
    else ret st.

(** core_mqtt.c:1717-1861 receiveSingleIteration *)
Definition n_receiveSingleIteration (manageKeepAlive : bool) : Mo status :=
  let* c := getc in
  let* r := recv_into (x_index c) ((zlen (x_buf c) - x_index c) mod g_M G) in
  let* (st, type, rem, hdr) :=
    (if r <? 0 then modc transport_broke ;; ret (RecvFailed, 0, 0, 0)
     else if (r =? 0) && (x_index c =? 0) then ret (NoDataAvailable, 0, 0, 0)
     else
       modc (fun c => set_index c ((x_index c + r) mod g_M G)) ;;
       let* c := getc in
       let* (st, h) := lift (processIncomingPacketTypeAndLength (x_buf c) (x_index c)) in
       ret (match h with Some (t, rl, hl) => (st, t, rl, hl) | None => (st, 0, 0, 0) end)) in
  let total := rem + hdr in
  let* st :=
    (if (r =? 0) && manageKeepAlive then
       let* k := handleKeepAlive G in
       ret (if status_beq k Success then st else k)
     else ret st) in
  let* c := getc in
  let* st :=
    (if negb (status_beq st Success) then ret st
     else if zlen (x_buf c) <? total then discardStoredPacket G type rem hdr
     else if x_index c <? total then ret NeedMoreBytes
     else ret Success) in
  let* st :=
    (if status_beq st Success then
       let* c := getc in
       let data := skipn (Z.to_nat hdr) (x_buf c) in
       emit (EPkt type (firstn (Z.to_nat rem) data)) ;;
       let* st := (if Z.land type 240 =? PKT_PUBLISH then n_handleIncomingPublish type rem data
                   else n_handleIncomingAck type rem data manageKeepAlive) in
       shift_buffer G total ;;
       (if status_beq st Success
        then let* now := getTime in modc (fun c => set_lastRx c now) else ret tt) ;;
       ret st
     else ret st) in
  ret (if status_beq st NoDataAvailable then Success else st).

(** core_mqtt.c:3438-3461 MQTT_ProcessLoop *)
Definition n_processLoop : Mo status :=
  modc (fun c => set_ctl c false) ;; n_receiveSingleIteration true.
(** core_mqtt.c:3465-3487 MQTT_ReceiveLoop *)
Definition n_receiveLoop : Mo status := n_receiveSingleIteration false.
End Handlers.

(** what an application may do in its callback *)
Inductive act : Type := AOp (o : op) | AConnect (ci : coninfo) (will : option pubinfo) (timeoutMs : Z) | AProcess | AReceive.
(** the application: what it does when called with these arguments; it may look at
    anything *)
Definition application : Type := Z -> list Z -> Z -> option dpub -> status -> st -> list act.
Variable app : application.

(** pContext->appCallback; calls nested deeper than [fuel] are not followed (a real
    stack ends too) *)
Fixpoint n_callback (fuel : nat) (type : Z) (data : list Z) (id : Z) (pub : option dpub) (result : status) : Mo unit :=
  emit (ECb type data id pub result) ;;
  (fun s =>
     (fix run (l : list act) : Mo unit :=
        match l with
        | [] => ret tt
        | a :: l' =>
            let* _ := match a, fuel with
                      | AOp o, _ => run_op G o
                      | AConnect ci will tmo, _ => let* (st, _) := connect G ci will tmo in ret st
                      | _, O => stuck
                      | AProcess, S fuel' => n_processLoop (n_callback fuel')
                      | AReceive, S fuel' => n_receiveLoop (n_callback fuel')
                      end in
            run l'
        end) (app type data id pub result s) s).
End Nest.
