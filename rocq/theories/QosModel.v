(** Quality-of-service values outside the enumeration.  MQTTQoS_t (source/include/
    core_mqtt_serializer.h:116-121) has the values 0, 1 and 2, but a C enumeration object can hold more,
    and the code checks the field only in some places.  Here the state engine and
    MQTT_Publish are modelled with the field as an integer, zero or more.  What depends
    only on "is it above MQTTQoS0" is taken from SerModel and CoreModel; what tests for
    1 and 2 is written out. *)
From Verif Require Import Base StateModel SerModel CoreModel.

(** MQTTPubAckInfo_t: source/include/core_mqtt.h:219-224 *)
Record zrec : Type := mkZ { zid : Z; zqos : Z; zst : pstate }.
Definition zempty : zrec := mkZ 0 0 StateNull.

(** core_mqtt_state.c:234-298 validateTransitionPublish *)
Definition z_validateTransitionPublish (cur new : pstate) (op : stateop) (q : Z) : bool :=
  match cur with
  | StateNull =>
      if stateop_beq op OpReceive
      then pstate_beq new PubAckSend || pstate_beq new PubRecSend
      else false
  | PublishSend =>
      if q =? 1 then pstate_beq new PubAckPending
      else if q =? 2 then pstate_beq new PubRecPending
      else false
  | PubAckPending => pstate_beq new PubAckPending
  | PubRecPending => pstate_beq new PubRecPending
  | _ => false
  end.

(** core_mqtt_state.c:440-468 findInRecord *)
Fixpoint z_find_loop (records : list zrec) (index : nat) (packetId : Z) : option (nat * zrec) :=
  match records with
  | [] => None
  | r :: t => if zid r =? packetId then Some (index, r) else z_find_loop t (S index) packetId
  end.
Definition z_findInRecord (records : list zrec) (packetId : Z) : R (option (nat * zrec)) :=
  rassert (negb (packetId =? 0)) (Ok (z_find_loop records 0 packetId)).

(** core_mqtt_state.c:472-510 compactRecords *)
Definition z_compact_body (st : list zrec * option nat) (index : nat) : list zrec * option nat :=
  let '(records, emptyIndex) := st in
  let r := nth index records zempty in
  if zid r =? 0
  then match emptyIndex with
       | None => (records, Some index)
       | Some _ => (records, emptyIndex)
       end
  else match emptyIndex with
       | Some e => (upd (upd records e (mkZ (zid r) (zqos r) (zst r))) index zempty, Some (S e))
       | None => (records, None)
       end.
Definition z_compactRecords (records : list zrec) : list zrec :=
  fst (fold_left z_compact_body (seq 0 (length records)) (records, None)).

(** core_mqtt_state.c:514-577 addRecord; the assert at line 526 is qos != MQTTQoS0 *)
Fixpoint z_add_scan (records : list zrec) (index : nat) (packetId : Z)
         (availableIndex : option nat) (validEntryFound : bool) : bool * option nat :=
  match index with
  | O => (false, availableIndex)
  | S i =>
      let r := nth i records zempty in
      if zid r =? 0
      then z_add_scan records i packetId
             (if validEntryFound then availableIndex else Some i) validEntryFound
      else if zid r =? packetId
           then (true, None)
           else z_add_scan records i packetId availableIndex true
  end.
Definition z_addRecord (records : list zrec) (packetId q : Z) (st : pstate) : R (status * list zrec) :=
  rassert (negb (packetId =? 0) && negb (q =? 0))
    match length records with
    | O => Ub
    | S last =>
        let records := if negb (zid (nth last records zempty) =? 0)
                       then z_compactRecords records else records in
        match z_add_scan records (length records) packetId None false with
        | (true, _) => Ok (StateCollision, records)
        | (false, None) => Ok (NoMemory, records)
        | (false, Some i) => Ok (Success, upd records i (mkZ packetId q st))
        end
    end.

(** core_mqtt_state.c:581-599 updateRecord *)
Definition z_updateRecord (records : list zrec) (i : nat) (new : pstate) (shouldDelete : bool) : R (list zrec) :=
  match nth_error records i with
  | None => Ub
  | Some r => Ok (if shouldDelete then upd records i zempty
                  else upd records i (mkZ (zid r) (zqos r) new))
  end.

(** core_mqtt_state.c:603-647 stateSelect *)
Fixpoint z_select_loop (rest : list zrec) (mask : list pstate) (cursor : nat) : Z * nat :=
  match rest with
  | [] => (0, cursor)
  | r :: t => if in_mask mask (zst r) then (zid r, S cursor)
              else z_select_loop t mask (S cursor)
  end.
Definition z_stateSelect (records : list zrec) (mask : list pstate) (cursor : nat) : Z * nat :=
  z_select_loop (skipn cursor records) mask cursor.

(** core_mqtt_state.c:651-696 MQTT_CalculateStateAck *)
Definition z_calculateStateAck (t : acktype) (op : stateop) (q : Z) : pstate :=
  let '(qosValid, st) :=
    match t with
    | Puback => (q =? 1, PublishDone)
    | Pubrec => (q =? 2, if stateop_beq op OpSend then PubRelPending else PubRelSend)
    | Pubrel => (q =? 2, if stateop_beq op OpSend then PubCompPending else PubCompSend)
    | Pubcomp => (q =? 2, PublishDone)
    end in
  if qosValid : bool then st else StateNull.

(** core_mqtt_state.c:700-757 updateStateAck *)
Definition z_updateStateAck (records : list zrec) (i : nat) (packetId : Z) (cur new : pstate)
  : R (status * list zrec) :=
  let shouldDelete := pstate_beq new PublishDone || pstate_beq new PubRelSend in
  if validateTransitionAck cur new
  then if pstate_beq cur new
       then Ok (Success, records)
       else let! records := z_updateRecord records i new shouldDelete in
            if pstate_beq new PubRelSend
            then z_addRecord records packetId 2 PubRelSend
            else Ok (Success, records)
  else Ok (IllegalState, records).

(** The two record arrays of the context: source/include/core_mqtt.h:232-250 *)
Record zrecs : Type := mkZs { zout : option (list zrec); zin : option (list zrec) }.
Definition zarr (o : option (list zrec)) : list zrec := match o with Some l => l | None => [] end.
Definition zset_arr (o : option (list zrec)) (l : list zrec) : option (list zrec) :=
  match o with Some _ => Some l | None => None end.
Definition zset_out (s : zrecs) (l : list zrec) : zrecs := mkZs (zset_arr (zout s) l) (zin s).
Definition zset_in (s : zrecs) (l : list zrec) : zrecs := mkZs (zout s) (zset_arr (zin s) l).

(** core_mqtt_state.c:819-844 MQTT_ReserveState: QoS 0 succeeds at once, the identifier
    is checked, and any other value is passed to addRecord *)
Definition z_reserveState (s : zrecs) (packetId q : Z) : R (status * zrecs) :=
  if q =? 0 then Ok (Success, s)
  else if packetId =? 0 then Ok (BadParameter, s)
  else let! (st, l) := z_addRecord (zarr (zout s)) packetId q PublishSend in
       Ok (st, zset_out s l).

(** core_mqtt_state.c:848-873 MQTT_CalculateStatePublish: the default case gives
    MQTTStateNull *)
Definition z_calculateStatePublish (op : stateop) (q : Z) : pstate :=
  if q =? 0 then PublishDone
  else if q =? 1 then if stateop_beq op OpSend then PubAckPending else PubAckSend
  else if q =? 2 then if stateop_beq op OpSend then PubRecPending else PubRecSend
  else StateNull.

(** core_mqtt_state.c:761-815 updateStatePublish *)
Definition z_updateStatePublish (s : zrecs) (i : option nat) (packetId : Z) (op : stateop)
           (q : Z) (cur new : pstate) : R (status * zrecs) :=
  rassert (negb (packetId =? 0) && negb (q =? 0))
    (if z_validateTransitionPublish cur new op q
     then match op with
          | OpReceive =>
              let! (st, l) := z_addRecord (zarr (zin s)) packetId q new in
              Ok (st, zset_in s l)
          | OpSend =>
              if pstate_beq cur new then Ok (Success, s)
              else match i with
                   | None => Ub
                   | Some i => let! l := z_updateRecord (zarr (zout s)) i new false in
                               Ok (Success, zset_out s l)
                   end
          end
     else Ok (IllegalState, s)).

(** core_mqtt_state.c:877-947 MQTT_UpdateStatePublish *)
Definition z_updateStatePublishApi (s : zrecs) (packetId : Z) (op : stateop) (q : Z)
  : R (status * option pstate * zrecs) :=
  if q =? 0 then Ok (Success, Some PublishDone, s)
  else if packetId =? 0 then Ok (BadParameter, None, s)
  else
    let new := z_calculateStatePublish op q in
    match op with
    | OpSend =>
        let! f := z_findInRecord (zarr (zout s)) packetId in
        match f with
        | None => Ok (BadParameter, None, s)
        | Some (i, r) =>
            if negb (zqos r =? q) then Ok (BadParameter, None, s)
            else let! (st, s') := z_updateStatePublish s (Some i) packetId op q (zst r) new in
                 Ok (st, if status_beq st Success then Some new else None, s')
        end
    | OpReceive =>
        let! (st, s') := z_updateStatePublish s None packetId op q StateNull new in
        Ok (st, if status_beq st Success then Some new else None, s')
    end.

(** core_mqtt_state.c:951-995 MQTT_RemoveStateRecord *)
Definition z_removeStateRecord (s : zrecs) (packetId : Z) : R (status * zrecs) :=
  match zout s with
  | None => Ok (BadParameter, s)
  | Some l =>
      let! f := z_findInRecord l packetId in
      match f with
      | None => Ok (BadParameter, s)
      | Some (i, r) =>
          if pstate_beq (zst r) StateNull then Ok (BadParameter, s)
          else if negb (zqos r =? 1) && negb (zqos r =? 2)
               then Ok (BadParameter, s)
               else let! l' := z_updateRecord l i StateNull true in
                    Ok (Success, zset_out s l')
      end
  end.

(** core_mqtt_state.c:999-1077 MQTT_UpdateStateAck *)
Definition z_updateStateAckApi (s : zrecs) (packetId : Z) (t : acktype) (op : stateop)
  : R (status * option pstate * zrecs) :=
  if packetId =? 0 then Ok (BadParameter, None, s)
  else
    let outgoing := isPublishOutgoing t op in
    let records := zarr (if outgoing then zout s else zin s) in
    let! f := z_findInRecord records packetId in
    match f with
    | None => Ok (BadResponse, None, s)
    | Some (i, r) =>
        let new := z_calculateStateAck t op (zqos r) in
        let! (st, l) := z_updateStateAck records i packetId (zst r) new in
        Ok (st, if status_beq st Success then Some new else None,
            if outgoing then zset_out s l else zset_in s l)
    end.

(** core_mqtt_state.c:1081-1143 MQTT_PubrelToResend and MQTT_PublishToResend *)
Definition z_pubrelToResend (s : zrecs) (cursor : nat) : Z * nat :=
  z_stateSelect (zarr (zout s)) [PubCompPending; PubRelSend] cursor.
Definition z_publishToResend (s : zrecs) (cursor : nat) : Z * nat :=
  z_stateSelect (zarr (zout s)) [PublishSend; PubAckPending; PubRecPending] cursor.

(** core_mqtt.c:2615-2628: the memset in handleCleanSession *)
Definition z_resetRecs (s : zrecs) : zrecs :=
  mkZs (zset_arr (zout s) (repeat zempty (length (zarr (zout s)))))
       (zset_arr (zin s) (repeat zempty (length (zarr (zin s))))).

(** One call of the state engine, as [scall] but with the QoS as an integer.  Not a C
    function. *)
Inductive zcall : Type :=
| ZReserve (id q : Z)
| ZUpdatePublish (id : Z) (op : stateop) (q : Z)
| ZUpdateAck (id : Z) (t : acktype) (op : stateop)
| ZRemove (id : Z)
| ZReset.
Definition z_step (s : zrecs) (c : zcall) : R ((status * option pstate) * zrecs) :=
  match c with
  | ZReserve id q => let! (st, s') := z_reserveState s id q in Ok ((st, None), s')
  | ZUpdatePublish id op q =>
      let! (st, ns, s') := z_updateStatePublishApi s id op q in Ok ((st, ns), s')
  | ZUpdateAck id t op =>
      let! (st, ns, s') := z_updateStateAckApi s id t op in Ok ((st, ns), s')
  | ZRemove id => let! (st, s') := z_removeStateRecord s id in Ok ((st, None), s')
  | ZReset => Ok ((Success, None), z_resetRecs s)
  end.
Fixpoint z_run (s : zrecs) (cs : list zcall) : R (list (status * option pstate) * zrecs) :=
  match cs with
  | [] => Ok ([], s)
  | c :: t => let! (r, s1) := z_step s c in
              let! (rs, s2) := z_run s1 t in Ok (r :: rs, s2)
  end.

(** ** MQTT_Publish *)

(** The publish information as seen by code that tests qos > MQTTQoS0 (or != MQTTQoS0)
    only: MQTT_GetPublishPacketSize (core_mqtt_serializer.c:558-633, line 575) and
    sendPublishWithoutCopy (core_mqtt.c:2151-2253, lines 2188 and 2212).  Which non-zero
    value stands there does not matter to them. *)
Definition with_qos (p : pubinfo) (q : qos) : pubinfo :=
  mkPub q (p_retain p) (p_dup p) (p_topic p) (p_topiclen p) (p_payload p) (p_paylen p).
Definition above (p : pubinfo) (q : Z) : pubinfo := with_qos p (if q =? 0 then Q0 else Q1).
(** The publish information as seen by code that compares with MQTTQoS1 and MQTTQoS2:
    MQTT_SerializePublishHeaderWithoutTopic (core_mqtt_serializer.c:637-701, lines
    649-661). *)
Definition known (p : pubinfo) (q : Z) : pubinfo :=
  with_qos p (if q =? 1 then Q1 else if q =? 2 then Q2 else Q0).

(** core_mqtt.c:2633-2675 validatePublishParams *)
Definition z_validatePublishParams (s : zrecs) (p : pubinfo) (q packetId : Z) : status :=
  if negb (q =? 0) && (packetId =? 0) then BadParameter
  else if (0 <? p_paylen p) && match p_payload p with None => true | _ => false end then BadParameter
  else if match zout s with None => true | _ => false end && (0 <? q)
       then BadParameter
       else Success.

(** core_mqtt.c:3090-3207 MQTT_Publish.  The QoS field of [p] is not read: the field
    holds [q].  The record arrays are [z]; those in the state are not used. *)
Definition z_publish (G : cfg) (p : pubinfo) (q packetId : Z) (z : zrecs) : Mo (status * zrecs) :=
  let* c := getc in
  let st := z_validatePublishParams z p q packetId in
  if status_beq st Success then
    match getPublishPacketSize (above p q) with
    | (Success, Some (remainingLength, _)) =>
        let* (header, headerSize) :=
          lift (serializePublishHeaderWithoutTopic (known p q) remainingLength (repeat 0 7)) in
        let st := must_be_connected c in
        if status_beq st Success then
          let* (st, z) :=
            (if 0 <? q then
               let* (st, z) := lift (z_reserveState z packetId q) in
               ret (if status_beq st StateCollision && p_dup p then Success else st, z)
             else ret (Success, z)) in
          let* st := (if status_beq st Success
                      then sendPublishWithoutCopy G (above p q) header headerSize packetId
                      else ret st) in
          if status_beq st Success && (0 <? q) then
            let* (st, _, z) := lift (z_updateStatePublishApi z packetId OpSend q) in
            ret (st, z)
          else ret (st, z)
        else ret (st, z)
    | (st, _) => ret (st, z)
    end
  else ret (st, z).
