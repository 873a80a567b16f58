(** Model of source/core_mqtt_state.c.  No proofs in this file.

    The record arrays are lists (one element per array slot, holes included).
    Simplification: addRecord casts the record count to int32_t (line 539); the
    model assumes counts below 2^31 and does not model the truncation.  The array
    lengths are the counts given to MQTT_InitStatefulQoS. *)
From Verif Require Import Base.

(** MQTTPubAckInfo_t: source/include/core_mqtt.h:219-224 *)
Record rec : Type := mkRec { rid : Z; rqos : qos; rst : pstate }.

(** Contents of a free slot (core_mqtt_state.c:591-593, MQTT_PACKET_ID_INVALID). *)
Definition empty_rec : rec := mkRec 0 Q0 StateNull.

(** core_mqtt_state.c:234-298 validateTransitionPublish *)
Definition validateTransitionPublish (cur new : pstate) (op : stateop) (q : qos) : bool :=
  match cur with
  | StateNull =>
      if stateop_beq op OpReceive
      then pstate_beq new PubAckSend || pstate_beq new PubRecSend
      else false
  | PublishSend =>
      match q with
      | Q1 => pstate_beq new PubAckPending
      | Q2 => pstate_beq new PubRecPending
      | Q0 => false
      end
  | PubAckPending => pstate_beq new PubAckPending
  | PubRecPending => pstate_beq new PubRecPending
  | _ => false
  end.

(** core_mqtt_state.c:302-409 validateTransitionAck *)
Definition validateTransitionAck (cur new : pstate) : bool :=
  match cur with
  | PubAckSend | PubAckPending => pstate_beq new PublishDone
  | PubRecSend => pstate_beq new PubRelPending
  | PubRelPending => pstate_beq new PubCompSend || pstate_beq new PubRelPending
  | PubCompSend => pstate_beq new PublishDone || pstate_beq new PubCompSend
  | PubRecPending => pstate_beq new PubRelSend
  | PubRelSend => pstate_beq new PubCompPending
  | PubCompPending => pstate_beq new PublishDone || pstate_beq new PubCompPending
  | _ => false
  end.

(** core_mqtt_state.c:413-436 isPublishOutgoing *)
Definition isPublishOutgoing (t : acktype) (op : stateop) : bool :=
  match t with
  | Puback | Pubrec | Pubcomp => stateop_beq op OpReceive
  | Pubrel => stateop_beq op OpSend
  end.

(** core_mqtt_state.c:440-468 findInRecord.  The result [Some (i, r)] stands for
    index i with *pQos and *pCurrentState set from record i; [None] stands for
    MQTT_INVALID_STATE_COUNT ( *pCurrentState = MQTTStateNull, *pQos untouched).
    The assert at line 448 is [Ub]. *)
Fixpoint find_loop (records : list rec) (index : nat) (packetId : Z) : option (nat * rec) :=
  match records with
  | [] => None
  | r :: t => if rid r =? packetId then Some (index, r) else find_loop t (S index) packetId
  end.
Definition findInRecord (records : list rec) (packetId : Z) : R (option (nat * rec)) :=
  rassert (negb (packetId =? 0)) (Ok (find_loop records 0 packetId)).

(** core_mqtt_state.c:472-510 compactRecords: loop body at index [index] on the
    pair (records, emptyIndex); None = MQTT_INVALID_STATE_COUNT. *)
Definition compact_body (st : list rec * option nat) (index : nat) : list rec * option nat :=
  let '(records, emptyIndex) := st in
  let r := nth index records empty_rec in
  if rid r =? 0
  then match emptyIndex with
       | None => (records, Some index)
       | Some _ => (records, emptyIndex)
       end
  else match emptyIndex with
       | Some e => (upd (upd records e (mkRec (rid r) (rqos r) (rst r))) index empty_rec, Some (S e))
       | None => (records, None)
       end.
(** core_mqtt_state.c:481-509: the for loop from 0 to recordCount. *)
Definition compactRecords (records : list rec) : list rec :=
  fst (fold_left compact_body (seq 0 (length records)) (records, None)).

(** core_mqtt_state.c:539-566: the descending loop of addRecord.  [index] here is
    the C index plus one; result (collision found, availableIndex), where
    availableIndex = recordCount is None. *)
Fixpoint add_scan (records : list rec) (index : nat) (packetId : Z)
         (availableIndex : option nat) (validEntryFound : bool) : bool * option nat :=
  match index with
  | O => (false, availableIndex)
  | S i =>
      let r := nth i records empty_rec in
      if rid r =? 0
      then add_scan records i packetId
             (if validEntryFound then availableIndex else Some i) validEntryFound
      else if rid r =? packetId
           then (true, None)
           else add_scan records i packetId availableIndex true
  end.

(** core_mqtt_state.c:514-577 addRecord.  Reading records[recordCount - 1] of an
    empty array (line 530) and the asserts at 525-526 are [Ub]. *)
Definition addRecord (records : list rec) (packetId : Z) (q : qos) (st : pstate)
  : R (status * list rec) :=
  rassert (negb (packetId =? 0) && negb (qos_beq q Q0))
    match length records with
    | O => Ub
    | S last =>
        let records := if negb (rid (nth last records empty_rec) =? 0)
                       then compactRecords records else records in
        match add_scan records (length records) packetId None false with
        | (true, _) => Ok (StateCollision, records)
        | (false, None) => Ok (NoMemory, records)
        | (false, Some i) => Ok (Success, upd records i (mkRec packetId q st))
        end
    end.

(** core_mqtt_state.c:581-599 updateRecord; an index outside the array is [Ub]. *)
Definition updateRecord (records : list rec) (i : nat) (new : pstate) (shouldDelete : bool)
  : R (list rec) :=
  match nth_error records i with
  | None => Ub
  | Some r => Ok (if shouldDelete then upd records i empty_rec
                  else upd records i (mkRec (rid r) (rqos r) new))
  end.

(** core_mqtt_state.c:37-61: UINT16_CHECK_BIT / UINT16_SET_BIT on state masks;
    a mask is the list of the states whose bit is set. *)
Definition in_mask (mask : list pstate) (s : pstate) : bool := existsb (pstate_beq s) mask.

(** core_mqtt_state.c:603-647 stateSelect.  The cursor is a nat; the result is
    (packetId, new cursor), packetId 0 = MQTT_PACKET_ID_INVALID.  The asserts at
    613-626 hold for the two callers' masks. *)
Fixpoint select_loop (rest : list rec) (mask : list pstate) (cursor : nat) : Z * nat :=
  match rest with
  | [] => (0, cursor)
  | r :: t => if in_mask mask (rst r) then (rid r, S cursor)
              else select_loop t mask (S cursor)
  end.
Definition stateSelect (records : list rec) (mask : list pstate) (cursor : nat) : Z * nat :=
  select_loop (skipn cursor records) mask cursor.

(** core_mqtt_state.c:651-696 MQTT_CalculateStateAck *)
Definition calculateStateAck (t : acktype) (op : stateop) (q : qos) : pstate :=
  let '(qosValid, st) :=
    match t with
    | Puback => (qos_beq q Q1, PublishDone)
    | Pubrec => (qos_beq q Q2, if stateop_beq op OpSend then PubRelPending else PubRelSend)
    | Pubrel => (qos_beq q Q2, if stateop_beq op OpSend then PubCompPending else PubCompSend)
    | Pubcomp => (qos_beq q Q2, PublishDone)
    end in
  if qosValid : bool then st else StateNull.

(** core_mqtt_state.c:700-757 updateStateAck *)
Definition updateStateAck (records : list rec) (i : nat) (packetId : Z) (cur new : pstate)
  : R (status * list rec) :=
  let shouldDelete := pstate_beq new PublishDone || pstate_beq new PubRelSend in
  if validateTransitionAck cur new
  then if pstate_beq cur new
       then Ok (Success, records)
       else let! records := updateRecord records i new shouldDelete in
            if pstate_beq new PubRelSend
            then addRecord records packetId Q2 PubRelSend
            else Ok (Success, records)
  else Ok (IllegalState, records).

(** The two record arrays of the context: source/include/core_mqtt.h:232-250.
    [None] is a NULL array pointer (then the count is 0). *)
Record recs : Type := mkRecs { outRecs : option (list rec); inRecs : option (list rec) }.

(** array contents seen by the loops: a NULL array has count 0 *)
Definition arr (o : option (list rec)) : list rec := match o with Some l => l | None => [] end.

(** write back an array in place (the pointer itself never changes) *)
Definition set_arr (o : option (list rec)) (l : list rec) : option (list rec) :=
  match o with Some _ => Some l | None => None end.
Definition set_out (s : recs) (l : list rec) : recs := mkRecs (set_arr (outRecs s) l) (inRecs s).
Definition set_in (s : recs) (l : list rec) : recs := mkRecs (outRecs s) (set_arr (inRecs s) l).

(** core_mqtt_state.c:819-844 MQTT_ReserveState (context pointer not NULL) *)
Definition reserveState (s : recs) (packetId : Z) (q : qos) : R (status * recs) :=
  if qos_beq q Q0 then Ok (Success, s)
  else if packetId =? 0 then Ok (BadParameter, s)
  else let! (st, l) := addRecord (arr (outRecs s)) packetId q PublishSend in
       Ok (st, set_out s l).

(** core_mqtt_state.c:848-873 MQTT_CalculateStatePublish *)
Definition calculateStatePublish (op : stateop) (q : qos) : pstate :=
  match q with
  | Q0 => PublishDone
  | Q1 => if stateop_beq op OpSend then PubAckPending else PubAckSend
  | Q2 => if stateop_beq op OpSend then PubRecPending else PubRecSend
  end.

(** core_mqtt_state.c:761-815 updateStatePublish; [i] = None is
    MQTT_INVALID_STATE_COUNT. *)
Definition updateStatePublish (s : recs) (i : option nat) (packetId : Z) (op : stateop)
           (q : qos) (cur new : pstate) : R (status * recs) :=
  rassert (negb (packetId =? 0) && negb (qos_beq q Q0))
    (if validateTransitionPublish cur new op q
     then match op with
          | OpReceive =>
              let! (st, l) := addRecord (arr (inRecs s)) packetId q new in
              Ok (st, set_in s l)
          | OpSend =>
              if pstate_beq cur new then Ok (Success, s)
              else match i with
                   | None => Ub
                   | Some i => let! l := updateRecord (arr (outRecs s)) i new false in
                               Ok (Success, set_out s l)
                   end
          end
     else Ok (IllegalState, s)).

(** core_mqtt_state.c:877-947 MQTT_UpdateStatePublish (pointers not NULL).  The
    result carries *pNewState when it was written. *)
Definition updateStatePublishApi (s : recs) (packetId : Z) (op : stateop) (q : qos)
  : R (status * option pstate * recs) :=
  match q with
  | Q0 => Ok (Success, Some PublishDone, s)
  | _ =>
    if packetId =? 0 then Ok (BadParameter, None, s)
    else
      let new := calculateStatePublish op q in
      match op with
      | OpSend =>
          let! f := findInRecord (arr (outRecs s)) packetId in
          match f with
          | None => Ok (BadParameter, None, s)
          | Some (i, r) =>
              if negb (qos_beq (rqos r) q) then Ok (BadParameter, None, s)
              else let! (st, s') := updateStatePublish s (Some i) packetId op q (rst r) new in
                   Ok (st, if status_beq st Success then Some new else None, s')
          end
      | OpReceive =>
          let! (st, s') := updateStatePublish s None packetId op q StateNull new in
          Ok (st, if status_beq st Success then Some new else None, s')
      end
  end.

(** core_mqtt_state.c:951-995 MQTT_RemoveStateRecord.  packetId 0 trips the assert
    in findInRecord. *)
Definition removeStateRecord (s : recs) (packetId : Z) : R (status * recs) :=
  match outRecs s with
  | None => Ok (BadParameter, s)
  | Some l =>
      let! f := findInRecord l packetId in
      match f with
      | None => Ok (BadParameter, s)
      | Some (i, r) =>
          if pstate_beq (rst r) StateNull then Ok (BadParameter, s)
          else if negb (qos_beq (rqos r) Q1) && negb (qos_beq (rqos r) Q2)
               then Ok (BadParameter, s)
               else let! l' := updateRecord l i StateNull true in
                    Ok (Success, set_out s l')
      end
  end.

(** core_mqtt_state.c:999-1077 MQTT_UpdateStateAck (pointers not NULL, ack type in
    range). *)
Definition updateStateAckApi (s : recs) (packetId : Z) (t : acktype) (op : stateop)
  : R (status * option pstate * recs) :=
  if packetId =? 0 then Ok (BadParameter, None, s)
  else
    let outgoing := isPublishOutgoing t op in
    let records := arr (if outgoing then outRecs s else inRecs s) in
    let! f := findInRecord records packetId in
    match f with
    | None => Ok (BadResponse, None, s)
    | Some (i, r) =>
        let new := calculateStateAck t op (rqos r) in
        let! (st, l) := updateStateAck records i packetId (rst r) new in
        Ok (st, if status_beq st Success then Some new else None,
            if outgoing then set_out s l else set_in s l)
    end.

(** core_mqtt_state.c:1081-1113 MQTT_PubrelToResend (pointers not NULL); *pState is
    always MQTTPubRelSend when an id is returned. *)
Definition pubrelToResend (s : recs) (cursor : nat) : Z * nat :=
  stateSelect (arr (outRecs s)) [PubCompPending; PubRelSend] cursor.

(** core_mqtt_state.c:1117-1143 MQTT_PublishToResend (pointers not NULL) *)
Definition publishToResend (s : recs) (cursor : nat) : Z * nat :=
  stateSelect (arr (outRecs s)) [PublishSend; PubAckPending; PubRecPending] cursor.

(** core_mqtt.c:2615-2628: the memset of both record arrays in handleCleanSession
    (all-zero bytes are packetId 0, MQTTQoS0, MQTTStateNull). *)
Definition resetRecs (s : recs) : recs :=
  mkRecs (set_arr (outRecs s) (repeat empty_rec (length (arr (outRecs s)))))
         (set_arr (inRecs s) (repeat empty_rec (length (arr (inRecs s))))).

(** One call of the state engine (used to state properties of call sequences).
    Not a C function: dispatches to the functions above. *)
Inductive scall : Type :=
| CReserve (id : Z) (q : qos)                    (* MQTT_ReserveState       *)
| CUpdatePublish (id : Z) (op : stateop) (q : qos) (* MQTT_UpdateStatePublish *)
| CUpdateAck (id : Z) (t : acktype) (op : stateop) (* MQTT_UpdateStateAck    *)
| CRemove (id : Z)                               (* MQTT_RemoveStateRecord  *)
| CReset.                                        (* memset in handleCleanSession *)

Definition engine_step (s : recs) (c : scall) : R ((status * option pstate) * recs) :=
  match c with
  | CReserve id q => let! (st, s') := reserveState s id q in Ok ((st, None), s')
  | CUpdatePublish id op q =>
      let! (st, ns, s') := updateStatePublishApi s id op q in Ok ((st, ns), s')
  | CUpdateAck id t op =>
      let! (st, ns, s') := updateStateAckApi s id t op in Ok ((st, ns), s')
  | CRemove id => let! (st, s') := removeStateRecord s id in Ok ((st, None), s')
  | CReset => Ok ((Success, None), resetRecs s)
  end.

Fixpoint engine_run (s : recs) (cs : list scall) : R (list (status * option pstate) * recs) :=
  match cs with
  | [] => Ok ([], s)
  | c :: t => let! (r, s1) := engine_step s c in
              let! (rs, s2) := engine_run s1 t in Ok (r :: rs, s2)
  end.

(** Zero-initialised arrays of n and m records (core_mqtt.c:2738-2791 stores the
    pointers only; zeroing is the caller's job or done by a clean session). *)
Definition fresh_recs (n m : nat) : recs :=
  mkRecs (match n with O => None | _ => Some (repeat empty_rec n) end)
         (match m with O => None | _ => Some (repeat empty_rec m) end).
