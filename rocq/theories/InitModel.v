(** The functions that set up a context, and the names of status codes and states.
    Pointers to functions are numbers ([None] is NULL).  A context is an optional
    [craw]: [None] is a NULL pContext. *)
From Coq Require Import ZArith List Bool String.
From Verif Require Import Base StateModel CoreModel.
Import ListNotations.
Open Scope Z_scope.

(** source/interface/transport_interface.h:302-308 TransportInterface_t *)
Record transport : Type := mkTr { t_recv : option Z; t_send : option Z; t_writev : option Z; t_net : option Z }.
(** core_mqtt_serializer.h:129-133 MQTTFixedBuffer_t: pointer and stated size *)
Record fixedbuf : Type := mkFb { fb_ptr : option (list Z); fb_size : Z }.

(** core_mqtt.h:230-322 MQTTContext_t, every field, with arbitrary contents.  The
    connection status of memory that was never initialised is any number. *)
Record craw : Type := mkRaw {
  k_out : option (list rec); k_outn : Z;
  k_in : option (list rec); k_inn : Z;
  k_tr : transport; k_fb : fixedbuf;
  k_next : Z; k_cb : option Z;
  k_lastTx : Z; k_lastRx : Z; k_ctl : bool;
  k_status : Z;
  k_time : option Z;
  k_index : Z; k_keep : Z; k_ping : Z; k_wait : bool;
  k_store : option Z; k_retrieve : option Z; k_clear : option Z }.

(** all bytes zero: core_mqtt.c:2722 memset; NULL pointers are all zeros *)
Definition zero_raw : craw :=
  mkRaw None 0 None 0 (mkTr None None None None) (mkFb None 0) 0 None 0 0 false 0 None 0 0 0 false
        None None None.

Definition nul {A} (o : option A) : bool := match o with None => true | Some _ => false end.

(** core_mqtt.c:2679-2734 MQTT_Init; MQTTNotConnected is 0 (core_mqtt.h:165-170) *)
Definition mqtt_init (ctx : option craw) (tr : option transport) (getTime cb : option Z)
    (buf : option fixedbuf) : status * option craw :=
  match ctx, tr, buf with
  | Some k, Some t, Some b =>
      if nul getTime then (BadParameter, ctx)
      else if nul cb then (BadParameter, ctx)
      else if nul (t_recv t) then (BadParameter, ctx)
      else if nul (t_send t) then (BadParameter, ctx)
      else
        let z := zero_raw in
        (Success, Some (mkRaw (k_out z) (k_outn z) (k_in z) (k_inn z) t b 1 cb (k_lastTx z) (k_lastRx z)
                              (k_ctl z) 0 getTime (k_index z) (k_keep z) (k_ping z) (k_wait z)
                              (k_store z) (k_retrieve z) (k_clear z)))
  | _, _, _ => (BadParameter, ctx)
  end.

(** core_mqtt.c:2738-2791 MQTT_InitStatefulQoS; the arrays are not touched *)
Definition mqtt_init_stateful (ctx : option craw) (po : option (list rec)) (no : Z)
    (pi : option (list rec)) (ni : Z) : status * option craw :=
  match ctx with
  | None => (BadParameter, ctx)
  | Some k =>
      if negb (Bool.eqb (no =? 0) (nul po)) then (BadParameter, ctx)
      else if negb (Bool.eqb (ni =? 0) (nul pi)) then (BadParameter, ctx)
      else if nul (k_cb k) then (BadParameter, ctx)
      else (Success, Some (mkRaw po no pi ni (k_tr k) (k_fb k) (k_next k) (k_cb k) (k_lastTx k) (k_lastRx k)
                                 (k_ctl k) (k_status k) (k_time k) (k_index k) (k_keep k) (k_ping k) (k_wait k)
                                 (k_store k) (k_retrieve k) (k_clear k)))
  end.

(** core_mqtt.c:2795-2831 MQTT_InitRetransmits *)
Definition mqtt_init_retransmits (ctx : option craw) (store retrieve clear : option Z)
    : status * option craw :=
  match ctx with
  | None => (BadParameter, ctx)
  | Some k =>
      if nul store then (BadParameter, ctx)
      else if nul retrieve then (BadParameter, ctx)
      else if nul clear then (BadParameter, ctx)
      else (Success, Some (mkRaw (k_out k) (k_outn k) (k_in k) (k_inn k) (k_tr k) (k_fb k) (k_next k) (k_cb k)
                                 (k_lastTx k) (k_lastRx k) (k_ctl k) (k_status k) (k_time k) (k_index k) (k_keep k)
                                 (k_ping k) (k_wait k) store retrieve clear))
  end.

(** One call of the three. *)
Inductive icall : Type :=
| IInit (tr : option transport) (getTime cb : option Z) (buf : option fixedbuf)
| IStateful (po : option (list rec)) (no : Z) (pi : option (list rec)) (ni : Z)
| IRetransmits (store retrieve clear : option Z).
Definition icall_run (c : icall) (ctx : option craw) : status * option craw :=
  match c with
  | IInit tr g cb b => mqtt_init ctx tr g cb b
  | IStateful po no pi ni => mqtt_init_stateful ctx po no pi ni
  | IRetransmits s r cl => mqtt_init_retransmits ctx s r cl
  end.

(** core_mqtt.c:3438-3461 MQTT_ProcessLoop and 3465-3487 MQTT_ReceiveLoop: the checks made
    before receiveSingleIteration *)
Definition loop_checks (ctx : option craw) : status :=
  match ctx with
  | None => BadParameter
  | Some k => if nul (k_time k) then BadParameter
              else if nul (fb_ptr (k_fb k)) then BadParameter else Success
  end.

(** Value of the MQTTConnectionStatus_t enum (core_mqtt.h:165-170). *)
Definition cstatus_val (s : cstatus) : Z :=
  match s with NotConnected => 0 | Connected => 1 | DisconnectPending => 2 end.
(** The context [c] of CoreModel.v stands for the memory [k].  Blocks have their stated
    sizes, pointers the library calls are not NULL, the three functions for stored
    publishes are set together. *)
Definition stands (k : craw) (c : context) : Prop :=
  x_recs c = mkRecs (k_out k) (k_in k) /\
  k_outn k = zlen (arr (k_out k)) /\ k_inn k = zlen (arr (k_in k)) /\
  (k_out k = None <-> k_outn k = 0) /\ (k_in k = None <-> k_inn k = 0) /\
  fb_ptr (k_fb k) = Some (x_buf c) /\ fb_size (k_fb k) = zlen (x_buf c) /\
  x_index c = k_index k /\ x_nextId c = k_next k /\ cstatus_val (x_status c) = k_status k /\
  x_lastTx c = k_lastTx k /\ x_lastRx c = k_lastRx k /\ x_ctl c = k_ctl k /\ x_keep c = k_keep k /\
  x_pingTime c = k_ping k /\ x_waiting c = k_wait k /\
  k_time k <> None /\ k_cb k <> None /\ t_recv (k_tr k) <> None /\ t_send (k_tr k) <> None /\
  (if x_retr c then k_store k <> None /\ k_retrieve k <> None /\ k_clear k <> None
   else k_store k = None /\ k_retrieve k = None /\ k_clear k = None).

Open Scope string_scope.
(** core_mqtt_serializer.h:86-109 MQTTStatus_t: values in order of declaration *)
Definition status_val (s : status) : Z :=
  match s with
  | Success => 0 | BadParameter => 1 | NoMemory => 2 | SendFailed => 3 | RecvFailed => 4
  | BadResponse => 5 | ServerRefused => 6 | NoDataAvailable => 7 | IllegalState => 8
  | StateCollision => 9 | KeepAliveTimeout => 10 | NeedMoreBytes => 11 | StConnected => 12
  | StNotConnected => 13 | StDisconnectPending => 14 | PublishStoreFailed => 15
  | PublishRetrieveFailed => 16
  end.
(** core_mqtt.c:3648-3728 MQTT_Status_strerror, on any value of the enum's type *)
Definition mqtt_status_strerror (v : Z) : string :=
  match v with
  | 0 => "MQTTSuccess"
  | 1 => "MQTTBadParameter"
  | 2 => "MQTTNoMemory"
  | 3 => "MQTTSendFailed"
  | 4 => "MQTTRecvFailed"
  | 5 => "MQTTBadResponse"
  | 6 => "MQTTServerRefused"
  | 7 => "MQTTNoDataAvailable"
  | 8 => "MQTTIllegalState"
  | 9 => "MQTTStateCollision"
  | 10 => "MQTTKeepAliveTimeout"
  | 11 => "MQTTNeedMoreBytes"
  | 12 => "MQTTStatusConnected"
  | 13 => "MQTTStatusNotConnected"
  | 14 => "MQTTStatusDisconnectPending"
  | 15 => "MQTTPublishStoreFailed"
  | 16 => "MQTTPublishRetrieveFailed"
  | _ => "Invalid MQTT Status code"
  end.
(** core_mqtt_state.c:1147-1204 MQTT_State_strerror *)
Definition mqtt_state_strerror (v : Z) : string :=
  match v with
  | 0 => "MQTTStateNull"
  | 1 => "MQTTPublishSend"
  | 2 => "MQTTPubAckSend"
  | 3 => "MQTTPubRecSend"
  | 4 => "MQTTPubRelSend"
  | 5 => "MQTTPubCompSend"
  | 6 => "MQTTPubAckPending"
  | 7 => "MQTTPubRecPending"
  | 8 => "MQTTPubRelPending"
  | 9 => "MQTTPubCompPending"
  | 10 => "MQTTPublishDone"
  | _ => "Invalid MQTT State"
  end.
