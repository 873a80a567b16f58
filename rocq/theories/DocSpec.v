(** The statuses each function of the API is documented to return (C118). *)
From Verif Require Import Base StateModel CoreModel.

(** source/include/core_mqtt.h, the @return of each function.  MQTT_GetPacketId has no status;
    the model gives it MQTTSuccess. *)
Definition documented (c : call) : list status :=
  match c with
  | COp (OPublish _ _) => (* 784-792 *)
      [NoMemory; BadParameter; SendFailed; StNotConnected; StDisconnectPending; PublishStoreFailed; Success]
  | COp (OSubscribe _ _ _) (* 727-734 *) | COp (OUnsubscribe _ _ _) (* 877-884 *) | COp OPing (* 856-862 *) =>
      [NoMemory; BadParameter; SendFailed; StNotConnected; StDisconnectPending; Success]
  | COp ODisconnect => (* 931-936 *) [NoMemory; BadParameter; SendFailed; StNotConnected; Success]
  | COp OGetId => [Success]
  | COp (OCancel _) => (* 843-844 *) [BadParameter; Success]
  | COp OCheck => (* 587-590 *) [BadParameter; StConnected; StNotConnected; StDisconnectPending]
  | CConnect _ _ _ => (* 631-643 *)
      [NoMemory; BadParameter; SendFailed; RecvFailed; NoDataAvailable; StConnected; StDisconnectPending; PublishRetrieveFailed; Success]
  | CProcess => (* 960-974 *)
      [BadParameter; RecvFailed; SendFailed; BadResponse; KeepAliveTimeout; IllegalState; NeedMoreBytes; StNotConnected; StDisconnectPending; Success]
  | CReceive => (* 1022-1030 *)
      [BadParameter; RecvFailed; SendFailed; BadResponse; IllegalState; NeedMoreBytes; Success]
  end.
(** statuses returned all the same *)
Definition undocumented (c : call) : list status :=
  match c with
  | COp (OPublish _ _) => [StateCollision; IllegalState]
  | COp _ => []
  | CConnect _ _ _ => [BadResponse; ServerRefused]
  | CProcess => [NoMemory]
  | CReceive => [NoMemory; StNotConnected; StDisconnectPending]
  end.
(** documented and never returned when no pointer to the context is NULL *)
Definition never_returned (c : call) : list status :=
  match c with
  | COp (OPublish _ _) => []
  | COp (OSubscribe _ _ _) | COp (OUnsubscribe _ _ _) => [NoMemory]
  | COp OPing | COp ODisconnect => [NoMemory; BadParameter]
  | COp OGetId | COp (OCancel _) => []
  | COp OCheck => [BadParameter]
  | CConnect _ _ _ => [NoMemory]
  | CProcess | CReceive => [BadParameter]
  end.
