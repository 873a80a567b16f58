(** Vocabulary shared by the statements about the state engine: how calls are
    driven and what is observed of the record arrays. *)
From Verif Require Import Base StateModel StateSpec.

(** A slot is in use when its packetId is not MQTT_PACKET_ID_INVALID (0). *)
Definition live (r : rec) : bool := negb (rid r =? 0).
Definition to_flight (r : rec) : flight := F (rid r) (rqos r) (rst r).
(** The slots in use, in array order. *)
Definition abs (l : list rec) : list flight := map to_flight (filter live l).
Definition tracked (o : option (list rec)) : list flight := abs (arr o).

(** The engine call that carries out an operation of the specification. *)
Definition to_call (o : sop) : scall :=
  match o with
  | Reserve id q => CReserve id q
  | Published id op q => CUpdatePublish id op q
  | Acked id t op => CUpdateAck id t op
  | Cancel id => CRemove id
  | NewSession => CReset
  end.

(** Call contract: record arrays of n (outgoing) and m (incoming) slots were
    provided for the direction used, and a cancelled id is not 0. *)
Definition call_ok (n m : nat) (o : sop) : Prop :=
  match o with
  | Reserve _ Q0 => True
  | Reserve id _ => id <> 0 -> n <> 0%nat
  | Published _ OpReceive (Q1 | Q2) => m <> 0%nat
  | Cancel id => id <> 0
  | _ => True
  end.

(** Engine states reachable from zeroed arrays of n and m slots. *)
Definition Reach (n m : nat) (c : recs) : Prop :=
  exists ops outs, Forall (call_ok n m) ops /\
    engine_run (fresh_recs n m) (map to_call ops) = Ok (outs, c).

(** The publishes an ack can concern, and those it cannot. *)
Definition side (t : acktype) (op : stateop) (c : recs) : list flight :=
  tracked (if concerns_sent t op then outRecs c else inRecs c).
Definition other_side (t : acktype) (op : stateop) (c : recs) : list flight :=
  tracked (if concerns_sent t op then inRecs c else outRecs c).
Definition ack_table (q : qos) (s : pstate) (t : acktype) (op : stateop) : action :=
  if concerns_sent t op then sender_table q s t op else receiver_table q s t op.

(** All publishes but one. *)
Definition others (l : list flight) (id : Z) : list flight := filter (fun f => negb (f_id f =? id)) l.

(** Events of a history (call, result): the exchange of an outgoing publish
    completes; a publish is reserved. *)
Definition is_completion (id : Z) (x : sop * (status * option pstate)) : bool :=
  match x with
  | (Acked i t op, (Success, Some PublishDone)) => (i =? id) && concerns_sent t op
  | _ => false end.
Definition is_reservation (id : Z) (x : sop * (status * option pstate)) : bool :=
  match x with
  | (Reserve i (Q1 | Q2), (Success, _)) => i =? id
  | _ => false end.
Definition count {A} (f : A -> bool) (l : list A) : nat := length (filter f l).

Definition b2n (b : bool) : nat := if b then 1%nat else 0%nat.


(** A concrete busy state: two outgoing and one incoming publish after some holes
    were made, in arrays of 3 and 2 slots. *)
Definition busy_ops : list sop :=
  [Reserve 7 Q1; Reserve 8 Q2; Published 7 OpSend Q1; Published 8 OpSend Q2; Reserve 9 Q1;
   Published 9 OpSend Q1; Acked 7 Puback OpReceive; Acked 8 Pubrec OpReceive;
   Published 4 OpReceive Q2; Acked 4 Pubrec OpSend].
Definition busy : recs :=
  match engine_run (fresh_recs 3 2) (map to_call busy_ops) with Ok (_, c) => c | Ub => fresh_recs 0 0 end.
Definition busy_outs : list (status * option pstate) :=
  match engine_run (fresh_recs 3 2) (map to_call busy_ops) with Ok (o, _) => o | Ub => [] end.

