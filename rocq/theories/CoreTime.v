(** Vocabulary for the statements about termination: clocks that advance, and how
    much work a call may do. *)
From Verif Require Import Base StateModel SerModel CoreModel.

(** readings of a clock that advances between 1 and D milliseconds from one reading
    to the next; [last] is the reading before the first *)
Fixpoint ticking (D last : Z) (l : list Z) : Prop :=
  match l with [] => True | x :: r => 1 <= x - last <= D /\ ticking D x r end.

(** transport calls in a trace *)
Definition sendn (t : list ev) : Z := zlen (filter (fun e => match e with EOut _ | EOutErr => true | _ => false end) t).
Definition recvn (t : list ev) : Z := zlen (filter (fun e => match e with EIn _ | EInErr => true | _ => false end) t).

(** messages given to the transport by one API call *)
Definition op_msgs (o : op) : Z :=
  match o with
  | OPublish _ _ | OPing | ODisconnect => 1
  | OSubscribe _ count _ | OUnsubscribe _ count _ => Z.max 0 count + 1
  | _ => 0
  end.
Definition ops_msgs (l : list op) : Z := fold_right (fun o n => op_msgs o + n) 0 l.

Section Budget.
Variable G : cfg.
(** sends for one message, readings of the clock for one message *)
Definition msg_sends : Z := g_sendto G + 1.
Definition msg_times : Z := 2 * (g_sendto G + 1) + 1.
(** polls without data before recvExact gives up *)
Definition polls : Z := Z.max 1 (g_poll G).
(** the largest packet *)
Definition largest : Z := 268435455 + 5.
(** attempts to read the header of the CONNACK *)
Definition attempts (timeoutMs : Z) : Z := if 0 <? timeoutMs then timeoutMs else g_retry G + 1.
(** messages and transport reads of a call; N outgoing records, at most K messages
    from one callback *)
Definition call_msgs (N K : Z) (c : call) : Z :=
  match c with
  | COp o => op_msgs o
  | CConnect _ _ _ => 1 + 2 * (N + 2)
  | CProcess | CReceive => K + 2
  end.
Definition call_recvs (c : call) : Z :=
  match c with
  | COp _ => 0
  | CConnect _ _ timeoutMs => 5 * attempts timeoutMs + largest * polls
  | CProcess | CReceive => 1 + largest * polls
  end.
Definition call_times (N K : Z) (c : call) : Z :=
  call_msgs N K c * msg_times + match c with COp _ => 0 | _ => 2 * call_recvs c + largest * 2 + 5 end.
Definition calls_sum (f : call -> Z) (l : list call) : Z := fold_right (fun c n => f c + n) 0 l.
End Budget.

(** the timeouts and the clock suit each other: no wrap of the 32-bit clock hides
    that a timeout is over *)
Definition clock_suits (G : cfg) (D : Z) : Prop :=
  1 <= D /\ 0 <= g_sendto G /\ 0 <= g_poll G /\ 0 <= g_retry G <= 65535 /\
  g_sendto G + 2 * D < 4294967296 /\ Z.max 1 (g_poll G) + D < 4294967296.
(** the time-out of a MQTT_Connect is over before the clock has wrapped *)
Definition call_suits (D : Z) (c : call) : Prop :=
  match c with CConnect _ _ timeoutMs => 0 <= timeoutMs /\ timeoutMs + D < 4294967296 | _ => True end.
