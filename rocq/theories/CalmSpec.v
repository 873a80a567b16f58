(** A calm environment: during a call the transport reports no error and the clock,
    which does not go backwards, advances by less than MQTT_SEND_TIMEOUT_MS. *)
From Verif Require Import Base StateModel StateSpec StateHarness SerModel WireSpec SerHarness CoreModel CoreSpec CoreHarness.
From Coq Require Import Sorting.Sorted.

(** [s] is the state in which the call begins, [s'] that in which it ends, [t] its
    events.  Between two readings of the clock less than [B] ms pass. *)
Definition within (B : Z) (s s' : st) : Prop :=
  exists ts, e_times (s_env s) = ts ++ e_times (s_env s') /\ Sorted Z.le ts /\
    forall x y, In x ts -> In y ts -> y - x < B.
(** The transport may take or deliver no byte as often as it likes. *)
Definition smooth (G : cfg) (s s' : st) (t : list ev) : Prop :=
  errs t = false /\ within (g_sendto G) s s'.

(** Polls that deliver [n] bytes when asked for them: each delivers as many as it
    can of what is still missing, or nothing. *)
Inductive arrives : Z -> list Z -> Prop :=
| arr_done : arrives 0 []
| arr_none n l : 0 < n -> arrives n l -> arrives n (0 :: l)
| arr_some n a l : 0 < n -> 0 < a -> arrives (n - Z.min a n) l -> arrives n (a :: l).

(** Calls that have no reason to be refused in [s], with the packet they stand for:
    legal arguments that fit in a packet, and for a publish with QoS 1 or 2 an
    identifier not in use and a free record. *)
Inductive ready (n m : nat) (s : st) : op -> list Z -> Prop :=
| rd_publish p id msg : pub_means p id msg -> pm_topic msg <> [] -> zlen (publish_body msg) <= 268435450 ->
    (p_qos p <> Q0 -> id <> 0 /\ lookup (outgoing s) id = None /\ (length (outgoing s) < n)%nat) ->
    ready n m s (OPublish p id) (publish_packet msg)
| rd_subscribe l fs id : subs_mean l fs -> fs <> [] -> 0 < id < 65536 -> zlen (subscribe_body id fs) <= max_remaining ->
    ((0 < m)%nat \/ Forall (fun f => snd f = Q0) fs) ->
    ready n m s (OSubscribe (Some l) (zlen l) id) (subscribe_packet id fs)
| rd_unsubscribe l fs id : subs_mean l fs -> fs <> [] -> 0 < id < 65536 -> zlen (unsubscribe_body id (map fst fs)) <= max_remaining ->
    ((0 < m)%nat \/ Forall (fun f => snd f = Q0) fs) ->
    ready n m s (OUnsubscribe (Some l) (zlen l) id) (unsubscribe_packet id (map fst fs))
| rd_ping : ready n m s OPing pingreq_packet
| rd_disconnect : ready n m s ODisconnect disconnect_packet.

(** A CONNACK that accepts the connection, with the session-present flag [p], is on
    its way: [k] polls find nothing, the two bytes of the fixed header follow one by
    one and then the two bytes of the rest. *)
Definition connack_on_its_way (k : nat) (p : bool) (s : st) : Prop :=
  exists a b pieces rv inp, 0 < a /\ 0 < b /\ arrives 2 pieces /\
    e_recvs (s_env s) = repeat 0 k ++ a :: b :: pieces ++ rv /\
    e_in (s_env s) = 32 :: 2 :: (if p then 1 else 0) :: 0 :: inp.
(** [B] ms and [k] empty polls are within all the limits that MQTT_Connect observes *)
Definition patient (G : cfg) (tmo B : Z) (k : nat) : Prop :=
  0 <= g_sendto G < 4294967296 /\ 0 < g_poll G < 4294967296 /\ 0 <= tmo < 4294967296 /\ 0 <= g_retry G <= 65535 /\
  B <= g_sendto G /\ B <= g_poll G /\ if 0 <? tmo then B <= tmo else Z.of_nat k <= g_retry G.
