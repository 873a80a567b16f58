(** An abstract MQTT client, written down without the code: what a client may send,
    show to the application and remember, as a machine with labelled steps.

    The machine is about one connection after the other over one session.  It speaks
    of whole packets and of packets cut off in the middle, not of calls to the
    transport; the bookkeeping is [spec_step] of StateSpec.v, the packets are those
    of WireSpec.v. *)
From Verif Require Import Base StateModel StateSpec SerModel WireSpec SerHarness CoreModel CoreHarness.

(** ** Packets a client sends *)
Inductive cpkt : Type :=
| KConnect (m : connect_msg)
| KPublish (m : publish_msg)
| KSubscribe (id : Z) (fs : list (list Z * qos))
| KUnsubscribe (id : Z) (fs : list (list Z))
| KPing
| KDisconnect
| KAck (k : acktype) (id : Z)
| KAgain (id : Z) (bs : list Z).   (* the stored copy of a publish, as the application returned it *)
Definition bytes (p : cpkt) : list Z :=
  match p with
  | KConnect m => connect_packet m
  | KPublish m => publish_packet m
  | KSubscribe id fs => subscribe_packet id fs
  | KUnsubscribe id fs => unsubscribe_packet id fs
  | KPing => pingreq_packet
  | KDisconnect => disconnect_packet
  | KAck k id => ack_packet (ack_of k) id
  | KAgain _ bs => bs
  end.
Definition id_ok (id : Z) : Prop := 1 <= id <= 65535.
Definition str_ok (s : list Z) : Prop := zlen s <= 65535.
Definition name_ok (s : list Z) : Prop := s <> [] /\ str_ok s.
Definition opt_ok (o : option (list Z)) : Prop := match o with Some s => str_ok s | None => True end.
(** the fields are within the bounds of the standard: identifiers are not 0 (2.3.1),
    strings have a 16-bit length (1.5.3), topics and filters are not empty (4.7.3),
    lists of filters are not empty (3.8.3, 3.10.3), the length fits (2.2.3).  Of a CONNECT
    two demands of the standard are left out because the client does not meet them: a will
    topic that is not empty (4.7.3) and no password without a user name (3.1.2.9). *)
Definition pkt_ok (p : cpkt) : Prop :=
  match p with
  | KConnect m => u16_ok (cm_keepalive m) /\ str_ok (cm_id m) /\ opt_ok (cm_user m) /\ opt_ok (cm_pass m) /\
      match cm_will m with Some w => str_ok (wm_topic w) /\ str_ok (wm_payload w) | None => True end /\
      zlen (connect_body m) <= max_remaining
  | KPublish m => name_ok (pm_topic m) /\ (pm_qos m <> Q0 -> id_ok (pm_id m)) /\ zlen (publish_body m) <= max_remaining
  | KSubscribe id fs => id_ok id /\ fs <> [] /\ Forall (fun f => name_ok (fst f)) fs /\ zlen (subscribe_body id fs) <= max_remaining
  | KUnsubscribe id fs => id_ok id /\ fs <> [] /\ Forall name_ok fs /\ zlen (unsubscribe_body id fs) <= max_remaining
  | KAck _ id => id_ok id
  | KPing | KDisconnect | KAgain _ _ => True
  end.

(** ** What is seen of a client: whole packets, cut packets, other events *)
Inductive tok : Type :=
| Sent (p : cpkt)
| Cut (p : cpkt) (err : bool)    (* [err]: by an error of the transport; otherwise by the send timeout *)
| Did (e : ev).
(** the events [t] are the packets and events [l] *)
Inductive Says : list ev -> list tok -> Prop :=
| says_nil : Says [] []
| says_sent p b t l : send_only b -> errs b = false -> outs b = bytes p -> Says t l -> Says (b ++ t) (Sent p :: l)
| says_cut p k b t l : send_only b -> errs b = false -> (k < length (bytes p))%nat -> outs b = firstn k (bytes p) -> Says t l ->
    Says (b ++ t) (Cut p false :: l)
| says_err p k b t l : send_only b -> errs b = false -> (k < length (bytes p))%nat -> outs b = firstn k (bytes p) -> Says t l ->
    Says (b ++ EOutErr :: t) (Cut p true :: l)
| says_did e t l : is_send e = false -> Says t l -> Says (e :: t) (Did e :: l).

(** ** The machine *)
(** what the thread that reads has begun *)
Inductive job : Type :=
| Idle
| Failed                                (* the connection is to be given up *)
| Got (ty : Z) (body : list Z)          (* a packet was received *)
| Clear (id : Z) (j : job)              (* the stored copy of a publish is to be dropped *)
| Show (e : ev) (j : job)               (* the application is to be told *)
| Owe (k : acktype) (id : Z) (j : job)  (* an acknowledgement is to be sent *)
| Note (k : acktype) (id : Z) (j : job) (* it was sent, which is to be recorded *)
| Wait (clean : bool) (bs : list Z)     (* CONNECT was sent, [bs] was read since *)
| Resume                                (* the server still has the session *)
| Fetch (id : Z)                        (* the stored copy of a publish is to be fetched *)
| Again (id : Z) (bs : list Z).         (* and to be sent *)
Record mstate : Type := mkM { m_conn : cstatus; m_ses : session; m_next : Z (* the next packet identifier *); m_job : job }.

Definition broke (c : cstatus) : cstatus := match c with Connected => DisconnectPending | _ => c end.
(** a packet is sent, whole or not; a transport error breaks the connection *)
Inductive sends (p : cpkt) (c : cstatus) : bool -> list tok -> cstatus -> Prop :=
| sends_all : sends p c true [Sent p] c
| sends_part : sends p c false [Cut p false] c
| sends_err : sends p c false [Cut p true] (broke c).
Definition ok_of (r : (status * option pstate) * session) : status := fst (fst r).
Definition give_up (j : job) : job := match j with Resume => Failed | _ => Idle end.
Definition answer (q : qos) : acktype := match q with Q1 => Puback | _ => Pubrec end.

Section Machine.
Variable rt : bool.   (* publishes are stored, for retransmission *)
Variable cn : bool.   (* publishes are cancelled *)

(** the store function is called with the publish as it would be sent again *)
Definition kept_copy (m : publish_msg) (ok : bool) (l : list tok) : Prop :=
  if rt then exists v, concat v = publish_packet (with_dup m) /\ l = [Did (EStore (pm_id m) v ok)]
  else ok = true /\ l = [].

Inductive mstep : mstate -> list tok -> mstate -> Prop :=
(** *** Calls of the application, at any time *)
| s_publish0 se i j m ok l c' : pkt_ok (KPublish m) -> pm_qos m = Q0 -> sends (KPublish m) Connected ok l c' ->
    mstep (mkM Connected se i j) l (mkM c' se i j)
| s_publish se i j m ok l0 ok1 l c' : pkt_ok (KPublish m) -> pm_qos m <> Q0 ->
    let r := spec_step se (Reserve (pm_id m) (pm_qos m)) in
    ok_of r = Success \/ ok_of r = StateCollision /\ pm_dup m = true ->
    kept_copy m ok l0 ->
    (if ok then sends (KPublish m) Connected ok1 l c' else ok1 = false /\ l = [] /\ c' = Connected) ->
    mstep (mkM Connected se i j) (l0 ++ l)
      (mkM c' (if ok1 then snd (spec_step (snd r) (Published (pm_id m) OpSend (pm_qos m))) else snd r) i j)
| s_subscribe se i j id fs ok l c' : pkt_ok (KSubscribe id fs) -> sends (KSubscribe id fs) Connected ok l c' ->
    mstep (mkM Connected se i j) l (mkM c' se i j)
| s_unsubscribe se i j id fs ok l c' : pkt_ok (KUnsubscribe id fs) -> sends (KUnsubscribe id fs) Connected ok l c' ->
    mstep (mkM Connected se i j) l (mkM c' se i j)
| s_ping se i j ok l c' : sends KPing Connected ok l c' -> mstep (mkM Connected se i j) l (mkM c' se i j)
| s_disconnect c se i ok l c' : c <> NotConnected -> sends KDisconnect NotConnected ok l c' ->
    mstep (mkM c se i Idle) l (mkM c' se i Idle)
| s_id c se i j : mstep (mkM c se i j) [Did (EId i)] (mkM c se (next_id i) j)
| s_cancel c se i j id : cn = true -> mstep (mkM c se i j) [] (mkM c (snd (spec_step se (Cancel id))) i j)
(** *** Reading *)
| s_read c se i bs : mstep (mkM c se i Idle) [Did (EIn bs)] (mkM c se i Idle)
| s_read_error c se i : mstep (mkM c se i Idle) [Did EInErr] (mkM c se i Failed)
| s_failed c se i : mstep (mkM c se i Failed) [] (mkM (broke c) se i Idle)
| s_drop c se i ty rl : mstep (mkM c se i Idle) [Did (EDrop ty rl)] (mkM c se i Idle)
| s_packet c se i ty body : mstep (mkM c se i Idle) [Did (EPkt ty body)] (mkM c se i (Got ty body))
(** *** A packet *)
| s_ignore c se i ty body : mstep (mkM c se i (Got ty body)) [] (mkM c se i Idle)
| s_got_publish0 c se i ty body m d : publish_means ty body m -> dpub_means body d None m -> pm_qos m = Q0 ->
    mstep (mkM c se i (Got ty body)) [] (mkM c se i (Show (ECb ty body 0 (Some d) Success) Idle))
| s_got_publish c se i ty body m d : publish_means ty body m -> dpub_means body d (Some (pm_id m)) m -> pm_qos m <> Q0 ->
    let r := spec_step se (Published (pm_id m) OpReceive (pm_qos m)) in ok_of r = Success ->
    mstep (mkM c se i (Got ty body)) []
      (mkM c (snd r) i (Show (ECb ty body (pm_id m) (Some d) Success) (Owe (answer (pm_qos m)) (pm_id m) Idle)))
| s_got_repeated c se i ty body m : publish_means ty body m -> pm_qos m <> Q0 ->
    ok_of (spec_step se (Published (pm_id m) OpReceive (pm_qos m))) = StateCollision ->
    mstep (mkM c se i (Got ty body)) [] (mkM c se i (Owe (answer (pm_qos m)) (pm_id m) Idle))
| s_got_ack c se i k id : id_ok id ->
    let r := spec_step se (Acked id k OpReceive) in ok_of r = Success ->
    let told := Show (ECb (ack_first (ack_of k)) (be16 id) id None Success)
                  (match reply_to k with Some k' => Owe k' id Idle | None => Idle end) in
    mstep (mkM c se i (Got (ack_first (ack_of k)) (be16 id))) []
      (mkM c (snd r) i (match k with Puback | Pubrec => if rt then Clear id told else told | _ => told end))
| s_got_suback c se i body id r : suback_result body = (r, Some id) -> r = Success \/ r = ServerRefused ->
    mstep (mkM c se i (Got 144 body)) [] (mkM c se i (Show (ECb 144 body id None r) Idle))
| s_got_unsuback c se i id : id_ok id ->
    mstep (mkM c se i (Got 176 (be16 id))) [] (mkM c se i (Show (ECb 176 (be16 id) id None Success) Idle))
| s_got_pingresp c se i : mstep (mkM c se i (Got 208 [])) [] (mkM c se i (Show (ECb 208 [] 0 None Success) Idle))
| s_clear c se i id j : mstep (mkM c se i (Clear id j)) [Did (EClear id)] (mkM c se i j)
| s_show c se i e j : mstep (mkM c se i (Show e j)) [Did e] (mkM c se i j)
(** *** Acknowledgements *)
| s_owe se i k id j ok l c' : sends (KAck k id) Connected ok l c' ->
    mstep (mkM Connected se i (Owe k id j)) l (mkM c' se i (if ok then Note k id j else give_up j))
| s_owe_not c se i k id j : c <> Connected -> mstep (mkM c se i (Owe k id j)) [] (mkM c se i (give_up j))
| s_note c se i k id j : let r := spec_step se (Acked id k OpSend) in
    mstep (mkM c se i (Note k id j)) [] (mkM c (snd r) i (if status_beq (ok_of r) Success then j else give_up j))
(** *** Connecting *)
| s_connect se i m ok l : pkt_ok (KConnect m) -> sends (KConnect m) NotConnected ok l NotConnected ->
    mstep (mkM NotConnected se i Idle) l (mkM NotConnected se i (if ok then Wait (cm_clean m) [] else Failed))
| s_wait_read c se i cl bs bs' : mstep (mkM c se i (Wait cl bs)) [Did (EIn bs')] (mkM c se i (Wait cl (bs ++ bs')))
| s_wait_end c se i cl bs : mstep (mkM c se i (Wait cl bs)) [] (mkM c se i Failed)
| s_failed_read c se i bs : mstep (mkM c se i Failed) [Did (EIn bs)] (mkM c se i Failed)
| s_failed_error c se i : mstep (mkM c se i Failed) [Did EInErr] (mkM c se i Failed)
| s_refused c se i : mstep (mkM c se i Idle) [] (mkM c se i Failed)   (* MQTT_Connect with bad parameters *)
| s_new_session c se i cl : mstep (mkM c se i (Wait cl [32; 2; 0; 0]))
    (if rt then map (fun id => Did (EClear id)) (unacked (sent se)) else [])
    (mkM Connected (snd (spec_step se NewSession)) i Idle)
| s_old_session c se i : mstep (mkM c se i (Wait false [32; 2; 1; 0])) [] (mkM Connected se i Resume)
(** *** Sending again *)
| s_resume_pubrel c se i id : In id (half_done (sent se)) -> mstep (mkM c se i Resume) [] (mkM c se i (Owe Pubrel id Resume))
| s_resume_publish c se i id : rt = true -> In id (unacked (sent se)) -> mstep (mkM c se i Resume) [] (mkM c se i (Fetch id))
| s_fetch c se i id r : mstep (mkM c se i (Fetch id)) [Did (ERetrieve id r)]
    (mkM c se i (match r with Some bs => Again id bs | None => Failed end))
| s_again c se i id bs ok l c' : sends (KAgain id bs) c ok l c' ->
    mstep (mkM c se i (Again id bs)) l (mkM c' se i (if ok then Resume else Failed))
| s_resumed c se i : mstep (mkM c se i Resume) [] (mkM c se i Idle).

Inductive Run : mstate -> list tok -> mstate -> Prop :=
| run_nil a : Run a [] a
| run_step a l1 b l2 d : mstep a l1 b -> Run b l2 d -> Run a (l1 ++ l2) d.
End Machine.
