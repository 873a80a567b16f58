(** Vocabulary for statements about executions of the client core: what is observed
    of a trace of events. *)
From Verif Require Import Base StateModel StateSpec StateHarness SerModel WireSpec SerHarness CoreModel CoreSpec.

(** bytes put on the wire, in order *)
Definition outs (t : list ev) : list Z := flat_map (fun e => match e with EOut b => b | _ => [] end) t.
(** bytes taken from the wire, in order *)
Definition ins (t : list ev) : list Z := flat_map (fun e => match e with EIn b => b | _ => [] end) t.
(** the transport reported an error *)
Definition is_err (e : ev) : bool := match e with EOutErr | EInErr => true | _ => false end.
Definition errs (t : list ev) : bool := existsb is_err t.
(** only transport send events *)
Definition is_send (e : ev) : bool := match e with EOut _ | EOutErr => true | _ => false end.
Definition send_only (t : list ev) : Prop := forallb is_send t = true.
(** only transport receive events *)
Definition is_recv (e : ev) : bool := match e with EIn _ | EInErr => true | _ => false end.
Definition recv_only (t : list ev) : Prop := forallb is_recv t = true.

Definition callbacks (t : list ev) : list ev :=
  filter (fun e => match e with ECb _ _ _ _ _ => true | _ => false end) t.
(** complete packets handled, in order *)
Definition handled (t : list ev) : list (Z * list Z) :=
  flat_map (fun e => match e with EPkt ty d => [(ty, d)] | _ => [] end) t.

(** no byte is put on the wire after a transport error *)
Fixpoint quiet (t : list ev) : Prop :=
  match t with
  | [] => True
  | e :: t' => if is_err e then outs t' = [] else quiet t'
  end.

(** packet ids handed out by MQTT_GetPacketId, in order *)
Definition given (t : list ev) : list Z := flat_map (fun e => match e with EId id => [id] | _ => [] end) t.
(** copies handed to the store callback, in order *)
Definition stores (t : list ev) : list (Z * list (list Z) * bool) :=
  flat_map (fun e => match e with EStore id v ok => [(id, v, ok)] | _ => [] end) t.
(** ids whose stored copy was cleared, in order *)
Definition cleared (t : list ev) : list Z := flat_map (fun e => match e with EClear id => [id] | _ => [] end) t.

(** the packet an API call with sound arguments is to send *)
Inductive op_packet (M : Z) : op -> list Z -> Prop :=
| op_publish p id m : pub_means p id m -> op_packet M (OPublish p id) (publish_packet m)
| op_subscribe l fs id : subs_mean l fs -> fs <> [] -> 0 < id < 65536 -> zlen (subscribe_body id fs) < M ->
    op_packet M (OSubscribe (Some l) (zlen l) id) (subscribe_packet id fs)
| op_unsubscribe l fs id : subs_mean l fs -> fs <> [] -> 0 < id < 65536 -> zlen (unsubscribe_body id (map fst fs)) < M ->
    op_packet M (OUnsubscribe (Some l) (zlen l) id) (unsubscribe_packet id (map fst fs))
| op_ping : op_packet M OPing pingreq_packet
| op_disconnect : op_packet M ODisconnect disconnect_packet.

(** outgoing publishes not yet acknowledged by PUBACK or PUBREC, oldest first *)
Definition unacked (l : list flight) : list Z :=
  ids (filter (fun f => match f_st f with PublishSend | PubAckPending | PubRecPending => true | _ => false end) l).
(** outgoing QoS 2 publishes for which PUBREC came but not PUBCOMP, in the order of the PUBRECs *)
Definition half_done (l : list flight) : list Z :=
  ids (filter (fun f => match f_st f with PubRelSend | PubCompPending => true | _ => false end) l).

(** outgoing and incoming publishes in flight *)
Definition outgoing (s : st) : list flight := tracked (outRecs (x_recs (s_ctx s))).
Definition incoming (s : st) : list flight := tracked (inRecs (x_recs (s_ctx s))).

(** m with the DUP flag set *)
Definition with_dup (m : publish_msg) : publish_msg :=
  mkPublish true (pm_qos m) (pm_retain m) (pm_topic m) (pm_id m) (pm_payload m).

(** ** Histories *)
Definition is_disc (o : op) : bool := match o with ODisconnect => true | _ => false end.
Definition call_disc (c : call) : bool := match c with COp o => is_disc o | _ => false end.
Definition call_conn (c : call) : bool := match c with CConnect _ _ _ => true | _ => false end.
(** the application does not call MQTT_Disconnect from its callback *)
Definition calm (e : env) : Prop := existsb (existsb is_disc) (e_cbs e) = false.
(** a client just initialised, with zeroed arrays of [n] and [m] records, any buffer
    (smaller than the address space of at least 2^32 bytes) and any environment *)
Definition opened (G : cfg) (n m : nat) (s : st) : Prop :=
  exists buf retr e, 4294967296 <= g_M G /\ zlen buf < g_M G /\ bytes_ok buf /\ bytes_ok (e_in e) /\ calm e /\
    s = mkSt (init_context buf (fresh_recs n m) retr) e.
(** a client after any history of API calls *)
Definition Begun (G : cfg) (n m : nat) (s : st) : Prop :=
  exists s0 l rs t, opened G n m s0 /\ run_calls G l s0 = Ret rs s t.

(** ** What the application owes the library *)
(** the memory behind a non-NULL pointer has the stated length *)
Definition readable (p : option (list Z)) (len : Z) : Prop :=
  match p with Some m => 0 <= len <= zlen m | None => True end.
Definition u16_ok (n : Z) : Prop := 0 <= n < 65536.
Definition pub_sound (p : pubinfo) : Prop :=
  u16_ok (p_topiclen p) /\ readable (p_topic p) (p_topiclen p) /\ 0 <= p_paylen p /\ readable (p_payload p) (p_paylen p).
Definition subs_sound (subs : option (list subinfo)) (count : Z) : Prop :=
  match subs with
  | Some l => 0 <= count <= zlen l /\ Forall (fun x => u16_ok (s_len x) /\ readable (s_filter x) (s_len x)) l
  | None => True
  end.
Definition op_sound (o : op) : Prop :=
  match o with
  | OPublish p id => u16_ok id /\ pub_sound p
  | OSubscribe subs count id | OUnsubscribe subs count id => u16_ok id /\ subs_sound subs count
  | OCancel id => u16_ok id /\ id <> 0
  | _ => True
  end.
(** a NULL will payload has length 0 *)
Definition con_sound (ci : coninfo) (will : option pubinfo) : Prop :=
  u16_ok (c_keepalive ci) /\ u16_ok (c_idlen ci) /\ readable (c_id ci) (c_idlen ci) /\
  u16_ok (c_userlen ci) /\ readable (c_user ci) (c_userlen ci) /\
  u16_ok (c_passlen ci) /\ readable (c_pass ci) (c_passlen ci) /\
  match will with Some w => pub_sound w /\ (p_payload w = None -> p_paylen w = 0) | None => True end.
Definition call_sound (c : call) : Prop :=
  match c with COp o => op_sound o | CConnect ci will _ => con_sound ci will | _ => True end.
(** also for the calls made from the callbacks to come *)
Definition cbs_sound (e : env) : Prop := Forall (Forall op_sound) (e_cbs e).

(** ** Observations used in the statements *)
(** bytes received and not yet handled *)
Definition pend (c : context) : list Z := firstn (Z.to_nat (x_index c)) (x_buf c).
(** packets handled and packets skipped, in order *)
Definition items (t : list ev) : list item :=
  flat_map (fun e => match e with EPkt ty d => [Whole ty d] | EDrop ty rl => [Skipped ty rl] | _ => [] end) t.
(** calls that neither connect nor disconnect *)
Definition plain (c : call) : bool := match c with COp o => negb (is_disc o) | CConnect _ _ _ => false | _ => true end.
Definition not_recv_failed (st : status) : bool := negb (status_beq st RecvFailed).
Definition mem (id : Z) (l : list Z) : bool := existsb (Z.eqb id) l.
(** the publishes [done] now wait for PUBCOMP *)
Definition mark (done : list Z) (l : list flight) : list flight :=
  map (fun f => if mem (f_id f) done then F (f_id f) (f_qos f) PubCompPending else f) l.
(** PUBREL (3.6 of the standard) for the low 16 bits of [id] *)
Definition pubrel (id : Z) : list Z := [98; 2; id / 256 mod 256; id mod 256].
(** what the retrieve callback answered for the ids asked *)
Definition retrieved (t : list ev) : list (Z * option (list Z)) :=
  flat_map (fun e => match e with ERetrieve id r => [(id, r)] | _ => [] end) t.
(** one packet, or nothing, is on offer; it is sent completely exactly when the call
    gets past sending *)
Definition wire (bs : list Z) (res : status) (s s' : st) (t : list ev) : Prop :=
  exists k, (k <= length bs)%nat /\ outs t = firstn k bs /\ quiet t /\
    (res = Success -> k = length bs) /\ (res = SendFailed -> (k < length bs)%nat) /\
    (errs t = true -> res = SendFailed /\ x_status (s_ctx s') <> Connected).
(** calls that send a packet *)
Definition asks_traffic (o : op) : bool :=
  match o with OPublish _ _ | OSubscribe _ _ _ | OUnsubscribe _ _ _ | OPing => true | _ => false end.
(** how a call is refused without a connection *)
Definition not_connected_result (c : cstatus) : status :=
  match c with DisconnectPending => StDisconnectPending | _ => StNotConnected end.
(** state of a publish whose packet has been sent *)
Definition sent_state (q : qos) : pstate := match q with Q1 => PubAckPending | _ => PubRecPending end.
(** what MQTT_Publish does with the in-flight set [l], when its parameters and the connection are fine *)
Definition pub_cases (cap : nat) (p : pubinfo) (id : Z) (bs : list Z) (res : status) (l l' : list flight) (t : list ev) : Prop :=
  let failed := (res = PublishStoreFailed /\ outs t = [] \/ res = SendFailed /\ exists k, (k < length bs)%nat /\ outs t = firstn k bs) in
  if qos_beq (p_qos p) Q0 then
    l' = l /\ (res = Success /\ outs t = bs \/ res = SendFailed /\ exists k, (k < length bs)%nat /\ outs t = firstn k bs)
  else match lookup l id with
  | None =>
      if (length l <? cap)%nat then
        l' = l ++ [F id (p_qos p) (sent_state (p_qos p))] /\ res = Success /\ outs t = bs \/
        l' = l ++ [F id (p_qos p) PublishSend] /\ failed
      else l' = l /\ res = NoMemory /\ outs t = []
  | Some f =>
      if p_dup p then
        l' = l /\ failed \/
        outs t = bs /\
          (f_qos f = p_qos p /\ res = Success /\ f_st f = PublishSend /\ l' = spec_set l id (sent_state (p_qos p)) \/
           f_qos f = p_qos p /\ res = Success /\ (f_st f = PubAckPending \/ f_st f = PubRecPending) /\ l' = l \/
           f_qos f = p_qos p /\ res = IllegalState /\ ~ In (f_st f) [PublishSend; PubAckPending; PubRecPending] /\ l' = l \/
           f_qos f <> p_qos p /\ res = BadParameter /\ l' = l)
      else l' = l /\ res = StateCollision /\ outs t = []
  end.

(** ** What the client does with a packet *)
(** what the application does in its next callback, and the state in which it starts *)
Definition next_ops (s : st) : list op := match e_cbs (s_env s) with [] => [] | l :: _ => l end.
Definition popped (s : st) : st := mkSt (s_ctx s) (env_cbs (s_env s) (tl (e_cbs (s_env s)))).
(** the callback [e] is made in state [s]; the application makes its calls and returns *)
Definition app_call (G : cfg) (e : ev) (s s' : st) (t : list ev) : Prop :=
  exists t', t = e :: t' /\ run_ops G (next_ops s) (popped s) = Ret tt s' t'.
(** only the record arrays changed *)
Definition recs_only (s s0 : st) : Prop := exists r, s0 = mkSt (set_recs (s_ctx s) r) (s_env s).
Definition session_of (n m : nat) (s : st) : session := mkSession n (outgoing s) m (incoming s).
Definition ack_of (k : acktype) : ack_kind :=
  match k with Puback => KPuback | Pubrec => KPubrec | Pubrel => KPubrel | Pubcomp => KPubcomp end.
(** the answer owed to an acknowledgement *)
Definition reply_to (k : acktype) : option acktype :=
  match k with Pubrec => Some Pubrel | Pubrel => Some Pubcomp | Puback | Pubcomp => None end.

(** nothing changed but the connection status, the records, what belongs to sending
    and the clock *)
Definition only_tx (s s' : st) : Prop :=
  exists xst lt ctl r ts sn,
    s' = mkSt (set_recs (set_ctl (set_lastTx (set_status (s_ctx s) xst) lt) ctl) r) (env_sends (env_times (s_env s) ts) sn).
Section Handling.
Variables (G : cfg) (n m : nat).
(** the acknowledgement [k] for [id] is sent, as far as possible *)
Definition replied (k : acktype) (id : Z) (s : st) (res : status) (s' : st) (t : list ev) : Prop :=
  x_status (s_ctx s) <> Connected /\ res = not_connected_result (x_status (s_ctx s)) /\ s' = s /\ t = [] \/
  x_status (s_ctx s) = Connected /\ send_only t /\ quiet t /\ only_tx s s' /\
    x_status (s_ctx s') = (if errs t then DisconnectPending else Connected) /\
    ((exists j, (j < 4)%nat /\ outs t = firstn j (ack_packet (ack_of k) id)) /\ res = SendFailed /\
       outgoing s' = outgoing s /\ incoming s' = incoming s \/
     outs t = ack_packet (ack_of k) id /\ errs t = false /\
       let r := spec_step (session_of n m s) (Acked id k OpSend) in res = fst (fst r) /\ session_of n m s' = snd r).
(** a PUBLISH with first byte [ty] and the given body *)
Inductive publish_handled (ty : Z) (body : list Z) (s : st) : status -> st -> list ev -> Prop :=
| ph_bad : (forall msg, publish_means ty body msg -> pm_topic msg = [] /\ pm_payload msg = []) ->
    publish_handled ty body s BadResponse s []
| ph_qos0 msg d s' t : publish_means ty body msg -> dpub_means body d None msg -> pm_qos msg = Q0 ->
    app_call G (ECb ty body 0 (Some d) Success) s s' t -> publish_handled ty body s Success s' t
| ph_no_records msg : publish_means ty body msg -> pm_qos msg <> Q0 -> m = 0%nat ->
    publish_handled ty body s RecvFailed s []
| ph_repeated msg s0 res s' t : publish_means ty body msg -> pm_qos msg <> Q0 -> m <> 0%nat ->
    in_flight (incoming s) (pm_id msg) = true ->
    recs_only s s0 -> session_of n m s0 = session_of n m s ->
    replied (match pm_qos msg with Q1 => Puback | _ => Pubrec end) (pm_id msg) s0 res s' t ->
    publish_handled ty body s res s' t
| ph_new msg d s0 s1 t1 res s' t : publish_means ty body msg -> dpub_means body d (Some (pm_id msg)) msg -> pm_qos msg <> Q0 ->
    m <> 0%nat -> in_flight (incoming s) (pm_id msg) = false -> (length (incoming s) < m)%nat ->
    recs_only s s0 -> outgoing s0 = outgoing s ->
    incoming s0 = incoming s ++ [F (pm_id msg) (pm_qos msg) (match pm_qos msg with Q1 => PubAckSend | _ => PubRecSend end)] ->
    app_call G (ECb ty body (pm_id msg) (Some d) Success) s0 s1 t1 ->
    replied (match pm_qos msg with Q1 => Puback | _ => Pubrec end) (pm_id msg) s1 res s' t ->
    publish_handled ty body s res s' (t1 ++ t)
| ph_full msg s' : publish_means ty body msg -> pm_qos msg <> Q0 -> m <> 0%nat ->
    in_flight (incoming s) (pm_id msg) = false -> length (incoming s) = m ->
    recs_only s s' -> session_of n m s' = session_of n m s ->
    publish_handled ty body s NoMemory s' [].
(** PUBACK, PUBREC, PUBREL or PUBCOMP with the given body *)
Inductive ack_handled (k : acktype) (body : list Z) (s : st) : status -> st -> list ev -> Prop :=
| ah_bad : (forall id, 1 <= id <= 65535 -> body <> be16 id) -> ack_handled k body s BadResponse s []
| ah_refused id s' : 1 <= id <= 65535 -> body = be16 id ->
    let r := spec_step (session_of n m s) (Acked id k OpReceive) in
    fst (fst r) <> Success -> recs_only s s' -> session_of n m s' = session_of n m s ->
    ack_handled k body s (fst (fst r)) s' []
| ah_accepted id s0 s1 t1 res s' t : 1 <= id <= 65535 -> body = be16 id ->
    let r := spec_step (session_of n m s) (Acked id k OpReceive) in
    fst (fst r) = Success -> recs_only s s0 -> session_of n m s0 = snd r ->
    app_call G (ECb (ack_first (ack_of k)) body id None Success) s0 s1 t1 ->
    match reply_to k with Some k' => replied k' id s1 res s' t | None => res = Success /\ s' = s1 /\ t = [] end ->
    ack_handled k body s res s'
      ((match k with Puback | Pubrec => if x_retr (s_ctx s) then [EClear id] else [] | _ => [] end) ++ t1 ++ t).
(** a complete packet; [mk]: in MQTT_ProcessLoop *)
Inductive packet_handled (mk : bool) (ty : Z) (body : list Z) (s : st) : status -> st -> list ev -> Prop :=
| h_publish res s' t : ty / 16 = 3 -> publish_handled ty body s res s' t -> packet_handled mk ty body s res s' t
| h_ack k res s' t : ty = ack_first (ack_of k) -> ack_handled k body s res s' t -> packet_handled mk ty body s res s' t
| h_suback r id s' t : ty = 144 -> suback_result body = (r, Some id) -> r = Success \/ r = ServerRefused ->
    app_call G (ECb ty body id None r) s s' t -> packet_handled mk ty body s Success s' t
| h_suback_bad : ty = 144 -> fst (suback_result body) = BadResponse -> packet_handled mk ty body s BadResponse s []
| h_unsuback id s' t : ty = 176 -> 1 <= id <= 65535 -> body = be16 id ->
    app_call G (ECb ty body id None Success) s s' t -> packet_handled mk ty body s Success s' t
| h_unsuback_bad : ty = 176 -> (forall id, 1 <= id <= 65535 -> body <> be16 id) -> packet_handled mk ty body s BadResponse s []
| h_pingresp : mk = true -> ty = 208 -> body = [] ->
    packet_handled mk ty body s Success (mkSt (set_keep (s_ctx s) (x_keep (s_ctx s)) (x_pingTime (s_ctx s)) false) (s_env s)) []
| h_pingresp_app s' t : mk = false -> ty = 208 -> body = [] ->
    app_call G (ECb ty body 0 None Success) s s' t -> packet_handled mk ty body s Success s' t
| h_pingresp_bad : ty = 208 -> body <> [] -> packet_handled mk ty body s BadResponse s []
| h_other : ty / 16 <> 3 -> ~ In ty [64; 80; 98; 112; 144; 176; 208] -> packet_handled mk ty body s BadResponse s [].
End Handling.

(** ** What one call of the loop does *)
Definition since (now start : Z) : Z := (now - start) mod 4294967296.
(** the clock is read *)
Definition clock_read (s : st) (now : Z) (s1 : st) : Prop :=
  exists x l, e_times (s_env s) = x :: l /\ now = x mod 4294967296 /\ s1 = mkSt (s_ctx s) (env_times (s_env s) l).
(** nothing changed but the buffer, the bytes still to come and the clock *)
Definition only_rx (s s1 : st) : Prop :=
  exists b i inp rv ts, s1 = mkSt (set_index (set_buf (s_ctx s) b) i) (env_times (env_recv (s_env s) inp rv) ts).
(** the buffer is moved on after a packet; success is recorded with the time *)
Definition stamped (r : status) (s s' : st) : Prop :=
  exists b i,
    if status_beq r Success
    then exists x l, e_times (s_env s) = x :: l /\
      s' = mkSt (set_lastRx (set_index (set_buf (s_ctx s) b) i) (x mod 4294967296)) (env_times (s_env s) l)
    else s' = mkSt (set_index (set_buf (s_ctx s) b) i) (s_env s).
(** a transport error makes a connected client wait for MQTT_Disconnect *)
Definition broken (s : st) : st :=
  mkSt (set_status (s_ctx s) (match x_status (s_ctx s) with Connected => DisconnectPending | x => x end)) (s_env s).
(** PINGREQ is sent, as far as possible *)
Definition pinged (s : st) (res : status) (s' : st) (t : list ev) : Prop :=
  x_status (s_ctx s) <> Connected /\ res = not_connected_result (x_status (s_ctx s)) /\ s' = s /\ t = [] \/
  x_status (s_ctx s) = Connected /\ send_only t /\ quiet t /\
    (exists s1 p w, only_tx s s1 /\ s' = mkSt (set_keep (s_ctx s1) (x_keep (s_ctx s1)) p w) (s_env s1)) /\
    x_status (s_ctx s') = (if errs t then DisconnectPending else Connected) /\
    x_recs (s_ctx s') = x_recs (s_ctx s) /\
    ((exists j, (j < 2)%nat /\ outs t = firstn j pingreq_packet) /\ res = SendFailed /\
       x_waiting (s_ctx s') = x_waiting (s_ctx s) /\ x_pingTime (s_ctx s') = x_pingTime (s_ctx s) \/
     outs t = pingreq_packet /\ errs t = false /\ res = Success /\
       x_waiting (s_ctx s') = true /\ x_pingTime (s_ctx s') = x_lastTx (s_ctx s')).
(** nothing sent for the keep-alive interval (or PACKET_TX_TIMEOUT_MS, if shorter), or
    nothing received for PACKET_RX_TIMEOUT_MS *)
Definition ping_due (G : cfg) (c : context) (now : Z) : bool :=
  let tx := Z.min (1000 * x_keep c mod 4294967296) (g_tx G) in
  negb (tx =? 0) && (tx <=? since now (x_lastTx c)) ||
  negb (since now (x_lastRx c) =? 0) && (g_rx G <=? since now (x_lastRx c)).
(** the keep-alive part of an idle pass *)
Definition kept_alive (G : cfg) (s : st) (res : status) (s' : st) (t : list ev) : Prop :=
  exists now s1, clock_read s now s1 /\
    if x_waiting (s_ctx s)
    then res = (if g_pingto G <? since now (x_pingTime (s_ctx s)) then KeepAliveTimeout else Success) /\ s' = s1 /\ t = []
    else if ping_due G (s_ctx s) now then pinged s1 res s' t
    else res = Success /\ s' = s1 /\ t = [].
Section Loop.
Variables (G : cfg) (n m : nat).
(** what is done with the bytes received and not yet handled *)
Inductive next_handled (mk : bool) (s : st) : status -> st -> list ev -> Prop :=
| nh_none : pend (s_ctx s) = [] -> next_handled mk s Success s []
| nh_incomplete : Incomplete (zlen (x_buf (s_ctx s))) (pend (s_ctx s)) -> next_handled mk s NeedMoreBytes s []
| nh_garbage : Garbage (pend (s_ctx s)) -> next_handled mk s BadResponse s []
| nh_skipped h part ty rem s1 err s' t :
    header h ty rem -> pend (s_ctx s) = h ++ part -> zlen (x_buf (s_ctx s)) < zlen h + rem ->
    recv_only t -> errs t = err -> zlen (part ++ ins t) <= rem -> e_in (s_env s) = ins t ++ e_in (s_env s') ->
    only_rx s s1 -> s' = (if err then broken s1 else s1) -> pend (s_ctx s') = [] ->
    next_handled mk s (if negb err && (zlen (part ++ ins t) =? rem) then Success else RecvFailed) s' (EDrop ty rem :: t)
| nh_packet h ty body rest r s3 s' t :
    header h ty (zlen body) -> pend (s_ctx s) = h ++ body ++ rest -> zlen h + zlen body <= zlen (x_buf (s_ctx s)) ->
    packet_handled G n m mk ty body s r s3 t ->
    stamped r s3 s' -> e_in (s_env s') = e_in (s_env s) -> pend (s_ctx s') = rest ->
    next_handled mk s r s' (EPkt ty body :: t).
(** one call of MQTT_ProcessLoop ([mk]) or MQTT_ReceiveLoop *)
Inductive loop_handled (mk : bool) (s : st) : status -> st -> list ev -> Prop :=
| lh_error s1 : only_rx s s1 -> e_times (s_env s1) = e_times (s_env s) -> pend (s_ctx s1) = pend (s_ctx s) -> e_in (s_env s1) = e_in (s_env s) ->
    loop_handled mk s RecvFailed (broken s1) [EInErr]
| lh_read bs s1 k s2 t2 res s' t3 :
    only_rx s s1 -> e_times (s_env s1) = e_times (s_env s) -> e_in (s_env s) = bs ++ e_in (s_env s1) -> pend (s_ctx s1) = pend (s_ctx s) ++ bs ->
    zlen (x_buf (s_ctx s1)) = zlen (x_buf (s_ctx s)) ->
    (if mk && (zlen bs =? 0) then kept_alive G s1 k s2 t2 else k = Success /\ s2 = s1 /\ t2 = []) ->
    (k <> Success /\ res = k /\ s' = s2 /\ t3 = [] \/ k = Success /\ next_handled mk s2 res s' t3) ->
    loop_handled mk s res s' (EIn bs :: t2 ++ t3).
End Loop.

(** ** Packet ids *)
(** the id after [id]: 1 follows 65535 *)
Definition next_id (id : Z) : Z := if id =? 65535 then 1 else id + 1.
(** the ids [l] handed out one after the other from [a] on; [b] comes next *)
Fixpoint counted (a : Z) (l : list Z) (b : Z) : Prop :=
  match l with [] => a = b | x :: l' => x = a /\ counted (next_id a) l' b end.

(** ** Deliveries *)
(** a QoS 1 or 2 publish handed to the application: its id and QoS *)
Definition delivery (e : ev) : option (Z * qos) :=
  match e with
  | ECb _ _ id (Some d) _ => if qos_beq (d_qos d) Q0 then None else Some (id, d_qos d)
  | _ => None
  end.
(** in [t] the exchange of the incoming QoS 2 publish [id] is completed: PUBREL is
    handled and PUBCOMP sent *)
Definition completed (id : Z) (t : list ev) : Prop :=
  In (EPkt 98 (be16 id)) t /\ exists a b, outs t = a ++ ack_packet KPubcomp id ++ b.

(** no MQTT_Connect among the calls [l] is accepted with a new session *)
Fixpoint same_session (G : cfg) (l : list call) (s : st) : Prop :=
  match l with
  | [] => True
  | c :: l' =>
      match run_call G c s with
      | Ret _ s' t => (call_conn c = true -> ins t <> [32; 2; 0; 0]) /\ same_session G l' s'
      | _ => True
      end
  end.

(** ** Callbacks *)
(** a packet the application may be shown, with the id and the information passed on;
    [mk]: in MQTT_ProcessLoop *)
Inductive shown (mk : bool) (ty : Z) (body : list Z) : Z -> option dpub -> status -> Prop :=
| sh_publish msg d : publish_means ty body msg ->
    dpub_means body d (match pm_qos msg with Q0 => None | _ => Some (pm_id msg) end) msg ->
    shown mk ty body (match pm_qos msg with Q0 => 0 | _ => pm_id msg end) (Some d) Success
| sh_ack k id : ty = ack_first (ack_of k) -> 1 <= id <= 65535 -> body = be16 id -> shown mk ty body id None Success
| sh_suback r id : ty = 144 -> suback_result body = (r, Some id) -> r = Success \/ r = ServerRefused -> shown mk ty body id None r
| sh_unsuback id : ty = 176 -> 1 <= id <= 65535 -> body = be16 id -> shown mk ty body id None Success
| sh_pingresp : mk = false -> ty = 208 -> body = [] -> shown mk ty body 0 None Success.
(** every callback in [t] shows the packet handled last, each packet at most once;
    [cur]: the packet handled and not yet shown *)
Fixpoint served (mk : bool) (cur : option (Z * list Z)) (t : list ev) : Prop :=
  match t with
  | [] => True
  | EPkt ty body :: t' => served mk (Some (ty, body)) t'
  | ECb ty body id pub r :: t' => cur = Some (ty, body) /\ shown mk ty body id pub r /\ served mk None t'
  | _ :: t' => served mk cur t'
  end.

(** [r] contains no complete packet at its front *)
Definition no_packet (B : Z) (r : list Z) : Prop := r = [] \/ Incomplete B r \/ Garbage r.

(** a packet that asks for the acknowledgement [kind] with [id] *)
Inductive asks_reply (ty : Z) (body : list Z) : ack_kind -> Z -> Prop :=
| ar_qos1 msg : publish_means ty body msg -> pm_qos msg = Q1 -> asks_reply ty body KPuback (pm_id msg)
| ar_qos2 msg : publish_means ty body msg -> pm_qos msg = Q2 -> asks_reply ty body KPubrec (pm_id msg)
| ar_pubrec id : ty = 80 -> 1 <= id <= 65535 -> body = be16 id -> asks_reply ty body KPubrel id
| ar_pubrel id : ty = 98 -> 1 <= id <= 65535 -> body = be16 id -> asks_reply ty body KPubcomp id.

(** the loop that handles PINGRESP itself *)
Definition manages (c : call) : bool := match c with CReceive => false | _ => true end.
(** nothing, or the handling of a packet *)
Definition begins (t : list ev) : Prop :=
  t = [] \/ exists e u, t = e :: u /\ match e with EPkt _ _ | EDrop _ _ => True | _ => False end.
