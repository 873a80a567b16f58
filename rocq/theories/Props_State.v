(** Properties C16-C22 of the QoS 1/2 bookkeeping (core_mqtt_state.c).
    Statements only: proofs are in StateProofs.v and StateProofs2.v. *)
From Verif Require Import Base StateModel StateSpec StateHarness StateProofs StateProofs2.

Example busy_reachable : Reach 3 2 busy.
Proof.
  exists busy_ops, busy_outs. split.
  - repeat constructor; cbn; lia.
  - vm_compute. reflexivity.
Qed.
Example busy_contents :
  tracked (outRecs busy) = [F 9 Q1 PubAckPending; F 8 Q2 PubRelSend] /\
  tracked (inRecs busy) = [F 4 Q2 PubRelPending].
Proof. vm_compute. split; reflexivity. Qed.

(** *** C16 *)
(** No two publishes of one direction share a packet id, and id 0 is never used. *)
Theorem inflight_ids_unique : forall n m c, Reach n m c ->
  NoDup (ids (tracked (outRecs c))) /\ NoDup (ids (tracked (inRecs c))) /\
  ~ In 0 (ids (tracked (outRecs c))) /\ ~ In 0 (ids (tracked (inRecs c))).
Proof. exact ids_unique. Qed.
Print Assumptions inflight_ids_unique.

(** Reserving an id that is in flight is refused and changes no tracked publish. *)
Theorem reserve_in_use_refused : forall n m c id q,
  Reach n m c -> q <> Q0 -> In id (ids (tracked (outRecs c))) ->
  exists c', reserveState c id q = Ok (StateCollision, c') /\
    tracked (outRecs c') = tracked (outRecs c) /\ tracked (inRecs c') = tracked (inRecs c).
Proof. exact reserve_collision. Qed.
Print Assumptions reserve_in_use_refused.
Example reserve_in_use_refused_case : In 8 (ids (tracked (outRecs busy))).
Proof. vm_compute. right; left; reflexivity. Qed.

(** Receiving a PUBLISH whose id is in flight is reported as a collision. *)
Theorem receive_in_use_reported : forall n m c id q,
  Reach n m c -> q <> Q0 -> In id (ids (tracked (inRecs c))) ->
  exists c', updateStatePublishApi c id OpReceive q = Ok (StateCollision, None, c') /\
    tracked (outRecs c') = tracked (outRecs c) /\ tracked (inRecs c') = tracked (inRecs c).
Proof. exact receive_collision. Qed.
Print Assumptions receive_in_use_reported.
Example receive_in_use_reported_case : In 4 (ids (tracked (inRecs busy))).
Proof. vm_compute. left; reflexivity. Qed.

(** *** C17 *)
(** n slots hold exactly n outgoing publishes, whatever came and went before. *)
Theorem outgoing_capacity_exact : forall n m c id q,
  Reach n m c -> n <> 0%nat -> q <> Q0 -> id <> 0 -> ~ In id (ids (tracked (outRecs c))) ->
  exists c', tracked (inRecs c') = tracked (inRecs c) /\
    ((length (tracked (outRecs c)) < n)%nat /\ reserveState c id q = Ok (Success, c') /\
       tracked (outRecs c') = tracked (outRecs c) ++ [F id q PublishSend]
     \/ length (tracked (outRecs c)) = n /\ reserveState c id q = Ok (NoMemory, c') /\
       tracked (outRecs c') = tracked (outRecs c)).
Proof. exact reserve_fresh. Qed.
Print Assumptions outgoing_capacity_exact.

Theorem incoming_capacity_exact : forall n m c id q,
  Reach n m c -> m <> 0%nat -> q <> Q0 -> id <> 0 -> ~ In id (ids (tracked (inRecs c))) ->
  let next := match q with Q1 => PubAckSend | _ => PubRecSend end in
  exists c', tracked (outRecs c') = tracked (outRecs c) /\
    ((length (tracked (inRecs c)) < m)%nat /\
       updateStatePublishApi c id OpReceive q = Ok (Success, Some next, c') /\
       tracked (inRecs c') = tracked (inRecs c) ++ [F id q next]
     \/ length (tracked (inRecs c)) = m /\
       updateStatePublishApi c id OpReceive q = Ok (NoMemory, None, c') /\
       tracked (inRecs c') = tracked (inRecs c)).
Proof. exact receive_fresh. Qed.
Print Assumptions incoming_capacity_exact.

Theorem capacity_never_exceeded : forall n m c, Reach n m c ->
  (length (tracked (outRecs c)) <= n /\ length (tracked (inRecs c)) <= m)%nat.
Proof. exact slots_bounded. Qed.
Print Assumptions capacity_never_exceeded.
Example capacity_case : (* the array has a hole in front: slot reuse needs compaction *)
  map rid (arr (outRecs busy)) = [0; 9; 8] \/ map rid (arr (outRecs busy)) = [9; 8; 0].
Proof. vm_compute. auto. Qed.

(** *** C18 *)
(** An ack is accepted exactly when the MQTT exchange of that publish allows it
    (apply_action of the table); an ack for an unknown id is a bad response and
    changes nothing; publishes of the other direction are never touched. *)
Theorem acks_follow_protocol : forall n m c id t op, Reach n m c -> id <> 0 ->
  exists st ns c', updateStateAckApi c id t op = Ok (st, ns, c') /\
    Reach n m c' /\ other_side t op c' = other_side t op c /\
    match lookup (side t op c) id with
    | None => st = BadResponse /\ ns = None /\ side t op c' = side t op c
    | Some f => (st, ns, side t op c') = apply_action (side t op c) f (ack_table (f_qos f) (f_st f) t op)
    end.
Proof. exact ack_effect. Qed.
Print Assumptions acks_follow_protocol.

(** An ack never changes any other publish, nor their order. *)
Theorem acks_touch_only_their_publish : forall n m c id t op st ns c', Reach n m c -> id <> 0 ->
  updateStateAckApi c id t op = Ok (st, ns, c') ->
  others (side t op c') id = others (side t op c) id /\ other_side t op c' = other_side t op c.
Proof. exact ack_others. Qed.
Print Assumptions acks_touch_only_their_publish.
Example acks_case : exists c',
  updateStateAckApi busy 8 Pubrel OpSend = Ok (Success, Some PubCompPending, c') /\
  updateStateAckApi busy 8 Pubcomp OpReceive = Ok (IllegalState, None, busy) /\
  updateStateAckApi busy 7 Puback OpReceive = Ok (BadResponse, None, busy).
Proof. eexists. vm_compute. repeat split. Qed.

(** *** C19 *)
(** Whatever sequence of calls is made, the fixed-size record arrays return what an
    ordered list of publishes would return and hold what it would hold; no call
    hits undefined behaviour or an assert. *)
Theorem record_array_is_ordered_map : forall n m ops, Forall (call_ok n m) ops ->
  exists c, engine_run (fresh_recs n m) (map to_call ops) =
              Ok (fst (spec_run (fresh_session n m) ops), c) /\
    tracked (outRecs c) = sent (snd (spec_run (fresh_session n m) ops)) /\
    tracked (inRecs c) = recvd (snd (spec_run (fresh_session n m) ops)).
Proof. exact run_is_spec. Qed.
Print Assumptions record_array_is_ordered_map.
Example record_array_case : Forall (call_ok 3 2) busy_ops /\
  In (StateCollision, None) (fst (spec_run (fresh_session 3 2) (busy_ops ++ [Reserve 9 Q2]))) /\
  In (NoMemory, None) (fst (spec_run (fresh_session 3 2) (busy_ops ++ [Reserve 1 Q2; Reserve 2 Q2]))).
Proof. split; [repeat constructor; cbn; lia|]. split; vm_compute; tauto. Qed.

(** *** C20 *)
(** Walking the "next to resend" cursors after any history lists exactly the
    unacknowledged publishes in the order they were made, and exactly the PUBRELs
    still owed in the order their PUBRECs arrived. *)
Theorem resend_lists_exact : forall n m ops, Forall (call_ok n m) ops ->
  exists outs c, engine_run (fresh_recs n m) (map to_call ops) = Ok (outs, c) /\
    Walk (publishToResend c) 0 (publish_queue (combine ops outs) []) /\
    Walk (pubrelToResend c) 0 (pubrel_queue (combine ops outs) []).
Proof. exact resend_order. Qed.
Print Assumptions resend_lists_exact.
(** The walk is a function of the state: there is no other list. *)
Theorem resend_walk_deterministic : forall next c l1,
  Walk next c l1 -> forall l2, Walk next c l2 -> l1 = l2.
Proof. exact Walk_det. Qed.
Print Assumptions resend_walk_deterministic.
Example resend_case :
  publish_queue (combine busy_ops busy_outs) [] = [9] /\
  pubrel_queue (combine busy_ops busy_outs) [] = [8] /\
  Forall (call_ok 3 2) busy_ops.
Proof. split; [|split]; [vm_compute; reflexivity..|]. repeat constructor; cbn; lia. Qed.

(** *** C21 *)
(** When the exchange of an outgoing publish completes, exactly that publish is
    removed, it is never offered for retransmission again, and its id can be
    reserved at once. *)
Theorem completion_frees_id : forall n m c id t op c' q,
  Reach n m c -> id <> 0 -> concerns_sent t op = true ->
  updateStateAckApi c id t op = Ok (Success, Some PublishDone, c') -> q <> Q0 ->
  tracked (outRecs c') = others (tracked (outRecs c)) id /\
  tracked (inRecs c') = tracked (inRecs c) /\
  (forall l, Walk (publishToResend c') 0 l -> ~ In id l) /\
  (forall l, Walk (pubrelToResend c') 0 l -> ~ In id l) /\
  exists c'', reserveState c' id q = Ok (Success, c'').
Proof. exact done_free. Qed.
Print Assumptions completion_frees_id.

(** After completion every further ack for that id is a bad response. *)
Theorem completed_stays_completed : forall n m c id t op c' t' op',
  Reach n m c -> id <> 0 ->
  updateStateAckApi c id t op = Ok (Success, Some PublishDone, c') ->
  concerns_sent t' op' = concerns_sent t op ->
  exists c'', updateStateAckApi c' id t' op' = Ok (BadResponse, None, c'') /\
    tracked (outRecs c'') = tracked (outRecs c') /\ tracked (inRecs c'') = tracked (inRecs c').
Proof. exact done_later_ack. Qed.
Print Assumptions completed_stays_completed.

(** From any reachable state, along any further calls, an id completes at most once
    per reservation (plus once if it was in flight at the start). *)
Theorem completes_once_per_reservation : forall n m ops c outs c' id,
  Reach n m c -> Forall (call_ok n m) ops ->
  engine_run c (map to_call ops) = Ok (outs, c') ->
  (count (is_completion id) (combine ops outs) + b2n (in_flight (tracked (outRecs c')) id) <=
   count (is_reservation id) (combine ops outs) + b2n (in_flight (tracked (outRecs c)) id))%nat.
Proof. exact completions_bounded. Qed.
Print Assumptions completes_once_per_reservation.
Example completion_case : exists c',
  updateStateAckApi busy 9 Puback OpReceive = Ok (Success, Some PublishDone, c') /\
  count (is_completion 7) (combine busy_ops busy_outs) = 1%nat.
Proof. eexists. vm_compute. split; reflexivity. Qed.

(** *** C22 *)
(** Cancelling removes exactly the named publish and reports whether it was there. *)
Theorem cancel_removes_exactly : forall n m c id, Reach n m c -> id <> 0 ->
  exists st c', removeStateRecord c id = Ok (st, c') /\ Reach n m c' /\
    (In id (ids (tracked (outRecs c))) /\ st = Success \/
     ~ In id (ids (tracked (outRecs c))) /\ st = BadParameter) /\
    tracked (outRecs c') = others (tracked (outRecs c)) id /\
    tracked (inRecs c') = tracked (inRecs c).
Proof. exact cancel_effect. Qed.
Print Assumptions cancel_removes_exactly.
Example cancel_case : exists c', removeStateRecord busy 8 = Ok (Success, c') /\
  tracked (outRecs c') = [F 9 Q1 PubAckPending] /\ removeStateRecord busy 7 = Ok (BadParameter, busy).
Proof. eexists. vm_compute. repeat split. Qed.
