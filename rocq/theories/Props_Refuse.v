(** A refused call has no effect: C120. *)
From Verif Require Import Base StateModel StateSpec StateHarness StateProofs2 SerModel LowCases RefuseProofs.

(** *** C120 *)
(** A call of the state engine that does not return MQTTSuccess leaves the publishes in flight
    and their order as they were, and all later calls return what they would have returned. *)
Theorem refused_call_no_effect : forall n m c o st ns c', Reach n m c -> call_ok n m o ->
  engine_step c (to_call o) = Ok ((st, ns), c') -> st <> Success ->
  tracked (outRecs c') = tracked (outRecs c) /\ tracked (inRecs c') = tracked (inRecs c) /\
  forall ops, Forall (call_ok n m) ops -> exists outs d d', engine_run c (map to_call ops) = Ok (outs, d) /\
    engine_run c' (map to_call ops) = Ok (outs, d') /\ tracked (outRecs d') = tracked (outRecs d) /\ tracked (inRecs d') = tracked (inRecs d).
Proof.
  intros n m c o st ns c' Hr Hc H Hs. destruct (refused_view n m c o st ns c' Hr Hc H Hs) as (V & R). pose proof V as V0. injection V0 as V1 V2.
  split; [exact V1|]. split; [exact V2|]. intros ops Ho. destruct (same_view_run n m ops Ho c c' Hr R (eq_sym V)) as (outs & d & d' & K1 & K2 & K3).
  exists outs, d, d'. injection K3 as K3 K4. auto.
Qed.
Print Assumptions refused_call_no_effect.
(** A serializer that does not return MQTTSuccess has written nothing to the buffer. *)
Theorem refused_serializer_no_effect : forall b r st b', writer b r -> r = Ok (st, b') -> st <> Success -> b' = b.
Proof. exact writer_refused. Qed.
Print Assumptions refused_serializer_no_effect.
(** and a header byte that is not a PUBLISH's is left alone *)
Theorem refused_dup_no_effect : forall h set, fst (updateDuplicatePublishFlag h set) <> Success -> snd (updateDuplicatePublishFlag h set) = h.
Proof. intros h set. unfold updateDuplicatePublishFlag. destruct (negb _); cbn; congruence. Qed.
Print Assumptions refused_dup_no_effect.
(** a full array with a gap: the refused call moves the records and changes nothing else *)
Example refused_call_case :
  let c := mkRecs (Some [empty_rec; mkRec 6 Q1 PublishSend]) (Some [empty_rec]) in
  Reach 2 1 c /\ engine_step c (to_call (Reserve 6 Q2)) = Ok ((StateCollision, None), mkRecs (Some [mkRec 6 Q1 PublishSend; empty_rec]) (Some [empty_rec])) /\
  serializeAck (Some [9; 9; 9]) 64 5 = Ok (NoMemory, Some [9; 9; 9]).
Proof.
  split; [|split; vm_compute; reflexivity]. eexists [Reserve 5 Q1; Reserve 6 Q1; Cancel 5], _. split; [repeat constructor; discriminate|vm_compute; reflexivity].
Qed.
