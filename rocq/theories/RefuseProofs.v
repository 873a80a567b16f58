(** A refused call of the state engine or the serializer has no effect: proofs for C120. *)
From Verif Require Import Base StateModel StateSpec StateHarness StateProofs StateProofs2 SerModel LowProofs.

Lemma refused_spec s o : fst (fst (spec_step s o)) <> Success -> snd (spec_step s o) = s.
Proof.
  assert (A : forall n l id q x, fst (spec_add n l id q x) <> Success -> snd (spec_add n l id q x) = l).
  { intros n l id q x. unfold spec_add. destruct (in_flight l id); [auto|]. destruct (_ <? _)%nat; cbn; congruence. }
  assert (B : forall l f a, fst (fst (apply_action l f a)) <> Success -> snd (apply_action l f a) = l).
  { intros l f a. destruct a; cbn; congruence. }
  destruct s as [n so m si]. destruct o as [id q|id op q|id k op|id|]; cbn [spec_step cap_out sent cap_in recvd].
  - destruct (qos_beq q Q0); [auto|]. destruct (id =? 0); [auto|]. pose proof (A n so id q PublishSend) as K. destruct (spec_add _ _ _ _ _) as [st l]. cbn in *. intro H. now rewrite (K H).
  - destruct q; [destruct op; auto| |].
    + destruct op; (destruct (id =? 0); [auto|]).
      * destruct (lookup so id) as [f|]; [|auto]. destruct (negb _); [auto|]. destruct (f_st f); cbn; congruence.
      * pose proof (A m si id Q1 PubAckSend) as K. destruct (spec_add _ _ _ _ _) as [st l]. cbn in *. intro H. now rewrite (K H).
    + destruct op; (destruct (id =? 0); [auto|]).
      * destruct (lookup so id) as [f|]; [|auto]. destruct (negb _); [auto|]. destruct (f_st f); cbn; congruence.
      * pose proof (A m si id Q2 PubRecSend) as K. destruct (spec_add _ _ _ _ _) as [st l]. cbn in *. intro H. now rewrite (K H).
  - destruct (id =? 0); [auto|]. destruct (concerns_sent k op).
    + destruct (lookup so id) as [f|]; [|auto]. pose proof (B so f (sender_table (f_qos f) (f_st f) k op)) as K. destruct (apply_action _ _ _) as [[st ns] l]. cbn in *. intro H. now rewrite (K H).
    + destruct (lookup si id) as [f|]; [|auto]. pose proof (B si f (receiver_table (f_qos f) (f_st f) k op)) as K. destruct (apply_action _ _ _) as [[st ns] l]. cbn in *. intro H. now rewrite (K H).
  - destruct (lookup so id); cbn; congruence.
  - cbn. congruence.
Qed.
Lemma refused_view n m c o st ns c' : Reach n m c -> call_ok n m o -> engine_step c (to_call o) = Ok ((st, ns), c') -> st <> Success ->
  view n m c' = view n m c /\ Reach n m c'.
Proof.
  intros Hr Hc H Hs. destruct (reach_step n m c o Hr Hc) as (c1 & E & V & R). rewrite E in H. injection H as H1 <-. split; [|exact R].
  rewrite V. apply refused_spec. rewrite H1. exact Hs.
Qed.
Lemma same_view_run n m ops : Forall (call_ok n m) ops -> forall c1 c2, Reach n m c1 -> Reach n m c2 -> view n m c1 = view n m c2 ->
  exists outs d1 d2, engine_run c1 (map to_call ops) = Ok (outs, d1) /\ engine_run c2 (map to_call ops) = Ok (outs, d2) /\ view n m d1 = view n m d2.
Proof.
  induction 1 as [|o ops Ho _ IH]; intros c1 c2 R1 R2 V. { exists [], c1, c2. auto. }
  destruct (reach_step n m c1 o R1 Ho) as (e1 & E1 & V1 & S1). destruct (reach_step n m c2 o R2 Ho) as (e2 & E2 & V2 & S2).
  rewrite <- V in E2, V2. destruct (IH e1 e2 S1 S2) as (outs & d1 & d2 & K1 & K2 & K3); [congruence|].
  exists (fst (spec_step (view n m c1) o) :: outs), d1, d2. cbn [map engine_run]. rewrite E1, E2. cbn [rbind]. rewrite K1, K2. auto.
Qed.

(** the serializers, with the buffer before *)
Inductive writer : option (list Z) -> R (status * option (list Z)) -> Prop :=
| WConnect M c will rl b : writer b (serializeConnect M c will rl b)
| WSub M l n id rl b : writer b (serializeSubscribe M l n id rl b)
| WUnsub M l n id rl b : writer b (serializeUnsubscribe M l n id rl b)
| WPub M p id rl b : writer b (serializePublish M p id rl b)
| WPubHeader M p id rl b : writer b (let! (st, b', _) := serializePublishHeader M p id rl b in Ok (st, b'))
| WAck b ty id : writer b (serializeAck b ty id)
| WDisconnect b : writer b (serializeDisconnect b)
| WPingreq b : writer b (serializePingreq b).
Lemma writer_refused b r st b' : writer b r -> r = Ok (st, b') -> st <> Success -> b' = b.
Proof.
  intros W H Hs. destruct W.
  - unfold serializeConnect in H. destruct b as [b|]; [|st_is H; auto]. match type of H with (if ?b then _ else _) = _ => destruct b; [st_is H; auto|] end.
    destruct (_ <? _); [st_is H; auto|]. destruct (serializeConnectPacket _ _ _ _); cbn [rbind] in H; [st_is H; congruence|discriminate].
  - unfold serializeSubscribe in H. destruct (validateSubscriptionSerializeParams _ _ _ _ _ _); try (st_is H; auto; fail).
    destruct l as [l|], b as [b|]; try (st_is H; auto; fail). cbv beta iota in H. destruct (sub_entries l n); cbn [rbind] in H; [|discriminate].
    destruct (serializeSubscribeHeader _ _ _); cbn [rbind] in H; [|discriminate]. destruct (subscribe_loop _ _); cbn [rbind] in H; [st_is H; congruence|discriminate].
  - unfold serializeUnsubscribe in H. destruct (validateSubscriptionSerializeParams _ _ _ _ _ _); try (st_is H; auto; fail).
    destruct l as [l|], b as [b|]; try (st_is H; auto; fail). cbv beta iota in H. destruct (sub_entries l n); cbn [rbind] in H; [|discriminate].
    destruct (serializeUnsubscribeHeader _ _ _); cbn [rbind] in H; [|discriminate]. destruct (unsubscribe_loop _ _); cbn [rbind] in H; [st_is H; congruence|discriminate].
  - unfold serializePublish in H. destruct b as [b|]; [|st_is H; auto].
    do 4 (match type of H with (if ?b then _ else _) = _ => destruct b; [st_is H; auto|] end). destruct (_ <? _); [st_is H; auto|].
    destruct (serializePublishCommon _ _ _ _ _); cbn [rbind] in H; [st_is H; congruence|discriminate].
  - unfold serializePublishHeader in H. cbv zeta in H. destruct b as [b|]; [|st_is H; auto].
    do 3 (match type of H with (let! _ := (if ?b then _ else _) in _) = _ => destruct b; [st_is H; auto|] end). destruct (_ <? _); [st_is H; auto|].
    destruct (serializePublishCommon _ _ _ _ _); cbn [rbind] in H; [st_is H; congruence|discriminate].
  - unfold serializeAck in H. destruct b as [b|]; [|st_is H; auto]. destruct (_ <? _); [st_is H; auto|]. destruct (_ =? _); [st_is H; auto|].
    destruct (_ || _); [|st_is H; auto]. destruct (put _ _); cbn [rbind] in H; [st_is H; congruence|discriminate].
  - unfold serializeDisconnect in H. destruct b as [b|]; [|st_is H; auto]. destruct (_ <? _); [st_is H; auto|]. destruct (put _ _); cbn [rbind] in H; [st_is H; congruence|discriminate].
  - unfold serializePingreq in H. destruct b as [b|]; [|st_is H; auto]. destruct (_ <? _); [st_is H; auto|]. destruct (put _ _); cbn [rbind] in H; [st_is H; congruence|discriminate].
Qed.
