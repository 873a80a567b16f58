(** Proofs for C119. *)
From Verif Require Import Base StateModel StateSpec StateHarness StateProofs StateProofs2 SerModel CoreModel CoreProofs3 CoreProofs15 CoreProofs19 DocProofs LowSpec.

Lemma one_inv A (r : R (status * A)) st : one r = Ok st -> exists x, r = Ok (st, x).
Proof. unfold one. destruct r as [(a, b)|]; cbn [rbind]; [|discriminate]. intro H. injection H as <-. eauto. Qed.
Lemma two_inv A B (r : R (status * A * B)) st : two r = Ok st -> exists x y, r = Ok (st, x, y).
Proof. unfold two. destruct r as [((a, b), c)|]; cbn [rbind]; [|discriminate]. intro H. injection H as <-. eauto. Qed.

Lemma acked_statuses s id k op : let st := fst (fst (spec_step s (Acked id k op))) in
  st = Success \/ st = BadParameter \/ st = BadResponse \/ st = IllegalState.
Proof.
  cbn [spec_step]. destruct (id =? 0); [auto|].
  assert (K : forall l f a, let st := fst (fst (apply_action l f a)) in st = Success \/ st = IllegalState).
  { intros l f a. destruct a; cbn; auto. }
  destruct (concerns_sent k op); (destruct (lookup _ id) as [f|]; [|cbn; auto]);
  match goal with |- context [apply_action ?l ?f ?a] => pose proof (K l f a) as X; destruct (apply_action l f a) as [[st ns] l'] end; cbn in *; tauto.
Qed.
Lemma suback_loop_kinds n d off st x : readSubackStatus_loop n d off st = Ok x -> st = Success \/ st = ServerRefused ->
  x = Success \/ x = ServerRefused \/ x = BadResponse.
Proof.
  revert off st. induction n as [|n IH]; intros off st H Hs; cbn [readSubackStatus_loop] in H. { injection H as <-. tauto. }
  destruct (rd d off); cbn [rbind] in H; [|discriminate]. destruct (_ || _).
  - destruct (status_beq st BadResponse); [injection H as <-; tauto|]. eauto.
  - destruct (_ =? 128); cbn [status_beq] in H; [eapply IH; eauto|]. injection H as <-. auto.
Qed.
Lemma remaining_kinds f b i rl mu n st r k : processRemainingLength_loop f b i rl mu n = Ok (st, r, k) ->
  st = Success \/ st = BadResponse \/ st = NeedMoreBytes.
Proof.
  revert rl mu n. induction f as [|f IH]; intros rl mu n H; cbn [processRemainingLength_loop] in H; [discriminate|].
  destruct (_ <? _); [injection H as <- _ _; auto|]. destruct (_ <? _); [|injection H as <- _ _; auto].
  destruct (rd _ _); cbn [rbind] in H; [|discriminate]. destruct (_ =? _); [injection H as <- _ _; auto|].
  destruct (negb _); [eauto|injection H as <- _ _; auto].
Qed.
Ltac fin := unfold low_possible; cbn; intuition discriminate.
Ltac st_is H := cbn [rbind] in H; cbv beta iota in H; match type of H with Ok ?p = Ok ?q => injection H; clear H; intros; subst end.

Lemma connack_kinds rem d st x : deserializeConnack rem d = Ok (st, x) -> st = Success \/ st = ServerRefused \/ st = BadResponse.
Proof.
  unfold deserializeConnack. cbv zeta. destruct (negb (rem =? 2)); [intro H; st_is H; auto|]. destruct (rd d 0) as [b0|]; cbn [rbind]; [|discriminate].
  destruct (negb _); [intro H; st_is H; auto|]. destruct (rd d 1) as [b1|]; cbn [rbind].
  - destruct (Z.land b0 1 =? 1); cbn [rbind]; [destruct (negb _); cbn [status_beq]|cbn [status_beq]]; unfold rassert;
    repeat match goal with |- (if ?b then _ else _) = _ -> _ => destruct b end; intro H; try discriminate H; st_is H; auto.
  - destruct (Z.land b0 1 =? 1); cbn [rbind status_beq]; discriminate.
Qed.
Lemma ack_kinds k st x y : deserializeAck k = Ok (st, x, y) -> st = BadParameter \/ st = Success \/ st = ServerRefused \/ st = BadResponse.
Proof.
  assert (P : forall r, deserializePingresp r = BadResponse \/ deserializePingresp r = Success) by (intro r; unfold deserializePingresp; destruct (negb _); auto).
  unfold deserializeAck. cbv zeta. destruct (k_data k) as [d|].
  - destruct (_ =? _). { destruct (deserializeConnack _ _) as [(a, b)|] eqn:E; cbn [rbind]; [|discriminate]. apply connack_kinds in E. intro H. st_is H. tauto. }
    destruct (_ =? _).
    { unfold deserializeSuback, readSubackStatus. destruct (_ <? _); [cbn [rbind]; intro H; st_is H; auto|]. destruct (rd16 d 0) as [id|]; cbn [rbind]; [|discriminate].
      destruct (id =? 0); [cbn [rbind]; intro H; st_is H; auto|]. destruct (readSubackStatus_loop _ _ _ _) as [a|] eqn:E; cbn [rbind]; [|discriminate].
      apply suback_loop_kinds in E; [|auto]. intro H. st_is H. tauto. }
    destruct (_ =? _); [intro H; st_is H; destruct (P (k_rem k)) as [-> | ->]; auto|].
    destruct (_ || _); [|intro H; st_is H; auto]. unfold deserializeSimpleAck. destruct (negb _); [cbn [rbind]; intro H; st_is H; auto|].
    destruct (rd16 d 0) as [id|]; cbn [rbind]; [|discriminate]. intro H. st_is H. destruct (id =? 0); auto.
  - destruct (_ =? _); intro H; st_is H; auto. destruct (P (k_rem k)) as [-> | ->]; auto.
Qed.
Lemma low_doc c st : low_ok c -> low_status c = Ok st -> low_possible c st.
Proof.
  intros Hok H. destruct c; cbn [low_status] in H; try (apply one_inv in H; destruct H as (x & H)); try (apply two_inv in H; destruct H as (x & y & H)).
  - apply reserve_status in H. destruct H as [-> | [-> | [-> | ->]]]; fin.
  - apply published_status in H. destruct H as [-> | [-> | [-> | [-> | ->]]]]; fin.
  - destruct Hok as (n & m & Hr). destruct (acked_eq n m r id k op Hr) as (c' & E & _). rewrite H in E.
    pose proof (acked_statuses (view n m r) id k op) as K. cbv zeta in K. assert (E1 : st = fst (fst (spec_step (view n m r) (Acked id k op)))) by congruence.
    rewrite <- E1 in K. destruct K as [-> | [-> | [-> | ->]]]; fin.
  - apply remove_status in H. destruct H as [-> | ->]; fin.
  - injection H as <-. unfold getConnectPacketSize. destruct (_ || _); [fin|]. match goal with |- context [if ?b then (BadParameter, None) else _] => destruct b; fin end.
  - unfold serializeConnect in H. destruct b as [b|]; [|st_is H; fin]. match type of H with (if ?b then _ else _) = _ => destruct b; [st_is H; fin|] end.
    destruct (_ <? _); [st_is H; fin|]. destruct (serializeConnectPacket _ _ _ _); cbn [rbind] in H; [st_is H; fin|discriminate].
  - unfold getSubscribePacketSize in H. destruct l as [l|]; [|st_is H; fin]. destruct (_ =? _); [st_is H; fin|].
    apply subsize_kinds in H. destruct H as [[-> _] | [-> _]]; fin.
  - unfold serializeSubscribe in H. unfold validateSubscriptionSerializeParams in H. destruct l as [l|], b as [b|]; try (st_is H; fin).
    destruct (_ =? _); [st_is H; fin|]. destruct (_ =? _); [st_is H; fin|]. destruct (_ <? _); [st_is H; fin|]. cbv beta iota in H. destruct (sub_entries l n); cbn [rbind] in H; [|discriminate]. destruct (serializeSubscribeHeader _ _ _); cbn [rbind] in H; [|discriminate]. destruct (subscribe_loop _ _); cbn [rbind] in H; [st_is H; fin|discriminate].
  - unfold getUnsubscribePacketSize in H. destruct l as [l|]; [|st_is H; fin]. destruct (_ =? _); [st_is H; fin|].
    apply subsize_kinds in H. destruct H as [[-> _] | [-> _]]; fin.
  - unfold serializeUnsubscribe in H. unfold validateSubscriptionSerializeParams in H. destruct l as [l|], b as [b|]; try (st_is H; fin).
    destruct (_ =? _); [st_is H; fin|]. destruct (_ =? _); [st_is H; fin|]. destruct (_ <? _); [st_is H; fin|]. cbv beta iota in H. destruct (sub_entries l n); cbn [rbind] in H; [|discriminate]. destruct (serializeUnsubscribeHeader _ _ _); cbn [rbind] in H; [|discriminate]. destruct (unsubscribe_loop _ _); cbn [rbind] in H; [st_is H; fin|discriminate].
  - injection H as <-. unfold getPublishPacketSize. destruct (_ || _); [fin|]. destruct (calculatePublishPacketSize p); fin.
  - unfold serializePublish in H. destruct b as [b|]; [|st_is H; fin].
    do 4 (match type of H with (if ?b then _ else _) = _ => destruct b; [st_is H; fin|] end). destruct (_ <? _); [st_is H; fin|].
    destruct (serializePublishCommon _ _ _ _ _); cbn [rbind] in H; [st_is H; fin|discriminate].
  - unfold serializePublishHeader in H. cbv zeta in H. destruct b as [b|]; [|st_is H; fin].
    do 3 (match type of H with (if ?b then _ else _) = _ => destruct b; [st_is H; fin|] end). destruct (_ <? _); [st_is H; fin|].
    destruct (serializePublishCommon _ _ _ _ _); cbn [rbind] in H; [st_is H; fin|discriminate].
  - unfold serializeAck in H. rgo H; try discriminate H; st_is H; fin.
  - unfold serializeDisconnect in H. rgo H; try discriminate H; st_is H; fin.
  - unfold serializePingreq in H. rgo H; try discriminate H; st_is H; fin.
  - unfold deserializePublishApi in H. destruct (negb _); [st_is H; fin|]. destruct (k_data k) as [d|]; [|st_is H; fin].
    unfold deserializePublish in H. cbv zeta in H. rgo H; try discriminate H; st_is H; fin.
  - apply ack_kinds in H. destruct H as [-> | [-> | [-> | ->]]]; fin.
  - unfold getIncomingPacketTypeAndLength in H. rgo H; try discriminate H; st_is H; fin.
  - unfold processIncomingPacketTypeAndLength, processRemainingLength in H. destruct (_ <? _); [st_is H; fin|]. destruct (rd b 0); cbn [rbind] in H; [|discriminate].
    destruct (incomingPacketValid _); [|st_is H; fin]. destruct (processRemainingLength_loop _ _ _ _ _ _) as [[[s1 r1] n1]|] eqn:E; cbn [rbind] in H; [|discriminate].
    apply remaining_kinds in E. destruct (status_beq s1 Success); [destruct (negb _); cbn [rbind] in H; st_is H; fin|]. cbn [rbind] in H. st_is H. destruct E as [-> | [-> | ->]]; fin.
  - injection H as <-. unfold updateDuplicatePublishFlag. destruct (negb _); fin.
  - injection H as <-. unfold getSubAckStatusCodes. destruct (negb _); [fin|]. destruct (k_data k); [|fin]. destruct (_ <? _); fin.
Qed.
