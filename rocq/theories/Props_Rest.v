(** What does hold of some properties that are refuted elsewhere. *)
From Verif Require Import Base StateModel StateSpec StateHarness SerModel WireSpec SerHarness SerProofs SerProofs2 CoreModel CoreSpec CoreHarness CoreCases
  CoreProofs CoreFinal Props_Core Props_Loop.

(** *** C48 *)
(** the arguments that MQTT 3.1.1 allows: no password without a user name, no will
    with an empty topic *)
Definition legal_args (c : coninfo) (will : option pubinfo) : Prop :=
  (c_user c = None -> c_pass c = None) /\ match will with Some w => p_topiclen w <> 0 | None => True end.
(** These, and no others, have a legal CONNECT packet, and that packet is produced. *)
Theorem connect_legal_partial : forall M c will m b, 4294967296 <= M -> con_means c will m -> cm_id m <> [] -> will_fits m = true ->
  (legal_args c will <-> connect_legal m) /\
  exists rl total, getConnectPacketSize c will = (Success, Some (rl, total)) /\ total = zlen (connect_packet m) /\
    (total <= zlen b -> serializeConnect M c will rl (Some b) = Ok (Success, Some (connect_packet m ++ skipn (length (connect_packet m)) b))).
Proof.
  intros M c will m b HM Hm Hid Hw. split.
  - destruct Hm as (_ & _ & _ & _ & _ & Hu & Hp & Hwl). unfold legal_args, connect_legal, holds_opt in *.
    assert (E1 : c_user c = None <-> cm_user m = None).
    { destruct (cm_user m); [destruct Hu as ((x & -> & _) & _)|rewrite Hu]; split; congruence. }
    assert (E2 : c_pass c = None <-> cm_pass m = None).
    { destruct (cm_pass m); [destruct Hp as ((x & -> & _) & _)|rewrite Hp]; split; congruence. }
    assert (E3 : match will with Some w => p_topiclen w <> 0 | None => True end <-> match cm_will m with Some w => wm_topic w <> [] | None => True end).
    { destruct will as [w|], (cm_will m) as [wm|]; try contradiction; [|tauto]. destruct Hwl as (_ & _ & Ht & _). pose proof (holds_len _ _ _ Ht) as L. rewrite <- L.
      destruct (wm_topic wm); [split; intro H; now contradiction H|]. rewrite zlen_cons. pose proof (zlen_nonneg l). split; intros; [discriminate|lia]. }
    tauto.
  - exists (zlen (connect_body m)), (zlen (connect_packet m)). split; [rewrite (connect_size_ok _ _ _ Hm Hid), Hw; reflexivity|]. split; [reflexivity|].
    intro Hb. rewrite (connect_encode M c will m b HM Hm Hw). now replace (zlen b <? zlen (connect_packet m)) with false by lia.
Qed.
Print Assumptions connect_legal_partial.
Example connect_legal_case : con_means con1 None con1_msg /\ cm_id con1_msg <> [] /\ will_fits con1_msg = true /\ legal_args con1 None /\
  connect_packet con1_msg = [16; 15; 0; 4; 77; 81; 84; 84; 4; 0; 0; 60; 0; 3; 97; 98; 99].
Proof.
  split; [|split; [discriminate|split; [reflexivity|split; [split; [reflexivity|exact I]|reflexivity]]]].
  unfold con_means, con1, con1_msg, holds_opt, holds0, holds. cbn. repeat match goal with |- _ /\ _ => split end; try reflexivity; try lia;
  eexists; repeat split; try reflexivity; vm_compute; congruence.
Qed.

(** *** C55 *)
(** MQTT_Publish says MQTTIllegalState only for a publish with the DUP flag whose first
    half was acknowledged before; without the flag it never does, and a publish refused
    for its identifier or for lack of a record is not sent. *)
Theorem refused_publish_not_sent_partial : forall G n m p id msg s st s' t, Begun G n m s -> pub_means p id msg -> publish G p id s = Ret st s' t ->
  (st = IllegalState -> p_dup p = true /\ exists f, lookup (outgoing s) id = Some f /\ f_qos f = p_qos p /\ ~ In (f_st f) [PublishSend; PubAckPending; PubRecPending]) /\
  (p_dup p = false -> st = StateCollision \/ st = NoMemory \/ st = BadParameter \/ st = StNotConnected \/ st = StDisconnectPending \/ st = PublishStoreFailed -> outs t = []).
Proof.
  intros G n m p id msg s st s' t HS Hm H. apply (publish_outcomes _ _ _ _ _ _ _ _ _ _ HS Hm) in H. destruct H as (_ & [(_ & -> & K)|(_ & K)]).
  - split; [|reflexivity]. intros ->. destruct K as [K|(K & _)]; [discriminate|]. destruct (x_status (s_ctx s)); discriminate.
  - unfold pub_cases in K. destruct (qos_beq (p_qos p) Q0).
    { destruct K as (_ & [(-> & _)|(-> & _)]); split; intros; try discriminate; intuition discriminate. }
    destruct (lookup (outgoing s) id) as [f|] eqn:E.
    + destruct (p_dup p).
      * split; [|discriminate]. intros ->. split; [reflexivity|]. exists f. split; [reflexivity|].
        destruct K as [(_ & [(? & _)|(? & _)])|(_ & [(_ & ? & _)|[(_ & ? & _)|[(E1 & _ & E2 & _)|(_ & ? & _)]]])]; try discriminate. split; assumption.
      * destruct K as (_ & -> & ->). split; [discriminate|reflexivity].
    + destruct (_ <? _)%nat.
      * destruct K as [(_ & -> & _)|(_ & [(-> & K)|(-> & _)])]; split; intros; try discriminate; try assumption; intuition discriminate.
      * destruct K as (_ & -> & ->). split; [discriminate|reflexivity].
Qed.
Print Assumptions refused_publish_not_sent_partial.
(** an identifier in use *)
Example refused_publish_case : exists s' t, publish cfg1 (pub1 Q1) 8 (after_calls [COp (OPublish (pub1 Q2) 8)] up) = Ret StateCollision s' t /\ outs t = [].
Proof. eexists _, _. each. Qed.

(** *** C59 *)
(** When less than the interval has passed since the last packet was sent, and less
    than PACKET_RX_TIMEOUT_MS since the last was received, a pass that finds nothing to
    read sends no PINGREQ. *)
Theorem no_early_ping_partial : forall G n m s st s' u x l, Begun G n m s -> processLoop G s = Ret st s' (EIn [] :: u) -> e_times (s_env s) = x :: l ->
  (x - x_lastTx (s_ctx s)) mod 4294967296 < Z.min (1000 * x_keep (s_ctx s) mod 4294967296) (g_tx G) ->
  (x - x_lastRx (s_ctx s)) mod 4294967296 < g_rx G -> begins u.
Proof.
  intros G n m s st s' u x l HS H Et Htx Hrx. apply (idle_pass_pings _ _ _ _ _ _ _ _ HS) in H.
  destruct H as [(H & _)|(_ & y & l' & t2 & t3 & E & -> & _ & B & K)]; [now contradiction H|]. rewrite Et in E. injection E as <- <-.
  assert (D : ping_due G (s_ctx s) (x mod 4294967296) = false).
  { unfold ping_due, since. rewrite !Zminus_mod_idemp_l. apply orb_false_iff. split; apply andb_false_iff; right; lia. }
  rewrite D, andb_false_r in K. subst t2. exact B.
Qed.
Print Assumptions no_early_ping_partial.
Example no_early_ping_case : exists s' t, processLoop cfg1 (mkSt (s_ctx up) (env1 [] [0; 0] [])) = Ret Success s' (EIn [] :: t) /\ t = [].
Proof. eexists _, _. each. Qed.
