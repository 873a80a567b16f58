(** What the client does with a complete packet. *)
From Verif Require Import Base StateModel StateSpec StateHarness StateProofs StateProofs2 SerModel WireSpec SerHarness SerProofs SerProofs4
  CoreModel CoreSpec CoreHarness CoreProofs CoreProofs2 CoreProofs3 CoreProofs5 CoreProofs6 CoreProofs7 CoreProofs14 CoreProofs16 CoreProofs17.

Section Packets.
Variable G : cfg.
Variables n m : nat.

Lemma acked_eq c id k op : Reach n m c ->
  let r := spec_step (view n m c) (Acked id k op) in
  exists c', updateStateAckApi c id k op = Ok (fst (fst r), snd (fst r), c') /\ Reach n m c' /\ view n m c' = snd r.
Proof.
  intros Hr r. destruct (reach_step n m c (Acked id k op) Hr I) as (c' & E & V & R). exists c'.
  cbn [to_call engine_step] in E. fold r in E, V.
  destruct (updateStateAckApi c id k op) as [((a, b), c1)|]; [|discriminate]. cbn [rbind] in E.
  assert (E1 : (a, b) = fst r) by congruence. assert (E2 : c1 = c') by congruence. rewrite <- E1. subst c1. auto.
Qed.
Lemma sent_only_send bs s ok s' t : sentb bs s ok s' t -> send_only t.
Proof. intros (k & l & _ & _ & H & _). exact H. Qed.
Lemma sentb_only_tx bs s ok s' t : sentb bs s ok s' t -> only_tx s s'.
Proof.
  intros (k & l & _ & _ & _ & (ts & sn & E) & _ & _ & H). destruct s' as [c e]. cbn [s_ctx s_env] in *. subst e.
  exists (x_status c), l, (x_ctl (s_ctx s)), (x_recs (s_ctx s)), ts, sn.
  f_equal. destruct H as [(_ & ->)|(_ & _ & ->)]; [destruct (s_ctx s); reflexivity|].
  unfold transport_broke. destruct (cstatus_beq _ _); destruct (s_ctx s); reflexivity.
Qed.
Lemma only_tx_more s s1 ctl r : only_tx s s1 -> only_tx s (mkSt (set_recs (set_ctl (s_ctx s1) ctl) r) (s_env s1)).
Proof. intros (a & b & c & d & ts & sn & ->). exists a, b, ctl, r, ts, sn. reflexivity. Qed.
Lemma acks_replied id ps k s st s' t : 0 < id < 65536 -> Reach n m (x_recs (s_ctx s)) ->
  ackToSend ps = Some (ack_first (ack_of k), k) ->
  sendPublishAcks G id ps s = Ret st s' t -> replied n m k id s st s' t.
Proof.
  intros Hi Hr Hk H. apply sendPublishAcks_spec in H. rewrite Hk in H.
  destruct H as [(H & _)|[(_ & Hc & -> & -> & ->)|(_ & Hc & ok & s1 & Hs & H)]]; [lia|..].
  - left. rewrite must_be_result by exact Hc. auto.
  - right. split; [exact Hc|]. pose proof (sentb_recs _ _ _ _ _ Hs) as Er.
    pose proof Hs as Hx. apply sentb_exact in Hx. destruct Hx as (j & J1 & J2 & J3 & J4 & J5 & J6). rewrite Hc in J6.
    assert (Ep : ack_packet (ack_of k) id = [ack_first (ack_of k); 2; hi8 id; lo8 id]).
    { unfold ack_packet, packet. rewrite <- be16_eq by lia. reflexivity. } rewrite <- Ep in *.
    split; [eapply sent_only_send; eauto|]. split; [exact J3|]. pose proof (sentb_only_tx _ _ _ _ _ Hs) as Ht.
    destruct H as [(-> & -> & ->)|(-> & ns & r & E & ->)].
    + split; [exact Ht|]. split; [exact J6|]. left. split; [|repeat split; unfold outgoing, incoming; now rewrite Er].
      exists j. split; [|exact J2]. destruct (Nat.eq_dec j (length (ack_packet (ack_of k) id))) as [e|e].
      * apply J4 in e. discriminate.
      * change (length (ack_packet (ack_of k) id)) with 4%nat in *. lia.
    + split; [now apply only_tx_more|]. split; [exact J6|]. right. assert (j = length (ack_packet (ack_of k) id)) by (apply J4; reflexivity). subst j.
      rewrite firstn_all in J2. split; [exact J2|].
      split; [destruct (errs t); [specialize (J5 eq_refl); discriminate|reflexivity]|].
      destruct (acked_eq (x_recs (s_ctx s)) id k OpSend Hr) as (c' & E1 & _ & E2). rewrite E1 in E.
      assert (r = c') by congruence. subst r. cbv zeta. unfold session_of, outgoing, incoming. cbn [s_ctx x_recs set_recs].
      unfold view in *. split; [congruence|exact E2].
Qed.
Lemma callback_app ty data id pub r s s' t : callback G ty data id pub r s = Ret tt s' t ->
  app_call G (ECb ty data id pub r) s s' t.
Proof.
  unfold callback. intro H. apply bind_inv in H. destruct H as (u & s1 & t1 & t2 & H1 & H & ->).
  apply emit_inv in H1. destruct H1 as (-> & ->).
  apply bind_inv in H. destruct H as (e & s1 & t1 & t3 & H1 & H & ->). apply gete_inv in H1. destruct H1 as (-> & -> & ->).
  apply bind_inv in H. destruct H as (u' & s1 & t1 & t4 & H1 & H & ->). assert (s1 = popped s) by (unfold popped; congruence).
  assert (t1 = []) by congruence. subst. exists t4. split; [reflexivity|]. exact H.
Qed.
Lemma app_reach e s s' t : cbs_ok false s -> app_call G e s s' t -> Reach n m (x_recs (s_ctx s)) -> Reach n m (x_recs (s_ctx s')).
Proof.
  intros Hc (t' & _ & H) Hr. assert (P : Path false (popped s) s' t').
  { eapply run_ops_path; [|exact H]. unfold next_ops. unfold cbs_ok in Hc. destruct (e_cbs (s_env s)) as [|a l]; [discriminate|]. cbn [existsb] in Hc. intro K. apply Hc. now rewrite K. }
  eapply path_reach in P; eauto.
Qed.
Lemma received_eq c id q : Reach n m c -> q <> Q0 -> m <> 0%nat ->
  let r := spec_step (view n m c) (Published id OpReceive q) in
  exists c', updateStatePublishApi c id OpReceive q = Ok (fst (fst r), snd (fst r), c') /\ Reach n m c' /\ view n m c' = snd r.
Proof.
  intros Hr Hq Hm r. destruct (reach_step n m c (Published id OpReceive q) Hr) as (c' & E & V & R).
  { destruct q; [contradiction|exact Hm..]. }
  exists c'. cbn [to_call engine_step] in E. fold r in E, V.
  destruct (updateStatePublishApi c id OpReceive q) as [((a, b), c1)|]; [|discriminate]. cbn [rbind] in E.
  assert (E1 : (a, b) = fst r) by congruence. assert (E2 : c1 = c') by congruence. rewrite <- E1. subst c1. auto.
Qed.
Lemma recs_only_intro s r : recs_only s (mkSt (set_recs (s_ctx s) r) (s_env s)).
Proof. now exists r. Qed.
Lemma recs_only_cbs s s0 : recs_only s s0 -> cbs_ok false s -> cbs_ok false s0.
Proof. intros (r & ->). auto. Qed.
Lemma recs_session s r : session_of n m (mkSt (set_recs (s_ctx s) r) (s_env s)) = view n m r.
Proof. reflexivity. Qed.
Lemma decode_body ty body msg : is_byte ty -> ty / 16 = 3 -> bytes_ok body -> pdec ty body = Some msg ->
  publish_means ty body msg /\ dpub_means body (fst (dpub_of msg)) (snd (dpub_of msg)) msg.
Proof.
  intros Hb H3 Hd E. destruct (pdec_sound _ _ _ Hb H3 Hd E) as (Hm & _). split; auto.
  apply (dpub_of_means body (zlen body) ty msg); [pose proof (zlen_nonneg body); lia|].
  unfold zlen. rewrite Nat2Z.id, firstn_all. exact Hm.
Qed.
Hypothesis HM : 4294967296 <= g_M G.
Lemma in_shape c : Reach n m c -> (inRecs c = None <-> m = 0%nat).
Proof.
  intro H. split; [|now apply reach_shape in H]. intro E.
  destruct (reach_view _ _ _ H) as [_ [I1 I2 I3 I4 I5]]. cbn [view cap_in] in I2. rewrite E in I2. now cbn in I2.
Qed.
Lemma publish_handled_ok ty rem data s st s' t : Reach n m (x_recs (s_ctx s)) -> cbs_ok false s ->
  is_byte ty -> ty / 16 = 3 -> 0 <= rem <= zlen data -> rem < g_M G -> bytes_ok (firstn (Z.to_nat rem) data) ->
  handleIncomingPublish G ty rem data s = Ret st s' t ->
  publish_handled G n m ty (firstn (Z.to_nat rem) data) s st s' t.
Proof.
  intros HR HC Hb H3 Hr HrM Hd H. unfold handleIncomingPublish in H.
  rewrite (deser_api _ _ _ _ HM Hb H3 Hr HrM Hd) in H. set (body := firstn (Z.to_nat rem) data) in *.
  apply bind_inv in H. destruct H as ((a, b) & s1 & t1 & t2 & H1 & H & ->). apply lift_inv in H1. destruct H1 as (L & -> & ->).
  destruct (pdec ty body) as [msg|] eqn:Ep.
  2: { assert (a = BadResponse) by congruence. assert (b = None) by congruence. subst a b. apply ret_inv in H. destruct H as (-> & -> & ->).
       cbn [app]. apply ph_bad. destruct (publish_decode (g_M G) ty rem data HM Hb H3 Hr HrM Hd) as [(msg & d & pid & E & _)|(_ & K)]; [|exact K].
       rewrite (deser_api _ _ _ _ HM Hb H3 Hr HrM Hd) in E. fold body in E. rewrite Ep in E. discriminate. }
  assert (Ea : a = Success) by congruence. assert (Eb : b = Some (dpub_of msg)) by congruence. subst a b. clear L.
  destruct (decode_body _ _ _ Hb H3 Hd Ep) as (Hmean & Hdp).
  destruct (dpub_of msg) as (pub, pid). cbn [fst snd] in Hdp.
  pose proof Hdp as (Dq & _ & _ & _ & _ & _ & _ & Dp). rewrite Dq in H.
  apply bind_inv in H. destruct H as (c & s1 & t1 & t3 & H1 & H & ->). apply getc_inv in H1. destruct H1 as (-> & -> & ->). cbn [app].
  pose proof (in_shape _ HR) as Hsh. pose proof Hmean as (_ & _ & _ & _ & _ & Hid).
  destruct (qos_beq (pm_qos msg) Q0) eqn:Eq.
  - assert (Eq0 : pm_qos msg = Q0) by (destruct (pm_qos msg); congruence || discriminate).
    rewrite Eq0 in Dp, H. subst pid. cbn [negb] in H. rewrite andb_false_r in H.
    apply bind_inv in H. destruct H as ((a & b) & s1 & t1 & t4 & H1 & H & ->). apply on_recs_inv in H1. destruct H1 as (c & E & -> & ->).
    cbn [updateStatePublishApi] in E. assert (a = Success) by congruence. assert (b = Some PublishDone) by congruence.
    assert (c = x_recs (s_ctx s)) by congruence. subst a b c. cbn [status_beq] in H.
    apply bind_inv in H. destruct H as ([] & s2 & t5 & t6 & H1 & H & ->). apply sendPublishAcks_spec in H. cbn [ackToSend] in H.
    destruct H as (-> & -> & ->). rewrite app_nil_r. cbn [app].
    apply callback_app in H1. replace (mkSt (set_recs (s_ctx s) (x_recs (s_ctx s))) (s_env s)) with s in H1 by (destruct s as [[] ?]; reflexivity).
    eapply ph_qos0; eauto.
  - assert (Hq : pm_qos msg <> Q0) by (destruct (pm_qos msg); discriminate). specialize (Hid Hq).
    assert (pid = Some (pm_id msg)) as -> by (destruct (pm_qos msg); congruence). cbn [negb] in H. rewrite andb_true_r in H.
    destruct (inRecs (x_recs (s_ctx s))) as [arrs|] eqn:Ei.
    2: { apply ret_inv in H. destruct H as (-> & -> & ->). eapply ph_no_records; eauto. now apply Hsh. }
    assert (Hm0 : m <> 0%nat) by (intro K; apply Hsh in K; discriminate).
    apply bind_inv in H. destruct H as ((a & b) & s1 & t1 & t4 & H1 & H & ->). apply on_recs_inv in H1. destruct H1 as (c & E & -> & ->).
    destruct (received_eq (x_recs (s_ctx s)) (pm_id msg) (pm_qos msg) HR Hq Hm0) as (c' & E' & R' & V'). rewrite E' in E.
    assert (c = c') by congruence. subst c'.
    set (nx := match pm_qos msg with Q1 => PubAckSend | _ => PubRecSend end) in *.
    assert (ES : spec_step (view n m (x_recs (s_ctx s))) (Published (pm_id msg) OpReceive (pm_qos msg)) =
      let '(st, l) := spec_add m (incoming s) (pm_id msg) (pm_qos msg) nx in
      ((st, if status_beq st Success then Some nx else None), mkSession n (outgoing s) m l)).
    { cbn [spec_step]. replace (pm_id msg =? 0) with false by lia. unfold nx. destruct (pm_qos msg); [congruence|reflexivity..]. }
    rewrite ES in *. unfold spec_add in *.
    assert (Hack : ackToSend nx = Some (ack_first (ack_of (match pm_qos msg with Q1 => Puback | _ => Pubrec end)), match pm_qos msg with Q1 => Puback | _ => Pubrec end)).
    { unfold nx. destruct (pm_qos msg); reflexivity. }
    set (k := match pm_qos msg with Q1 => Puback | _ => Pubrec end) in *. cbn [app].
    destruct (in_flight (incoming s) (pm_id msg)) eqn:Ef; cbn [fst snd status_beq] in E, V'.
    + assert (a = StateCollision) by congruence. subst a. cbn [status_beq] in H.
      apply bind_inv in H. destruct H as (u & s2 & t5 & t6 & H1 & H & ->). apply ret_inv in H1. destruct H1 as (_ & -> & ->).
      replace (calculateStatePublish OpReceive (pm_qos msg)) with nx in H by (unfold nx; destruct (pm_qos msg); congruence || reflexivity).
      cbn [app]. eapply ph_repeated with (s0 := mkSt (set_recs (s_ctx s) c) (s_env s)); [exact Hmean|exact Hq|exact Hm0|exact Ef|apply recs_only_intro|exact V'|].
      fold k. eapply acks_replied; eauto. lia.
    + destruct (length (incoming s) <? m)%nat eqn:El; cbn [fst snd status_beq] in E, V'.
      * assert (a = Success) by congruence. assert (b = Some nx) by congruence. subst a b. cbn [status_beq] in H.
        apply bind_inv in H. destruct H as ([] & s2 & t5 & t6 & H1 & H & ->). apply callback_app in H1.
        eapply ph_new with (s0 := mkSt (set_recs (s_ctx s) c) (s_env s));
          [exact Hmean|exact Hdp|exact Hq|exact Hm0|exact Ef|apply Nat.ltb_lt; exact El|apply recs_only_intro|..|exact H1|];
          try (unfold view, outgoing, incoming, nx in *; cbn [s_ctx x_recs set_recs]; congruence).
        fold k. eapply acks_replied; eauto; [lia|]. eapply app_reach; [|exact H1|exact R']. exact HC.
      * assert (a = NoMemory) by congruence. subst a. cbn [status_beq] in H. apply ret_inv in H. destruct H as (-> & -> & ->).
        eapply ph_full; [exact Hmean|exact Hq|exact Hm0|exact Ef| |apply recs_only_intro|exact V'].
        destruct (slots_bounded _ _ _ HR) as (_ & HL). apply Nat.ltb_ge in El. unfold incoming in *. lia.
Qed.
(** the state the engine reports after an accepted acknowledgement decides the answer *)
Lemma ack_next c id k r : spec_step (view n m c) (Acked id k OpReceive) = r -> fst (fst r) = Success ->
  exists ps, snd (fst r) = Some ps /\
    ackToSend ps = match reply_to k with Some k' => Some (ack_first (ack_of k'), k') | None => None end.
Proof.
  intros <- . cbn [spec_step]. destruct (id =? 0); [discriminate|]. destruct k; cbn [concerns_sent].
  1, 2, 4: destruct (lookup (sent (view n m c)) id) as [f|]; [|cbn; discriminate].
  4: destruct (lookup (StateSpec.recvd (view n m c)) id) as [f|]; [|cbn; discriminate].
  all: destruct (f_qos f), (f_st f) eqn:Ef; cbn; rewrite ?Ef; try discriminate; intros _; eexists; split; reflexivity.
Qed.
Lemma ack_refused_same c id k op : fst (fst (spec_step (view n m c) (Acked id k op))) <> Success ->
  snd (spec_step (view n m c) (Acked id k op)) = view n m c.
Proof.
  cbn [spec_step]. destruct (id =? 0); [reflexivity|]. destruct (concerns_sent k op);
    [destruct (lookup (sent (view n m c)) id) as [f|]|destruct (lookup (StateSpec.recvd (view n m c)) id) as [f|]]; try reflexivity.
  - destruct (sender_table (f_qos f) (f_st f) k op); cbn; congruence || reflexivity.
  - destruct (receiver_table (f_qos f) (f_st f) k op); cbn; congruence || reflexivity.
Qed.
Lemma ack_handled_ok k rem data s st s' t : Reach n m (x_recs (s_ctx s)) -> cbs_ok false s ->
  0 <= rem <= zlen data -> bytes_ok (firstn (Z.to_nat rem) data) ->
  handlePublishAcks G (ack_first (ack_of k)) rem data s = Ret st s' t ->
  ack_handled G n m k (firstn (Z.to_nat rem) data) s st s' t.
Proof.
  intros HR HC Hr Hd H. unfold handlePublishAcks in H. set (body := firstn (Z.to_nat rem) data) in *.
  apply bind_inv in H. destruct H as (ak & s1 & t1 & t2 & H1 & H & ->). apply lift_inv in H1. destruct H1 as (L & -> & ->).
  assert (ak = k) as -> by (destruct k; cbn in L; congruence). clear L. cbn [app].
  apply bind_inv in H. destruct H as (((a, pid), u) & s1 & t1 & t3 & H1 & H & ->). apply lift_inv in H1. destruct H1 as (L & -> & ->). cbn [app].
  destruct (ack_decode (ack_of k) rem data Hr Hd) as [(id & Hid & Eb & E)|(Hno & o & E)]; rewrite E in L; [fold body in Eb|fold body in Hno].
  2: { assert (a = BadResponse) by congruence. subst a. cbn [status_beq] in H.
       apply bind_inv in H. destruct H as ((a, b) & s1 & t1 & t4 & H1 & H & ->). apply ret_inv in H1. destruct H1 as (Q & -> & ->).
       assert (a = BadResponse) by congruence. subst a. rewrite ?andb_false_r in H. cbn [status_beq] in H.
       apply bind_inv in H. destruct H as (c & s1 & t1 & t5 & H1 & H & ->). apply getc_inv in H1. destruct H1 as (-> & -> & ->).
       rewrite ?andb_false_r in H. cbn [andb] in H.
       apply bind_inv in H. destruct H as (u2 & s1 & t1 & t6 & H1 & H & ->). apply ret_inv in H1. destruct H1 as (_ & -> & ->).
       apply ret_inv in H. destruct H as (-> & -> & ->). cbn [app]. now apply ah_bad. }
  assert (a = Success) by congruence. assert (pid = Some id) by congruence. subst a pid. clear L. cbn [status_beq] in H.
  apply bind_inv in H. destruct H as ((a, b) & s1 & t1 & t4 & H1 & H & ->). apply on_recs_inv in H1. destruct H1 as (c & E' & -> & ->). cbn [app].
  destruct (acked_eq (x_recs (s_ctx s)) id k OpReceive HR) as (c' & E1 & R' & V').
  set (r := spec_step (view n m (x_recs (s_ctx s))) (Acked id k OpReceive)) in *. rewrite E1 in E'.
  assert (a = fst (fst r)) by congruence. assert (b = snd (fst r)) by congruence. assert (c = c') by congruence. subst a b c'. clear E'.
  apply bind_inv in H. destruct H as (c0 & s1 & t1 & t5 & H1 & H & ->). apply getc_inv in H1. destruct H1 as (-> & -> & ->). cbn [app].
  apply bind_inv in H. destruct H as (u2 & s1 & t1 & t6 & H1 & H & ->).
  set (s0 := mkSt (set_recs (s_ctx s) c) (s_env s)) in *.
  destruct (status_beq (fst (fst r)) Success) eqn:Es.
  - assert (Hok : fst (fst r) = Success) by (destruct (fst (fst r)); congruence || discriminate).
    assert (s1 = s0 /\ t1 = match k with Puback | Pubrec => if x_retr (s_ctx s) then [EClear id] else [] | _ => [] end) as (-> & ->).
    { rewrite andb_true_r in H1. change (x_retr (s_ctx s0)) with (x_retr (s_ctx s)) in H1.
      destruct k; cbn in H1; try destruct (x_retr (s_ctx s)); unfold clear_publish, emit, ret in H1; split; congruence. }
    apply bind_inv in H. destruct H as ([] & s2 & t7 & t8 & H2 & H & ->). apply callback_app in H2.
    destruct (ack_next _ _ _ r eq_refl Hok) as (ps & Eps & Ea). rewrite Eps in H.
    eapply (ah_accepted G n m k body s id s0 s2 t7 st s' t8); auto; [apply recs_only_intro|].
    assert (R2 : Reach n m (x_recs (s_ctx s2))) by (eapply app_reach; [|exact H2|exact R']; exact HC).
    destruct (reply_to k) as [k'|] eqn:Ek.
    + eapply acks_replied; eauto. lia.
    + apply sendPublishAcks_spec in H. rewrite Ea in H. tauto.
  - assert (Hno : fst (fst r) <> Success) by (intro K; rewrite K in Es; discriminate).
    rewrite andb_false_r in H1. cbn [andb] in H1. apply ret_inv in H1. destruct H1 as (_ & -> & ->). apply ret_inv in H. destruct H as (-> & -> & ->).
    cbn [app]. eapply ah_refused; auto; [apply recs_only_intro|]. unfold s0. rewrite recs_session, V'. now apply ack_refused_same.
Qed.
Lemma callback_unit ty data id pub r s u s' t : callback G ty data id pub r s = Ret u s' t ->
  app_call G (ECb ty data id pub r) s s' t.
Proof. destruct u. apply callback_app. Qed.
Lemma suback_kinds body : fst (suback_result body) = BadResponse \/
  exists r id, suback_result body = (r, Some id) /\ (r = Success \/ r = ServerRefused).
Proof.
  destruct body as [|a [|b codes]]; cbn [suback_result]; auto. destruct (_ || _); auto.
  unfold suback_codes. destruct (forallb _ codes); auto. right. destruct (existsb _ codes); eauto 6.
Qed.
Lemma packet_handled_ok mk ty rem data s st s' t : Reach n m (x_recs (s_ctx s)) -> cbs_ok false s ->
  is_byte ty -> 0 <= rem <= zlen data -> rem < g_M G -> bytes_ok (firstn (Z.to_nat rem) data) ->
  dispatch G ty rem data mk s = Ret st s' t ->
  packet_handled G n m mk ty (firstn (Z.to_nat rem) data) s st s' t.
Proof.
  intros HR HC Hb Hr HrM Hd H. unfold dispatch in H.
  assert (Hp : (Z.land ty 240 =? PKT_PUBLISH) = (ty / 16 =? 3)) by (rewrite land240 by exact Hb; reflexivity).
  rewrite Hp in H. destruct (ty / 16 =? 3) eqn:E3.
  { apply h_publish; [lia|]. apply publish_handled_ok; auto. lia. }
  unfold handleIncomingAck in H.
  destruct ((ty =? PKT_PUBACK) || (ty =? PKT_PUBREC) || (ty =? PKT_PUBREL) || (ty =? PKT_PUBCOMP)) eqn:Ea.
  { assert (exists k, ty = ack_first (ack_of k)) as (k & Ek).
    { assert (K : ty = PKT_PUBACK \/ ty = PKT_PUBREC \/ ty = PKT_PUBREL \/ ty = PKT_PUBCOMP) by lia.
      destruct K as [->|[->|[->| ->]]]; [exists Puback|exists Pubrec|exists Pubrel|exists Pubcomp]; reflexivity. }
    apply (h_ack G n m mk ty _ s k); auto. rewrite Ek in H. now apply ack_handled_ok. }
  set (body := firstn (Z.to_nat rem) data) in *.
  assert (Lb : zlen body = rem) by (unfold body; rewrite CoreProofs.zlen_firstn; lia).
  apply bind_inv in H. destruct H as (((a, id), inv) & s1 & t1 & t2 & H1 & H & ->).
  destruct (ty =? PKT_PINGRESP) eqn:Ep.
  - apply Z.eqb_eq in Ep. rewrite Ep in H1. rewrite pingresp_decode in H1.
    apply bind_inv in H1. destruct H1 as (((a0, pid), u) & s2 & t3 & t4 & H1 & H2 & ->). apply lift_inv in H1. destruct H1 as (L & -> & ->). cbn [app].
    apply bind_inv in H2. destruct H2 as (u2 & s3 & t5 & t6 & H1 & H2 & ->).
    destruct (rem =? 0) eqn:E0.
    + assert (a0 = Success) by congruence. subst a0. assert (Eb : body = []) by (destruct body; auto; unfold zlen in Lb; cbn in Lb; lia).
      cbn [status_beq andb] in H1, H2. apply ret_inv in H2. destruct H2 as (Q & -> & ->).
      assert (a = Success) by congruence. assert (id = 0) by congruence. assert (inv = negb mk) by congruence. subst a id inv.
      destruct mk; cbn [negb] in H.
      * apply modc_inv in H1. destruct H1 as (-> & ->). apply ret_inv in H. destruct H as (-> & -> & ->). cbn [app]. now apply h_pingresp.
      * apply ret_inv in H1. destruct H1 as (_ & -> & ->). apply bind_inv in H. destruct H as (u3 & s4 & t7 & t8 & H1 & H & ->).
        apply callback_unit in H1. apply ret_inv in H. destruct H as (-> & -> & ->). rewrite app_nil_r. cbn [app]. fold body in H1.
        rewrite ?app_nil_r. apply h_pingresp_app; auto.
    + assert (a0 = BadResponse) by congruence. subst a0. cbn [status_beq andb] in H1, H2. apply ret_inv in H1. destruct H1 as (_ & -> & ->).
      apply ret_inv in H2. destruct H2 as (Q & -> & ->). assert (a = BadResponse) by congruence. assert (inv = false) by congruence. subst a inv.
      apply ret_inv in H. destruct H as (-> & -> & ->). cbn [app]. apply h_pingresp_bad; auto. intro K. rewrite K in Lb. cbn in Lb. lia.
  - destruct ((ty =? PKT_SUBACK) || (ty =? PKT_UNSUBACK)) eqn:Es.
    + apply bind_inv in H1. destruct H1 as (((a0, pid), u) & s2 & t3 & t4 & H1 & H2 & ->). apply lift_inv in H1. destruct H1 as (L & -> & ->). cbn [app].
      apply ret_inv in H2. destruct H2 as (Q & -> & ->).
      assert (a = a0) by congruence. assert (id = match pid with Some i => i | None => 0 end) by congruence.
      assert (inv = status_beq a0 Success || status_beq a0 ServerRefused) by congruence. subst a id inv. cbn [app].
      apply orb_true_iff in Es. destruct Es as [Es|Es]; apply Z.eqb_eq in Es.
      * rewrite Es in L. destruct (suback_decode rem data Hr Hd) as (i & E & Ei). fold body in E, Ei. rewrite E in L.
        assert (a0 = fst (suback_result body)) by congruence. assert (pid = i) by congruence. subst a0 pid.
        destruct (suback_kinds body) as [Eb|(r & sid & Eb & Hk)].
        -- rewrite Eb in H. cbn in H. apply ret_inv in H. destruct H as (-> & -> & ->). cbn [app]. apply h_suback_bad; auto.
        -- rewrite Eb in *. cbn [fst snd] in *. assert (i = Some sid) by (apply Ei; destruct Hk; congruence). subst i.
           replace (status_beq r Success || status_beq r ServerRefused) with true in H by (destruct Hk as [->| ->]; reflexivity).
           apply bind_inv in H. destruct H as (u3 & s4 & t7 & t8 & H1 & H & ->).
           apply callback_unit in H1. apply ret_inv in H. destruct H as (-> & -> & ->). rewrite app_nil_r. eapply h_suback; eauto.
      * rewrite Es in L. destruct (ack_decode KUnsuback rem data Hr Hd) as [(i & Hi & Eb & E)|(Hno & o & E)]; [fold body in Eb|fold body in Hno];
          change PKT_UNSUBACK with (ack_first KUnsuback) in L; rewrite E in L.
        -- assert (a0 = Success) by congruence. assert (pid = Some i) by congruence. subst a0 pid. cbn [status_beq orb] in H.
           apply bind_inv in H. destruct H as (u3 & s4 & t7 & t8 & H1 & H & ->).
           apply callback_unit in H1. apply ret_inv in H. destruct H as (-> & -> & ->). rewrite app_nil_r. eapply h_unsuback; eauto.
        -- assert (a0 = BadResponse) by congruence. subst a0. cbn in H. apply ret_inv in H. destruct H as (-> & -> & ->). apply h_unsuback_bad; auto.
    + apply ret_inv in H1. destruct H1 as (Q & -> & ->). assert (a = BadResponse) by congruence. assert (inv = false) by congruence. subst a inv.
      apply ret_inv in H. destruct H as (-> & -> & ->). cbn [app]. apply h_other; [lia|].
      unfold PKT_PUBACK, PKT_PUBREC, PKT_PUBREL, PKT_PUBCOMP, PKT_PINGRESP, PKT_SUBACK, PKT_UNSUBACK in *. cbn [In]. lia.
Qed.
End Packets.
