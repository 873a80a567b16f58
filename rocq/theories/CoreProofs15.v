(** Statements about single API calls, continued. *)
From Verif Require Import Base StateModel StateSpec StateHarness StateProofs StateProofs2 SerModel WireSpec SerHarness SerProofs SerProofs2 SerProofs3 SerProofs4 SerProofs5
  CoreModel CoreHarness CoreSpec CoreProofs CoreProofs2 CoreProofs3 CoreProofs4 CoreProofs5 CoreProofs6 CoreProofs7 CoreProofs8 CoreProofs9 CoreProofs10 CoreProofs11 CoreProofs12 CoreProofs13 CoreProofs14.

(** ** Statuses the engine returns *)
Ltac rgo H := repeat (cbn [rbind] in H; match type of H with
  | (let! x := ?m in _) = _ => destruct m as [?|] eqn:?; [|discriminate H]
  | (let '(a, b) := ?x in _) = _ => destruct x
  | rassert ?b _ = _ => unfold rassert in H
  | (if ?b then _ else _) = _ => destruct b eqn:?
  | match ?x with _ => _ end = _ => destruct x eqn:?
  end).
Lemma add_status l id q x st l' : addRecord l id q x = Ok (st, l') -> st = Success \/ st = NoMemory \/ st = StateCollision.
Proof.
  unfold addRecord. intro H. rgo H; try discriminate H; assert (K : exists z, Ok (z, l') = Ok (st, l')) by eauto; clear K;
  match type of H with Ok (?a, _) = _ => assert (st = a) by congruence end; subst; auto.
Qed.
Lemma reserve_status c id q st c' : reserveState c id q = Ok (st, c') ->
  st = Success \/ st = NoMemory \/ st = StateCollision \/ st = BadParameter.
Proof.
  unfold reserveState. intro H. rgo H; try discriminate H;
  try match goal with K : addRecord _ _ _ _ = Ok _ |- _ => apply add_status in K end;
  match type of H with Ok (?a, _) = _ => assert (st = a) by congruence end; subst; tauto.
Qed.
Lemma usp_status c i id op q cur new st c' : updateStatePublish c i id op q cur new = Ok (st, c') ->
  st = Success \/ st = NoMemory \/ st = StateCollision \/ st = IllegalState.
Proof.
  unfold updateStatePublish, rassert. intro H. destruct (_ && _); [|discriminate]. destruct (validateTransitionPublish _ _ _ _).
  2: { assert (st = IllegalState) by congruence. tauto. }
  destruct op.
  - destruct (pstate_beq _ _); [assert (st = Success) by congruence; tauto|]. destruct i; [|discriminate].
    destruct (updateRecord _ _ _ _); cbn [rbind] in H; [|discriminate]. assert (st = Success) by congruence. tauto.
  - destruct (addRecord _ _ _ _) as [[x l]|] eqn:E; cbn [rbind] in H; [|discriminate]. apply add_status in E.
    assert (st = x) by congruence. subst. tauto.
Qed.
Lemma published_status c id op q st ns c' : updateStatePublishApi c id op q = Ok (st, ns, c') ->
  st = Success \/ st = NoMemory \/ st = StateCollision \/ st = BadParameter \/ st = IllegalState.
Proof.
  unfold updateStatePublishApi. intro H.
  assert (K : forall i cur new, (let! (st, s') := updateStatePublish c i id op q cur new in Ok (st, if status_beq st Success then Some new else None, s')) = Ok (st, ns, c') ->
     st = Success \/ st = NoMemory \/ st = StateCollision \/ st = IllegalState).
  { intros i cur new K. destruct (updateStatePublish c i id op q cur new) as [[x y]|] eqn:E; cbn [rbind] in K; [|discriminate].
    apply usp_status in E. assert (st = x) by congruence. subst. tauto. }
  destruct q; [assert (st = Success) by congruence; tauto|..];
    (destruct (id =? 0); [assert (st = BadParameter) by congruence; tauto|]);
    (destruct op; [destruct (findInRecord _ _) as [[[i r]|]|]; cbn [rbind] in H;
       [destruct (negb _); [assert (st = BadParameter) by congruence; tauto|apply K in H; tauto]
       |assert (st = BadParameter) by congruence; tauto|discriminate]
     |apply K in H; tauto]).
Qed.

Section Calls.
Variable G : cfg.
Lemma quiet_pre a b : outs a = [] -> errs a = false -> quiet b -> quiet (a ++ b).
Proof. intros Ha He Hb. apply quiet_app; auto; [now apply quiet_noerr|congruence]. Qed.
Lemma not_connected_quiet c : x_status c <> Connected -> must_be_connected c <> Success /\ must_be_connected c <> SendFailed.
Proof. unfold must_be_connected. destruct (x_status c); split; congruence. Qed.

Lemma publish_wire p id m s st s' t : pub_means p id m -> publish G p id s = Ret st s' t ->
  wire (publish_packet m) st s s' t.
Proof.
  intros Hm H. apply publish_spec in H.
  destruct H as [(-> & -> & Hr & _)|(Hc & Hv & rl & ps & h & hs & rst & r1 & K1 & K2 & K3 & K4)].
  { apply refusal_kinds in Hr. apply wire_none; tauto || reflexivity. }
  destruct (publish_prepared _ _ _ _ _ _ _ Hm K1 K2) as (Hne & Hmax & -> & -> & (vs & Ev & Ec) & _).
  cbv zeta in K4.
  destruct K4 as [(Hn & -> & -> & ->)|(-> & vd & ok & e & te & S1 & S2 & S3)].
  { apply wire_none; auto. unfold reserve_step in K3. destruct (p_qos p); [congruence|..];
      (destruct (reserveState (x_recs (s_ctx s)) id _) as [[x y]|] eqn:Er; cbn [rbind] in K3; [|discriminate]);
      apply reserve_status in Er; assert (Ex : rst = (if status_beq x StateCollision && p_dup p then Success else x)) by congruence;
      destruct Er as [->|[->|[->| ->]]]; cbn [status_beq andb] in Ex; try (destruct (p_dup p)); subst rst; discriminate. }
  pose proof (store_outs _ _ _ _ _ _ _ _ S1) as So. pose proof (store_noerr _ _ _ _ _ _ _ _ S1) as Se.
  destruct S3 as [(-> & -> & -> & ->)|(-> & vs' & sok & t1 & s1 & S3 & S4 & -> & S5)].
  { apply wire_none; auto; discriminate. }
  assert (vs' = vs) by congruence. subst vs'. rewrite Ec in S4.
  apply sentb_exact in S4. destruct S4 as (k & W1 & W2 & W3 & W4 & W5 & W6).
  exists k. rewrite outs_app, So, errs_app, Se. cbn [app orb]. split; auto. split; auto. split; [now apply quiet_pre|].
  destruct S5 as [(-> & -> & ->)|(-> & S5)].
  - split; [discriminate|]. split.
    + intros _. destruct (Nat.eq_dec k (length (publish_packet m))) as [E|E]; [apply W4 in E; discriminate|lia].
    + intro He. split; auto. rewrite W6, He. cbn [s_ctx set_recs x_status]. rewrite Hc. discriminate.
  - split; [intros; now apply W4|]. assert (He : errs t1 = false) by (destruct (errs t1); auto; specialize (W5 eq_refl); discriminate).
    rewrite He. split; [|discriminate]. intros ->.
    destruct (p_qos p); [destruct S5; discriminate|..]; destruct S5 as (ns & r2 & S5 & _); apply published_status in S5; cbn in S5; intuition discriminate.
Qed.
Lemma op_wire o bs s st s' t : 4294967296 <= g_M G -> g_big G = false -> op_packet (g_M G) o bs ->
  run_op G o s = Ret st s' t -> wire bs st s s' t.
Proof.
  intros HM Hb Ho H. destruct Ho; cbn [run_op] in H.
  - eapply publish_wire; eauto.
  - eapply subscribe_spec in H; eauto. destruct (_ || _).
    + destruct H as (-> & -> & ->). apply wire_none; auto; discriminate.
    + destruct (x_status (s_ctx s)) eqn:Es.
      * destruct H as (-> & -> & ->). apply wire_none; auto; discriminate.
      * destruct H as (-> & -> & ->). apply wire_none; auto; discriminate.
      * destruct H as (ok & Hs & ->). now apply wire_sent.
  - eapply unsubscribe_spec in H; eauto. destruct (_ || _).
    + destruct H as (-> & -> & ->). apply wire_none; auto; discriminate.
    + destruct (x_status (s_ctx s)) eqn:Es.
      * destruct H as (-> & -> & ->). apply wire_none; auto; discriminate.
      * destruct H as (-> & -> & ->). apply wire_none; auto; discriminate.
      * destruct H as (ok & Hs & ->). now apply wire_sent.
  - apply ping_spec in H. destruct H as [(Hc & -> & -> & ->)|(Hc & ok & s1 & Hs & H)].
    + apply wire_none; auto; apply not_connected_quiet; auto.
    + apply wire_sent in Hs. destruct H as [(-> & -> & ->)|(-> & -> & ->)]; [exact Hs|].
      exact Hs.
  - apply disconnect_spec in H. destruct H as [(Hc & -> & -> & ->)|(Hc & ok & Hs & ->)].
    + apply wire_none; auto; discriminate.
    + apply wire_sent in Hs. destruct Hs as (k & W1 & W2 & W3 & W4 & W5 & W6). exists k. auto 10.
Qed.

(** ** The bytes sent are those of the serializers *)
Lemma publish_serialized p id m M s s' t b : 4294967296 <= M -> pub_means p id m -> (p_dup p = true -> p_qos p <> Q0) ->
  publish G p id s = Ret Success s' t -> zlen (outs t) <= zlen b ->
  exists rl, getPublishPacketSize p = (Success, Some (rl, zlen (outs t))) /\
    serializePublish M p id rl (Some b) = Ok (Success, Some (outs t ++ skipn (length (outs t)) b)).
Proof.
  intros HM Hm Hd H Hb. pose proof H as H'. destruct (publish_sent _ _ _ _ _ _ _ Hm H) as (Ho & Hne & Hx & Es). rewrite Ho in *.
  exists (zlen (publish_body m)). split; auto.
  rewrite (publish_encode M p id m b HM Hm); auto.
  - replace (zlen b <? zlen (publish_packet m)) with false by lia. reflexivity.
  - destruct Hm as (Hq & _ & Hdd & Hi & _). rewrite Hq, Hdd in Hd. split; auto. intro Nq.
    apply publish_spec in H'. destruct H' as [(_ & _ & K & _)|(_ & Hv & _)]; [apply refusal_kinds in K; tauto|].
    rewrite <- Hq in Nq. destruct (publish_params _ _ _ Hv Nq) as (_ & K). congruence.
Qed.
Lemma subscribe_serialized l fs id s s' t b : 4294967296 <= g_M G -> g_big G = false -> subs_mean l fs -> fs <> [] -> 0 < id < 65536 ->
  zlen (subscribe_body id fs) < g_M G ->
  subscribe G (Some l) (zlen l) id s = Ret Success s' t -> zlen (outs t) <= zlen b ->
  exists rl, getSubscribePacketSize (g_M G) (Some l) (zlen l) = Ok (Success, Some (rl, zlen (outs t))) /\
    serializeSubscribe (g_M G) (Some l) (zlen l) id rl (Some b) = Ok (Success, Some (outs t ++ skipn (length (outs t)) b)).
Proof.
  intros HM Hb Hm Hne Hid Hsz H Hl. eapply subscribe_spec in H; eauto.
  destruct (subs_need_state _ _ || _) eqn:E; [destruct H; discriminate|]. apply orb_false_iff in E.
  destruct (x_status (s_ctx s)); [destruct H; discriminate..|]. destruct H as (ok & Hs & Eo).
  destruct ok; [|discriminate]. apply sentb_true in Hs. rewrite Hs in *.
  exists (zlen (subscribe_body id fs)). rewrite (subscribe_size_ok (g_M G) l fs id) by auto.
  replace (zlen (subscribe_body id fs) <=? max_remaining) with true by lia. split; auto.
  rewrite (subscribe_encode (g_M G) l fs id b) by (auto; lia).
  replace (zlen b <? zlen (subscribe_packet id fs)) with false by lia. reflexivity.
Qed.
Lemma unsubscribe_serialized l fs id s s' t b : 4294967296 <= g_M G -> subs_mean l fs -> fs <> [] -> 0 < id < 65536 ->
  zlen (unsubscribe_body id (map fst fs)) < g_M G ->
  unsubscribe G (Some l) (zlen l) id s = Ret Success s' t -> zlen (outs t) <= zlen b ->
  exists rl, getUnsubscribePacketSize (g_M G) (Some l) (zlen l) = Ok (Success, Some (rl, zlen (outs t))) /\
    serializeUnsubscribe (g_M G) (Some l) (zlen l) id rl (Some b) = Ok (Success, Some (outs t ++ skipn (length (outs t)) b)).
Proof.
  intros HM Hm Hne Hid Hsz H Hl. eapply unsubscribe_spec in H; eauto.
  destruct (subs_need_state _ _ || _) eqn:E; [destruct H; discriminate|]. apply orb_false_iff in E.
  destruct (x_status (s_ctx s)); [destruct H; discriminate..|]. destruct H as (ok & Hs & Eo).
  destruct ok; [|discriminate]. apply sentb_true in Hs. rewrite Hs in *.
  exists (zlen (unsubscribe_body id (map fst fs))). rewrite (unsubscribe_size_ok (g_M G) l fs id) by auto.
  replace (zlen (unsubscribe_body id (map fst fs)) <=? max_remaining) with true by lia. split; auto.
  rewrite (unsubscribe_encode (g_M G) l fs id b) by (auto; lia).
  replace (zlen b <? zlen (unsubscribe_packet id (map fst fs))) with false by lia. reflexivity.
Qed.

(** ** MQTT_Connect, as observed *)
Lemma cleared_app a b : cleared (a ++ b) = cleared a ++ cleared b.
Proof. apply flat_map_app. Qed.
Lemma send_cleared t : send_only t -> cleared t = [].
Proof. unfold send_only. induction t as [|e t IH]; auto. cbn. rewrite andb_true_iff. intros (H & H'). destruct e; try discriminate; auto. Qed.
Lemma send_ins t : send_only t -> ins t = [].
Proof. unfold send_only. induction t as [|e t IH]; auto. cbn. rewrite andb_true_iff. intros (H & H'). destruct e; try discriminate; auto. Qed.
Lemma recv_cleared t : recv_only t -> cleared t = [].
Proof. unfold recv_only. induction t as [|e t IH]; auto. cbn. rewrite andb_true_iff. intros (H & H'). destruct e; try discriminate; auto. Qed.
Lemma recv_retrieved t : recv_only t -> retrieved t = [].
Proof. unfold recv_only. induction t as [|e t IH]; auto. cbn. rewrite andb_true_iff. intros (H & H'). destruct e; try discriminate; auto. Qed.
Lemma clear_events l : outs (map EClear l) = [] /\ ins (map EClear l) = [] /\ cleared (map EClear l) = l.
Proof. induction l as [|x l IH]; auto. destruct IH as (A & B & C). cbn. split; [exact A|]. split; [exact B|]. f_equal. exact C. Qed.
Lemma reset_tracked c : tracked (outRecs (resetRecs c)) = [] /\ tracked (inRecs (resetRecs c)) = [].
Proof.
  assert (K : forall k, abs (repeat empty_rec k) = []) by (induction k; auto).
  unfold tracked, resetRecs. cbn [outRecs inRecs]. split; [destruct (outRecs c)|destruct (inRecs c)]; cbn [set_arr arr]; auto.
Qed.
Lemma publish_loop_cleared fuel : forall cur s st s' t, publish_loop G fuel cur s = Ret st s' t -> cleared t = [].
Proof.
  induction fuel as [|fuel IH]; intros cur s st s' t H; [discriminate|]. cbn [publish_loop] in H.
  apply bind_inv in H. destruct H as (c & s1 & t1 & t2 & H1 & H & ->). apply getc_inv in H1. destruct H1 as (-> & -> & ->). cbn [app].
  destruct (publishToResend _ cur) as [pid cur']. destruct (pid =? 0); [mgo H; reflexivity|].
  apply bind_inv in H. destruct H as (r & s1 & t1 & t3 & H1 & H & ->). unfold retrieve_publish in H1.
  match type of H1 with Ret ?a ?b ?c = _ => assert (E : t1 = c) by congruence end. rewrite cleared_app, E. cbn [cleared flat_map app].
  clear E H1. destruct r as [bs|]; [|mgo H; reflexivity].
  apply bind_inv in H. destruct H as (k & s2 & t4 & t5 & H1 & H & ->). apply sendBuffer_spec in H1. apply sent_ok_sentb, sentb_only, send_cleared in H1.
  fold (cleared (t4 ++ t5)). rewrite cleared_app, H1. destruct (negb _); [mgo H; reflexivity|]. cbn [app]. eapply IH; eauto.
Qed.
Lemma resume_cleared n m s st s' t : Reach n m (x_recs (s_ctx s)) -> x_status (s_ctx s) = Connected ->
  handleUncleanSessionResumption G s = Ret st s' t -> cleared t = [].
Proof.
  intros HR Hc H. unfold handleUncleanSessionResumption in H.
  apply bind_inv in H. destruct H as (c & s1 & t1 & t2 & H1 & H & ->). apply getc_inv in H1. destruct H1 as (-> & -> & ->). cbn [app].
  destruct (pubrelToResend _ 0) as [pid cur] eqn:Ep.
  apply bind_inv in H. destruct H as (st1 & s1 & t1 & t3 & H1 & H & ->).
  destruct (reach_walks _ _ _ HR) as (_ & Wk).
  apply (pubrel_loop_spec G n m _ _ _ _ _ _ _ _ _ HR Hc Wk (fun _ x => x) Ep) in H1. cbv zeta in H1. destruct H1 as (_ & _ & So & _).
  rewrite cleared_app, (send_cleared _ So). cbn [app].
  destruct (_ && _); [eapply publish_loop_cleared; eauto|mgo H; reflexivity].
Qed.
Lemma connect_observed n m ci will cm tmo s st sp s' t : con_means ci will cm -> Reach n m (x_recs (s_ctx s)) -> bytes_ok (e_in (s_env s)) ->
  connect G ci will tmo s = Ret (st, sp) s' t -> x_status (s_ctx s) = NotConnected ->
  (st = BadParameter /\ sp = None /\ s' = s /\ t = []) \/
  cm_id cm <> [] /\ will_fits cm = true /\
  ((exists k, (k <= length (connect_packet cm))%nat /\ outs t = firstn k (connect_packet cm)) /\
    st <> Success /\ x_status (s_ctx s') = NotConnected /\ x_recs (s_ctx s') = x_recs (s_ctx s) /\ x_index (s_ctx s') = x_index (s_ctx s) /\ cleared t = [] \/
   st = Success /\ sp = Some false /\ outs t = connect_packet cm /\ ins t = [32; 2; 0; 0] /\ x_status (s_ctx s') = Connected /\
     outgoing s' = [] /\ incoming s' = [] /\ x_index (s_ctx s') = 0 /\
     cleared t = (if x_retr (s_ctx s) then unacked (outgoing s) else []) \/
   c_clean ci = false /\ sp = Some true /\ ins t = [32; 2; 1; 0] /\ cleared t = [] /\ incoming s' = incoming s /\
     x_status (s_ctx s') = (if status_beq st Success then Connected else DisconnectPending) /\
     exists copies rest,
       retrieved t = map (fun p => (fst p, Some (snd p))) copies ++ rest /\
       let all := connect_packet cm ++ flat_map pubrel (half_done (outgoing s)) ++ flat_map snd copies in
       (st = Success /\ rest = [] /\ map fst copies = (if x_retr (s_ctx s) then unacked (outgoing s) else []) /\ outs t = all /\
          outgoing s' = mark (half_done (outgoing s)) (outgoing s) \/
        st = SendFailed /\ copies = [] /\ rest = [] /\ (exists rels id more k, half_done (outgoing s) = rels ++ id :: more /\ (k < 4)%nat /\
          outs t = connect_packet cm ++ flat_map pubrel rels ++ firstn k (pubrel id) /\ outgoing s' = mark rels (outgoing s)) \/
        (exists id more, unacked (outgoing s) = map fst copies ++ id :: more /\ outgoing s' = mark (half_done (outgoing s)) (outgoing s) /\
          (st = PublishRetrieveFailed /\ rest = [(id, None)] /\ outs t = all \/
           st = SendFailed /\ exists bs k, rest = [(id, Some bs)] /\ (k < length bs)%nat /\ outs t = all ++ firstn k bs)))).
Proof.
  intros Hm HR Hb H Hs. destruct (connect_spec G n m ci will tmo s st sp s' t HR Hb H) as [(_ & -> & -> & -> & ->)|(rl & total & Ez & K)].
  { left. repeat split. destruct s as [[] ?]. unfold transport_broke. cbn in Hs. subst. reflexivity. }
  destruct K as [[(K & _)|(K & _)]|(_ & K)]; [congruence..|].
  destruct K as [K|(vs & ok & s1 & t1 & Ev & S1 & K)]; [left; auto|]. right.
  assert (Hne : cm_id cm <> []).
  { intro E. unfold getConnectPacketSize in Ez. destruct Hm as (_ & _ & _ & Hid & _). apply holds_len in Hid. rewrite E in Hid.
    change (zlen []) with 0 in Hid. replace (c_idlen ci =? 0) with true in Ez by lia. discriminate. }
  rewrite (connect_size_ok _ _ _ Hm Hne) in Ez. destruct (will_fits cm) eqn:Ew; [|discriminate].
  split; auto. split; auto. assert (rl = zlen (connect_body cm)) by congruence. subst rl.
  destruct (connect_vectors_ok _ _ _ Hm Ew) as (vs' & Ev' & Ec). assert (vs' = vs) by congruence. subst vs'. rewrite Ec in S1.
  pose proof (sentb_recs _ _ _ _ _ S1) as Er. pose proof (sentb_only _ _ _ _ _ S1) as So1. destruct (sentb_nc _ _ _ _ _ Hs S1) as (lt & Ex).
  pose proof (sentb_exact _ _ _ _ _ S1) as (k & W1 & W2 & W3 & W4 & W5 & W6).
  assert (Ci1 : cleared t1 = []) by (apply send_cleared; auto). assert (In1 : ins t1 = []) by (apply send_ins; auto).
  assert (Re1 : retrieved t1 = []) by (apply send_retrieved; auto).
  destruct K as [(-> & -> & -> & -> & ->)|(-> & st2 & s2 & t2 & Wt & K)].
  { left. split; [eauto|]. rewrite Ex. repeat split; auto. discriminate. }
  assert (Ho : outs t1 = connect_packet cm) by (rewrite W2, (proj1 W4 eq_refl); apply firstn_all).
  destruct Wt as (bs & b & I2 & Rc & Ei & Env & Lb & _ & Cx & Wr).
  assert (O2 : outs t2 = []) by (now apply recv_outs). assert (C2 : cleared t2 = []) by (now apply recv_cleared).
  assert (Re2 : retrieved t2 = []) by (now apply recv_retrieved).
  destruct K as [(Hn & -> & -> & ->)|[(-> & -> & -> & -> & ->)|(-> & -> & Hcl & s3 & t3 & Hr & -> & ->)]].
  - left. rewrite outs_app, O2, app_nil_r, cleared_app, C2, Ci1. split; [eauto|]. rewrite Cx, Ex. cbn [set_buf set_lastTx x_status x_recs x_index]. auto.
  - right. left. rewrite !outs_app, !ins_app, !cleared_app, O2, C2, In1, Ci1, Ho. cbn [app].
    destruct Wr as [(_ & p & Eb & Ep & _)|[(? & _)|[?|[?|?]]]]; try discriminate. assert (p = false) as -> by congruence.
    assert (Hrest : outs (if x_retr (s_ctx s) then map EClear (pubq (tracked (outRecs (x_recs (s_ctx s))))) else []) = [] /\
      ins (if x_retr (s_ctx s) then map EClear (pubq (tracked (outRecs (x_recs (s_ctx s))))) else []) = [] /\
      cleared (if x_retr (s_ctx s) then map EClear (pubq (tracked (outRecs (x_recs (s_ctx s))))) else []) = (if x_retr (s_ctx s) then unacked (outgoing s) else [])).
    { destruct (x_retr (s_ctx s)); auto. unfold outgoing. change unacked with pubq.
      apply clear_events. }
    destruct Hrest as (-> & -> & ->). rewrite !app_nil_r, I2. unfold outgoing, incoming. cbn [s_ctx connected set_keep set_status x_recs cleaned set_recs x_status x_index emptied set_index set_buf].
    repeat split; auto; apply reset_tracked.
  - right. right. destruct Wr as [(_ & p & Eb & Ep & _)|[(? & _)|[?|[?|?]]]]; try discriminate. assert (p = true) as -> by congruence.
    set (sc := mkSt (connected (s_ctx s2) (c_keepalive ci)) (s_env s2)) in *.
    assert (Er2 : x_recs (s_ctx sc) = x_recs (s_ctx s)) by (unfold sc; cbn; rewrite Cx; cbn; exact Er).
    assert (Ex2 : x_retr (s_ctx sc) = x_retr (s_ctx s)) by (unfold sc; cbn; rewrite Cx, Ex; reflexivity).
    assert (C3 : cleared t3 = []) by (eapply (resume_cleared n m); [| |exact Hr]; [rewrite Er2; auto|reflexivity]).
    apply (resume_spec G n m) in Hr; [|rewrite Er2; auto|reflexivity]. cbv zeta in Hr. rewrite Er2, Ex2 in Hr.
    destruct Hr as (Hp & Hin & done & got & Hgot & Hr).
    pose proof (path_same_rx _ _ _ Hp) as (_ & Hnr). pose proof (no_rx_items _ Hnr) as (_ & In3).
    
    rewrite !ins_app, !cleared_app, In1, In3, Ci1, C2, C3, I2, app_nil_r. cbn [app]. split; auto. split; auto. split; auto. split; auto.
    split. { unfold incoming. destruct (status_beq st Success); cbn [s_ctx]; [exact Hin|]. pose proof (broke_fields (s_ctx s3)) as (_ & _ & -> & _). exact Hin. }
    split. { pose proof (xpath_live G _ _ _ (xpath_path G false false _ _ _ Hp)) as Lv. unfold live in Lv. change (x_status (s_ctx sc)) with Connected in Lv. cbv iota in Lv. destruct Lv as (_ & Lv).
      destruct (status_beq st Success) eqn:Est.
      - apply status_beq_eq in Est. subst st. destruct Hr as [(K & _)|(_ & [(_ & K & _)|(_ & id & rest & _ & [(K & _)|(K & _)])])]; try discriminate. exact K.
      - cbn [s_ctx]. rewrite broke_status, Lv. destruct (errs t3); reflexivity. }
    exists done, got. rewrite !retrieved_app, Re1, Re2, Hgot. cbn [app]. split; auto. cbv zeta.
    rewrite !outs_app, Ho, O2. cbn [app].
    assert (Eo : outgoing (if status_beq st Success then s3 else mkSt (transport_broke (s_ctx s3)) (s_env s3)) = tracked (outRecs (x_recs (s_ctx s3)))).
    { unfold outgoing. destruct (status_beq st Success); cbn [s_ctx]; auto. pose proof (broke_fields (s_ctx s3)) as (_ & _ & -> & _). auto. }
    rewrite Eo. unfold outgoing. change unacked with pubq. change half_done with relq.
    destruct Hr as [(-> & -> & -> & rels & id & rest & k' & H1 & H2 & H3 & H4)|(H1 & [(-> & H2 & H3 & -> & H4 & H5)|(H2 & id & rest & H3 & [(-> & -> & H4)|(-> & bs2 & k' & -> & H4 & H5)])])].
    + right. left. repeat split; auto. exists rels, id, rest, k'. rewrite H3. auto.
    + left. rewrite H5. auto.
    + right. right. exists id, rest. split; auto. split; auto. left. rewrite H4. auto.
    + right. right. exists id, rest. split; auto. split; auto. right. split; auto. exists bs2, k'. rewrite H5, !app_assoc. auto.
Qed.
End Calls.
