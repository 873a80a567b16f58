(** The statuses a call returns (C118). *)
From Verif Require Import Base StateModel StateSpec StateHarness StateProofs StateProofs2 SerModel WireSpec SerHarness SerProofs SerProofs2 SerProofs3 SerProofs4 SerProofs5
  CoreModel CoreHarness CoreSpec CoreProofs CoreProofs2 CoreProofs3 CoreProofs4 CoreProofs5 CoreProofs6 CoreProofs7 CoreProofs8 CoreProofs9 CoreProofs10 CoreProofs11 CoreProofs12 CoreProofs13
  CoreProofs14 CoreProofs15 CoreProofs16 CoreProofs22 CoreFinal DocSpec.

Definition possible (c : call) (st : status) : Prop := (In st (documented c) \/ In st (undocumented c)) /\ ~ In st (never_returned c).
Ltac may := split; [cbn; tauto|cbn; intuition discriminate].

Section Doc.
Variable G : cfg.
Lemma publish_doc p id s st s' t : publish G p id s = Ret st s' t -> possible (COp (OPublish p id)) st.
Proof.
  intro H. apply publish_spec in H.
  destruct H as [(_ & _ & [->|[->| ->]] & _)|(Hc & Hv & rl & ps & h & hs & rst & r1 & K1 & K2 & K3 & K4)]; [may..|]. cbv zeta in K4.
  destruct K4 as [(_ & -> & _)|(-> & vd & ok & e & te & _ & _ & S3)].
  - unfold reserve_step in K3. destruct (p_qos p); [injection K3 as <- _; may|..];
      (destruct (reserveState (x_recs (s_ctx s)) id _) as [[x y]|] eqn:Er; cbn [rbind] in K3; [|discriminate]);
      apply reserve_status in Er; assert (Ex : rst = (if status_beq x StateCollision && p_dup p then Success else x)) by congruence;
      destruct Er as [->|[->|[->| ->]]]; cbn [status_beq andb] in Ex; try (destruct (p_dup p)); subst rst; may.
  - destruct S3 as [(_ & -> & _)|(_ & vs & sok & t1 & s1 & _ & _ & _ & S5)]; [may|].
    destruct S5 as [(_ & -> & _)|(_ & S5)]; [may|].
    destruct (p_qos p); [destruct S5 as (-> & _); may|..]; destruct S5 as (ns & r2 & S5 & _); apply published_status in S5;
      destruct S5 as [->|[->|[->|[->| ->]]]]; may.
Qed.
Lemma remove_status r id st r' : removeStateRecord r id = Ok (st, r') -> st = Success \/ st = BadParameter.
Proof.
  unfold removeStateRecord. destruct (outRecs r) as [l|]; [|intro H; injection H as <- _; auto]. destruct (findInRecord l id) as [[(i, x)|]|]; cbn [rbind]; [|intro H; injection H as <- _; auto|discriminate].
  destruct (pstate_beq _ _); [intro H; injection H as <- _; auto|]. destruct (_ && _); [intro H; injection H as <- _; auto|]. destruct (updateRecord _ _ _ _); cbn [rbind]; [intro H; injection H as <- _; auto|discriminate].
Qed.
Lemma op_doc o s st s' t : run_op G o s = Ret st s' t -> possible (COp o) st.
Proof.
  intro H. destruct o; cbn [run_op] in H.
  - eapply publish_doc; eauto.
  - apply subscribe_any in H. destruct H as [(_ & _ & [->|[->| ->]] & _)|(_ & bs & [|] & _ & ->)]; may.
  - apply unsubscribe_any in H. destruct H as [(_ & _ & [->|[->| ->]] & _)|(_ & bs & [|] & _ & ->)]; may.
  - apply ping_spec in H. destruct H as [(Hc & -> & _)|(_ & ok & s1 & _ & [(_ & -> & _)|(_ & -> & _)])]; [|may..].
    unfold must_be_connected. destruct (x_status (s_ctx s)); [may|may|now destruct Hc].
  - apply disconnect_spec in H. destruct H as [(_ & -> & _)|(_ & [|] & _ & ->)]; may.
  - unfold getPacketId in H. mgo H. may.
  - unfold cancel in H. mgo H. destruct (outRecs _); unfold on_recs in H; mgo H; [|may].
    destruct (removeStateRecord _ _) as [(a, b)|] eqn:E; [|discriminate]. injection H as <- _ _. apply remove_status in E. destruct E as [->| ->]; may.
  - unfold checkConnectStatus in H. mgo H. destruct (x_status _); may.
Qed.
Lemma connect_doc n m ci will tmo s st sp s' t : Begun G n m s -> connect G ci will tmo s = Ret (st, sp) s' t -> possible (CConnect ci will tmo) st.
Proof.
  intros HB H. pose proof (begun_reach _ _ _ _ HB) as HR. pose proof (begun_bytes _ _ _ _ HB) as Hb.
  destruct (connect_spec G n m ci will tmo s st sp s' t HR Hb H) as [(_ & -> & _)|(rl & total & _ & K)]; [may|].
  destruct K as [[(_ & -> & _)|(_ & -> & _)]|(Hs & K)]; [may..|].
  destruct K as [(-> & _)|(vs & ok & s1 & t1 & _ & S1 & K)]; [may|]. pose proof (sentb_recs _ _ _ _ _ S1) as Er.
  destruct K as [(_ & -> & _)|(_ & st2 & s2 & t2 & Wt & K)]; [may|].
  destruct Wt as (bs & b & _ & _ & _ & _ & _ & _ & Cx & Wr).
  destruct K as [(N & -> & _)|[(_ & _ & -> & _)|(_ & _ & _ & s3 & t3 & Hr & _)]]; [|may|].
  - destruct Wr as [(-> & _)|[(-> & _)|[->|[->| ->]]]]; may.
  - eapply resume_spec in Hr; [|cbn [s_ctx]; unfold connected; cbn; rewrite Cx; cbn; rewrite Er; exact HR|reflexivity].
    destruct Hr as (_ & _ & done & got & _ & K).
    destruct K as [(-> & _)|(_ & [(-> & _)|(_ & id & rest & _ & [(-> & _)|(-> & _)])])]; may.
Qed.

(** what the loops say, without the time-out *)
Definition said (st : status) : Prop :=
  In st [Success; RecvFailed; SendFailed; BadResponse; IllegalState; NeedMoreBytes; StNotConnected; StDisconnectPending; NoMemory].
Lemma acked_said v id k op : 1 <= id -> said (fst (fst (spec_step v (Acked id k op)))).
Proof.
  intro Hi. cbn [spec_step]. replace (id =? 0) with false by lia. destruct (concerns_sent k op).
  - destruct (lookup _ _); [|cbn; tauto]. destruct (sender_table _ _ _ _); cbn; tauto.
  - destruct (lookup _ _); [|cbn; tauto]. destruct (receiver_table _ _ _ _); cbn; tauto.
Qed.
Lemma not_conn_said c : said (not_connected_result c).
Proof. destruct c; cbn; tauto. Qed.
Lemma replied_said n m k id s res s' t : 1 <= id -> replied n m k id s res s' t -> said res.
Proof. intros Hi [(_ & -> & _)|(_ & _ & _ & _ & _ & [(_ & -> & _)|(_ & _ & -> & _)])]; [apply not_conn_said|cbn; tauto|now apply acked_said]. Qed.
Lemma packet_said n m mk ty body s r s3 t : packet_handled G n m mk ty body s r s3 t -> said r.
Proof.
  intro H. destruct H as [res s' t Hty H|k res s' t Hty H|r id s' t Hty _ _ H| |id s' t Hty _ _ H| |Hmk Hty _|s' t _ Hty _ H| |]; try (cbn; tauto).
  - destruct H as [|msg d s' t _ _ _ H| |msg s0 res s' t (_ & _ & _ & _ & _ & Hi) Hq _ _ _ _ H|msg d s0 s1 t1 res s' t (_ & _ & _ & _ & _ & Hi) _ Hq _ _ _ _ _ _ _ H|]; try (cbn; tauto);
      (eapply replied_said; [|exact H]; specialize (Hi Hq); lia).
  - destruct H as [|id s' Hid Hb r Hr _ _|id s0 s1 t1 res s' t Hid Hb r Hr _ _ _ H]; [cbn; tauto|apply acked_said; lia|].
    destruct (reply_to k); [eapply replied_said; [|exact H]; lia|]. destruct H as (-> & _). cbn. tauto.
Qed.
Lemma loop_said n m mk s res s' t : loop_handled G n m mk s res s' t -> said res \/ mk = true /\ res = KeepAliveTimeout.
Proof.
  intro H. destruct H as [s1|bs s1 k s2 t2 res s' t3 H1 H1' H2 H3 H4 H5 H6]; [left; cbn; tauto|].
  destruct H6 as [(_ & -> & _)|(_ & H6)].
  - destruct (mk && (zlen bs =? 0)) eqn:Em; [|destruct H5 as (-> & _); left; cbn; tauto]. apply andb_true_iff in Em. destruct Em as (-> & _).
    destruct H5 as (now & sx & _ & H5). destruct (x_waiting (s_ctx s1)); [destruct H5 as (-> & _); destruct (_ <? _); [now right|left; cbn; tauto]|].
    left. destruct (ping_due _ _ _); [|destruct H5 as (-> & _); cbn; tauto].
    destruct H5 as [(_ & -> & _)|(_ & _ & _ & _ & _ & _ & [(_ & -> & _)|(_ & _ & -> & _)])]; [apply not_conn_said|cbn; tauto..].
  - left. destruct H6 as [| | |h part ty rem sx err s' t Hh Hp Hl Hr He _ _ _ _ _|h ty body rest r s3 s' t Hh Hp Hl Hk _ _ _]; try (cbn; tauto); [|eapply packet_said; eauto].
    destruct (negb err && _); cbn; tauto.
Qed.
Lemma call_doc n m c s st s' t : Begun G n m s -> run_call G c s = Ret st s' t -> possible c st.
Proof.
  intros HB H. destruct c as [o|ci will tmo| |]; cbn [run_call] in H.
  - eapply op_doc; eauto.
  - apply bind_inv in H. destruct H as ((st1, sp) & s1 & t1 & t2 & H & H2 & ->). apply ret_inv in H2. destruct H2 as (-> & -> & ->). eapply connect_doc; eauto.
  - apply (process_outcome G n m) in H; [|exact HB]. apply loop_said in H. destruct H as [H|(_ & ->)]; [|may].
    unfold said in H. cbn in H. repeat (destruct H as [<-|H]; [may|]). destruct H.
  - apply (receive_outcome G n m) in H; [|exact HB]. apply loop_said in H. destruct H as [H|(X & _)]; [|discriminate].
    unfold said in H. cbn in H. repeat (destruct H as [<-|H]; [may|]). destruct H.
Qed.
End Doc.
