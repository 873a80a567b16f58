(** What the receive buffer holds when a connection begins. *)
From Verif Require Import Base StateModel StateSpec StateHarness StateProofs StateProofs2 SerModel WireSpec SerHarness SerProofs SerProofs2 SerProofs3 SerProofs4
  CoreModel CoreHarness CoreSpec CoreProofs CoreProofs2 CoreProofs3 CoreProofs4 CoreProofs5 CoreProofs6 CoreProofs7 CoreProofs8 CoreProofs9 CoreProofs10 CoreProofs11 CoreProofs12 CoreProofs13.

Section Fresh.
Variable G : cfg.
Definition is_loop (c : call) : bool := match c with CProcess | CReceive => true | _ => false end.
(** the loops are called only on a connection (or one waiting for MQTT_Disconnect) *)
Fixpoint loops_connected (l : list call) (s : st) : Prop :=
  match l with
  | [] => True
  | c :: l => (is_loop c = true -> x_status (s_ctx s) <> NotConnected) /\
              match run_call G c s with Ret _ s' _ => loops_connected l s' | _ => True end
  end.
(** no bytes are kept without a connection *)
Definition blank (s : st) : Prop := x_status (s_ctx s) = NotConnected -> x_index (s_ctx s) = 0.

Lemma sentb_index bs s ok s' t : sentb bs s ok s' t -> x_index (s_ctx s') = x_index (s_ctx s) /\ (x_status (s_ctx s') = NotConnected -> x_status (s_ctx s) = NotConnected).
Proof.
  intro H. pose proof (sentb_same_rx _ _ _ _ _ H) as ((_ & E & _) & _). split; [exact E|].
  destruct H as (k & l & _ & _ & _ & _ & _ & _ & [(_ & ->)|(_ & _ & ->)]); [auto|]. rewrite broke_status. cbn [set_lastTx x_status]. destruct (x_status (s_ctx s)); congruence.
Qed.
Lemma atom_blank d s s' t : atom d s s' t -> blank s -> blank s'.
Proof.
  intros A H. destruct A as [s s' t (E1 & E2 & E3 & E4 & E5) (F1 & F2 & F3) Hs|s o r c H1 H2|s bs ok s' t H1 H2|s ty data id pub result|s ok s' t -> Hn K]; unfold blank in *.
  - intro K. rewrite ?E1, ?E2, ?E3, ?E4, ?E5 in *. auto.
  - exact H.
  - apply sentb_index in H2. destruct H2 as (-> & H2). auto.
  - exact H.
  - apply sentb_index in K. destruct K as (-> & _). reflexivity.
Qed.
Lemma path_blank d s s' t : Path d s s' t -> blank s -> blank s'.
Proof. induction 1; auto. intro. apply IHPath. eapply atom_blank; eauto. Qed.
Lemma atom_index s s' t : atom false s s' t -> x_index (s_ctx s') = x_index (s_ctx s).
Proof.
  intro A. destruct A as [s s' t (E1 & E2 & E3 & E4 & E5) (F1 & F2 & F3) Hs|s o r c H1 H2|s bs ok s' t H1 H2|s ty data id pub result|s ok s' t ? Hn K]; try discriminate; auto.
  apply sentb_index in H2. apply H2.
Qed.
Lemma path_index s s' t : Path false s s' t -> x_index (s_ctx s') = x_index (s_ctx s).
Proof. intro H. remember false as d in H. induction H as [|s1 s2 s3 t1 t2 A H IH]; subst; auto. rewrite IH by auto. now apply atom_index in A. Qed.
Lemma broke_index c : x_index (transport_broke c) = x_index c. Proof. apply broke_fields. Qed.

(** MQTT_Connect keeps the bytes in the buffer unless the session is new *)
Lemma connect_index n m ci will tmo s st sp s' t : rx_all G s -> Reach n m (x_recs (s_ctx s)) -> connect G ci will tmo s = Ret (st, sp) s' t ->
  (x_index (s_ctx s') = x_index (s_ctx s) /\ (st = Success -> sp = Some true)) \/ (x_index (s_ctx s') = 0 /\ st = Success /\ sp = Some false).
Proof.
  intros Hr Hc H. eapply connect_spec in H; eauto; [|apply Hr].
  destruct H as [(K1 & K2 & _ & -> & ->)|(rl & total & _ & H)]; [left; cbn [s_ctx]; rewrite broke_index; split; [reflexivity|intro; subst; congruence]|].
  destruct H as [[(_ & -> & _ & -> & ->)|(_ & -> & _ & -> & ->)]|(Hs & H)]; try (left; split; [reflexivity|discriminate]).
  destruct H as [(-> & _ & -> & ->)|(vs & ok & s1 & t1 & Hv & H1 & H)]; [left; split; [reflexivity|discriminate]|].
  destruct (sentb_index _ _ _ _ _ H1) as (I1 & _).
  destruct H as [(_ & -> & _ & -> & ->)|(-> & st2 & s2 & t2 & Hw & H)]; [left; split; [exact I1|discriminate]|].
  destruct Hw as (bs & b & _ & _ & _ & _ & _ & _ & Ec2 & Hw). assert (I2 : x_index (s_ctx s2) = x_index (s_ctx s)) by (rewrite Ec2; exact I1).
  destruct H as [(K1 & -> & -> & ->)|[(-> & -> & -> & -> & ->)|(-> & Esp & _ & s3 & t3 & H3 & -> & ->)]].
  - left. split; [exact I2|]. intro; congruence.
  - right. repeat split.
  - left. destruct (sentb_nc _ _ _ _ _ Hs H1) as (l & Ec). assert (Er : x_recs (s_ctx s2) = x_recs (s_ctx s)) by (rewrite Ec2; cbn; rewrite Ec; reflexivity).
    eapply resume_spec in H3; [|cbn; rewrite Er; exact Hc|reflexivity]. destruct H3 as (P & _). apply path_index in P. cbn [s_ctx connected set_keep set_status x_index] in P.
    split; [|auto]. destruct (status_beq st Success); cbn [s_ctx]; rewrite ?broke_index, P; exact I2.
Qed.
Lemma connect_blank n m ci will tmo s st sp s' t : rx_all G s -> Reach n m (x_recs (s_ctx s)) -> blank s -> connect G ci will tmo s = Ret (st, sp) s' t -> blank s'.
Proof.
  intros Hr Hc Hb H. destruct (connect_index _ _ _ _ _ _ _ _ _ _ Hr Hc H) as [(E & _)|(E & _)]; [|unfold blank; auto].
  unfold blank in *. rewrite E. intro K. apply Hb.
  destruct (x_status (s_ctx s)) eqn:Es; auto; exfalso; eapply connect_spec in H; eauto; try apply Hr; destruct H as [(_ & _ & _ & -> & _)|(rl & total & _ & [[(_ & _ & _ & -> & _)|(_ & _ & _ & -> & _)]|(Hs & _)])];
    cbn [s_ctx] in K; rewrite ?broke_status, ?Es in K; congruence.
Qed.
Lemma call_blank n m c s st s' t : rx_all G s -> Reach n m (x_recs (s_ctx s)) -> cbs_ok false s -> blank s -> (is_loop c = true -> x_status (s_ctx s) <> NotConnected) ->
  run_call G c s = Ret st s' t -> blank s'.
Proof.
  intros Hr Hc Hd Hb Hl H. destruct c as [o|ci will tmo| |]; cbn [run_call is_loop] in *.
  - eapply path_blank; [eapply run_op_path; eauto|exact Hb].
  - apply bind_inv in H. destruct H as ((st1, sp) & s1 & t1 & t2 & H1 & H & ->). apply ret_inv in H. destruct H as (-> & -> & ->). eapply connect_blank; eauto.
  - specialize (Hl eq_refl). rewrite process_eq in H. apply iteration_x in H; auto. apply xpath_live in H. unfold live in H. cbn [s_ctx set_ctl x_status] in H.
    intro K. rewrite K in H. destruct (x_status (s_ctx s)); [|destruct H; discriminate|destruct H as (_ & H); destruct (errs t); discriminate]. contradiction.
  - specialize (Hl eq_refl). apply iteration_x in H; auto. apply xpath_live in H. unfold live in H.
    intro K. rewrite K in H. destruct (x_status (s_ctx s)); [|destruct H; discriminate|destruct H as (_ & H); destruct (errs t); discriminate]. contradiction.
Qed.
Lemma calls_blank n m l : forall s rs s' t, rx_all G s -> Reach n m (x_recs (s_ctx s)) -> cbs_ok false s -> blank s -> loops_connected l s ->
  run_calls G l s = Ret rs s' t -> blank s'.
Proof.
  induction l as [|c l IH]; intros s rs s' t Hr Hc Hd Hb Hl H; cbn [run_calls] in H; [mgo H; auto|].
  apply bind_inv in H. destruct H as (x & s1 & t1 & t2 & H1 & H & ->). apply bind_inv in H. destruct H as (xs & s2 & t3 & t4 & H2 & H & ->). apply ret_inv in H. destruct H as (-> & -> & ->).
  cbn [loops_connected] in Hl. rewrite H1 in Hl. destruct Hl as (Hl1 & Hl). pose proof (call_blank _ _ _ _ _ _ _ Hr Hc Hd Hb Hl1 H1).
  eapply call_x in H1; eauto. eapply IH in H2; eauto using xpath_rx, xpath_reach, xpath_cbs.
Qed.
End Fresh.
