(** Relations kept by every function of the core. *)
From Verif Require Import Base StateModel StateSpec StateHarness StateProofs StateProofs2 SerModel WireSpec SerHarness
  CoreModel CoreSpec CoreHarness CoreProofs CoreProofs2 CoreProofs3 CoreProofs16 CoreProofs19.

Section Keep.
Variable G : cfg.
Variable R : st -> st -> list ev -> Prop.
Hypothesis Rrefl : forall s, R s s [].
Hypothesis Rtrans : forall a b c t u, R a b t -> R b c u -> R a c (t ++ u).
Hypothesis Rquiet : forall s c e, x_recs c = x_recs (s_ctx s) -> x_nextId c = x_nextId (s_ctx s) -> R s (mkSt c e) [].
Definition op_event (e : ev) : bool :=
  match e with EOut _ | EOutErr | EStore _ _ _ => true | _ => false end.
Hypothesis Revent : forall s e, op_event e = true -> R s s [e].
Hypothesis Rid : forall s, R s (mkSt (set_nextId (s_ctx s) (if x_nextId (s_ctx s) =? 65535 then 1 else u16 (x_nextId (s_ctx s) + 1))) (s_env s)) [EId (x_nextId (s_ctx s))].
Definition keeps {A} (m : Mo A) : Prop := forall s a s' t, m s = Ret a s' t -> R s s' t.
Hypothesis Rout : forall id q, keeps (on_recs (fun r => reserveState r id q)).
Hypothesis Rpub : forall id q, keeps (on_recs (fun r => updateStatePublishApi r id OpSend q)).
Hypothesis Rcancel : forall id, keeps (on_recs (fun r => removeStateRecord r id)).

Lemma k_ret {A} (a : A) : keeps (ret a).
Proof. intros s x s' t H. apply ret_inv in H. destruct H as (_ & -> & ->). apply Rrefl. Qed.
Lemma k_bind {A B} (m : Mo A) (k : A -> Mo B) : keeps m -> (forall a, keeps (k a)) -> keeps (bind m k).
Proof. intros Hm Hk s x s' t H. apply bind_inv in H. destruct H as (a & s1 & t1 & t2 & H1 & H2 & ->). eapply Rtrans; eauto. eapply Hk; eauto. Qed.
Lemma k_undef {A} : keeps (@undef A). Proof. discriminate. Qed.
Lemma k_stuck {A} : keeps (@stuck A). Proof. discriminate. Qed.
Lemma k_lift {A} (r : Base.R A) : keeps (lift r).
Proof. intros s x s' t H. apply lift_inv in H. destruct H as (_ & -> & ->). apply Rrefl. Qed.
Lemma k_massert b : keeps (massert b).
Proof. unfold massert. destruct b; [apply k_ret|apply k_undef]. Qed.
Lemma k_getc : keeps getc.
Proof. intros s x s' t H. apply getc_inv in H. destruct H as (_ & -> & ->). apply Rrefl. Qed.
Lemma k_gete : keeps gete.
Proof. intros s x s' t H. apply gete_inv in H. destruct H as (_ & -> & ->). apply Rrefl. Qed.
Lemma k_modc f : (forall c, x_recs (f c) = x_recs c /\ x_nextId (f c) = x_nextId c) -> keeps (modc f).
Proof. intros Hf s x s' t H. destruct x. apply modc_inv in H. destruct H as (-> & ->). apply Rquiet; apply Hf. Qed.
Lemma k_emit e : op_event e = true -> keeps (emit e).
Proof. intros He s x s' t H. destruct x. apply emit_inv in H. destruct H as (-> & ->). now apply Revent. Qed.
Lemma k_getTime : keeps getTime.
Proof.
  intros s x s' t H. unfold getTime in H. destruct (e_times (s_env s)); [discriminate|].
  assert (s' = mkSt (s_ctx s) (env_times (s_env s) l)) by congruence. assert (t = []) by congruence. subst. now apply Rquiet.
Qed.
Lemma k_tsend bs : keeps (tsend bs).
Proof.
  intros s x s' t H. unfold tsend in H. destruct (e_sends (s_env s)) as [|a l]; [discriminate|].
  set (s1 := mkSt (s_ctx s) (env_sends (s_env s) l)) in *. assert (K : R s s1 []) by now apply Rquiet.
  assert (exists e, op_event e = true /\ t = [e] /\ s' = s1) as (e & He & -> & ->).
  { cbv zeta in H. destruct (a <? 0); injection H as _ <- <-; eexists; (split; [|split; reflexivity]); reflexivity. }
  change [e] with ([] ++ [e]). eapply Rtrans; eauto.
Qed.
Lemma k_store id vs : keeps (store_publish id vs).
Proof.
  intros s x s' t H. unfold store_publish in H. set (s1 := mkSt (s_ctx s) _) in H. assert (K : R s s1 []) by now apply Rquiet.
  cbv zeta in H. assert (exists b, t = [EStore id vs b] /\ s' = s1) as (b & -> & ->) by (injection H as _ <- <-; eexists; split; reflexivity).
  change [EStore id vs b] with ([] ++ [EStore id vs b]). eapply Rtrans; eauto.
Qed.
Ltac kp := repeat first
  [ assumption
  | apply k_ret | apply k_lift | apply k_massert | apply k_getc | apply k_gete | apply k_getTime | apply k_tsend | apply k_undef | apply k_stuck | apply k_store
  | apply k_modc; intro; repeat match goal with |- context [if ?b then _ else _] => destruct b end; split; reflexivity
  | apply k_emit; reflexivity
  | apply k_bind; [|intros ?]
  | match goal with
    | |- keeps (if ?b then _ else _) => destruct b
    | |- keeps (match ?x with _ => _ end) => destruct x
    end ].
Lemma k_broke : keeps (modc transport_broke).
Proof. apply k_modc. intro c. unfold transport_broke. destruct (cstatus_beq _ _); split; reflexivity. Qed.
Hint Resolve k_broke : core.
Lemma k_sendv fuel : forall vs b st0 sent, keeps (sendv_loop G fuel vs b st0 sent).
Proof.
  induction fuel as [|fuel IH]; intros; cbn [sendv_loop]; [apply k_stuck|]. kp; auto using k_broke.
Qed.
Lemma k_sendMessageVector vs : keeps (sendMessageVector G vs).
Proof. unfold sendMessageVector. kp. apply k_sendv. Qed.
Lemma k_sendb fuel : forall vs b st0 sent, keeps (sendb_loop G fuel vs b st0 sent).
Proof. induction fuel as [|fuel IH]; intros; cbn [sendb_loop]; [apply k_stuck|]. kp; auto using k_broke. Qed.
Lemma k_sendBuffer bs : keeps (sendBuffer G bs).
Proof. unfold sendBuffer. kp. apply k_sendb. Qed.
Lemma k_publish p id : keeps (publish G p id).
Proof.
  unfold publish, sendPublishWithoutCopy. kp; auto using k_sendMessageVector, k_sendv, Rout, Rpub.
Qed.
Lemma k_subscribe l c id : keeps (subscribe G l c id).
Proof.
  assert (L : forall fuel l vs, keeps (sub_send_loop G fuel l vs)).
  { induction fuel as [|fuel IH]; intros; cbn [sub_send_loop]; [apply k_stuck|]. kp; auto using k_sendMessageVector, k_sendv. }
  unfold subscribe, validateSubUnsub, sendSubscribeWithoutCopy. kp; auto.
Qed.
Lemma k_unsubscribe l c id : keeps (unsubscribe G l c id).
Proof.
  assert (L : forall fuel l vs, keeps (unsub_send_loop G fuel l vs)).
  { induction fuel as [|fuel IH]; intros; cbn [unsub_send_loop]; [apply k_stuck|]. kp; auto using k_sendMessageVector, k_sendv. }
  unfold unsubscribe, validateSubUnsub, sendUnsubscribeWithoutCopy. kp; auto.
Qed.
Lemma k_ping : keeps (ping G).
Proof. unfold ping. kp; auto using k_sendBuffer, k_sendb. Qed.
Lemma k_disconnect : keeps (disconnect G).
Proof. unfold disconnect. kp; auto using k_sendBuffer, k_sendb. Qed.
Lemma k_getPacketId : keeps getPacketId.
Proof.
  intros s a s' t H. unfold getPacketId, bind, getc, modc, emit, ret in H. cbn [s_ctx s_env app] in H.
  assert (s' = mkSt (set_nextId (s_ctx s) (if x_nextId (s_ctx s) =? 65535 then 1 else u16 (x_nextId (s_ctx s) + 1))) (s_env s)) by congruence.
  assert (t = [EId (x_nextId (s_ctx s))]) by congruence. subst s' t. apply Rid.
Qed.
Lemma k_run_op o : keeps (run_op G o).
Proof.
  destruct o; cbn [run_op]; auto using k_publish, k_subscribe, k_unsubscribe, k_ping, k_disconnect.
  - apply k_bind; [apply k_getPacketId|intros ?; apply k_ret].
  - unfold cancel. kp. apply Rcancel.
  - unfold checkConnectStatus. kp.
Qed.
Lemma k_run_ops l : keeps (run_ops G l).
Proof. induction l as [|o l IH]; cbn [run_ops]; [apply k_ret|]. apply k_bind; [apply k_run_op|]. intros _. exact IH. Qed.
End Keep.

(** ** Calls from the application: the incoming records stay, no packet is handled *)
Definition op_ev (e : ev) : bool := match e with EOut _ | EOutErr | EStore _ _ _ | EId _ => true | _ => false end.
Definition op_frame (s s' : st) (t : list ev) : Prop :=
  inRecs (x_recs (s_ctx s')) = inRecs (x_recs (s_ctx s)) /\ forallb op_ev t = true.
Lemma reserve_in r id q a r' : reserveState r id q = Ok (a, r') -> inRecs r' = inRecs r.
Proof.
  unfold reserveState. destruct (qos_beq q Q0); [congruence|]. destruct (id =? 0); [congruence|].
  destruct (addRecord _ _ _ _) as [(b, l)|]; cbn [rbind]; [|discriminate]. intro H. assert (r' = set_out r l) by congruence. now subst.
Qed.
Lemma pubsend_in r id q a r' : updateStatePublishApi r id OpSend q = Ok (a, r') -> inRecs r' = inRecs r.
Proof.
  unfold updateStatePublishApi. destruct q; [congruence|..]; (destruct (id =? 0); [congruence|]);
    (destruct (findInRecord _ _) as [[(i, x)|]|]; cbn [rbind]; [|congruence|discriminate]);
    (destruct (negb _); [congruence|]); unfold updateStatePublish, rassert; (destruct (_ && _); [|discriminate]);
    (destruct (validateTransitionPublish _ _ _ _); [|cbn [rbind]; congruence]);
    (destruct (pstate_beq _ _); [cbn [rbind]; congruence|]);
    (destruct (updateRecord _ _ _ _) as [l|]; cbn [rbind]; [|discriminate]); intro H; assert (r' = set_out r l) by congruence; now subst.
Qed.
Lemma cancel_in r id a r' : removeStateRecord r id = Ok (a, r') -> inRecs r' = inRecs r.
Proof.
  unfold removeStateRecord. destruct (outRecs r); [|congruence]. destruct (findInRecord _ _) as [[(i, x)|]|]; cbn [rbind]; [|congruence|discriminate].
  destruct (pstate_beq _ _); [congruence|]. destruct (_ && _); [congruence|].
  destruct (updateRecord _ _ _ _) as [k|]; cbn [rbind]; [|discriminate]. intro H; assert (r' = set_out r k) by congruence; now subst.
Qed.
Section Frame.
Variable G : cfg.
Lemma run_op_frame o s a s' t : run_op G o s = Ret a s' t -> op_frame s s' t.
Proof.
  apply (k_run_op G op_frame); unfold op_frame; clear.
  - auto.
  - intros a b c t u (E1 & F1) (E2 & F2). split; [congruence|]. rewrite forallb_app, F1. exact F2.
  - intros s c e E _. rewrite <- E. auto.
  - intros s e He. split; [reflexivity|]. destruct e; discriminate || reflexivity.
  - auto.
  - intros id q s a s' t H. apply on_recs_inv in H. destruct H as (c & E & -> & ->). apply reserve_in in E. auto.
  - intros id q s a s' t H. apply on_recs_inv in H. destruct H as (c & E & -> & ->). apply pubsend_in in E. auto.
  - intros id s a s' t H. apply on_recs_inv in H. destruct H as (c & E & -> & ->). apply cancel_in in E. auto.
Qed.
Lemma run_ops_frame l : forall s a s' t, run_ops G l s = Ret a s' t -> op_frame s s' t.
Proof.
  induction l as [|o l IH]; intros s a s' t H; cbn [run_ops] in H.
  - apply ret_inv in H. destruct H as (_ & -> & ->). now split.
  - apply bind_inv in H. destruct H as (b & s1 & t1 & t2 & H1 & H2 & ->). apply run_op_frame in H1. apply IH in H2.
    destruct H1 as (E1 & F1), H2 as (E2 & F2). split; [congruence|]. rewrite forallb_app, F1. exact F2.
Qed.
End Frame.

(** ** Packet ids: nothing but MQTT_GetPacketId touches the counter *)
Lemma counted_app a l1 b l2 c : counted a l1 b -> counted b l2 c -> counted a (l1 ++ l2) c.
Proof. revert a. induction l1 as [|x l1 IH]; cbn [counted app]; intros a; [now intros ->|]. intros (-> & H) K. split; auto. Qed.
Lemma given_app a b : given (a ++ b) = given a ++ given b.
Proof. apply flat_map_app. Qed.
Definition id_frame (s s' : st) (t : list ev) : Prop :=
  1 <= x_nextId (s_ctx s) <= 65535 -> counted (x_nextId (s_ctx s)) (given t) (x_nextId (s_ctx s')) /\ 1 <= x_nextId (s_ctx s') <= 65535.
Section Ids.
Variable G : cfg.
Notation K := (keeps id_frame).
Lemma idf_refl s : id_frame s s [].
Proof. split; [reflexivity|assumption]. Qed.
Lemma idf_trans a b c t u : id_frame a b t -> id_frame b c u -> id_frame a c (t ++ u).
Proof.
  intros H1 H2 K. destruct (H1 K) as (A1 & B1). destruct (H2 B1) as (A2 & B2). split; [|exact B2]. rewrite given_app. eapply counted_app; eauto.
Qed.
Lemma idf_same s c e t : x_nextId c = x_nextId (s_ctx s) -> given t = [] -> id_frame s (mkSt c e) t.
Proof. intros E1 E2 H. rewrite E2. cbn [counted s_ctx]. rewrite E1. auto. Qed.
Lemma i_any {A} (m : Mo A) : (forall s a s' t, m s = Ret a s' t -> x_nextId (s_ctx s') = x_nextId (s_ctx s) /\ given t = []) -> K m.
Proof. intros Hm s a s' t H. apply Hm in H. destruct s' as [c e]. apply idf_same; apply H. Qed.
Lemma i_bind {A B} (m : Mo A) (k : A -> Mo B) : K m -> (forall a, K (k a)) -> K (bind m k).
Proof. apply k_bind. apply idf_trans. Qed.
Lemma i_on_recs {A} (f : recs -> Base.R (A * recs)) : K (on_recs f).
Proof. apply i_any. intros s a s' t H. apply on_recs_inv in H. destruct H as (c & _ & -> & ->). auto. Qed.
Lemma i_modc f : (forall c, x_nextId (f c) = x_nextId c) -> K (modc f).
Proof. intro Hf. apply i_any. intros s [] s' t H. apply modc_inv in H. destruct H as (-> & ->). split; [apply Hf|reflexivity]. Qed.
Lemma i_emit e : given [e] = [] -> K (emit e).
Proof. intro He. apply i_any. intros s [] s' t H. apply emit_inv in H. destruct H as (-> & ->). auto. Qed.
Lemma id_step s : id_frame s (mkSt (set_nextId (s_ctx s) (if x_nextId (s_ctx s) =? 65535 then 1 else u16 (x_nextId (s_ctx s) + 1))) (s_env s)) [EId (x_nextId (s_ctx s))].
Proof.
  intro H. cbn [given flat_map app counted s_ctx set_nextId x_nextId]. unfold next_id, u16. destruct (_ =? 65535) eqn:E; [split; [auto|lia]|].
  change (2 ^ 16) with 65536. rewrite Z.mod_small by lia. split; [auto|lia].
Qed.
Lemma i_op o : K (run_op G o).
Proof.
  apply k_run_op; try (intros; apply i_on_recs).
  - apply idf_refl.
  - apply idf_trans.
  - intros. now apply idf_same.
  - intros s e He. destruct s as [c e']. apply idf_same; [reflexivity|]. destruct e; discriminate || reflexivity.
  - apply id_step.
Qed.
Lemma i_ops l : K (run_ops G l).
Proof. induction l as [|o l IH]; cbn [run_ops]; [apply k_ret, idf_refl|]. apply i_bind; [apply i_op|]. intros _. exact IH. Qed.
Lemma i_getTime : K getTime.
Proof. apply i_any. intros s a s' t H. unfold getTime in H. destruct (e_times _); [discriminate|]. injection H as _ <- <-. auto. Qed.
Lemma i_trecv n : K (trecv n).
Proof. apply i_any. intros s a s' t H. unfold trecv in H. destruct (e_recvs _); [discriminate|]. destruct (z <? 0); injection H as _ <- <-; auto. Qed.
Lemma i_retrieve id : K (retrieve_publish id).
Proof. apply i_any. intros s a s' t H. unfold retrieve_publish in H. injection H as _ <- <-. auto. Qed.
Lemma i_header : K getIncomingHeader.
Proof.
  apply i_any. intros s [st h] s' t H. apply CoreProofs6.getIncomingHeader_spec in H. destruct H as (bs & e & _ & (_ & F & _ & _ & ->) & _).
  split; [reflexivity|]. unfold recv_only in F. clear - F. induction t as [|x t IH]; [reflexivity|]. cbn [forallb] in F. apply andb_true_iff in F.
  destruct F as (F1 & F2). unfold given in *. cbn [flat_map]. rewrite IH by exact F2. destruct x; discriminate || reflexivity.
Qed.
Lemma i_sendBuffer bs : K (sendBuffer G bs).
Proof.
  apply k_sendBuffer.
  - apply idf_refl.
  - apply idf_trans.
  - intros. now apply idf_same.
  - intros s e He. destruct s as [c e']. apply idf_same; [reflexivity|]. destruct e; discriminate || reflexivity.
Qed.
Lemma i_sendv vs : K (sendMessageVector G vs).
Proof.
  apply k_sendMessageVector.
  - apply idf_refl.
  - apply idf_trans.
  - intros. now apply idf_same.
  - intros s e He. destruct s as [c e']. apply idf_same; [reflexivity|]. destruct e; discriminate || reflexivity.
Qed.
Lemma i_ping : K (ping G).
Proof. apply (i_op OPing). Qed.
Opaque sendBuffer sendMessageVector getIncomingHeader ping recvExact.
Ltac ip := repeat first
  [ assumption
  | apply k_ret, idf_refl | apply k_lift, idf_refl | apply k_massert, idf_refl | apply k_getc, idf_refl | apply k_gete, idf_refl
  | apply i_getTime | apply i_trecv | apply k_undef | apply k_stuck | apply i_on_recs | apply i_sendBuffer | apply i_sendv | apply i_header | apply i_retrieve | apply i_ping
  | apply i_modc; intro; repeat match goal with |- context [if ?b then _ else _] => destruct b end; reflexivity
  | apply i_emit; reflexivity
  | apply i_bind; [|intros ?]
  | match goal with
    | |- keeps _ (if ?b then _ else _) => destruct b
    | |- keeps _ (match ?x with _ => _ end) => destruct x
    end ].
Lemma i_broke : K (modc transport_broke).
Proof. apply i_modc. intro c. unfold transport_broke. destruct (cstatus_beq _ _); reflexivity. Qed.
Lemma i_acks id ps : K (sendPublishAcks G id ps).
Proof. unfold sendPublishAcks. ip. Qed.
Lemma i_callback a b c d e : K (callback G a b c d e).
Proof.
  unfold callback. apply i_bind; [apply i_emit; reflexivity|intros _]. apply i_bind; [ip|intros ?]. apply i_bind; [|intros _; apply i_ops].
  apply i_any. intros s x s' t H. injection H as _ <- <-. auto.
Qed.
Opaque sendPublishAcks callback.
Lemma i_exact_loop fuel : forall a b c d, K (recvExact_loop G fuel a b c d).
Proof. induction fuel as [|fuel IH]; intros; cbn [recvExact_loop]; [ip|]. unfold recv_into. ip; auto using i_broke. Qed.
Transparent recvExact.
Lemma i_exact k : K (recvExact G k).
Proof. unfold recvExact. ip. apply i_exact_loop. Qed.
Opaque recvExact.
Lemma i_discard a b c : K (discardStoredPacket G a b c).
Proof.
  assert (L : forall fuel a b c, K (discardStored_loop G fuel a b c)).
  { induction fuel as [|fuel IH]; intros; cbn [discardStored_loop]; [ip|]. ip; auto using i_exact. }
  unfold discardStoredPacket. ip. apply L.
Qed.
Lemma i_discard2 a b : K (discardPacket G a b).
Proof.
  assert (L : forall fuel a b c d e, K (discard_loop G fuel a b c d e)).
  { induction fuel as [|fuel IH]; intros; cbn [discard_loop]; [ip|]. ip; auto using i_exact. }
  unfold discardPacket. ip. apply L.
Qed.
Opaque discardStoredPacket discardPacket.
Lemma i_iteration mk : K (receiveSingleIteration G mk).
Proof.
  unfold receiveSingleIteration, recv_into, handleKeepAlive, handleIncomingPublish, handleIncomingAck, handlePublishAcks, clear_publish, shift_buffer.
  ip; auto using i_broke, i_discard, i_acks, i_callback.
Qed.
Lemma i_connect ci will tmo : K (connect G ci will tmo).
Proof.
  assert (L1 : forall fuel a b c, K (connack_loop G fuel a b c)).
  { induction fuel as [|fuel IH]; intros; cbn [connack_loop]; ip. apply IH. }
  assert (L2 : forall fuel a b, K (pubrel_loop G fuel a b)).
  { induction fuel as [|fuel IH]; intros; cbn [pubrel_loop]; ip; auto using i_acks. }
  assert (L3 : forall fuel a, K (publish_loop G fuel a)).
  { induction fuel as [|fuel IH]; intros; cbn [publish_loop]; ip; auto. }
  assert (L4 : forall fuel a, K (clear_loop fuel a)).
  { induction fuel as [|fuel IH]; intros; cbn [clear_loop]; unfold clear_publish; ip; auto. }
  unfold connect, sendConnectWithoutCopy, receiveConnack, receivePacket, handleCleanSession, handleUncleanSessionResumption.
  ip; auto using i_broke, i_exact, i_discard2.
Qed.
Lemma i_call c : K (run_call G c).
Proof.
  destruct c; cbn [run_call]; [apply i_op|apply i_bind; [apply i_connect|intros (?, ?); ip]|unfold processLoop|unfold receiveLoop].
  - apply i_bind; [ip|intros _; apply i_iteration].
  - apply i_iteration.
Qed.
Lemma i_calls l : K (run_calls G l).
Proof. induction l as [|c l IH]; cbn [run_calls]; [ip|]. apply i_bind; [apply i_call|]. intros ?. apply i_bind; [exact IH|intros ?; ip]. Qed.
End Ids.
