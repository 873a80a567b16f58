(** MQTT_Connect from the event callback: on a client that is not disconnected it is
    refused and changes nothing. *)
From Verif Require Import Base StateModel SerModel CoreModel NestModel.

Definition is_up (s : st) : Prop := x_status (s_ctx s) <> NotConnected.
Definition keep {A} (m : Mo A) : Prop := forall s r s' t, is_up s -> m s = Ret r s' t -> is_up s'.
Definition agree {A} (m1 m2 : Mo A) : Prop := forall s, is_up s -> m1 s = m2 s.

Lemma keep_bind {A B} (m : Mo A) (f : A -> Mo B) : keep m -> (forall a, keep (f a)) -> keep (bind m f).
Proof.
  intros H1 H2 s r s' t U H. unfold bind in H. destruct (m s) as [a s1 t1| |] eqn:E; try discriminate.
  destruct (f a s1) as [b s2 t2| |] eqn:E2; try discriminate. injection H as <- <- <-. eapply H2; [|exact E2]. eapply H1; eauto.
Qed.
Lemma keep_ret {A} (a : A) : keep (ret a).
Proof. intros s r s' t U H. injection H as <- <- <-. exact U. Qed.
Lemma keep_undef {A} : keep (@undef A).
Proof. intros s r s' t U H. discriminate. Qed.
Lemma keep_stuck {A} : keep (@stuck A).
Proof. intros s r s' t U H. discriminate. Qed.
Lemma keep_lift {A} (x : R A) : keep (lift x).
Proof. intros s r s' t U H. unfold lift in H. destruct x; try discriminate. injection H as <- <- <-. exact U. Qed.
Lemma keep_massert b : keep (massert b).
Proof. destruct b; [apply keep_ret|apply keep_undef]. Qed.
Lemma keep_getc : keep getc.
Proof. intros s r s' t U H. injection H as <- <- <-. exact U. Qed.
Lemma keep_gete : keep gete.
Proof. intros s r s' t U H. injection H as <- <- <-. exact U. Qed.
Lemma keep_emit e : keep (emit e).
Proof. intros s r s' t U H. injection H as <- <- <-. exact U. Qed.
Lemma keep_modc f : (forall c, x_status c <> NotConnected -> x_status (f c) <> NotConnected) -> keep (modc f).
Proof. intros F s r s' t U H. injection H as <- <- <-. apply F. exact U. Qed.
Lemma keep_on_recs {A} (f : recs -> R (A * recs)) : keep (on_recs f).
Proof. intros s r s' t U H. unfold on_recs in H. destruct (f _) as [[a x]|]; try discriminate. injection H as <- <- <-. exact U. Qed.
Lemma keep_getTime : keep getTime.
Proof. intros s r s' t U H. unfold getTime in H. destruct (e_times _); try discriminate. injection H as <- <- <-. exact U. Qed.
Lemma keep_tsend bs : keep (tsend bs).
Proof. intros s r s' t U H. unfold tsend in H. destruct (e_sends _); try discriminate. destruct (_ <? 0); injection H as <- <- <-; exact U. Qed.
Lemma keep_trecv n : keep (trecv n).
Proof. intros s r s' t U H. unfold trecv in H. destruct (e_recvs _); try discriminate. destruct (_ <? 0); injection H as <- <- <-; exact U. Qed.
Lemma broke_up c : x_status c <> NotConnected -> x_status (transport_broke c) <> NotConnected.
Proof. unfold transport_broke. destruct (cstatus_beq (x_status c) Connected); [discriminate|auto]. Qed.

Ltac kp := cbv beta; repeat first
  [ match goal with |- keep (bind _ _) => apply keep_bind; [|let a := fresh "a" in intro a] end | apply keep_ret | apply keep_undef | apply keep_stuck | apply keep_lift | apply keep_massert | apply keep_getc | apply keep_gete | apply keep_emit
  | apply keep_on_recs | apply keep_getTime | apply keep_tsend | apply keep_trecv | apply keep_modc; first [exact broke_up | intros; assumption]
  | assumption
  | match goal with |- keep (match ?x with _ => _ end) => destruct x end
  | match goal with H : forall _, _ |- keep _ => apply H end ].

Section Up.
Variable G : cfg.
Lemma keep_recv_into off n : keep (recv_into off n).
Proof. unfold recv_into. kp. Qed.
Lemma keep_sendv fuel : forall vs n t0 k, keep (sendv_loop G fuel vs n t0 k).
Proof. induction fuel as [|f IH]; intros; cbn [sendv_loop]; kp. Qed.
Lemma keep_sendv_all vs : keep (sendMessageVector G vs).
Proof. unfold sendMessageVector. kp. apply keep_sendv. Qed.
Lemma keep_sendb fuel : forall bs n t0 k, keep (sendb_loop G fuel bs n t0 k).
Proof. induction fuel as [|f IH]; intros; cbn [sendb_loop]; kp. Qed.
Lemma keep_sendBuffer bs : keep (sendBuffer G bs).
Proof. unfold sendBuffer. kp. apply keep_sendb. Qed.
Lemma keep_exact fuel : forall off n k l, keep (recvExact_loop G fuel off n k l).
Proof. induction fuel as [|f IH]; intros; cbn [recvExact_loop]; kp; apply keep_recv_into. Qed.
Lemma keep_recvExact n : keep (recvExact G n).
Proof. unfold recvExact. kp. apply keep_exact. Qed.
Lemma keep_drop fuel : forall b n k, keep (discardStored_loop G fuel b n k).
Proof. induction fuel as [|f IH]; intros; cbn [discardStored_loop]; kp; apply keep_recvExact. Qed.
Lemma keep_dropped ty rem hdr : keep (discardStoredPacket G ty rem hdr).
Proof. unfold discardStoredPacket. kp. apply keep_drop. Qed.
Lemma keep_acks id ns : keep (sendPublishAcks G id ns).
Proof. unfold sendPublishAcks. kp; apply keep_sendBuffer. Qed.
Lemma keep_ping : keep (ping G).
Proof. unfold ping. kp. apply keep_sendBuffer. Qed.
Lemma keep_alive : keep (handleKeepAlive G).
Proof. unfold handleKeepAlive. kp; apply keep_ping. Qed.
Lemma keep_sub fuel : forall l vs, keep (sub_send_loop G fuel l vs).
Proof. induction fuel as [|f IH]; intros; cbn [sub_send_loop]; kp; apply keep_sendv_all. Qed.
Lemma keep_unsub fuel : forall l vs, keep (unsub_send_loop G fuel l vs).
Proof. induction fuel as [|f IH]; intros; cbn [unsub_send_loop]; kp; apply keep_sendv_all. Qed.
Lemma keep_store id vs : keep (store_publish id vs).
Proof. intros s r s' t U H. injection H as <- <- <-. exact U. Qed.
Lemma keep_op o : o <> ODisconnect -> keep (run_op G o).
Proof.
  intro N. destruct o; try congruence; cbn [run_op].
  - unfold publish, sendPublishWithoutCopy. kp; first [apply keep_sendv_all|apply keep_store].
  - unfold subscribe, validateSubUnsub, sendSubscribeWithoutCopy. kp; apply keep_sub.
  - unfold unsubscribe, validateSubUnsub, sendUnsubscribeWithoutCopy. kp; apply keep_unsub.
  - apply keep_ping.
  - unfold getPacketId. kp.
  - unfold cancel. kp.
  - unfold checkConnectStatus. kp.
Qed.

(** connect *)
Lemma connect_up ci will tmo s rl ps : is_up s -> getConnectPacketSize ci will = (Success, Some (rl, ps)) ->
  connect G ci will tmo s = Ret (match x_status (s_ctx s) with Connected => StConnected | _ => StDisconnectPending end, None) s [].
Proof.
  intros U E. unfold connect. rewrite E. unfold bind, getc, ret. destruct (x_status (s_ctx s)) eqn:S; [congruence|reflexivity..].
Qed.

(** agreement *)
Lemma agree_bind {A B} (m : Mo A) (f g : A -> Mo B) : keep m -> (forall a, agree (f a) (g a)) -> agree (bind m f) (bind m g).
Proof.
  intros K H s U. unfold bind. destruct (m s) as [a s1 t1| |] eqn:E; auto. rewrite (H a s1); [reflexivity|]. eapply K; eauto.
Qed.
Lemma agree_then {A B} (m1 m2 : Mo A) (f : A -> Mo B) : agree m1 m2 -> agree (bind m1 f) (bind m2 f).
Proof. intros H s U. unfold bind. now rewrite H. Qed.
Lemma agree_refl {A} (m : Mo A) : agree m m.
Proof. intros s U. reflexivity. Qed.

Section Callbacks.
Variables cb1 cb2 : Z -> list Z -> Z -> option dpub -> status -> Mo unit.
Hypothesis Hcb : forall ty data id pub r, agree (cb1 ty data id pub r) (cb2 ty data id pub r).
Ltac ag := repeat first
  [ apply agree_refl | apply Hcb | apply agree_then; solve [repeat first [apply Hcb | apply agree_refl | match goal with |- agree (match ?x with _ => _ end) _ => destruct x end]]
  | apply agree_bind; [solve [kp; first [apply keep_recv_into | apply keep_alive | apply keep_dropped]]|intros]
  | match goal with |- agree (match ?x with _ => _ end) _ => destruct x end ].
Lemma agree_publish ty rem data : agree (n_handleIncomingPublish G cb1 ty rem data) (n_handleIncomingPublish G cb2 ty rem data).
Proof. unfold n_handleIncomingPublish. ag. Qed.
Lemma agree_packs ty rem data : agree (n_handlePublishAcks G cb1 ty rem data) (n_handlePublishAcks G cb2 ty rem data).
Proof. unfold n_handlePublishAcks, clear_publish. ag. Qed.
Lemma agree_ack ty rem data mk : agree (n_handleIncomingAck G cb1 ty rem data mk) (n_handleIncomingAck G cb2 ty rem data mk).
Proof. unfold n_handleIncomingAck. destruct (_ || _); [apply agree_packs|]. ag. Qed.
Lemma agree_pass mk : agree (n_receiveSingleIteration G cb1 mk) (n_receiveSingleIteration G cb2 mk).
Proof.
  unfold n_receiveSingleIteration. apply agree_bind; [kp|intros c]. apply agree_bind; [kp; apply keep_recv_into|intros r].
  apply agree_bind; [kp|intros [[[st ty] rem] hdr]; cbv zeta]. apply agree_bind; [kp; apply keep_alive|intro st1].
  apply agree_bind; [kp|intro c1]. apply agree_bind; [kp; apply keep_dropped|intro st2]. apply agree_then.
  destruct (status_beq st2 Success); [|apply agree_refl]. apply agree_bind; [kp|intro c2; cbv zeta]. apply agree_bind; [kp|intros _].
  apply agree_then. destruct (Z.land ty 240 =? PKT_PUBLISH); [apply agree_publish|apply agree_ack].
Qed.
Lemma agree_loops : agree (n_processLoop G cb1) (n_processLoop G cb2) /\ agree (n_receiveLoop G cb1) (n_receiveLoop G cb2).
Proof. split; [|apply agree_pass]. unfold n_processLoop. apply agree_bind; [kp|intros _]. apply agree_pass. Qed.
End Callbacks.

(** An application that calls MQTT_Connect with good arguments, and makes no nested
    loop call and no call of MQTT_Disconnect. *)
Definition only_connects (a : act) : Prop := match a with
  | AOp o => o <> ODisconnect
  | AConnect ci will _ => exists rl ps, getConnectPacketSize ci will = (Success, Some (rl, ps))
  | _ => False end.
Definition no_connect (a : act) : bool := match a with AConnect _ _ _ => false | _ => true end.
(** the same application without these calls *)
Definition without_connects (app : application) : application := fun ty data id pub r s => filter no_connect (app ty data id pub r s).
Lemma agree_app app fuel ty data id pub r : (forall ty data id pub r s, Forall only_connects (app ty data id pub r s)) ->
  agree (n_callback G app fuel ty data id pub r) (n_callback G (without_connects app) fuel ty data id pub r).
Proof.
  intro Ha. destruct fuel as [|fuel]; cbn [n_callback]; (apply agree_bind; [kp|intros _]); intros s U; unfold without_connects; pose proof (Ha ty data id pub r s) as F;
    (generalize (app ty data id pub r s), F; clear F; intros l F; revert s U; induction F as [|a l Hx F IH]; intros s U; [reflexivity|];
    destruct a as [o|ci will tmo| |]; cbn [only_connects no_connect filter] in *; try contradiction;
    [exact (agree_bind (run_op G o) _ _ (keep_op o Hx) (fun _ => IH) s U)|
     destruct Hx as (rl & ps & Hx); unfold bind at 1; unfold bind at 1; rewrite (connect_up ci will tmo s rl ps U Hx); cbn [ret List.app]; rewrite (IH s U);
     match goal with |- match ?y with _ => _ end = _ => destruct y; reflexivity end]).
Qed.
End Up.
