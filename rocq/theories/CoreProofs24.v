(** A relation between states and traces that the basic steps respect is respected by
    every call; used for the PINGREQ bookkeeping. *)
From Verif Require Import Base StateModel StateSpec StateHarness StateProofs StateProofs2 SerModel WireSpec SerHarness
  CoreModel CoreSpec CoreHarness CoreProofs CoreProofs2 CoreProofs3 CoreProofs6 CoreProofs12 CoreProofs13 CoreProofs16 CoreProofs19 CoreProofs20 CoreProofs21 CoreProofs22 CoreProofs23.

Section Walk.
Variable G : cfg.
Variable R : st -> st -> list ev -> Prop.
Hypothesis Rrefl : forall s, R s s [].
Hypothesis Rtrans : forall a b c t u, R a b t -> R b c u -> R a c (t ++ u).
Notation K := (keeps R).
(** what may change freely *)
Definition mild (c' c : context) : Prop :=
  x_lastTx c' = x_lastTx c /\ x_waiting c' = x_waiting c /\ x_pingTime c' = x_pingTime c /\ x_keep c' = x_keep c.
Hypothesis Rmild : forall s c, mild c (s_ctx s) -> R s (mkSt c (s_env s)) [].
Definition local_ev (e : ev) : bool := match e with EPkt _ _ | EDrop _ _ | ECb _ _ _ _ _ | EClear _ | EId _ => true | _ => false end.
Hypothesis Rlocal : forall s e, local_ev e = true -> R s s [e].
Hypothesis Rtime : K getTime.
Hypothesis Rrecv : forall k, K (trecv k).
Hypothesis Rretr : forall id, K (retrieve_publish id).
Hypothesis Rstore : forall id vs, K (store_publish id vs).
Hypothesis Rpop : forall s, R s (mkSt (s_ctx s) (env_cbs (s_env s) (tl (e_cbs (s_env s))))) [].
Hypothesis Rheader : K getIncomingHeader.
Hypothesis Rsend : forall bs, K (sendBuffer G bs).
Hypothesis Rsendv : forall vs, K (sendMessageVector G vs).
Hypothesis Rping : K (ping G).

Lemma w_bind {A B} (mo : Mo A) (k : A -> Mo B) : K mo -> (forall a, K (k a)) -> K (bind mo k).
Proof. apply k_bind. exact Rtrans. Qed.
Lemma w_on_recs {A} (f : recs -> Base.R (A * recs)) : K (on_recs f).
Proof. intros s a s' t H. apply on_recs_inv in H. destruct H as (c & _ & -> & ->). apply Rmild. repeat split. Qed.
Lemma w_modc f : (forall c, mild (f c) c) -> K (modc f).
Proof. intros Hf s [] s' t H. apply modc_inv in H. destruct H as (-> & ->). apply Rmild. apply Hf. Qed.
Lemma w_emit e : local_ev e = true -> K (emit e).
Proof. intros He s [] s' t H. apply emit_inv in H. destruct H as (-> & ->). now apply Rlocal. Qed.
Opaque sendBuffer sendMessageVector getIncomingHeader ping recvExact.
Ltac wp := repeat first
  [ assumption
  | apply k_ret, Rrefl | apply k_lift, Rrefl | apply k_massert, Rrefl | apply k_getc, Rrefl | apply k_gete, Rrefl
  | apply Rtime | apply Rrecv | apply k_undef | apply k_stuck | apply w_on_recs | apply Rsend | apply Rsendv | apply Rheader | apply Rretr | apply Rstore
  | apply w_modc; intro; repeat match goal with |- context [if ?b then _ else _] => destruct b end; solve [repeat split]
  | apply w_emit; reflexivity
  | apply w_bind; [|intros ?]
  | match goal with
    | |- keeps _ (if ?b then _ else _) => destruct b
    | |- keeps _ (match ?x with _ => _ end) => destruct x
    end ].
Lemma w_op o : K (run_op G o).
Proof.
  assert (L1 : forall fuel l vs, K (sub_send_loop G fuel l vs)).
  { induction fuel as [|fuel IH]; intros; cbn [sub_send_loop]; [apply k_stuck|]. wp; auto. }
  assert (L2 : forall fuel l vs, K (unsub_send_loop G fuel l vs)).
  { induction fuel as [|fuel IH]; intros; cbn [unsub_send_loop]; [apply k_stuck|]. wp; auto. }
  destruct o; cbn [run_op].
  - unfold publish, sendPublishWithoutCopy. wp.
  - unfold subscribe, validateSubUnsub, sendSubscribeWithoutCopy. wp; auto.
  - unfold unsubscribe, validateSubUnsub, sendUnsubscribeWithoutCopy. wp; auto.
  - apply Rping.
  - unfold disconnect. wp.
  - unfold getPacketId. wp.
  - unfold cancel. wp.
  - unfold checkConnectStatus. wp.
Qed.
Lemma w_ops l : K (run_ops G l).
Proof. induction l as [|o l IH]; cbn [run_ops]; [apply k_ret, Rrefl|]. apply w_bind; [apply w_op|]. intros _. exact IH. Qed.
Lemma w_broke : K (modc transport_broke).
Proof. apply w_modc. intro c. unfold transport_broke. destruct (cstatus_beq _ _); repeat split. Qed.
Lemma w_acks id ps : K (sendPublishAcks G id ps).
Proof. unfold sendPublishAcks. wp. Qed.
Lemma w_callback a b c d e : K (callback G a b c d e).
Proof.
  unfold callback. apply w_bind; [apply w_emit; reflexivity|intros _]. apply w_bind; [wp|intros ?]. apply w_bind; [|intros _; apply w_ops].
  intros s x s' t H. injection H as _ <- <-. apply Rpop.
Qed.
Opaque sendPublishAcks callback.
Lemma w_exact_loop fuel : forall a b c d, K (recvExact_loop G fuel a b c d).
Proof. induction fuel as [|fuel IH]; intros; cbn [recvExact_loop]; [wp|]. unfold recv_into. wp; auto using w_broke. Qed.
Transparent recvExact.
Lemma w_exact k : K (recvExact G k).
Proof. unfold recvExact. wp. apply w_exact_loop. Qed.
Opaque recvExact.
Lemma w_discard a b c : K (discardStoredPacket G a b c).
Proof.
  assert (L : forall fuel a b c, K (discardStored_loop G fuel a b c)).
  { induction fuel as [|fuel IH]; intros; cbn [discardStored_loop]; [wp|]. wp; auto using w_exact. }
  unfold discardStoredPacket. wp. apply L.
Qed.
Lemma w_discard2 a b : K (discardPacket G a b).
Proof.
  assert (L : forall fuel a b c d e, K (discard_loop G fuel a b c d e)).
  { induction fuel as [|fuel IH]; intros; cbn [discard_loop]; [wp|]. wp; auto using w_exact. }
  unfold discardPacket. wp. apply L.
Qed.
Opaque discardStoredPacket discardPacket.
Hypothesis Rpong : forall s, R s (mkSt (set_keep (s_ctx s) (x_keep (s_ctx s)) (x_pingTime (s_ctx s)) false) (s_env s)) [].
Lemma w_iteration mk : K (receiveSingleIteration G mk).
Proof.
  unfold receiveSingleIteration, recv_into, handleKeepAlive, handleIncomingPublish, handleIncomingAck, handlePublishAcks, clear_publish, shift_buffer.
  wp; auto using w_broke, w_discard, w_acks, w_callback.
  all: intros sa [] sb tb HH; apply modc_inv in HH; destruct HH as (-> & ->); apply Rpong.
Qed.
Hypothesis Rconn : forall s k, R s (mkSt (set_keep (set_status (s_ctx s) Connected) k 0 false) (s_env s)) [].
Lemma w_connect ci will tmo : K (connect G ci will tmo).
Proof.
  assert (L1 : forall fuel a b c, K (connack_loop G fuel a b c)).
  { induction fuel as [|fuel IH]; intros; cbn [connack_loop]; wp. apply IH. }
  assert (L2 : forall fuel a b, K (pubrel_loop G fuel a b)).
  { induction fuel as [|fuel IH]; intros; cbn [pubrel_loop]; wp; auto using w_acks. }
  assert (L3 : forall fuel a, K (publish_loop G fuel a)).
  { induction fuel as [|fuel IH]; intros; cbn [publish_loop]; wp; auto. }
  assert (L4 : forall fuel a, K (clear_loop fuel a)).
  { induction fuel as [|fuel IH]; intros; cbn [clear_loop]; unfold clear_publish; wp; auto. }
  unfold connect, sendConnectWithoutCopy, receiveConnack, receivePacket, handleCleanSession, handleUncleanSessionResumption.
  wp; auto using w_broke, w_exact, w_discard2.
  all: intros sa [] sb tb HH; apply modc_inv in HH; destruct HH as (-> & ->); apply Rconn.
Qed.
Lemma w_call c : K (run_call G c).
Proof.
  destruct c; cbn [run_call]; [apply w_op|apply w_bind; [apply w_connect|intros (?, ?); wp]|unfold processLoop|unfold receiveLoop].
  - apply w_bind; [wp|intros _; apply w_iteration].
  - apply w_iteration.
Qed.
Lemma w_calls l : K (run_calls G l).
Proof. induction l as [|c l IH]; cbn [run_calls]; [wp|]. apply w_bind; [apply w_call|]. intros ?. apply w_bind; [exact IH|intros ?; wp]. Qed.
End Walk.

(** ** PINGREQ outstanding *)
Definition wait_frame (clr : bool) (s s' : st) (t : list ev) : Prop :=
  exists used, e_times (s_env s) = used ++ e_times (s_env s') /\
    (x_waiting (s_ctx s') = x_waiting (s_ctx s) /\ x_pingTime (s_ctx s') = x_pingTime (s_ctx s) \/
     x_waiting (s_ctx s') = true /\ (exists a b, outs t = a ++ pingreq_packet ++ b) /\
       (exists x, In x used /\ x_pingTime (s_ctx s') = x mod 4294967296) \/
     clr = true /\ x_waiting (s_ctx s') = false).
Section Wait.
Variable G : cfg.
Lemma wf_refl clr s : wait_frame clr s s [].
Proof. exists []. split; [reflexivity|]. left. auto. Qed.
Lemma wf_trans clr a b c t u : wait_frame clr a b t -> wait_frame clr b c u -> wait_frame clr a c (t ++ u).
Proof.
  intros (u1 & E1 & H1) (u2 & E2 & H2). exists (u1 ++ u2). split; [rewrite E1, E2; apply app_assoc|]. rewrite outs_app.
  destruct H2 as [(A & B)|[(A & (p & q & E) & x & Hx & B)|H2]].
  - rewrite A, B. destruct H1 as [H1|[(A1 & (p & q & E) & x & Hx & B1)|H1]]; [auto| |auto]. right. left. split; [exact A1|].
    split; [exists p, (q ++ outs u); rewrite E; rewrite <- !app_assoc; reflexivity|]. exists x. split; [apply in_app_iff; auto|exact B1].
  - right. left. split; [exact A|]. split; [exists (outs t ++ p), q; rewrite E; now rewrite <- !app_assoc|].
    exists x. split; [apply in_app_iff; auto|exact B].
  - auto.
Qed.
(** steps that keep the bookkeeping *)
Lemma wf_same clr s s' t : x_waiting (s_ctx s') = x_waiting (s_ctx s) -> x_pingTime (s_ctx s') = x_pingTime (s_ctx s) ->
  tx_frame s s' t -> wait_frame clr s s' t.
Proof. intros A B (u & E & _). exists u. split; [exact E|auto]. Qed.
Lemma wf_sentb clr bs s ok s' t : sentb bs s ok s' t -> tx_frame s s' t -> wait_frame clr s s' t.
Proof.
  intros (k & l & _ & _ & _ & _ & _ & _ & H). apply wf_same; destruct H as [(_ & ->)|(_ & _ & ->)]; try reflexivity;
    unfold transport_broke; destruct (cstatus_beq _ _); reflexivity.
Qed.
Lemma wf_ping clr : keeps (wait_frame clr) (ping G).
Proof.
  intros s a s' t H. pose proof (t_ping G _ _ _ _ H) as (used & E & A & B). apply ping_spec in H.
  destruct H as [(_ & _ & -> & ->)|(_ & ok & s1 & Hs & [(-> & _ & ->)|(-> & _ & ->)])]; [apply wf_refl|..].
  - eapply wf_sentb; [exact Hs|]. exists used. auto.
  - destruct Hs as (k & l & _ & Eo & _ & _ & _ & Ek & _). assert (k = 2%nat) by (apply Ek; reflexivity). subst k.
    assert (Eo' : outs t = pingreq_packet) by (rewrite Eo; reflexivity).
    exists used. split; [exact E|]. right. left. cbn [s_ctx set_keep x_waiting x_pingTime] in *. split; [reflexivity|].
    split; [exists [], []; now rewrite Eo', app_nil_r|]. apply B. rewrite Eo'. discriminate.
Qed.
Lemma wf_sendBuffer clr bs : keeps (wait_frame clr) (sendBuffer G bs).
Proof.
  intros s a s' t H. pose proof (t_sendBuffer G _ _ _ _ _ H) as Ht. apply sendBuffer_spec in H. apply sent_ok_sentb in H. eapply wf_sentb; eauto.
Qed.
Lemma wf_sendv clr vs : keeps (wait_frame clr) (sendMessageVector G vs).
Proof.
  intros s a s' t H. pose proof (t_sendMessageVector G _ _ _ _ _ H) as Ht. apply sendMessageVector_spec in H. apply sent_ok_sentb in H. eapply wf_sentb; eauto.
Qed.
Lemma wf_ctx clr {A} (mo : Mo A) : keeps tx_frame mo -> (forall s a s' t, mo s = Ret a s' t -> s_ctx s' = s_ctx s) -> keeps (wait_frame clr) mo.
Proof. intros Ht Hc s a s' t H. pose proof (Hc _ _ _ _ H) as E. apply wf_same; [now rewrite E..|]. eapply Ht; eauto. Qed.
Lemma wf_mild clr s c : mild c (s_ctx s) -> wait_frame clr s (mkSt c (s_env s)) [].
Proof. intros (A & B & C & _). exists []. split; [reflexivity|]. left. auto. Qed.
Lemma wf_clear s c : x_waiting c = false -> wait_frame true s (mkSt c (s_env s)) [].
Proof. intro A. exists []. split; [reflexivity|]. right. right. auto. Qed.
Lemma trecv_ctx k s a s' t : trecv k s = Ret a s' t -> s_ctx s' = s_ctx s.
Proof. intro H. unfold trecv in H. destruct (e_recvs _); [discriminate|]. destruct (z <? 0); injection H as _ <- <-; reflexivity. Qed.
Lemma getTime_ctx s a s' t : getTime s = Ret a s' t -> s_ctx s' = s_ctx s.
Proof. intro H. apply getTime_inv in H. destruct H as (? & ? & _ & _ & -> & _). reflexivity. Qed.
Lemma retrieve_ctx id s a s' t : retrieve_publish id s = Ret a s' t -> s_ctx s' = s_ctx s.
Proof. intro H. unfold retrieve_publish in H. injection H as _ <- _. reflexivity. Qed.
Lemma store_ctx id vs s a s' t : store_publish id vs s = Ret a s' t -> s_ctx s' = s_ctx s.
Proof. intro H. unfold store_publish in H. cbv zeta in H. injection H as _ <- _. reflexivity. Qed.
Lemma header_ctx s a s' t : getIncomingHeader s = Ret a s' t -> s_ctx s' = s_ctx s.
Proof.
  destruct a as (x, h). intro H. apply getIncomingHeader_spec in H. destruct H as (bs & e & _ & (_ & _ & _ & _ & ->) & _). reflexivity.
Qed.
Lemma wf_op clr o : keeps (wait_frame clr) (run_op G o).
Proof.
  apply w_op.
  - apply wf_refl.
  - apply wf_trans.
  - apply wf_mild.
  - intros s e He. apply wf_same; try reflexivity. apply tx_same; [reflexivity|exists []; reflexivity|destruct e; discriminate || reflexivity].
  - intros. apply wf_ctx; [apply t_store|apply store_ctx].
  - apply wf_sendBuffer.
  - apply wf_sendv.
  - apply wf_ping.
Qed.
Lemma wf_ops clr l : keeps (wait_frame clr) (run_ops G l).
Proof. induction l as [|o l IH]; cbn [run_ops]; [apply k_ret, wf_refl|]. apply k_bind; [apply wf_trans|apply wf_op|]. intros _. exact IH. Qed.
Lemma wf_call c : keeps (wait_frame true) (run_call G c).
Proof.
  apply w_call.
  - apply wf_refl.
  - apply wf_trans.
  - apply wf_mild.
  - intros s e He. apply wf_same; try reflexivity. apply tx_same; [reflexivity|exists []; reflexivity|destruct e; discriminate || reflexivity].
  - apply wf_ctx; [apply t_getTime|apply getTime_ctx].
  - intros. apply wf_ctx; [apply t_trecv|apply trecv_ctx].
  - intros. apply wf_ctx; [apply t_retrieve|apply retrieve_ctx].
  - intros. apply wf_ctx; [apply t_store|apply store_ctx].
  - intros s. exists []. split; [reflexivity|]. left. auto.
  - apply wf_ctx; [apply t_header|apply header_ctx].
  - apply wf_sendBuffer.
  - apply wf_sendv.
  - apply wf_ping.
  - intros. now apply wf_clear.
  - intros. now apply wf_clear.
Qed.
Variables n m : nat.
(** the same, with the packet that ends the wait *)
Definition pong (s s' : st) (t : list ev) : Prop :=
  x_waiting (s_ctx s') = x_waiting (s_ctx s) /\ x_pingTime (s_ctx s') = x_pingTime (s_ctx s) \/
  x_waiting (s_ctx s') = true \/ x_waiting (s_ctx s') = false /\ In (EPkt 208 []) t.
Lemma pong_trans a b c t u : pong a b t -> pong b c u -> pong a c (t ++ u).
Proof.
  unfold pong. rewrite in_app_iff. intros H1 [(A & B)|[H2|(H2 & H3)]]; [|auto..]. rewrite A, B. destruct H1 as [H1|[H1|(H1 & H3)]]; auto.
Qed.
Lemma pong_same s s' t : x_waiting (s_ctx s') = x_waiting (s_ctx s) -> x_pingTime (s_ctx s') = x_pingTime (s_ctx s) -> pong s s' t.
Proof. left. auto. Qed.
Lemma pong_app e s s' t : app_call G e s s' t -> pong s s' t.
Proof.
  intros (t' & -> & H). apply (wf_ops false) in H. destruct H as (used & _ & [H|[(H & _)|(H & _)]]); [left; exact H|right; left; exact H|discriminate].
Qed.
Lemma pong_replied k id s res s' t : replied n m k id s res s' t -> pong s s' t.
Proof. intros [(_ & _ & -> & ->)|(_ & _ & _ & (a & b & c & d & e & f & ->) & _)]; now apply pong_same. Qed.
Lemma pong_recs s s0 s' t : recs_only s s0 -> pong s0 s' t -> pong s s' t.
Proof. intros (r & ->) H. exact H. Qed.
Lemma pong_packet mk ty body s res s' t : packet_handled G n m mk ty body s res s' t -> pong s s' (EPkt ty body :: t).
Proof.
  assert (C : forall t, pong s s' t -> pong s s' (EPkt ty body :: t)).
  { clear. intros t [H|[H|(H1 & H2)]]; [left; exact H|right; left; exact H|]. right. right. split; [exact H1|now right]. }
  assert (N : forall t, pong s s t) by (clear; intro; left; auto).
  intro H. destruct H.
  - apply C. destruct H0; auto; try (eapply pong_app; eassumption).
    + eapply pong_recs; [eassumption|]. eapply pong_replied; eassumption.
    + eapply pong_recs; [eassumption|]. eapply pong_trans; [eapply pong_app; eassumption|eapply pong_replied; eassumption].
    + destruct H5 as (r & ->). apply pong_same; reflexivity.
  - apply C. destruct H0; auto.
    + destruct H3 as (rr & ->). apply pong_same; reflexivity.
    + eapply pong_recs; [eassumption|]. eapply (pong_trans s0 s0 s'); [left; auto|]. eapply pong_trans; [eapply pong_app; eassumption|].
      destruct (reply_to k); [eapply pong_replied; eassumption|]. destruct H6 as (_ & -> & ->). left; auto.
  - apply C. eapply pong_app; eassumption.
  - apply N.
  - apply C. eapply pong_app; eassumption.
  - apply N.
  - subst. right. right. split; [reflexivity|now left].
  - apply C. eapply pong_app; eassumption.
  - apply N.
  - apply N.
Qed.
Lemma pong_loop mk s res s' t : loop_handled G n m mk s res s' t -> pong s s' t.
Proof.
  intro H. destruct H as [s1 (b & i & p & r & ts & ->) _ _ _|bs s1 k s2 t2 res s' t3 (b & i & p & r & ts & ->) H1' H2 H3 H4 H5 H6].
  - now apply pong_same.
  - set (s1 := mkSt (set_index (set_buf (s_ctx s) b) i) (env_times (env_recv (s_env s) p r) ts)) in *.
    change (EIn bs :: t2 ++ t3) with ([EIn bs] ++ t2 ++ t3). eapply (pong_trans s s1); [now apply pong_same|].
    apply (pong_trans s1 s2 s').
    + destruct (mk && _); [|destruct H5 as (_ & -> & ->); now apply pong_same].
      destruct H5 as (now & s3 & (x & l & _ & _ & ->) & H5). destruct (x_waiting (s_ctx s1)); [destruct H5 as (_ & -> & ->); now apply pong_same|].
      destruct (ping_due _ _ _); [|destruct H5 as (_ & -> & ->); now apply pong_same].
      destruct H5 as [(_ & _ & -> & ->)|(_ & _ & _ & _ & _ & _ & [(_ & _ & E1 & E2)|(_ & _ & _ & E1 & _)])]; [now apply pong_same| |right; left; exact E1].
      left. auto.
    + destruct H6 as [(_ & _ & -> & ->)|(_ & H6)]; [now apply pong_same|].
      destruct H6 as [| | |h part ty rem s3 err s' t A1 A2 A3 A4 A5 A6 A7 A8 A9 A10|h ty body rest r0 s3 s' t A1 A2 A3 A4 A5 A6 A7]; try (now apply pong_same).
      * destruct A8 as (b' & i' & p' & r' & ts' & ->). apply pong_same; subst s'; destruct err; reflexivity.
      * apply pong_packet in A4. replace (EPkt ty body :: t) with ((EPkt ty body :: t) ++ []) by apply app_nil_r.
        eapply pong_trans; [exact A4|]. destruct A5 as (b' & i' & A5).
        destruct (status_beq r0 Success); [destruct A5 as (x & l & _ & ->)|subst s']; now apply pong_same.
Qed.
Lemma pong_connect ci will tmo s st sp s' t : rx_all G s -> Reach n m (x_recs (s_ctx s)) ->
  connect G ci will tmo s = Ret (st, sp) s' t ->
  x_waiting (s_ctx s') = x_waiting (s_ctx s) /\ x_pingTime (s_ctx s') = x_pingTime (s_ctx s) \/ exists a p b, ins t = a ++ [32; 2; p; 0] ++ b.
Proof.
  intros Hr HR H. eapply connect_spec in H; eauto; [|apply Hr].
  destruct H as [(_ & _ & _ & -> & _)|(rl & total & _ & H)].
  { left. unfold transport_broke. cbn [s_ctx]. destruct (cstatus_beq _ _); auto. }
  destruct H as [[(_ & _ & _ & -> & _)|(_ & _ & _ & -> & _)]|(Hs & H)]; auto.
  destruct H as [(_ & _ & -> & ->)|(vs & ok & s1 & t1 & Hv & H1 & H)]; auto.
  destruct (sentb_nc _ _ _ _ _ Hs H1) as (l & Ec).
  destruct H as [(_ & _ & _ & -> & ->)|(-> & st2 & s2 & t2 & Hw & H)]; [left; rewrite Ec; auto|].
  destruct Hw as (bs & b & Eb & _ & _ & _ & _ & _ & Ec2 & Hw).
  destruct H as [(_ & _ & -> & ->)|H]; [left; rewrite Ec2; cbn [set_buf x_waiting x_pingTime]; rewrite Ec; auto|]. right.
  assert (Q : exists p, ins t2 = [32; 2; p; 0]).
  { assert (st2 = Success) as -> by (destruct H as [(-> & _)|(-> & _)]; reflexivity).
    destruct Hw as [(_ & p & E & _)|[(K & _)|[K|[K|K]]]]; try discriminate. rewrite Eb, E. destruct p; eexists; reflexivity. }
  destruct Q as (p & Q).
  destruct H as [(_ & _ & _ & _ & ->)|(_ & _ & _ & s3 & t3 & _ & -> & _)]; unfold ins in *; rewrite !flat_map_app, Q;
    eexists _, p, _; reflexivity.
Qed.
Lemma wait_call c s st s' t : Begun G n m s -> run_call G c s = Ret st s' t ->
  exists used, e_times (s_env s) = used ++ e_times (s_env s') /\
    (x_waiting (s_ctx s') = x_waiting (s_ctx s) /\ x_pingTime (s_ctx s') = x_pingTime (s_ctx s) \/
     x_waiting (s_ctx s') = true /\ (exists a b, outs t = a ++ pingreq_packet ++ b) /\
       (exists x, In x used /\ x_pingTime (s_ctx s') = x mod 4294967296) \/
     x_waiting (s_ctx s') = false /\ (In (EPkt 208 []) t \/ call_conn c = true /\ exists a p b, ins t = a ++ [32; 2; p; 0] ++ b)).
Proof.
  intros HB H. pose proof HB as HB0. apply begun_inv in HB. destruct HB as (Hr & HR & Hd). destruct (wf_call c _ _ _ _ H) as (used & E & K). exists used. split; [exact E|].
  destruct K as [K|[K|(_ & K)]]; [left; exact K|right; left; exact K|].
  assert (P : pong s s' t \/ call_conn c = true /\ exists a p b, ins t = a ++ [32; 2; p; 0] ++ b).
  { destruct c; cbn [run_call] in H.
    - left. apply (wf_op false) in H. destruct H as (u & _ & [H|[(H & _)|(H & _)]]); [left; exact H|right; left; exact H|discriminate].
    - apply bind_inv in H. destruct H as ((st1, sp) & s1 & t1 & t2 & H & H2 & ->). apply ret_inv in H2. destruct H2 as (-> & -> & ->). rewrite app_nil_r.
      apply pong_connect in H; auto. destruct H as [H|H]; [left; left; exact H|right; split; [reflexivity|exact H]].
    - left. apply (process_outcome G n m) in H; [|exact HB0]. apply pong_loop in H. exact H.
    - left. apply (receive_outcome G n m) in H; [|exact HB0]. apply pong_loop in H. exact H. }
  destruct P as [[P|[P|(P1 & P2)]]|P]; [left; exact P|congruence|right; right; auto..].
Qed.
End Wait.
