(** The functions of IntModel are those of StateModel and CoreModel below 2^31. *)
From Verif Require Import Base StateModel StateProofs SerModel WireSpec CoreModel CoreSpec CoreProofs CoreProofs5 CoreProofs12 Machine IntModel.

Lemma int32_id z : 0 <= z < 2147483648 -> int32 z = z.
Proof. intro. unfold int32. rewrite Z.mod_small; lia. Qed.
Lemma bind_same {A B} (m m' : Mo A) (k k' : A -> Mo B) s : m s = m' s -> (forall a s1 t, m' s = Ret a s1 t -> k a s1 = k' a s1) ->
  bind m k s = bind m' k' s.
Proof. intros E H. unfold bind. rewrite E. destruct (m' s) as [a s1 t| |] eqn:K; auto. rewrite (H a s1 t eq_refl). reflexivity. Qed.

Lemma compact_length l : length (compactRecords l) = length l.
Proof.
  unfold compactRecords. assert (H : forall is z, length (fst (fold_left compact_body is z)) = length (fst z)).
  { induction is as [|i is IH]; intro z; [reflexivity|]. cbn [fold_left]. rewrite IH. destruct z as [r o]. unfold compact_body.
    destruct (rid (nth i r empty_rec) =? 0); destruct o; cbn [fst]; rewrite ?upd_length; reflexivity. }
  apply H.
Qed.
Lemma addRecord_same l id q st : zlen l < 2147483648 -> i_addRecord l id q st = addRecord l id q st.
Proof.
  intro H. unfold i_addRecord, addRecord. destruct (negb (id =? 0) && negb (qos_beq q Q0)); [|reflexivity]. cbn [rassert].
  destruct (length l) as [|last] eqn:E; [reflexivity|]. set (r := if negb (rid (nth last l empty_rec) =? 0) then compactRecords l else l).
  assert (Hr : length r = length l) by (unfold r; destruct (negb _); [apply compact_length|reflexivity]).
  assert (Hz : int32 (zlen r) = zlen l) by (unfold zlen in *; rewrite Hr; apply int32_id; lia).
  rewrite Hz. replace (zlen l =? -2147483648) with false by (unfold zlen; lia). cbn [negb rassert]. replace (Z.to_nat (zlen l)) with (length r) by (unfold zlen; lia). reflexivity.
Qed.

Section Core.
Variable G : cfg.

Lemma advance_same vs : forall r, zlen (concat vs) < 2147483648 -> r < 2147483648 -> i_advance vs r = Some (advance vs r).
Proof.
  induction vs as [|v vs IH]; intros r H Hr; [reflexivity|]. cbn [concat] in H. rewrite zlen_app in H. pose proof (zlen_nonneg v). pose proof (zlen_nonneg (concat vs)).
  cbn [i_advance advance]. rewrite int32_id by lia. destruct (zlen v <=? r) eqn:E; [|reflexivity]. replace (r - zlen v <=? 2147483647) with true by lia.
  apply IH; lia.
Qed.
Lemma advance_shorter vs : forall r, zlen (concat (advance vs r)) <= zlen (concat vs).
Proof.
  induction vs as [|v vs IH]; intro r; [reflexivity|]. cbn [advance concat]. rewrite zlen_app. pose proof (zlen_nonneg v). specialize (IH (r - zlen v)).
  destruct (zlen v <=? r); [lia|]. destruct (0 <? r); cbn [concat]; rewrite zlen_app; [|lia]. unfold zlen. rewrite skipn_length. lia.
Qed.
Lemma tsend_result o s r s1 t : tsend o s = Ret r s1 t -> r <= zlen o.
Proof.
  unfold tsend. destruct (e_sends (s_env s)); [discriminate|]. destruct (z <? 0) eqn:E; intro H; injection H as <- _ _; pose proof (zlen_nonneg o); lia.
Qed.
Lemma sendv_loop_same fuel : forall vs bts start sent s, zlen (concat vs) < 2147483648 ->
  i_sendv_loop G fuel vs bts start sent s = sendv_loop G fuel vs bts start sent s.
Proof.
  induction fuel as [|fuel IH]; intros vs bts start sent s H; [reflexivity|]. cbn [i_sendv_loop sendv_loop]. destruct ((sent <? bts) && (0 <=? sent)); [|reflexivity].
  apply bind_same; [reflexivity|]. intros r s1 t H1. apply bind_same; [reflexivity|]. intros sent' s2 t2 _. apply bind_same; [reflexivity|]. intros now s3 t3 _.
  destruct (g_sendto G <? elapsed now start); [reflexivity|].
  assert (Hr : r < 2147483648).
  { destruct vs as [|v vs]; [discriminate H1|]. apply tsend_result in H1. cbn [concat] in *. rewrite zlen_app in H. pose proof (zlen_nonneg (concat vs)).
    destruct (g_writev G); [cbn [concat] in H1; rewrite zlen_app in H1|]; lia. }
  rewrite advance_same by auto. apply IH. pose proof (advance_shorter vs r). lia.
Qed.
Lemma sendMessageVector_same vs s : zlen (concat vs) < 2147483648 -> 2147483648 <= g_M G -> i_sendMessageVector G vs s = sendMessageVector G vs s.
Proof.
  intros H HM. unfold i_sendMessageVector, sendMessageVector. apply bind_same; [reflexivity|]. intros t0 s1 t1 _. apply bind_same; [reflexivity|]. intros e s2 t2 _.
  pose proof (zlen_nonneg (concat vs)). rewrite Z.mod_small by lia. rewrite int32_id by lia. now apply sendv_loop_same.
Qed.
Lemma sendBuffer_same bs s : zlen bs < 2147483648 -> i_sendBuffer G bs s = sendBuffer G bs s.
Proof. intro H. pose proof (zlen_nonneg bs). unfold i_sendBuffer, sendBuffer. rewrite int32_id by lia. reflexivity. Qed.

Lemma recvExact_loop_same fuel : forall off n total last s, total + Z.max 0 n < 2147483648 ->
  i_recvExact_loop G fuel off n total last s = recvExact_loop G fuel off n total last s.
Proof.
  induction fuel as [|fuel IH]; intros off n total last s H; [reflexivity|]. cbn [i_recvExact_loop recvExact_loop]. destruct (0 <? n) eqn:En; [|reflexivity].
  apply bind_same; [reflexivity|]. intros r s1 t1 H1. destruct (r <? 0); [reflexivity|]. destruct (0 <? r) eqn:Er.
  - apply bind_same; [reflexivity|]. intros now s2 t2 _. unfold massert. destruct (r <=? n) eqn:E; [|reflexivity]. cbn [negb].
    replace (total + r <=? 2147483647) with true by lia. apply bind_same; [reflexivity|]. intros [] s3 t3 _.
    unfold bind at 1. cbn [ret]. rewrite IH by lia. destruct (recvExact_loop G fuel (off + r) (n - r) (total + r) now s3); reflexivity.
  - apply bind_same; [reflexivity|]. intros now s2 t2 _. destruct (g_poll G <=? elapsed now last); [reflexivity|]. apply IH. lia.
Qed.
Lemma recvExact_same n s : n < 2147483648 -> i_recvExact G n s = recvExact G n s.
Proof.
  intro H. unfold i_recvExact, recvExact. apply bind_same; [reflexivity|]. intros c s1 t1 _. apply bind_same; [reflexivity|]. intros u s2 t2 _.
  apply bind_same; [reflexivity|]. intros now s3 t3 _. apply bind_same; [reflexivity|]. intros e s4 t4 _. apply recvExact_loop_same. lia.
Qed.
Lemma chunk a b total : (if a - total <? b then a - total else b) <= a - total. Proof. destruct (a - total <? b) eqn:E; lia. Qed.
Lemma discard_loop_same fuel : forall b rl total tm e s, 0 <= b -> 0 <= total -> rl < 2147483648 ->
  i_discard_loop G fuel b rl total tm e s = discard_loop G fuel b rl total tm e s.
Proof.
  induction fuel as [|fuel IH]; intros b rl total tm e s Hb Ht H; [reflexivity|]. cbn [i_discard_loop discard_loop]. destruct (total <? rl) eqn:E; [|reflexivity].
  set (b' := if rl - total <? b then rl - total else b). assert (Hb' : 0 <= b' <= rl - total) by (unfold b'; destruct (rl - total <? b) eqn:E1; lia).
  apply bind_same; [apply recvExact_same; lia|]. intros r s1 t1 _. rewrite int32_id by lia. destruct (negb (r =? b')); [reflexivity|].
  apply bind_same; [reflexivity|]. intros now s2 t2 _. destruct (tm <=? elapsed now e); [reflexivity|]. apply IH; auto; [lia|]. unfold u32. pose proof (Z.mod_pos_bound (total + r) 4294967296). lia.
Qed.
Lemma discardStored_loop_same fuel : forall b rl total s, 0 <= b -> 0 <= total -> rl < 2147483648 ->
  i_discardStored_loop G fuel b rl total s = discardStored_loop G fuel b rl total s.
Proof.
  induction fuel as [|fuel IH]; intros b rl total s Hb Ht H; [reflexivity|]. cbn [i_discardStored_loop discardStored_loop]. destruct (total <? rl) eqn:E; [|reflexivity].
  set (b' := if rl - total <? b then rl - total else b). assert (Hb' : 0 <= b' <= rl - total) by (unfold b'; destruct (rl - total <? b) eqn:E1; lia).
  apply bind_same; [apply recvExact_same; lia|]. intros r s1 t1 _. rewrite int32_id by lia. destruct (negb (r =? b')); [reflexivity|].
  apply IH; auto; [lia|]. unfold u32. pose proof (Z.mod_pos_bound (total + r) 4294967296). lia.
Qed.
Lemma receivePacket_same rem tm s : 0 <= rem < 2147483648 -> i_receivePacket G rem tm s = receivePacket G rem tm s.
Proof.
  intro H. unfold i_receivePacket, receivePacket. apply bind_same; [reflexivity|]. intros c s1 t1 _. destruct (zlen (x_buf c) <? rem).
  - unfold i_discardPacket, discardPacket. apply bind_same; [reflexivity|]. intros c2 s2 t2 _. apply bind_same; [reflexivity|]. intros c3 s3 t3 _.
    apply bind_same; [reflexivity|]. intros e s4 t4 _. apply bind_same; [apply discard_loop_same; try lia; apply zlen_nonneg|]. reflexivity.
  - apply bind_same; [apply recvExact_same; lia|]. intros r s2 t2 _. rewrite int32_id by lia. reflexivity.
Qed.
Lemma discardStoredPacket_same ty rem hdr s : 0 <= x_index (s_ctx s) <= rem + hdr -> rem + hdr < 2147483648 -> 2147483648 <= g_M G ->
  i_discardStoredPacket G ty rem hdr s = discardStoredPacket G ty rem hdr s.
Proof.
  intros Hi H HM. unfold i_discardStoredPacket, discardStoredPacket. apply bind_same; [reflexivity|]. intros u s1 t1 H1. unfold emit in H1. injection H1 as _ <- _.
  apply bind_same; [reflexivity|]. intros c s2 t2 H2. apply getc_inv in H2. destruct H2 as (-> & -> & _). apply bind_same; [reflexivity|]. intros v s3 t3 _.
  apply bind_same; [reflexivity|]. intros e s4 t4 _. apply bind_same; [|reflexivity]. rewrite Z.mod_small by lia. apply discardStored_loop_same; try lia. apply zlen_nonneg.
Qed.

Lemma sendBuffer_retrs bs s r s' t : sendBuffer G bs s = Ret r s' t -> e_retrs (s_env s') = e_retrs (s_env s).
Proof. intro H. apply sendBuffer_spec in H. destruct H as (? & ? & _ & _ & _ & (? & ? & ->) & _). reflexivity. Qed.
Definition short (x : option (list Z)) : Prop := match x with Some bs => zlen bs < 2147483648 | None => True end.
Lemma publish_loop_same fuel : forall cur s, Forall short (e_retrs (s_env s)) -> i_publish_loop G fuel cur s = publish_loop G fuel cur s.
Proof.
  induction fuel as [|fuel IH]; intros cur s H; [reflexivity|]. cbn [i_publish_loop publish_loop]. apply bind_same; [reflexivity|].
  intros c s1 t1 H1. apply getc_inv in H1. destruct H1 as (-> & -> & _). destruct (publishToResend (x_recs (s_ctx s)) cur) as [id cur']. destruct (id =? 0); [reflexivity|].
  apply bind_same; [reflexivity|]. intros x s2 t2 H2. unfold retrieve_publish in H2. injection H2 as Ex <- _.
  assert (short x /\ Forall short (tl (e_retrs (s_env s)))) as (Hx & Hr) by (subst x; destruct (e_retrs (s_env s)); [repeat constructor|apply Forall_cons_iff in H; exact H]).
  destruct x as [bs|]; [|reflexivity]. cbn [short] in Hx. pose proof (zlen_nonneg bs).
  apply bind_same; [now apply sendBuffer_same|]. intros n s3 t3 H3. rewrite int32_id by lia. destruct (negb (n =? zlen bs)); [reflexivity|]. apply IH.
  apply sendBuffer_retrs in H3. rewrite H3. exact Hr.
Qed.
Lemma acks_retrs id ps s st s' t : sendPublishAcks G id ps s = Ret st s' t -> e_retrs (s_env s') = e_retrs (s_env s).
Proof.
  unfold sendPublishAcks. destruct (ackToSend ps) as [[ty k]|]; intro H; [|apply ret_inv in H; destruct H as (_ & -> & _); reflexivity].
  apply bind_inv in H. destruct H as (x & s1 & t1 & t2 & H1 & H & _). apply lift_inv in H1. destruct H1 as (_ & -> & _). destruct x as [st0 buf].
  apply bind_inv in H. destruct H as (st1 & s2 & t3 & t4 & H2 & H & _).
  assert (E : e_retrs (s_env s2) = e_retrs (s_env s)).
  { destruct (status_beq st0 Success); [|apply ret_inv in H2; destruct H2 as (_ & -> & _); reflexivity].
    apply bind_inv in H2. destruct H2 as (c & s3 & t5 & t6 & H3 & H2 & _). apply getc_inv in H3. destruct H3 as (-> & -> & _). cbv zeta in H2.
    destruct (status_beq (must_be_connected (s_ctx s)) Success); [|apply ret_inv in H2; destruct H2 as (_ & -> & _); reflexivity].
    apply bind_inv in H2. destruct H2 as (r & s3 & t7 & t8 & H3 & H2 & _). apply ret_inv in H2. destruct H2 as (_ & -> & _). exact (sendBuffer_retrs _ _ _ _ _ H3). }
  destruct (status_beq st1 Success); [|apply ret_inv in H; destruct H as (_ & -> & _); exact E].
  apply bind_inv in H. destruct H as (u & s3 & t5 & t6 & H3 & H & _). apply modc_inv in H3. destruct H3 as (-> & _).
  apply bind_inv in H. destruct H as (y & s4 & t7 & t8 & H4 & H & _). destruct y as [st2 o]. apply ret_inv in H. destruct H as (_ & -> & _).
  apply on_recs_inv in H4. destruct H4 as (? & _ & -> & _). exact E.
Qed.
Lemma pubrel_retrs fuel : forall id cur s st s' t, pubrel_loop G fuel id cur s = Ret st s' t -> e_retrs (s_env s') = e_retrs (s_env s).
Proof.
  induction fuel as [|fuel IH]; intros id cur s st s' t H; [discriminate|]. cbn [pubrel_loop] in H. destruct (id =? 0); [apply ret_inv in H; destruct H as (_ & -> & _); reflexivity|].
  apply bind_inv in H. destruct H as (st1 & s1 & t1 & t2 & H1 & H & _). apply acks_retrs in H1.
  destruct (negb (status_beq st1 Success)); [apply ret_inv in H; destruct H as (_ & -> & _); exact H1|].
  apply bind_inv in H. destruct H as (c & s2 & t3 & t4 & H2 & H & _). apply getc_inv in H2. destruct H2 as (-> & -> & _).
  destruct (pubrelToResend (x_recs (s_ctx s1)) cur) as [i2 c2]. apply IH in H. congruence.
Qed.
Lemma resume_same s : Forall short (e_retrs (s_env s)) -> i_handleUncleanSessionResumption G s = handleUncleanSessionResumption G s.
Proof.
  intro H. unfold i_handleUncleanSessionResumption, handleUncleanSessionResumption. apply bind_same; [reflexivity|]. intros c s1 t1 H1. apply getc_inv in H1. destruct H1 as (-> & -> & _).
  destruct (pubrelToResend (x_recs (s_ctx s)) 0) as [id cur]. apply bind_same; [reflexivity|]. intros st s2 t2 H2. apply pubrel_retrs in H2.
  destruct (status_beq st Success && x_retr (s_ctx s)); [|reflexivity]. apply publish_loop_same. now rewrite H2.
Qed.
Lemma clear_loop_env fuel : forall cur s u s' t, clear_loop fuel cur s = Ret u s' t -> s_env s' = s_env s.
Proof.
  induction fuel as [|fuel IH]; intros cur s u s' t H; [discriminate|]. cbn [clear_loop] in H. apply bind_inv in H. destruct H as (c & s1 & t1 & t2 & H1 & H & _).
  apply getc_inv in H1. destruct H1 as (-> & -> & _). destruct (publishToResend (x_recs (s_ctx s)) cur) as [id cur']. destruct (id =? 0); [apply ret_inv in H; destruct H as (_ & -> & _); reflexivity|].
  apply bind_inv in H. destruct H as (v & s2 & t3 & t4 & H2 & H & _). unfold clear_publish, emit in H2. injection H2 as _ <- _. exact (IH _ _ _ _ _ H).
Qed.
Lemma clean_env s st s' t : handleCleanSession s = Ret st s' t -> s_env s' = s_env s.
Proof.
  unfold handleCleanSession. intro H. apply bind_inv in H. destruct H as (u & s1 & t1 & t2 & H1 & H & _). apply modc_inv in H1. destruct H1 as (-> & _).
  apply bind_inv in H. destruct H as (c & s2 & t3 & t4 & H2 & H & _). apply getc_inv in H2. destruct H2 as (-> & -> & _).
  apply bind_inv in H. destruct H as (v & s3 & t5 & t6 & H3 & H & _). apply bind_inv in H. destruct H as (w & s4 & t7 & t8 & H4 & H & _).
  apply modc_inv in H4. destruct H4 as (-> & _). apply ret_inv in H. destruct H as (_ & -> & _). cbn [s_env].
  destruct (x_retr _) in H3; [apply clear_loop_env in H3; exact H3|]. apply ret_inv in H3. destruct H3 as (_ & -> & _). reflexivity.
Qed.
Lemma greet_env ci will rl s st s' t : sendConnectWithoutCopy G ci will rl s = Ret st s' t -> x_status (s_ctx s) = NotConnected ->
  e_retrs (s_env s') = e_retrs (s_env s) /\ e_in (s_env s') = e_in (s_env s) /\ x_status (s_ctx s') = NotConnected.
Proof.
  intros H Hn. unfold sendConnectWithoutCopy in H. destruct (match will with Some wl => _ | None => false end); [apply ret_inv in H; destruct H as (_ & -> & _); auto|].
  apply bind_inv in H. destruct H as (vs & s1 & t1 & t2 & H1 & H & _). apply lift_inv in H1. destruct H1 as (_ & -> & _).
  apply bind_inv in H. destruct H as (r & s2 & t3 & t4 & H2 & H & _). apply ret_inv in H. destruct H as (_ & -> & _).
  apply sendMessageVector_spec in H2. destruct H2 as (? & ? & _ & _ & _ & (? & ? & E) & _ & Ec). rewrite E. split; [reflexivity|]. split; [reflexivity|].
  destruct Ec as [(_ & _ & ->)|(_ & _ & _ & ->)]; [exact Hn|]. unfold transport_broke. cbn [x_status set_lastTx]. rewrite Hn. exact Hn.
Qed.
Lemma connect_same ci will tmo s : Forall short (e_retrs (s_env s)) -> bytes_ok (e_in (s_env s)) -> i_connect G ci will tmo s = connect G ci will tmo s.
Proof.
  intros Hr Hb. unfold i_connect, connect. destruct (getConnectPacketSize ci will) as [st0 sz]. apply bind_same; [reflexivity|]. intros [st sp] s1 t1 H.
  apply bind_same; [|reflexivity]. destruct (status_beq st Success && _) eqn:Es; [|reflexivity]. apply resume_same.
  enough (E : e_retrs (s_env s1) = e_retrs (s_env s)) by now rewrite E.
  destruct st0; try (apply ret_inv in H; destruct H as (_ & -> & _); reflexivity). destruct sz as [[rl x]|]; [|apply ret_inv in H; destruct H as (_ & -> & _); reflexivity].
  apply bind_inv in H. destruct H as (c & s2 & t2 & t3 & H1 & H & _). apply getc_inv in H1. destruct H1 as (-> & -> & _). cbv zeta in H.
  apply bind_inv in H. destruct H as (st1 & s3 & t4 & t5 & H1 & H & _).
  apply bind_inv in H. destruct H as (y & s4 & t6 & t7 & H2 & H & _). destruct y as [st2 sp2].
  apply bind_inv in H. destruct H as (st3 & s5 & t8 & t9 & H3 & H & _).
  apply bind_inv in H. destruct H as (u & s6 & t10 & t11 & H4 & H & _). apply ret_inv in H. destruct H as (_ & -> & _).
  assert (E6 : s_env s6 = s_env s5) by (destruct (status_beq st3 Success); [apply modc_inv in H4; destruct H4 as (-> & _)|apply ret_inv in H4; destruct H4 as (_ & -> & _)]; reflexivity).
  assert (E5 : s_env s5 = s_env s4) by (destruct (status_beq st2 Success && _) in H3; [exact (clean_env _ _ _ _ H3)|apply ret_inv in H3; destruct H3 as (_ & -> & _); reflexivity]).
  rewrite E6, E5.
  destruct (x_status (s_ctx s)) eqn:En; cbn [status_beq] in H1;
    try (apply ret_inv in H1; destruct H1 as (-> & -> & _); cbn [status_beq] in H2; apply ret_inv in H2; destruct H2 as (_ & -> & _); reflexivity).
  apply greet_env in H1; auto. destruct H1 as (K1 & K2 & K3). rewrite <- K1.
  destruct (status_beq st1 Success); [|apply ret_inv in H2; destruct H2 as (_ & -> & _); reflexivity].
  apply receiveConnack_spec in H2; auto; [|now rewrite K2]. destruct H2 as (? & ? & _ & _ & _ & (? & ? & ? & ->) & _). reflexivity.
Qed.
End Core.

(** ** Sizes *)
Lemma varlen_short n : zlen (varlen n) <= 4.
Proof. unfold varlen. destruct (n <? 128); [|destruct (n <? 16384); [|destruct (n <? 2097152)]]; unfold zlen; cbn; lia. Qed.
Lemma packet_short h b : zlen b <= max_remaining -> zlen (packet h b) <= max_remaining + 5.
Proof. intro H. unfold packet. pose proof (varlen_short (zlen b)). change (h :: varlen (zlen b) ++ b) with ([h] ++ varlen (zlen b) ++ b). rewrite !zlen_app. change (zlen [h]) with 1. lia. Qed.
Lemma bytes_short p : pkt_ok p -> (forall id bs, p <> KAgain id bs) -> zlen (bytes p) <= max_remaining + 5.
Proof.
  intros H Hn. destruct p as [m|m|i fs|i fs| | |a i|i bs]; [| | | | | | |exfalso; eapply Hn; reflexivity]; cbn [bytes pkt_ok] in *.
  - apply packet_short, H.
  - apply packet_short, H.
  - apply packet_short, H.
  - apply packet_short, H.
  - vm_compute. congruence.
  - vm_compute. congruence.
  - unfold ack_packet. apply packet_short. destruct a; vm_compute; congruence.
Qed.

(** ** Beyond *)
Lemma zlen_repeat {A} (x : A) n : 0 <= n -> zlen (repeat x (Z.to_nat n)) = n.
Proof. intro. unfold zlen. rewrite repeat_length. lia. Qed.
Lemma some_length n : 0 <= n -> exists bs : list Z, zlen bs = n.
Proof. intro H. exists (repeat 0 (Z.to_nat n)). now apply zlen_repeat. Qed.
Lemma nth_repeat_same {A} (x : A) n i : nth i (repeat x n) x = x.
Proof. revert i. induction n as [|n IH]; intros [|i]; cbn; auto. Qed.
Lemma huge_array n id q st : 2147483648 < n < 4294967296 -> 0 < id -> q <> Q0 ->
  i_addRecord (repeat empty_rec (Z.to_nat n)) id q st = Ok (NoMemory, repeat empty_rec (Z.to_nat n)).
Proof.
  intros Hn Hi Hq. unfold i_addRecord. replace (id =? 0) with false by lia. replace (qos_beq q Q0) with false by (destruct q; auto; congruence). cbn [negb andb rassert].
  assert (Hl : length (repeat empty_rec (Z.to_nat n)) = S (Z.to_nat (n - 1))) by (rewrite repeat_length; lia). rewrite Hl. rewrite nth_repeat_same.
  change (negb (rid empty_rec =? 0)) with false. cbv iota. rewrite zlen_repeat by lia.
  assert (E : int32 n = n - 4294967296).
  { unfold int32. replace (n + 2147483648) with (n - 2147483648 + 1 * 4294967296) by lia. rewrite Z_mod_plus_full, Z.mod_small; lia. }
  rewrite E. replace (n - 4294967296 =? -2147483648) with false by lia. replace (Z.to_nat (n - 4294967296)) with 0%nat by lia. reflexivity.
Qed.
(** a copy whose length is a multiple of 2^32 *)
Lemma nothing_sent G bs s x r : int32 (zlen bs) = 0 -> e_times (s_env s) = x :: r -> i_sendBuffer G bs s = Ret 0 (mkSt (s_ctx s) (env_times (s_env s) r)) [].
Proof. intros H E. unfold i_sendBuffer, bind, getTime, gete. rewrite E, H. reflexivity. Qed.
Lemma skipped G fuel cur s id cur' bs rs x r : publishToResend (x_recs (s_ctx s)) cur = (id, cur') -> id <> 0 -> e_retrs (s_env s) = Some bs :: rs -> e_times (s_env s) = x :: r ->
  int32 (zlen bs) = 0 ->
  i_publish_loop G (S fuel) cur s = match i_publish_loop G fuel cur' (mkSt (s_ctx s) (env_times (env_retrs (s_env s) rs) r)) with
                                    | Ret a s' t => Ret a s' (ERetrieve id (Some bs) :: t) | Undef => Undef | Stuck => Stuck end.
Proof.
  intros E1 Hi E2 E3 H. cbn [i_publish_loop]. unfold bind at 1, getc. rewrite E1. replace (id =? 0) with false by lia. unfold bind at 1, retrieve_publish. rewrite E2. cbn [tl].
  unfold bind at 1. rewrite (nothing_sent G bs _ x r) by auto. cbn [s_ctx s_env env_retrs e_times]. rewrite H. cbn [Z.eqb negb app].
  destruct (i_publish_loop G fuel cur' _); reflexivity.
Qed.
