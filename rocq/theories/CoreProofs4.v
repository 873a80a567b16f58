(** The bytes MQTT_Publish, MQTT_Subscribe, MQTT_Unsubscribe and MQTT_Connect send. *)
From Verif Require Import Base StateModel SerModel WireSpec SerHarness SerProofs SerProofs2 SerProofs3 SerProofs4 SerProofs5
  CoreModel CoreHarness CoreProofs CoreProofs2 CoreProofs3.

Lemma firstn_out (out : list Z) b : firstn (Z.to_nat (zlen out)) (out ++ skipn (length out) b) = out.
Proof.
  unfold zlen. rewrite Nat2Z.id. rewrite firstn_app, Nat.sub_diag, firstn_all. cbn. apply app_nil_r.
Qed.

Lemma block_holds p len x : holds p len x -> block p len = Ok x.
Proof. intros (m & -> & H & ->). unfold block. replace (len <=? zlen m) with true by lia. reflexivity. Qed.
Lemma block_holds0 p len x : holds0 p len x -> 0 < len -> block p len = Ok x.
Proof. intros [H|(_ & -> & _)] H0; [now apply block_holds|lia]. Qed.

(** the topic-less header as written into mqttHeader[ 7 ] *)
Definition pub_hdr (m : publish_msg) : list Z :=
  publish_first m :: varlen (zlen (publish_body m)) ++ be16 (zlen (pm_topic m)).
Lemma zlen_pub_hdr m : zlen (pub_hdr m) = 3 + remainingLengthEncodedSize (zlen (publish_body m)).
Proof. unfold pub_hdr. autorewrite with zl. lia. Qed.

Lemma pub_vectors_ok p id m h b : pub_means p id m ->
  h = pub_hdr m ++ b ->
  exists vs, pub_vectors p h (zlen (pub_hdr m)) id = Ok vs /\ concat vs = publish_packet m.
Proof.
  intros (Hq & Hr & Hd & Hi & Hidr & Htl & Ht & Hp) ->. unfold pub_vectors.
  pose proof (holds_len _ _ _ Ht) as HtL. pose proof (holds0_len _ _ _ Hp) as HpL.
  pose proof (zlen_nonneg (pub_hdr m)). pose proof (zlen_nonneg b).
  assert (Eb : block (Some (pub_hdr m ++ b)) (zlen (pub_hdr m)) = Ok (pub_hdr m)).
  { unfold block. rewrite SerProofs.zlen_app. replace (_ <=? _) with true by lia.
    f_equal. unfold zlen. rewrite Nat2Z.id, firstn_app, Nat.sub_diag, firstn_all. cbn [firstn]. apply app_nil_r. }
  rewrite Eb. cbn [rbind]. rewrite (block_holds _ _ _ Ht). cbn [rbind].
  assert (Ey : exists y, (if 0 <? p_paylen p then let! y := block (p_payload p) (p_paylen p) in Ok [y] else Ok []) = Ok y /\
                concat y = pm_payload m).
  { destruct (0 <? p_paylen p) eqn:E.
    - rewrite (block_holds0 _ _ _ Hp) by lia. cbn [rbind]. eexists; split; [reflexivity|]. cbn. apply app_nil_r.
    - eexists; split; [reflexivity|]. cbn. pose proof (zlen_nonneg (pm_payload m)). destruct (pm_payload m) as [|? l]; auto.
      rewrite zlen_cons in *. pose proof (zlen_nonneg l). lia. }
  destruct Ey as (y & -> & Ey). cbn [rbind]. eexists; split; [reflexivity|].
  rewrite concat_app. cbn [concat]. rewrite app_nil_r, concat_app, Ey.
  unfold publish_packet, packet, pub_hdr. generalize (varlen (zlen (publish_body m))) as v. intro v.
  unfold publish_body, publish_head, mstr. rewrite Hq, Hi.
  destruct (pm_qos m); cbn [concat app]; rewrite <- ?app_assoc; auto.
  - unfold be16. rewrite hi8_eq, lo8_eq by (rewrite <- Hi; lia). reflexivity.
  - unfold be16. rewrite hi8_eq, lo8_eq by (rewrite <- Hi; lia). reflexivity.
Qed.

Lemma pub_hdr_dup m : set_first (pub_hdr m) (publish_first (with_dup m)) = pub_hdr (with_dup m).
Proof. unfold pub_hdr. cbn [set_first]. reflexivity. Qed.

Lemma pub_means_dup p id m : pub_means p id m ->
  pub_means (mkPub (p_qos p) (p_retain p) true (p_topic p) (p_topiclen p) (p_payload p) (p_paylen p)) id (with_dup m).
Proof. unfold pub_means, with_dup. cbn. intuition. Qed.
Lemma pub_vectors_dup p h hs id :
  pub_vectors (mkPub (p_qos p) (p_retain p) true (p_topic p) (p_topiclen p) (p_payload p) (p_paylen p)) h hs id = pub_vectors p h hs id.
Proof. reflexivity. Qed.

(** what MQTT_Publish prepares: header, vectors to send, vectors to store *)
Lemma publish_prepared p id m rl ps h hs : pub_means p id m ->
  getPublishPacketSize p = (Success, Some (rl, ps)) ->
  serializePublishHeaderWithoutTopic p rl (repeat 0 7) = Ok (h, hs) ->
  pm_topic m <> [] /\ zlen (publish_body m) <= max_remaining /\
  rl = zlen (publish_body m) /\ ps = zlen (publish_packet m) /\
  (exists vs, pub_vectors p h hs id = Ok vs /\ concat vs = publish_packet m) /\
  (exists vs, pub_vectors p (set_first h (if p_dup p then publishFlags p else snd (updateDuplicatePublishFlag (publishFlags p) true))) hs id = Ok vs /\
     concat vs = publish_packet (with_dup m)).
Proof.
  intros Hm Hs Hh. pose proof Hm as (Hq & Hr & Hd & Hi & Hidr & Htl & Ht & Hp).
  assert (Hne : pm_topic m <> []).
  { intro E. unfold getPublishPacketSize in Hs. pose proof (holds_len _ _ _ Ht) as K. rewrite E in K.
    change (zlen []) with 0 in K. replace (p_topiclen p =? 0) with true in Hs by lia. rewrite orb_true_r in Hs. discriminate. }
  rewrite (publish_size_ok _ _ _ Hm Hne) in Hs. destruct (_ <=? _) eqn:El; [|discriminate].
  pose proof (publish_limit_le _ El) as Hmax.
  assert (K : rl = zlen (publish_body m) /\ ps = zlen (publish_packet m)).
  { split; congruence. } destruct K as (-> & ->).
  pose proof (encsize_bounds (zlen (publish_body m))) as HeB. pose proof (zlen_pub_hdr m) as Hz.
  rewrite (publish_wo_topic p id m _ Hm Hmax) in Hh by (fold (pub_hdr m); cbn [repeat]; change (zlen [0;0;0;0;0;0;0]) with 7; lia).
  fold (pub_hdr m) in Hh. assert (K : h = pub_hdr m ++ skipn (length (pub_hdr m)) (repeat 0 7) /\ hs = zlen (pub_hdr m)) by (split; congruence).
  destruct K as (-> & ->). clear Hh.
  repeat split; auto.
  - eapply pub_vectors_ok; eauto.
  - rewrite (publishFlags_eq _ _ _ Hm).
    assert (Ef : (if p_dup p then publish_first m else snd (updateDuplicatePublishFlag (publish_first m) true)) = publish_first (with_dup m)).
    { destruct (p_dup p) eqn:E.
      - unfold with_dup, publish_first. cbn. rewrite <- Hd. reflexivity.
      - rewrite dup_flag. reflexivity. }
    rewrite Ef. unfold pub_hdr at 1. cbn [app set_first].
    rewrite <- pub_vectors_dup.
    replace (zlen (pub_hdr m)) with (zlen (pub_hdr (with_dup m))) by reflexivity.
    eapply (pub_vectors_ok _ _ (with_dup m)); [now apply pub_means_dup|].
    unfold pub_hdr at 2. cbn [app]. reflexivity.
Qed.

Section Exact.
Variable G : cfg.

Lemma store_outs p id c vd ok e e' t : store_step p id c vd ok e e' t -> outs t = [].
Proof. unfold store_step. destruct (_ && _); intros (_ & _ & ->); reflexivity. Qed.

Lemma sentb_true bs s s' t : sentb bs s true s' t -> outs t = bs.
Proof.
  intros (k & l & _ & -> & _ & _ & _ & H & _). replace k with (length bs) by (symmetry; tauto). apply firstn_all.
Qed.

(** Success means that every byte of the packet was taken. *)
Lemma publish_sent p id m s s' t : pub_means p id m -> publish G p id s = Ret Success s' t ->
  outs t = publish_packet m /\ pm_topic m <> [] /\ zlen (publish_body m) <= max_remaining /\
  getPublishPacketSize p = (Success, Some (zlen (publish_body m), zlen (publish_packet m))).
Proof.
  intros Hm H. apply publish_spec in H.
  destruct H as [(_ & _ & [K|[K|K]] & _)|(Hc & Hv & rl & ps & h & hs & rst & r1 & K1 & K2 & K3 & K4)]; try discriminate.
  destruct (publish_prepared _ _ _ _ _ _ _ Hm K1 K2) as (Hne & Hmax & -> & -> & (vs & Ev & Ec) & _).
  split; [|auto]. cbv zeta in K4.
  destruct K4 as [(? & <- & _)|(-> & vd & ok & e & te & S1 & S2 & S3)]; [congruence|].
  destruct S3 as [(_ & ? & _)|(-> & vs' & sok & t1 & s1 & S3 & S4 & -> & S5)]; [congruence|].
  assert (vs' = vs) by congruence. subst vs'.
  rewrite outs_app, (store_outs _ _ _ _ _ _ _ _ S1).
  destruct S5 as [(_ & ? & _)|(-> & _)]; [congruence|]. rewrite (sentb_true _ _ _ _ S4). cbn [app]. exact Ec.
Qed.

(** ** SUBSCRIBE *)
Lemma sub_hdr rl id : 0 <= rl <= max_remaining -> 0 <= id < 65536 ->
  exists h n, serializeSubscribeHeader rl (repeat 0 7, 0%nat) id = Ok (h, n) /\
    firstn n h = 130 :: varlen rl ++ be16 id.
Proof.
  intros Hr Hi. unfold serializeSubscribeHeader. rewrite wr_nil. pose proof (encsize_bounds rl).
  assert (H7 : zlen (repeat 0 7) = 7) by reflexivity.
  rewrite put_wrz by (autorewrite with zl; lia). cbn [rbind].
  rewrite encode_wr by (try split; autorewrite with zl; lia). cbn [rbind].
  rewrite be16_eq by lia. rewrite put_wrz by (autorewrite with zl; lia). cbn [rbind app].
  unfold wr. eexists _, _. split; [reflexivity|].
  rewrite firstn_app, Nat.sub_diag, firstn_all. cbn [firstn]. rewrite app_nil_r. reflexivity.
Qed.
Lemma unsub_hdr rl id : 0 <= rl <= max_remaining -> 0 <= id < 65536 ->
  exists h n, serializeUnsubscribeHeader rl (repeat 0 7, 0%nat) id = Ok (h, n) /\
    firstn n h = 162 :: varlen rl ++ be16 id.
Proof.
  intros Hr Hi. unfold serializeUnsubscribeHeader. rewrite wr_nil. pose proof (encsize_bounds rl).
  assert (H7 : zlen (repeat 0 7) = 7) by reflexivity.
  rewrite put_wrz by (autorewrite with zl; lia). cbn [rbind].
  rewrite encode_wr by (try split; autorewrite with zl; lia). cbn [rbind].
  rewrite be16_eq by lia. rewrite put_wrz by (autorewrite with zl; lia). cbn [rbind app].
  unfold wr. eexists _, _. split; [reflexivity|].
  rewrite firstn_app, Nat.sub_diag, firstn_all. cbn [firstn]. rewrite app_nil_r. reflexivity.
Qed.

(** subscriptions that need a state array the client does not have *)
Definition subs_need_state (c : context) (l : list subinfo) : bool :=
  match inRecs (x_recs c) with Some _ => false | None => existsb (fun x => negb (qos_beq (s_qos x) Q0)) l end.

Lemma validate_eq l id s : 0 < zlen l -> 0 < id ->
  validateSubUnsub (Some l) (zlen l) id s = Ret (if subs_need_state (s_ctx s) l then BadParameter else Success) s [].
Proof.
  intros Hl Hi. unfold validateSubUnsub, subs_need_state.
  replace (zlen l =? 0) with false by lia. replace (id =? 0) with false by lia.
  unfold bind, getc. destruct (inRecs _); [reflexivity|]. rewrite sub_entries_all. reflexivity.
Qed.

Lemma subscribe_spec l fs id s st s' t : 4294967296 <= g_M G -> g_big G = false ->
  subs_mean l fs -> fs <> [] -> 0 < id < 65536 -> zlen (subscribe_body id fs) < g_M G ->
  subscribe G (Some l) (zlen l) id s = Ret st s' t ->
  if subs_need_state (s_ctx s) l || (max_remaining <? zlen (subscribe_body id fs))
  then st = BadParameter /\ s' = s /\ t = []
  else match x_status (s_ctx s) with
       | NotConnected => st = StNotConnected /\ s' = s /\ t = []
       | DisconnectPending => st = StDisconnectPending /\ s' = s /\ t = []
       | Connected => exists ok, sentb (subscribe_packet id fs) s ok s' t /\ st = sendst ok
       end.
Proof.
  intros HM Hb Hm Hne Hid Hsz H. pose proof (subs_count_pos _ _ Hm Hne) as Hpos.
  pose proof (zlen_nonneg (subscribe_body id fs)) as HbN.
  unfold subscribe in H. rewrite (subscribe_size_ok (g_M G) l fs id HM Hm Hne Hsz) in H.
  apply bind_inv in H. destruct H as (st1 & s1 & t1 & t2 & H1 & H & ->).
  rewrite validate_eq in H1 by lia. injection H1 as <- <- <-.
  destruct (subs_need_state (s_ctx s) l); cbn [orb]; [mgo H; auto|].
  destruct (zlen (subscribe_body id fs) <=? max_remaining) eqn:El;
    [replace (max_remaining <? zlen (subscribe_body id fs)) with false by lia
    |replace (max_remaining <? zlen (subscribe_body id fs)) with true by lia].
  2: { mgo H. injection L as <- <-. mgo H. auto. }
  sbeq H. apply bind_inv in H. destruct H as (pr & s1 & t1 & t3 & H1 & H & ->).
  apply lift_inv in H1. destruct H1 as (H1 & -> & ->).
  assert (pr = (Success, Some (zlen (subscribe_body id fs), zlen (subscribe_packet id fs)))) by congruence.
  subst pr. clear H1. cbv beta iota in H. mgo H. unfold must_be_connected in H.
  destruct (x_status (s_ctx s)) eqn:Es; mgo H; auto.
  rewrite sub_entries_all in L. assert (a = l) by congruence. subst a. clear L.
  unfold sendSubscribeWithoutCopy in H. mgo H.
  destruct (sub_hdr (zlen (subscribe_body id fs)) id) as (h & n & Eh & Ef); [lia|lia|].
  rewrite Eh in L. assert (h = p /\ n = q) by (split; congruence). destruct H0; subst p q. clear L.
  apply (sub_send_loop_spec G _ _ _ _ _ _ _ _ Hm) in H; [|lia]. destruct H as (_ & H). destruct (H Hne) as (ok & Hs & ->).
  exists ok. split; auto. cbn [app].
  replace (subscribe_packet id fs) with (concat [firstn n h] ++ flat_map (sub_enc G) fs); auto.
  cbn [concat]. rewrite app_nil_r, Ef. unfold subscribe_packet, packet, subscribe_body at 2. cbn [app].
  rewrite <- app_assoc. do 3 f_equal. unfold sub_enc, qos_byte. rewrite Hb. reflexivity.
Qed.
Lemma unsubscribe_spec l fs id s st s' t : 4294967296 <= g_M G ->
  subs_mean l fs -> fs <> [] -> 0 < id < 65536 -> zlen (unsubscribe_body id (map fst fs)) < g_M G ->
  unsubscribe G (Some l) (zlen l) id s = Ret st s' t ->
  if subs_need_state (s_ctx s) l || (max_remaining <? zlen (unsubscribe_body id (map fst fs)))
  then st = BadParameter /\ s' = s /\ t = []
  else match x_status (s_ctx s) with
       | NotConnected => st = StNotConnected /\ s' = s /\ t = []
       | DisconnectPending => st = StDisconnectPending /\ s' = s /\ t = []
       | Connected => exists ok, sentb (unsubscribe_packet id (map fst fs)) s ok s' t /\ st = sendst ok
       end.
Proof.
  intros HM Hm Hne Hid Hsz H. pose proof (subs_count_pos _ _ Hm Hne) as Hpos.
  pose proof (zlen_nonneg (unsubscribe_body id (map fst fs))) as HbN.
  unfold unsubscribe in H. rewrite (unsubscribe_size_ok (g_M G) l fs id HM Hm Hne Hsz) in H.
  apply bind_inv in H. destruct H as (st1 & s1 & t1 & t2 & H1 & H & ->).
  rewrite validate_eq in H1 by lia. injection H1 as <- <- <-.
  destruct (subs_need_state (s_ctx s) l); cbn [orb]; [mgo H; auto|].
  destruct (zlen (unsubscribe_body id (map fst fs)) <=? max_remaining) eqn:El;
    [replace (max_remaining <? zlen (unsubscribe_body id (map fst fs))) with false by lia
    |replace (max_remaining <? zlen (unsubscribe_body id (map fst fs))) with true by lia].
  2: { mgo H. injection L as <- <-. mgo H. auto. }
  sbeq H. apply bind_inv in H. destruct H as (pr & s1 & t1 & t3 & H1 & H & ->).
  apply lift_inv in H1. destruct H1 as (H1 & -> & ->).
  assert (pr = (Success, Some (zlen (unsubscribe_body id (map fst fs)), zlen (unsubscribe_packet id (map fst fs))))) by congruence.
  subst pr. clear H1. cbv beta iota in H. mgo H. unfold must_be_connected in H.
  destruct (x_status (s_ctx s)) eqn:Es; mgo H; auto.
  rewrite sub_entries_all in L. assert (a = l) by congruence. subst a. clear L.
  unfold sendUnsubscribeWithoutCopy in H. mgo H.
  destruct (unsub_hdr (zlen (unsubscribe_body id (map fst fs))) id) as (h & n & Eh & Ef); [lia|lia|].
  rewrite Eh in L. assert (h = p /\ n = q) by (split; congruence). destruct H0; subst p q. clear L.
  apply (unsub_send_loop_spec G _ _ _ _ _ _ _ _ Hm) in H; [|lia]. destruct H as (_ & H). destruct (H Hne) as (ok & Hs & ->).
  exists ok. split; auto. cbn [app].
  replace (unsubscribe_packet id (map fst fs)) with (concat [firstn n h] ++ flat_map mstr (map fst fs)); auto.
  cbn [concat]. rewrite app_nil_r, Ef. unfold unsubscribe_packet, packet, unsubscribe_body at 2. cbn [app].
  rewrite <- app_assoc. reflexivity.
Qed.
End Exact.
