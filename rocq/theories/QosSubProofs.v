(** MQTT_Subscribe with integer QoS values: the bytes sent. *)
From Verif Require Import Base StateModel SerModel WireSpec SerHarness SerProofs SerProofs2 SerProofs3 SerProofs4 SerProofs5
  CoreModel CoreHarness CoreProofs CoreProofs2 CoreProofs3 CoreProofs4 QosModel QosSub QosSpec QosProofs NetProofs.

Definition lowf (f : list Z * Z) : list Z * qos := (fst f, if snd f =? 1 then Q1 else if snd f =? 0 then Q0 else Q2).
Lemma low_means l fs : zsubs_mean l fs -> subs_mean (map lowsub l) (map lowf fs).
Proof. induction 1 as [|x f l fs (H1 & H2 & H3) _ IH]; constructor; [|exact IH]. split; [exact H1|]. split; [exact H2|]. cbn. now rewrite H3. Qed.
Lemma low_len id fs : zlen (subscribe_body id (map lowf fs)) = zlen (options_body id fs).
Proof.
  unfold subscribe_body, options_body. rewrite !SerProofs.zlen_app. f_equal. induction fs as [|f fs IH]; [reflexivity|]. cbn [map flat_map].
  rewrite !SerProofs.zlen_app, IH. unfold option_enc. rewrite !SerProofs.zlen_app. reflexivity.
Qed.

Section Sub.
Variable G : cfg.

Definition zsub_enc (x : list Z * Z) : list Z := mstr (fst x) ++ [z_qos_byte G (snd x)].
Lemma z_fill_ok l : forall fs vs, zsubs_mean l fs -> 3 <= g_maxvec G ->
  exists vs' l' fs1 fs2, z_fill_sub G l vs = Ok (vs', l') /\ fs = fs1 ++ fs2 /\ zsubs_mean l' fs2 /\
    concat vs' = concat vs ++ flat_map zsub_enc fs1.
Proof.
  induction l as [|x l IH]; intros fs vs H HG; inversion H; subst; cbn [z_fill_sub].
  - exists vs, [], [], []. repeat split; auto; cbn; now rewrite app_nil_r.
  - destruct (zlen vs <=? g_maxvec G - 3) eqn:E.
    + match goal with HH : zsub_means x _ |- _ => destruct HH as (Hh & Hl & Hq) end.
      destruct (encodedString_ok (s_filter (fst x)) (s_len (fst x)) (fst y)) as (e & -> & He & Hle); [left; auto|lia|].
      cbn [rbind].
      assert (Hz : zlen (vs ++ e ++ [[z_qos_byte G (snd x)]]) <=? g_maxvec G = true).
      { rewrite !CoreProofs.zlen_app. change (zlen [[z_qos_byte G (snd x)]]) with 1. unfold zlen in *. lia. }
      rewrite Hz. cbn [rassert].
      destruct (IH l' (vs ++ e ++ [[z_qos_byte G (snd x)]])) as (vs' & l2 & fs1 & fs2 & -> & -> & Hs & Hc); auto.
      exists vs', l2, (y :: fs1), fs2. repeat split; auto.
      rewrite Hc. rewrite !concat_app. cbn [concat flat_map app]. rewrite He. unfold zsub_enc at 2. rewrite Hq.
      rewrite <- !app_assoc. reflexivity.
    + exists vs, (x :: l), [], (y :: l'). repeat split; auto; cbn; now rewrite app_nil_r.
Qed.
Ltac getv H a := match goal with HS : sendMessageVector _ _ _ = Ret ?r _ _ |- _ =>
  rename HS into H; try rename r into a; apply sendv_sentb in H end.
Lemma z_loop_spec fuel : forall l fs vs s st s' t, zsubs_mean l fs -> 3 <= g_maxvec G ->
  z_sub_send_loop G fuel l vs s = Ret st s' t ->
  (fs = [] -> st = Success /\ s' = s /\ t = []) /\
  (fs <> [] -> exists ok, sentb (concat vs ++ flat_map zsub_enc fs) s ok s' t /\ st = sendst ok).
Proof.
  induction fuel as [|fuel IH]; intros l fs vs s st s' t Hm HG H; cbn [z_sub_send_loop] in H; [mgo H|].
  destruct l as [|x l].
  - inversion Hm; subst. mgo H. split; auto. congruence.
  - assert (fs <> []) by (inversion Hm; congruence). split; [congruence|]. intros _.
    destruct (z_fill_ok (x :: l) fs vs Hm HG) as (vs' & l' & fs1 & fs2 & E1 & -> & Hm2 & Ec).
    mgo H. rewrite E1 in L. injection L as <- <-. getv Hv a. cbn [app].
    rewrite flat_map_app, app_assoc, <- Ec.
    destruct (a =? _) eqn:E; cbn [negb] in H.
    + specialize (IH _ _ _ _ _ _ _ Hm2 HG H). destruct IH as (I1 & I2).
      destruct fs2 as [|y fs2].
      * destruct I1 as (-> & -> & ->); auto. exists true. cbn [flat_map]. rewrite !app_nil_r. auto.
      * destruct I2 as (ok & Hok & ->); [congruence|]. exists ok. split; auto.
        cbn [concat app] in Hok. eapply sentb_app; eauto.
    + mgo H. exists false. rewrite app_nil_r. split; auto. apply sentb_more; auto.
Qed.

Lemma z_subscribe_spec l fs id s st s' t : 4294967296 <= g_M G -> g_big G = false ->
  zsubs_mean l fs -> fs <> [] -> 0 < id < 65536 -> zlen (options_body id fs) < g_M G ->
  z_subscribe G (Some l) (zlen l) id s = Ret st s' t ->
  if subs_need_state (s_ctx s) (map lowsub l) || (max_remaining <? zlen (options_body id fs))
  then st = BadParameter /\ s' = s /\ t = []
  else match x_status (s_ctx s) with
       | NotConnected => st = StNotConnected /\ s' = s /\ t = []
       | DisconnectPending => st = StDisconnectPending /\ s' = s /\ t = []
       | Connected => exists ok, sentb (options_packet id fs) s ok s' t /\ st = sendst ok
       end.
Proof.
  intros HM Hb Hz Hne Hid Hsz H. pose proof (low_means _ _ Hz) as Hm. assert (Hne' : map lowf fs <> []) by (destruct fs; [contradiction|discriminate]).
  pose proof (subs_count_pos _ _ Hm Hne') as Hpos. rewrite <- low_len in Hsz. rewrite <- low_len.
  assert (Hlen : zlen (map lowsub l) = zlen l) by (unfold zlen; now rewrite map_length).
  pose proof (SerProofs.zlen_nonneg (subscribe_body id (map lowf fs))) as HbN.
  unfold z_subscribe in H. cbn [option_map] in H. rewrite <- Hlen in H. rewrite (subscribe_size_ok (g_M G) _ _ id HM Hm Hne' Hsz) in H.
  apply bind_inv in H. destruct H as (st1 & s1 & t1 & t2 & H1 & H & ->).
  rewrite validate_eq in H1 by lia. injection H1 as <- <- <-.
  destruct (subs_need_state (s_ctx s) (map lowsub l)); cbn [orb]; [mgo H; auto|].
  destruct (zlen (subscribe_body id (map lowf fs)) <=? max_remaining) eqn:El;
    [replace (max_remaining <? zlen (subscribe_body id (map lowf fs))) with false by lia
    |replace (max_remaining <? zlen (subscribe_body id (map lowf fs))) with true by lia].
  2: { mgo H. injection L as <- <-. mgo H. auto. }
  sbeq H. apply bind_inv in H. destruct H as (pr & s1 & t1 & t3 & H1 & H & ->).
  apply lift_inv in H1. destruct H1 as (H1 & -> & ->).
  assert (pr = (Success, Some (zlen (subscribe_body id (map lowf fs)), zlen (subscribe_packet id (map lowf fs))))) by congruence.
  subst pr. clear H1. cbv beta iota in H. mgo H. unfold must_be_connected in H.
  destruct (x_status (s_ctx s)) eqn:Es; mgo H; auto.
  rewrite Hlen in H. replace (firstn (Z.to_nat (zlen l)) l) with l in H by (unfold zlen; rewrite Nat2Z.id; symmetry; apply firstn_all).
  unfold z_sendSubscribeWithoutCopy in H. mgo H.
  destruct (sub_hdr (zlen (subscribe_body id (map lowf fs))) id) as (h & n & Eh & Ef); [lia|lia|].
  match goal with K : serializeSubscribeHeader _ _ _ = Ok (?p, ?q) |- _ => rewrite Eh in K; assert (h = p /\ n = q) as (<- & <-) by (split; congruence); clear K end.
  apply (z_loop_spec _ _ _ _ _ _ _ _ Hz) in H; [|lia]. destruct H as (_ & H). destruct (H Hne) as (ok & Hs & ->).
  exists ok. split; auto. cbn [app].
  replace (options_packet id fs) with (concat [firstn n h] ++ flat_map zsub_enc fs); auto.
  cbn [concat]. rewrite app_nil_r, Ef. unfold options_packet, packet. rewrite <- low_len. unfold options_body. cbn [app].
  rewrite <- app_assoc. do 3 f_equal. unfold zsub_enc, z_qos_byte. rewrite Hb. reflexivity.
Qed.

(** the values of the enumeration *)
Lemma low_byte x : 0 <= snd x <= 2 -> z_qos_byte G (snd x) = qos_byte G (s_qos (lowsub x)).
Proof.
  intro H. unfold z_qos_byte, qos_byte, lowsub. cbn [s_qos]. assert (snd x = 0 \/ snd x = 1 \/ snd x = 2) as [->|[->| ->]] by lia; destruct (g_big G); reflexivity.
Qed.
Lemma low_fill l : Forall (fun x => 0 <= snd x <= 2) l -> forall vs,
  fill_sub G (map lowsub l) vs = rmap (fun p => (fst p, map lowsub (snd p))) (z_fill_sub G l vs).
Proof.
  induction 1 as [|x l Hx Hl IH]; intro vs; [reflexivity|]. cbn [map fill_sub z_fill_sub]. destruct (zlen vs <=? _); [|reflexivity].
  change (s_filter (lowsub x)) with (s_filter (fst x)). change (s_len (lowsub x)) with (s_len (fst x)). destruct (encodedString _ _) as [e|]; [|reflexivity]. cbn [rbind].
  rewrite (low_byte x Hx). destruct (zlen _ <=? g_maxvec G); cbn [rassert]; [apply IH|reflexivity].
Qed.
Lemma low_fill_rest l : forall vs vs' l', Forall (fun x : subinfo * Z => 0 <= snd x <= 2) l -> z_fill_sub G l vs = Ok (vs', l') -> Forall (fun x => 0 <= snd x <= 2) l'.
Proof.
  induction l as [|x l IH]; intros vs vs' l' F H; cbn [z_fill_sub] in H; [injection H as _ <-; constructor|].
  destruct (zlen vs <=? _); [|injection H as _ <-; exact F]. destruct (encodedString _ _); [|discriminate]. cbn [rbind] in H.
  destruct (zlen _ <=? g_maxvec G); cbn [rassert] in H; [|discriminate]. inversion F; subst. eapply IH; eauto.
Qed.
Lemma low_loop fuel : forall l vs s, Forall (fun x => 0 <= snd x <= 2) l -> sub_send_loop G fuel (map lowsub l) vs s = z_sub_send_loop G fuel l vs s.
Proof.
  induction fuel as [|fuel IH]; intros l vs s F; [reflexivity|]. cbn [sub_send_loop z_sub_send_loop]. destruct l as [|x l]; [reflexivity|].
  change (map lowsub (x :: l)) with (lowsub x :: map lowsub l). cbv iota. change (lowsub x :: map lowsub l) with (map lowsub (x :: l)).
  rewrite (low_fill _ F). pose proof (fun vs' l' => low_fill_rest _ vs vs' l' F) as R. destruct (z_fill_sub G (x :: l) vs) as [(vs', l')|]; [|reflexivity].
  specialize (R _ _ eq_refl). unfold bind, lift, rmap. cbn [rbind fst snd]. destruct (sendMessageVector G vs' s) as [r s1 t1| |]; [|reflexivity..].
  destruct (negb (r =? zlen (concat vs'))); [reflexivity|]. now rewrite (IH l' [] s1 R).
Qed.
Lemma z_subscribe_known subs count id s : (forall l, subs = Some l -> Forall (fun x => 0 <= snd x <= 2) l) ->
  subscribe G (option_map (map lowsub) subs) count id s = z_subscribe G subs count id s.
Proof.
  intro F. unfold subscribe, z_subscribe, bind. destruct (validateSubUnsub _ _ _ s) as [st s1 t1| |]; [|reflexivity..]. destruct (status_beq st Success); [|reflexivity].
  unfold lift at 1 3. destruct (getSubscribePacketSize _ _ _) as [(st1, size)|]; [|reflexivity]. cbn [app].
  destruct subs as [l|]; cbn [option_map]; [|reflexivity]. destruct st1; try reflexivity. destruct size as [(rl, x)|]; [|reflexivity].
  unfold getc. cbn [app]. destruct (status_beq (must_be_connected _) Success); [|reflexivity]. unfold lift, sub_entries. rewrite firstn_map.
  destruct (count <=? zlen (map lowsub l)); [|reflexivity]. unfold sendSubscribeWithoutCopy, z_sendSubscribeWithoutCopy, bind.
  destruct (massert _ s1) as [u s2 t2| |]; [|reflexivity..]. unfold lift. destruct (serializeSubscribeHeader _ _ _) as [(h, n)|]; [|reflexivity]. rewrite map_length.
  rewrite low_loop; [reflexivity|]. specialize (F l eq_refl). rewrite <- (firstn_skipn (Z.to_nat count) l) in F. apply Forall_app in F. apply F.
Qed.
End Sub.

(** ** Legal options *)
Lemma split_at : forall (x x' r r' : list Z), length x = length x' -> x ++ r = x' ++ r' -> x = x' /\ r = r'.
Proof. induction x as [|a x IH]; intros [|a' x'] r r' L E; try discriminate; [auto|]. cbn in L, E. injection E as -> E. destruct (IH x' r r') as (-> & ->); auto. Qed.
Lemma mstr_split x x' (r r' : list Z) : zlen x < 65536 -> zlen x' < 65536 -> mstr x ++ r = mstr x' ++ r' -> x = x' /\ r = r'.
Proof.
  intros H H' E. unfold mstr, be16 in E. rewrite <- !app_assoc in E. cbn [app] in E.
  assert (E1 : zlen x / 256 = zlen x' / 256) by congruence. assert (E2 : zlen x mod 256 = zlen x' mod 256) by congruence.
  apply split_at; [|congruence]. unfold zlen in *. pose proof (Z.div_mod (Z.of_nat (length x)) 256). pose proof (Z.div_mod (Z.of_nat (length x')) 256). lia.
Qed.
Lemma options_legal fs : forall fs', Forall (fun f => zlen (fst f) < 65536) fs -> Forall (fun f => zlen (fst f) < 65536) fs' ->
  flat_map option_enc fs = flat_map (fun x => mstr (fst x) ++ [qos_val (snd x)]) fs' -> Forall (fun f => snd f mod 256 <= 2) fs.
Proof.
  induction fs as [|f fs IH]; intros fs' F F' E; [constructor|]. destruct fs' as [|f' fs'].
  { exfalso. cbn [flat_map] in E. unfold option_enc, mstr, be16 in E. discriminate. }
  inversion F; subst. inversion F'; subst. cbn [flat_map] in E. unfold option_enc at 1 in E. rewrite <- !app_assoc in E.
  apply mstr_split in E; [|assumption..]. destruct E as (_ & E). cbn [app] in E. constructor; [|eapply IH; eauto; congruence].
  assert (E1 : snd f mod 256 = qos_val (snd f')) by congruence. rewrite E1. destruct (snd f'); cbn; lia.
Qed.
Lemma options_packet_legal id fs id' fs' : Forall (fun f => zlen (fst f) < 65536) fs -> Forall (fun f => zlen (fst f) < 65536) fs' ->
  options_packet id fs = subscribe_packet id' fs' -> Forall (fun f => snd f mod 256 <= 2) fs.
Proof.
  intros F F' E. unfold options_packet, subscribe_packet in E. apply NetProofs.packet_inj in E. destruct E as (_ & E).
  unfold options_body, subscribe_body in E. apply split_at in E; [|reflexivity]. eapply options_legal; [exact F|exact F'|apply E].
Qed.

(** ** The serializer *)
Lemma z_loop_wr b l fs : zsubs_mean l fs -> forall c, zlen c + zlen (flat_map option_enc fs) <= zlen b ->
  z_subscribe_loop (wr b c) l = Ok (wr b (c ++ flat_map option_enc fs)).
Proof.
  induction 1 as [|x f l fs Hx Hl IH]; intros c Hc; cbn [z_subscribe_loop flat_map] in *.
  - now rewrite app_nil_r.
  - destruct Hx as (Hh & Hr & Hq). pose proof (holds_len _ _ _ Hh) as HL. unfold option_enc at 1 in Hc. autorewrite with zl in Hc.
    pose proof (SerProofs.zlen_nonneg (flat_map option_enc fs)) as HN.
    rewrite (encodeString_wr b _ _ _ (fst f)); [|now left|lia|lia]. cbn [rbind]. change (u8 (snd x)) with (snd x mod 256).
    rewrite Hq. rewrite put_wrz by (autorewrite with zl; lia). cbn [rbind].
    rewrite IH by (autorewrite with zl; lia). unfold option_enc at 2. now rewrite <- !app_assoc.
Qed.
Lemma z_encode M l fs id b : 4294967296 <= M -> zsubs_mean l fs -> fs <> [] -> 0 < id < 65536 ->
  zlen (options_body id fs) <= max_remaining ->
  z_serializeSubscribe M (Some l) (zlen l) id (zlen (options_body id fs)) (Some b) =
    if zlen b <? zlen (options_packet id fs) then Ok (NoMemory, Some b)
    else Ok (Success, Some (options_packet id fs ++ skipn (length (options_packet id fs)) b)).
Proof.
  intros HM Hz Hne Hid Hmax. pose proof (low_means _ _ Hz) as Hm. assert (Hne' : map lowf fs <> []) by (destruct fs; [contradiction|discriminate]).
  pose proof (subs_count_pos _ _ Hm Hne') as Hpos. assert (Hlen : zlen (map lowsub l) = zlen l) by (unfold zlen; now rewrite map_length).
  unfold z_serializeSubscribe, validateSubscriptionSerializeParams. cbn [option_map].
  replace (zlen l =? 0) with false by lia. replace (id =? 0) with false by lia.
  pose proof (encsize_bounds (zlen (options_body id fs))) as HeB.
  pose proof (SerProofs.zlen_nonneg (options_body id fs)) as HbN.
  assert (HP : zlen (options_packet id fs) = 1 + remainingLengthEncodedSize (zlen (options_body id fs)) + zlen (options_body id fs)) by (unfold options_packet; apply zlen_packet).
  unfold max_remaining in *. rewrite Z.mod_small by lia. rewrite <- HP.
  destruct (zlen b <? zlen (options_packet id fs)) eqn:E; [reflexivity|].
  rewrite <- Hlen at 1. rewrite sub_entries_all. cbn [rbind]. unfold serializeSubscribeHeader. rewrite wr_nil.
  replace (firstn (Z.to_nat (zlen l)) l) with l by (unfold zlen; rewrite Nat2Z.id; symmetry; apply firstn_all).
  set (tail := flat_map option_enc fs) in *.
  assert (HB : zlen (options_body id fs) = 2 + zlen tail) by (unfold options_body; now rewrite SerProofs.zlen_app, zlen_be16).
  pose proof (SerProofs.zlen_nonneg tail) as HtN.
  rewrite put_wrz by (autorewrite with zl; lia). cbn [rbind].
  rewrite encode_wr by (unfold max_remaining; try split; autorewrite with zl; lia). cbn [rbind].
  rewrite be16_eq by lia. rewrite put_wrz by (autorewrite with zl; lia). cbn [rbind].
  rewrite (z_loop_wr b l fs Hz) by (fold tail; autorewrite with zl; lia). cbn [rbind]. fold tail.
  rewrite wr_fst.
  assert (Eall : ((([] ++ [PKT_SUBSCRIBE]) ++ varlen (zlen (options_body id fs))) ++ be16 id) ++ tail = options_packet id fs).
  { unfold options_packet, packet. rewrite <- !app_assoc. cbn [app]. reflexivity. }
  now rewrite Eall.
Qed.

(** the values 0, 1 and 2 *)
Lemma low_packet id fs : Forall (fun f => 0 <= snd f <= 2) fs -> options_packet id fs = subscribe_packet id (map lowf fs).
Proof.
  intro F. unfold options_packet, subscribe_packet, options_body, subscribe_body. f_equal. f_equal. induction F as [|f fs Hf _ IH]; [reflexivity|].
  cbn [map flat_map]. rewrite IH. f_equal. unfold option_enc, lowf. cbn [fst snd]. f_equal. assert (snd f = 0 \/ snd f = 1 \/ snd f = 2) as [->|[->| ->]] by lia; reflexivity.
Qed.
Lemma mod_packet id fs : options_packet id fs = options_packet id (map (fun f => (fst f, snd f mod 256)) fs).
Proof.
  unfold options_packet, options_body. f_equal. f_equal. induction fs as [|f fs IH]; [reflexivity|]. cbn [map flat_map]. rewrite IH. f_equal. unfold option_enc. cbn [fst snd].
  now rewrite Z.mod_mod by lia.
Qed.
Lemma options_iff id fs : Forall (fun f => zlen (fst f) < 65536) fs ->
  (legal_subscribe (options_packet id fs) <-> Forall (fun f => snd f mod 256 <= 2) fs).
Proof.
  intro F. split.
  - intros (id' & fs' & F' & E). eapply options_packet_legal; eauto.
  - intro L. exists id, (map lowf (map (fun f => (fst f, snd f mod 256)) fs)). split.
    + rewrite !Forall_map. cbn. exact F.
    + rewrite mod_packet. apply low_packet. rewrite Forall_map. cbn [fst snd]. eapply Forall_impl; [|exact L]. intros f Hf. cbn in *. pose proof (Z.mod_pos_bound (snd f) 256). lia.
Qed.
Lemma means_short l fs : zsubs_mean l fs -> Forall (fun f => zlen (fst f) < 65536) fs.
Proof. induction 1 as [|x f l fs (H1 & H2 & _) _ IH]; constructor; auto. pose proof (holds_len _ _ _ H1). lia. Qed.
