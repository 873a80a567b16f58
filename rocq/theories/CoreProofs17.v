(** No API call ever runs into undefined behaviour: no access outside a buffer, no
    failed assert, whatever the server and the transport do. *)
From Verif Require Import Base StateModel StateSpec StateHarness StateProofs StateProofs2 SerModel WireSpec SerHarness SerProofs SerProofs2 SerProofs3 SerProofs4 SerProofs5
  CoreModel CoreHarness CoreSpec CoreProofs CoreProofs2 CoreProofs3 CoreProofs4 CoreProofs5 CoreProofs6 CoreProofs7 CoreProofs8 CoreProofs9 CoreProofs10 CoreProofs11 CoreProofs12 CoreProofs13 CoreProofs14 CoreProofs15 CoreProofs16.

(** ** Sound arguments that pass the checks describe a message *)
Lemma readable_holds p len : p <> None -> 0 <= len -> readable p len -> exists x, holds p len x.
Proof. destruct p as [m|]; [|congruence]. cbn. intros _ _ H. eexists. exists m. split; [reflexivity|]. split; [lia|reflexivity]. Qed.
Lemma pub_sound_means p id : pub_sound p -> u16_ok id -> p_topic p <> None -> (p_payload p = None -> p_paylen p = 0) ->
  exists m, pub_means p id m.
Proof.
  intros (H1 & H2 & H3 & H4) Hi Ht Hp. unfold u16_ok in *. destruct (readable_holds _ _ Ht (proj1 H1) H2) as (tp & Kt).
  assert (exists y, holds0 (p_payload p) (p_paylen p) y) as (y & Ky).
  { destruct (p_payload p) as [b|] eqn:E.
    - destruct (readable_holds (Some b) (p_paylen p)) as (y & K); auto; [discriminate|]. exists y. now left.
    - exists []. right. auto. }
  exists (mkPublish (p_dup p) (p_qos p) (p_retain p) tp id y). unfold pub_means. cbn. repeat split; auto; lia.
Qed.
Lemma subs_sound_mean M l t a rl : Forall (fun x => u16_ok (s_len x) /\ readable (s_filter x) (s_len x)) l ->
  subscription_size_loop M l t a Success = (rl, Success) -> exists fs, subs_mean l fs.
Proof.
  assert (K : forall l a st0, snd (subscription_size_loop M l t a st0) = Success -> st0 = Success /\ Forall (fun x => s_len x <> 0 /\ s_filter x <> None) l).
  { clear. induction l as [|x l IH]; intros a st0; cbn [subscription_size_loop]; [cbn; auto|]. intro H. apply IH in H. destruct H as (H1 & H2).
    destruct ((s_len x =? 0) || match s_filter x with None => true | Some _ => false end) eqn:E; [discriminate|].
    apply orb_false_iff in E. destruct E as (E1 & E2). split; auto. constructor; auto. split; [lia|]. destruct (s_filter x); congruence. }
  intros H E. assert (E' : snd (subscription_size_loop M l t a Success) = Success) by (rewrite E; reflexivity).
  apply K in E'. destruct E' as (_ & E'). clear E K. induction l as [|x l IH].
  - exists []. constructor.
  - inversion H; subst. inversion E'; subst. destruct IH as (fs & IH); auto.
    destruct H2 as (A1 & A2). destruct H4 as (B1 & B2). unfold u16_ok in A1.
    destruct (readable_holds _ _ B2 (proj1 A1) A2) as (y & Ky). exists ((y, s_qos x) :: fs). constructor; auto.
    split; [exact Ky|]. split; [lia|reflexivity].
Qed.
Lemma con_sound_means ci will : con_sound ci will -> c_id ci <> None ->
  match will with Some w => p_topic w <> None | None => True end -> exists cm, con_means ci will cm.
Proof.
  intros (H1 & H2 & H3 & H4 & H5 & H6 & H7 & H8) Hid Hw. unfold u16_ok in *.
  destruct (readable_holds _ _ Hid (proj1 H2) H3) as (i & Ki).
  assert (exists u, holds_opt (c_user ci) (c_userlen ci) u) as (u & Ku).
  { destruct (c_user ci) as [b|] eqn:E; [|exists None; reflexivity]. destruct (readable_holds (Some b) (c_userlen ci)) as (y & K); auto; [discriminate|lia|]. exists (Some y). split; auto; lia. }
  assert (exists u, holds_opt (c_pass ci) (c_passlen ci) u) as (q & Kq).
  { destruct (c_pass ci) as [b|] eqn:E; [|exists None; reflexivity]. destruct (readable_holds (Some b) (c_passlen ci)) as (y & K); auto; [discriminate|lia|]. exists (Some y). split; auto; lia. }
  destruct will as [w|].
  - destruct H8 as (Hs & Hp). destruct (pub_sound_means w 0 Hs) as (m & Hm); auto; [unfold u16_ok; lia|].
    exists (mkConnect (c_clean ci) (c_keepalive ci) i (Some (mkWill (pm_topic m) (pm_payload m) (pm_qos m) (pm_retain m))) u q).
    destruct Hm as (M1 & M2 & M3 & M4 & M5 & M6 & M7 & M8). unfold con_means. cbn. repeat split; auto; lia.
  - exists (mkConnect (c_clean ci) (c_keepalive ci) i None u q). unfold con_means. cbn. repeat split; auto; lia.
Qed.

(** ** The QoS engine *)
Lemma engine_safe n m c o : Reach n m c -> call_pre c o -> engine_step c (to_call o) <> Ub.
Proof. intros H K. pose proof (call_pre_ok _ _ _ _ H K) as K2. destruct (reach_step _ _ _ _ H K2) as (c' & E & _). rewrite E. discriminate. Qed.
Lemma reserve_safe n m c id q : Reach n m c -> (q <> Q0 -> outRecs c <> None) -> reserveState c id q <> Ub.
Proof.
  intros H K E. apply (engine_safe n m c (Reserve id q) H).
  - cbn. destruct q; auto; apply K; discriminate.
  - cbn [to_call engine_step]. now rewrite E.
Qed.
Lemma published_safe n m c id op q : Reach n m c -> (q <> Q0 -> op = OpReceive -> inRecs c <> None) -> updateStatePublishApi c id op q <> Ub.
Proof.
  intros H K E. apply (engine_safe n m c (Published id op q) H).
  - cbn. destruct op; auto; destruct q; auto; apply K; discriminate || reflexivity.
  - cbn [to_call engine_step]. now rewrite E.
Qed.
Lemma acked_safe n m c id ty op : Reach n m c -> updateStateAckApi c id ty op <> Ub.
Proof.
  intros H E. apply (engine_safe n m c (Acked id ty op) H); [exact I|]. cbn [to_call engine_step]. now rewrite E.
Qed.
Lemma cancel_engine_safe n m c id : Reach n m c -> id <> 0 -> outRecs c <> None -> removeStateRecord c id <> Ub.
Proof.
  intros H K K2 E. apply (engine_safe n m c (Cancel id) H); [split; auto|]. cbn [to_call engine_step]. now rewrite E.
Qed.

Ltac sgo := repeat first [ safe1 | apply sendBuffer_safe | apply sendMessageVector_safe ].
Section Safe.
Variable G : cfg.
Variables n m : nat.
Hypothesis HM : 4294967296 <= g_M G.
Hypothesis HV : 3 <= g_maxvec G.

Lemma pub_vectors_safe p header hs id msg b : pub_means p id msg -> header = pub_hdr msg ++ b -> hs = zlen (pub_hdr msg) ->
  pub_vectors p header hs id <> Ub.
Proof. intros Hm -> ->. destruct (pub_vectors_ok p id msg (pub_hdr msg ++ b) b Hm eq_refl) as (vs & -> & _). discriminate. Qed.

Lemma send_publish_safe p h hs id msg s : pub_means p id msg ->
  getPublishPacketSize p = (Success, Some (zlen (publish_body msg), zlen (publish_packet msg))) ->
  serializePublishHeaderWithoutTopic p (zlen (publish_body msg)) (repeat 0 7) = Ok (h, hs) ->
  safe (sendPublishWithoutCopy G p h hs id) s.
Proof.
  intros Hm Hs Hh. pose proof (pubhdr_first _ _ _ _ Hh) as Hf.
  destruct (publish_prepared _ _ _ _ _ _ _ Hm Hs Hh) as (Hne & Hmax & _ & _ & (vs & Ev & _) & (vd & Ed & _)).
  assert (Hne' : h <> []).
  { intros ->. pose proof (publishFlags_publish p) as (_ & Hp & _). cbn in Hf. rewrite <- Hf in Hp. discriminate. }
  unfold sendPublishWithoutCopy. apply safe_bind; [safe1|]. intros c s1 t1 H1. apply safe_bind.
  - destruct (_ && _); [|safe1]. destruct (p_dup p) eqn:Edup; cbn [negb].
    + cbn [andb status_beq]. apply safe_bind.
      * apply safe_bind; [apply safe_lift; cbv iota in Ed; rewrite Hf, Ed; discriminate|]. intros. apply safe_bind; [discriminate|]. intros; safe1.
      * intros. destruct (status_beq _ _ && _); [destruct (updateDuplicatePublishFlag _ _)|]; safe1.
    + rewrite Hf in *. destruct (updateDuplicatePublishFlag (publishFlags p) true) as [st b] eqn:Eb. apply safe_bind.
      * destruct (status_beq st Success); [|safe1]. cbn [snd] in Ed.
        apply safe_bind; [apply safe_lift; rewrite Ed; discriminate|]. intros. apply safe_bind; [discriminate|]. intros; safe1.
      * intros. destruct (status_beq _ _ && _); [destruct (updateDuplicatePublishFlag (nth _ _ _) _)|]; safe1.
  - intros (st, h') s2 t2 H2. destruct (status_beq st Success) eqn:Est; [|safe1].
    assert (h' = h) as ->.
    { apply status_beq_eq in Est. subst st. destruct (_ && _); [|mgo H2; congruence].
      pose proof (publishFlags_publish p) as (P1 & P2 & P3).
      destruct (p_dup p) eqn:Edup; cbn [negb] in H2.
      - rewrite Hf, set_first_id in H2 by (destruct h; auto). mgo H2. rewrite andb_false_r in H2. mgo H2. congruence.
      - rewrite Hf in H2. destruct (dup_set_clear (publishFlags p) P1 P2) as (b & E1 & E2); [now apply P3|]. rewrite E1 in H2. cbn [status_beq] in H2.
        apply bind_inv in H2. destruct H2 as (a & s3 & t3 & t4 & _ & H2 & _).
        destruct (status_beq a Success) eqn:Ea; cbn [andb] in H2; [|mgo H2; apply status_beq_neq in Ea; congruence].
        rewrite set_first_nth in H2 by auto. rewrite E2 in H2. mgo H2. rewrite set_first_twice in *. rewrite set_first_id in * by (destruct h; [congruence|exact Hf]). congruence. }
    apply safe_bind; [apply safe_lift; rewrite Ev; discriminate|]. intros. apply safe_bind; [apply sendMessageVector_safe|]. intros. safe1.
Qed.

Lemma publish_safe p id s : u16_ok id -> pub_sound p -> Reach n m (x_recs (s_ctx s)) -> safe (publish G p id) s.
Proof.
  intros Hi Hp HR. unfold publish. apply safe_bind; [safe1|]. intros c s1 t1 H1. mgo H1.
  destruct (status_beq (validatePublishParams (s_ctx s) p id) Success) eqn:Ev; [|safe1]. apply status_beq_eq in Ev.
  destruct (getPublishPacketSize p) as [ss sr] eqn:Es. pose proof (pubsize_kinds _ _ _ Es) as K.
  destruct K as [(-> & [rl ps] & ->)|(-> & ->)]; [|safe1].
  assert (Ht : p_topic p <> None) by (intro E; unfold getPublishPacketSize in Es; rewrite E in Es; discriminate).
  assert (Hy : p_payload p = None -> p_paylen p = 0).
  { intro E. unfold validatePublishParams in Ev. rewrite E in Ev. destruct Hp as (_ & _ & Hp & _).
    destruct (_ && (id =? 0)); [discriminate|]. rewrite andb_true_r in Ev. destruct (0 <? p_paylen p) eqn:E0; [discriminate|]. lia. }
  destruct (pub_sound_means p id Hp Hi Ht Hy) as (msg & Hm).
  assert (Hne : pm_topic msg <> []).
  { intro E. destruct Hm as (_ & _ & _ & _ & _ & _ & Ht' & _). apply holds_len in Ht'. rewrite E in Ht'.
    unfold getPublishPacketSize in Es. change (zlen []) with 0 in Ht'. replace (p_topiclen p =? 0) with true in Es by lia. rewrite orb_true_r in Es. discriminate. }
  pose proof (publish_size_ok _ _ _ Hm Hne) as Ez. rewrite Es in Ez. destruct (_ <=? _) eqn:El; [|discriminate].
  pose proof (publish_limit_le _ El) as Hmax. assert (K : rl = zlen (publish_body msg) /\ ps = zlen (publish_packet msg)) by (split; congruence).
  destruct K as (-> & ->).
  pose proof (encsize_bounds (zlen (publish_body msg))) as HeB. pose proof (zlen_pub_hdr msg) as Hz.
  pose proof (publish_wo_topic p id msg (repeat 0 7) Hm Hmax) as Hw. cbv zeta in Hw. fold (pub_hdr msg) in Hw.
  assert (Hw' : zlen (pub_hdr msg) <= zlen (repeat 0 7)) by (change (zlen (repeat 0 7)) with 7; lia). specialize (Hw Hw').
  apply safe_bind; [apply safe_lift; rewrite Hw; discriminate|]. intros (h, hs) s1 t1 H1. mgo H1.
  assert (Eh : (h, hs) = (pub_hdr msg ++ skipn (length (pub_hdr msg)) (repeat 0 7), zlen (pub_hdr msg))) by (rewrite Hw in L; congruence).
  assert (Hh : serializePublishHeaderWithoutTopic p (zlen (publish_body msg)) (repeat 0 7) = Ok (h, hs)) by (rewrite Hw; congruence).
  clear Eh L.
  destruct (status_beq (must_be_connected _) Success); [|safe1].
  assert (Ho : p_qos p <> Q0 -> outRecs (x_recs (s_ctx s)) <> None).
  { intros Hq E. unfold validatePublishParams in Ev. rewrite E in Ev. destruct (_ && _); [discriminate|]. destruct (_ && _); [discriminate|].
    destruct (p_qos p); [contradiction|discriminate..]. }
  apply safe_bind.
  { destruct (negb _) eqn:Eq; [|safe1]. apply safe_bind; [apply safe_on_recs; eapply reserve_safe; eauto|]. intros; safe1. }
  intros st s1 t1 H1.
  assert (R1 : Reach n m (x_recs (s_ctx s1))).
  { destruct (negb (qos_beq (p_qos p) Q0)) eqn:Eq; [|mgo H1; auto].
    apply bind_inv in H1. destruct H1 as (a & s2 & t2 & t3 & H1 & H2 & _). mgo H2.
    eapply (path_reach false); [eapply paths_reserve; [|exact H1]; auto|exact HR]. }
  apply safe_bind.
  { destruct (status_beq st Success); [|safe1]. eapply send_publish_safe; eauto. }
  intros st2 s2 t2 H2. destruct (status_beq st2 Success && _) eqn:E2; [|safe1].
  assert (R2 : x_recs (s_ctx s2) = x_recs (s_ctx s1)).
  { destruct (status_beq st Success); [|mgo H2; auto]. apply sendPublishWithoutCopy_spec in H2; [|eapply pubhdr_first; eauto].
    destruct H2 as (vd & ok & e & te & _ & _ & [(_ & _ & -> & _)|(_ & vs & sok & t3 & _ & S & _)]); auto.
    rewrite (sentb_recs _ _ _ _ _ S). reflexivity. }
  apply safe_bind; [apply safe_on_recs; rewrite R2; eapply published_safe; eauto; discriminate|]. intros (?, ?) ? ? ?. safe1.
Qed.

Lemma subsize_safe l count t : 0 <= count <= zlen l -> count <> 0 -> calculateSubscriptionPacketSize (g_M G) l count t <> Ub.
Proof.
  intros H H0. unfold calculateSubscriptionPacketSize, sub_entries, rassert. replace (count =? 0) with false by lia. cbn [negb].
  replace (count <=? zlen l) with true by lia. cbn [rbind].
  destruct (subscription_size_loop _ _ _ _ _). destruct (status_beq _ _); discriminate.
Qed.
Lemma subsize_means l count t rl ps : subs_sound (Some l) count -> count <> 0 ->
  calculateSubscriptionPacketSize (g_M G) l count t = Ok (Success, Some (rl, ps)) ->
  0 <= rl <= max_remaining /\ sub_entries l count = Ok (firstn (Z.to_nat count) l) /\ exists fs, subs_mean (firstn (Z.to_nat count) l) fs.
Proof.
  intros (H & Hf) H0 E. split; [eapply subscription_size_max; eauto|]. unfold sub_entries. replace (count <=? zlen l) with true by lia. split; auto.
  unfold calculateSubscriptionPacketSize, sub_entries, rassert in E. replace (count =? 0) with false in E by lia. cbn [negb] in E.
  replace (count <=? zlen l) with true in E by lia. cbn [rbind] in E.
  destruct (subscription_size_loop _ _ _ _ _) as [r st] eqn:El. destruct (MAX_REMAINING_LENGTH <? r); [discriminate|].
  destruct st; try discriminate. eapply subs_sound_mean; [|exact El]. rewrite Forall_forall in *. intros x Hx. apply Hf.
  rewrite <- (firstn_skipn (Z.to_nat count) l). apply in_or_app. now left.
Qed.
Lemma sub_send_safe fuel : forall l fs vs s, subs_mean l fs -> safe (sub_send_loop G fuel l vs) s.
Proof.
  induction fuel as [|fuel IH]; intros l fs vs s H; cbn [sub_send_loop]; [safe1|]. destruct l as [|x l]; [safe1|].
  destruct (fill_sub_ok G _ _ vs H HV) as (vs' & l' & fs1 & fs2 & E & _ & H2 & _).
  apply safe_bind; [apply safe_lift; rewrite E; discriminate|]. intros (a, b) s1 t1 H1. mgo H1. assert (b = l') by congruence. subst b.
  apply safe_bind; [apply sendMessageVector_safe|]. intros. destruct (negb _); [safe1|]. eapply IH; eauto.
Qed.
Lemma unsub_send_safe fuel : forall l fs vs s, subs_mean l fs -> safe (unsub_send_loop G fuel l vs) s.
Proof.
  induction fuel as [|fuel IH]; intros l fs vs s H; cbn [unsub_send_loop]; [safe1|]. destruct l as [|x l]; [safe1|].
  destruct (fill_unsub_ok G _ _ vs H) as (vs' & l' & fs1 & fs2 & E & _ & H2 & _); [lia|].
  apply safe_bind; [apply safe_lift; rewrite E; discriminate|]. intros (a, b) s1 t1 H1. mgo H1. assert (b = l') by congruence. subst b.
  apply safe_bind; [apply sendMessageVector_safe|]. intros. destruct (negb _); [safe1|]. eapply IH; eauto.
Qed.
Lemma validate_safe subs count id s : subs_sound subs count -> safe (validateSubUnsub subs count id) s.
Proof.
  intro H. unfold validateSubUnsub. destruct subs as [l|]; [|safe1]. destruct (count =? 0); [safe1|]. destruct (id =? 0); [safe1|].
  apply safe_bind; [safe1|]. intros. destruct (inRecs _); [safe1|]. apply safe_bind; [|intros; safe1]. apply safe_lift.
  unfold sub_entries. destruct H as (H & _). replace (count <=? zlen l) with true by lia. discriminate.
Qed.
Lemma subscribe_safe subs count id s : u16_ok id -> subs_sound subs count -> safe (subscribe G subs count id) s.
Proof.
  intros Hi H. unfold subscribe. apply safe_bind; [now apply validate_safe|]. intros st s1 t1 H1.
  destruct (status_beq st Success) eqn:E; [|safe1]. destruct subs as [l|]; cbn [getSubscribePacketSize].
  2: { apply safe_bind; [apply safe_lift; discriminate|]. intros (a, b) s2 t2 H2. mgo H2. destruct a; destruct b as [[? ?]|]; safe1. }
  destruct (count =? 0) eqn:E0.
  { apply safe_bind; [apply safe_lift; discriminate|]. intros (a, b) s2 t2 H2. mgo H2. assert (a = BadParameter) by congruence. subst a. safe1. }
  apply safe_bind; [apply safe_lift, subsize_safe; [apply H|lia]|]. intros (a, b) s2 t2 H2. mgo H2.
  destruct a; try safe1. destruct b as [[rl ps]|]; [|safe1].
  destruct (subsize_means _ _ _ _ _ H (ltac:(lia)) L) as (Hr & Ee & fs & Hfs).
  apply safe_bind; [safe1|]. intros c ? ? ?. destruct (status_beq (must_be_connected c) Success); [|safe1].
  apply safe_bind; [apply safe_lift; rewrite Ee; discriminate|]. intros l' s3 t3 H3. mgo H3. assert (l' = firstn (Z.to_nat count) l) by congruence. subst l'.
  unfold sendSubscribeWithoutCopy. apply safe_bind; [apply safe_massert; lia|]. intros.
  destruct (sub_hdr rl id Hr Hi) as (hh & nn & Eh & _). apply safe_bind; [apply safe_lift; rewrite Eh; discriminate|]. intros (?, ?) ? ? ?.
  eapply sub_send_safe; eauto.
Qed.
Lemma unsubscribe_safe subs count id s : u16_ok id -> subs_sound subs count -> safe (unsubscribe G subs count id) s.
Proof.
  intros Hi H. unfold unsubscribe. apply safe_bind; [now apply validate_safe|]. intros st s1 t1 H1.
  destruct (status_beq st Success) eqn:E; [|safe1]. destruct subs as [l|]; cbn [getUnsubscribePacketSize].
  2: { apply safe_bind; [apply safe_lift; discriminate|]. intros (a, b) s2 t2 H2. mgo H2. destruct a; destruct b as [[? ?]|]; safe1. }
  destruct (count =? 0) eqn:E0.
  { apply safe_bind; [apply safe_lift; discriminate|]. intros (a, b) s2 t2 H2. mgo H2. assert (a = BadParameter) by congruence. subst a. safe1. }
  apply safe_bind; [apply safe_lift, subsize_safe; [apply H|lia]|]. intros (a, b) s2 t2 H2. mgo H2.
  destruct a; try safe1. destruct b as [[rl ps]|]; [|safe1].
  destruct (subsize_means _ _ _ _ _ H (ltac:(lia)) L) as (Hr & Ee & fs & Hfs).
  apply safe_bind; [safe1|]. intros c ? ? ?. destruct (status_beq (must_be_connected c) Success); [|safe1].
  apply safe_bind; [apply safe_lift; rewrite Ee; discriminate|]. intros l' s3 t3 H3. mgo H3. assert (l' = firstn (Z.to_nat count) l) by congruence. subst l'.
  unfold sendUnsubscribeWithoutCopy. apply safe_bind; [apply safe_massert; lia|]. intros.
  destruct (unsub_hdr rl id Hr Hi) as (hh & nn & Eh & _). apply safe_bind; [apply safe_lift; rewrite Eh; discriminate|]. intros (?, ?) ? ? ?.
  eapply unsub_send_safe; eauto.
Qed.
Lemma ping_safe s : safe (ping G) s.
Proof.
  unfold ping. apply safe_bind; [apply safe_lift; discriminate|]. intros (a, b) s1 t1 H1. destruct (status_beq a Success); [|safe1].
  apply safe_bind; [safe1|]. intros. destruct (status_beq _ Success); [|safe1]. apply safe_bind; [apply sendBuffer_safe|]. intros.
  destruct (_ <? _); [safe1|]. apply safe_bind; [safe1|]. intros. safe1.
Qed.
Lemma disconnect_safe s : safe (disconnect G) s.
Proof.
  unfold disconnect. apply safe_bind; [apply safe_lift; discriminate|]. intros (a, b) s1 t1 H1. destruct (status_beq a Success); [|safe1].
  apply safe_bind; [safe1|]. intros. destruct (cstatus_beq _ _); [safe1|]. apply safe_bind; [safe1|]. intros.
  apply safe_bind; [apply sendBuffer_safe|]. intros. safe1.
Qed.
Lemma run_op_safe o s : op_sound o -> Reach n m (x_recs (s_ctx s)) -> safe (run_op G o) s.
Proof.
  intros Ho HR. destruct o; cbn [run_op op_sound] in *.
  - apply publish_safe; tauto.
  - apply subscribe_safe; tauto.
  - apply unsubscribe_safe; tauto.
  - apply ping_safe.
  - apply disconnect_safe.
  - apply safe_bind; [|intros; safe1]. unfold getPacketId. repeat (apply safe_bind; [safe1|intros]). safe1.
  - unfold cancel. apply safe_bind; [safe1|]. intros c s1 t1 H1. mgo H1. destruct (outRecs (x_recs (s_ctx s))) eqn:E; [|safe1].
    apply safe_on_recs. eapply cancel_engine_safe; eauto; [tauto|congruence].
  - unfold checkConnectStatus. apply safe_bind; [safe1|intros; safe1].
Qed.
Lemma run_ops_safe l : forall s, Forall op_sound l -> Reach n m (x_recs (s_ctx s)) -> safe (run_ops G l) s.
Proof.
  induction l as [|o l IH]; intros s Hl HR; cbn [run_ops]; [safe1|]. inversion Hl; subst.
  apply safe_bind; [now apply run_op_safe|]. intros a s1 t1 Hx. apply IH; auto.
  eapply path_reach; [|exact HR]. eapply (run_op_path G true); eauto.
Qed.

(** ** Receiving *)
Lemma sound_tl s c : cbs_sound (s_env s) -> cbs_sound (s_env (mkSt c (env_cbs (s_env s) (tl (e_cbs (s_env s)))))).
Proof. unfold cbs_sound. cbn. destruct (e_cbs (s_env s)); auto. now inversion 1. Qed.
Lemma atom_sound d s s' t : atom d s s' t -> cbs_sound (s_env s) -> cbs_sound (s_env s').
Proof.
  intros A K. destruct A as [s s' t _ (_ & _ & F) _|s o r c H1 H2|s bs ok s' t H1 H2|s ty data id pub result|s ok s' t -> Hn H].
  - unfold cbs_sound. now rewrite F.
  - exact K.
  - destruct H2 as (_ & _ & _ & _ & _ & (x & y & E) & _). rewrite E. exact K.
  - now apply sound_tl.
  - destruct H as (_ & _ & _ & _ & _ & (x & y & E) & _). rewrite E. exact K.
Qed.
Lemma path_sound d s s' t : Path d s s' t -> cbs_sound (s_env s) -> cbs_sound (s_env s').
Proof. induction 1; auto. intro K. apply IHPath. eapply atom_sound; eauto. Qed.
Lemma xpath_sound d k s s' t : XPath G d k s s' t -> cbs_sound (s_env s) -> cbs_sound (s_env s').
Proof.
  induction 1 as [|s1 s2 s3 t1 t2 A H IH]; auto. intro K. apply IH. clear - A K.
  destruct A as [s s' t A|s s' t err b i A1 A2 A3 A4 A5|s e A|s A|s bs ok s' t A1 A2 A3|s s' t b A1 A2 A3 A4 A5 A6 A7|s ka A1 A2]; auto.
  - eapply atom_sound; eauto.
  - destruct A2 as (x & y & z & E). rewrite E. exact K.
  - destruct A3 as (_ & _ & _ & _ & _ & (x & y & E) & _). rewrite E. exact K.
  - destruct A4 as (x & y & z & E). rewrite E. exact K.
Qed.
Definition good (s : st) : Prop := Reach n m (x_recs (s_ctx s)) /\ cbs_ok false s /\ cbs_sound (s_env s).
Lemma good_path s s' t : Path false s s' t -> good s -> good s'.
Proof. intros P (H1 & H2 & H3). split; [eapply path_reach; eauto|]. split; [eapply path_cbs; eauto|eapply path_sound; eauto]. Qed.

Lemma acks_safe id ps s : Reach n m (x_recs (s_ctx s)) -> safe (sendPublishAcks G id ps) s.
Proof.
  intro HR. unfold sendPublishAcks. destruct (ackToSend ps) as [[ty ak]|] eqn:E; [|safe1].
  rewrite (serializeAck_bytes _ _ _ _ E). apply safe_bind; [apply safe_lift; discriminate|]. intros (st, buf) s1 t1 H1. mgo H1.
  apply safe_bind.
  - destruct (status_beq st Success); [|safe1]. apply safe_bind; [safe1|]. intros c ? ? ?. destruct (status_beq (must_be_connected c) Success); [|safe1].
    apply safe_bind; [apply sendBuffer_safe|]. intros; safe1.
  - intros st2 s2 t2 H2. destruct (status_beq st2 Success); [|safe1].
    assert (R2 : x_recs (s_ctx s2) = x_recs (s_ctx s)).
    { destruct (status_beq st Success); [|mgo H2; auto]. apply bind_inv in H2. destruct H2 as (c & s3 & t3 & t4 & H2 & H3 & _). mgo H2.
      destruct (status_beq _ _) in H3; [|mgo H3; auto]. apply bind_inv in H3. destruct H3 as (r & s4 & t5 & t6 & H3 & H4 & _). mgo H4.
      apply sendBuffer_spec in H3. apply sent_ok_sentb in H3. now apply sentb_recs in H3. }
    apply safe_bind; [safe1|]. intros u s3 t3 H3. mgo H3. apply safe_bind; [|intros (?, ?) ? ? ?; safe1].
    apply safe_on_recs. cbn [s_ctx set_ctl x_recs]. rewrite R2. eapply acked_safe; eauto.
Qed.
Lemma callback_safe type data id pub result s : good s -> safe (callback G type data id pub result) s.
Proof.
  intros (HR & _ & HS). unfold callback. apply safe_bind; [safe1|]. intros u s1 t1 H1. mgo H1. apply safe_bind; [safe1|]. intros e s1 t1 H1. mgo H1.
  apply safe_bind; [discriminate|]. intros u2 s1 t1 H1.
  assert (E : s1 = mkSt (s_ctx s) (env_cbs (s_env s) (tl (e_cbs (s_env s))))) by congruence. rewrite E.
  apply run_ops_safe; [|exact HR]. unfold cbs_sound in HS. destruct (e_cbs (s_env s)); [constructor|]. now inversion HS.
Qed.
Lemma handlePublish_safe type rem data s : good s -> is_byte type -> type / 16 = 3 -> 0 <= rem <= zlen data -> rem < g_M G ->
  bytes_ok (firstn (Z.to_nat rem) data) -> safe (handleIncomingPublish G type rem data) s.
Proof.
  intros Hg Hb H3 Hr HrM Hd. unfold handleIncomingPublish.
  destruct (publish_decode (g_M G) type rem data HM Hb H3 Hr HrM Hd) as [(msg & d & pid & E & _)|(E & _)]; rewrite E.
  2: { apply safe_bind; [apply safe_lift; discriminate|]. intros (a, b) s1 t1 H1. mgo H1. assert (a = BadResponse) by congruence. subst a. safe1. }
  apply safe_bind; [apply safe_lift; discriminate|]. intros (a, b) s1 t1 H1. mgo H1. assert (a = Success /\ b = Some (d, pid)) as (-> & ->) by (split; congruence).
  apply safe_bind; [safe1|]. intros c s1 t1 H1. mgo H1.
  destruct (match inRecs (x_recs (s_ctx s)) with None => true | _ => false end && negb (qos_beq (d_qos d) Q0)) eqn:Eg; [safe1|].
  assert (Hi : d_qos d <> Q0 -> OpReceive = OpReceive -> inRecs (x_recs (s_ctx s)) <> None).
  { intros Hq _ E2. rewrite E2 in Eg. destruct (d_qos d); try contradiction; discriminate. }
  apply safe_bind; [apply safe_on_recs; eapply published_safe; eauto; apply Hg|]. intros (st, ns) s1 t1 H1.
  assert (Hg1 : good s1) by (eapply good_path; [eapply paths_published; [|exact H1]; exact Hi|exact Hg]).
  match goal with |- safe (let '(p, q) := ?x in _) _ => destruct x as [[st2 dup] ns2] end.
  destruct (status_beq st2 Success); [|safe1]. apply safe_bind.
  - destruct dup; [safe1|]. now apply callback_safe.
  - intros u s2 t2 H2. apply acks_safe. assert (good s2); [|apply H]. destruct dup; [mgo H2; auto|].
    eapply good_path; [|exact Hg1]. eapply callback_path; [apply Hg1|exact H2].
Qed.
Lemma handleAcks_safe type rem data s k : good s -> type = ack_first k -> k <> KUnsuback -> 0 <= rem <= zlen data ->
  bytes_ok (firstn (Z.to_nat rem) data) -> safe (handlePublishAcks G type rem data) s.
Proof.
  intros Hg -> Hk Hr Hd. unfold handlePublishAcks.
  apply safe_bind; [apply safe_lift; destruct k; discriminate || contradiction|]. intros ak s1 t1 H1. mgo H1.
  assert (exists st o, deserializeAck (mkPkt (ack_first k) rem (Some data)) = Ok (st, o, None)) as (st & o & E).
  { destruct (ack_decode k rem data Hr Hd) as [(id & _ & _ & E)|(_ & o & E)]; eauto. }
  rewrite E. apply safe_bind; [apply safe_lift; discriminate|]. intros ((st1, pid), u) s1 t1 H1. mgo H1.
  apply safe_bind.
  { destruct (status_beq _ Success); [|safe1]. apply safe_on_recs. eapply acked_safe. apply Hg. }
  intros (st2, ns) s2 t2 H2. assert (Hg2 : good s2).
  { destruct (status_beq st1 Success); [|mgo H2; auto]. eapply good_path; [eapply paths_acked; exact H2|exact Hg]. }
  apply safe_bind; [safe1|]. intros c s3 t3 H3. mgo H3. apply safe_bind; [destruct (_ && _); unfold clear_publish; safe1|]. intros u3 s3 t3 H3.
  assert (Hs3 : s3 = s2) by (destruct (_ && _) in H3; [unfold clear_publish in H3; apply emit_inv in H3; tauto|mgo H3; auto]). subst s3.
  destruct (status_beq st2 Success); [|safe1]. apply safe_bind; [now apply callback_safe|]. intros u4 s4 t4 H4.
  apply acks_safe. assert (good s4); [|apply H]. eapply good_path; [|exact Hg2]. eapply callback_path; [apply Hg2|exact H4].
Qed.
Lemma ack_of_type type : (type =? PKT_PUBACK) || (type =? PKT_PUBREC) || (type =? PKT_PUBREL) || (type =? PKT_PUBCOMP) = true ->
  exists k, type = ack_first k /\ k <> KUnsuback.
Proof.
  intro H. assert (K : type = PKT_PUBACK \/ type = PKT_PUBREC \/ type = PKT_PUBREL \/ type = PKT_PUBCOMP) by lia.
  destruct K as [->|[->|[->| ->]]]; [exists KPuback|exists KPubrec|exists KPubrel|exists KPubcomp]; split; try reflexivity; discriminate.
Qed.
Lemma handleAck_safe type rem data mk s : good s -> 0 <= rem <= zlen data ->
  bytes_ok (firstn (Z.to_nat rem) data) -> safe (handleIncomingAck G type rem data mk) s.
Proof.
  intros Hg Hr Hd. unfold handleIncomingAck. destruct (_ || _) eqn:E.
  { apply ack_of_type in E. destruct E as (k & E & Hk). eapply handleAcks_safe; eauto. }
  apply safe_bind.
  - destruct (type =? PKT_PINGRESP) eqn:Ep.
    + apply Z.eqb_eq in Ep. subst type. rewrite pingresp_decode. apply safe_bind; [apply safe_lift; discriminate|]. intros ((a, b), c) s1 t1 H1.
      apply safe_bind; [destruct (_ && _); safe1|]. intros; safe1.
    + destruct ((type =? PKT_SUBACK) || (type =? PKT_UNSUBACK)) eqn:Es; [|safe1].
      assert (exists st o, deserializeAck (mkPkt type rem (Some data)) = Ok (st, o, None)) as (st & o & Ed).
      { apply orb_true_iff in Es. destruct Es as [Es|Es]; apply Z.eqb_eq in Es; subst type.
        - destruct (suback_decode rem data Hr Hd) as (id & -> & _). eauto.
        - destruct (ack_decode KUnsuback rem data Hr Hd) as [(id & _ & _ & E2)|(_ & o & E2)]; eauto. }
      rewrite Ed. apply safe_bind; [apply safe_lift; discriminate|]. intros ((a, b), c) s1 t1 H1. safe1.
  - intros ((st, id), inv) s1 t1 H1. assert (Hg1 : good s1).
    { eapply good_path; [|exact Hg]. destruct (type =? PKT_PINGRESP).
      - apply bind_inv in H1. destruct H1 as (((a, b), c) & s2 & t2 & t3 & H1 & H2 & ->). mgo H1.
        apply bind_inv in H2. destruct H2 as (u & s3 & t4 & t5 & H2 & H3 & ->). mgo H3. rewrite ?app_nil_r. cbn [app].
        destruct (_ && _) in H2; [|mgo H2; constructor]. apply modc_inv in H2. destruct H2 as (-> & ->). apply path_one, a_local; repeat split.
      - destruct ((type =? PKT_SUBACK) || (type =? PKT_UNSUBACK)); [|mgo H1; constructor].
        apply bind_inv in H1. destruct H1 as (((a, b), c) & s2 & t2 & t3 & H1 & H2 & ->). mgo H1. mgo H2. constructor. }
    destruct inv; [|safe1]. apply safe_bind; [now apply callback_safe|]. intros; safe1.
Qed.
Lemma keepAlive_safe s : safe (handleKeepAlive G) s.
Proof.
  unfold handleKeepAlive. apply safe_bind; [safe1|]. intros. apply safe_bind; [safe1|]. intros. destruct (x_waiting _); [safe1|].
  destruct (_ && _); [apply ping_safe|]. destruct (_ && _); [apply ping_safe|safe1].
Qed.
Lemma type_publish type : is_byte type -> Z.land type 240 =? PKT_PUBLISH = true -> type / 16 = 3.
Proof.
  intros Hb E. pose proof (byte_sweep (fun t => implb (Z.land t 240 =? PKT_PUBLISH) (t / 16 =? 3)) ltac:(vm_compute; reflexivity) type Hb) as K.
  cbv beta in K. rewrite E in K. cbn [implb] in K. lia.
Qed.
End Safe.
