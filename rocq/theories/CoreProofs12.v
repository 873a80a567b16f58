(** MQTT_Connect. *)
From Verif Require Import Base StateModel StateSpec StateHarness StateProofs StateProofs2 SerModel WireSpec SerHarness SerProofs SerProofs2 SerProofs3 SerProofs4
  CoreModel CoreHarness CoreSpec CoreProofs CoreProofs2 CoreProofs3 CoreProofs4 CoreProofs5 CoreProofs6 CoreProofs7 CoreProofs8 CoreProofs11.

(** ** Clean sessions *)
Section Conn.
Variable G : cfg.
Lemma clear_loop_spec fuel : forall l cur s s' t, Walk (publishToResend (x_recs (s_ctx s))) cur l ->
  clear_loop fuel cur s = Ret tt s' t -> s' = s /\ t = map EClear l.
Proof.
  induction fuel as [|fuel IH]; intros l cur s s' t Hw H; cbn [clear_loop] in H; [mgo H|].
  apply bind_inv in H. destruct H as (c & sx & tx & ty & H1 & H & ->). mgo H1.
  destruct (publishToResend (x_recs (s_ctx s)) cur) as (pid, cur2) eqn:E.
  inversion Hw as [c0 c' Hn|c0 c' id l' Hn Hid Hw']; subst; rewrite E in Hn.
  - assert (pid = 0) by congruence. subst pid. cbn in H. mgo H. auto.
  - assert (pid = id /\ cur2 = c') as (-> & ->) by (split; congruence).
    replace (id =? 0) with false in H by lia. apply bind_inv in H. destruct H as (x & s1 & t1 & t2 & H1 & H & ->).
    unfold clear_publish in H1. mgo H1. apply IH with (l := l') in H; auto. destruct H as (-> & ->). auto.
Qed.
Definition cleaned (c : context) : context := set_recs (emptied c) (resetRecs (x_recs c)).
Lemma clean_spec l s st s' t : Walk (publishToResend (x_recs (s_ctx s))) 0 l -> handleCleanSession s = Ret st s' t ->
  st = Success /\ s' = mkSt (cleaned (s_ctx s)) (s_env s) /\ t = if x_retr (s_ctx s) then map EClear l else [].
Proof.
  intros Hw H. unfold handleCleanSession in H.
  apply bind_inv in H. destruct H as (c & sx & tx & ty & H1 & H & ->). mgo H1.
  apply bind_inv in H. destruct H as (u1 & sy & tx2 & tz & H1 & H & ->). mgo H1. cbn [s_ctx x_retr set_buf set_index x_recs] in H.
  apply bind_inv in H. destruct H as (u & sz & tx3 & tw & H1 & H & ->). mgo H. cbn [app]. rewrite app_nil_r.
  destruct (x_retr (s_ctx s)) eqn:E.
  - destruct u. apply clear_loop_spec with (l := l) in H1; [|exact Hw]. destruct H1 as (-> & ->). auto.
  - mgo H1. auto.
Qed.

(** ** Waiting for CONNACK *)
Lemma connack_loop_spec fuel : forall tmo entry lc s st h s' t, bytes_ok (e_in (s_env s)) ->
  connack_loop G fuel tmo entry lc s = Ret (st, h) s' t ->
  exists bs, fetched bs s s' t /\
    (st = Success /\ (exists ty rl, h = Some (ty, rl) /\ header bs ty rl) \/
     st <> Success /\ h = None /\ (st = NoDataAvailable -> bs = []) /\
       (st = BadResponse \/ st = RecvFailed \/ st = NoDataAvailable)).
Proof.
  induction fuel as [|fuel IH]; intros tmo entry lc s st h s' t Hb H; cbn [connack_loop] in H; [mgo H|].
  apply bind_inv in H. destruct H as ((st1, h1) & s1 & t1 & t2 & H1 & H & ->).
  apply header_read in H1; auto. destruct H1 as (bs & F & K).
  apply bind_inv in H. destruct H as ((stop, lc') & s2 & t3 & t4 & H1 & H & ->).
  assert (F2 : fetched bs s s2 t1 /\ t3 = []).
  { destruct F as (Q1 & Q2 & Q3 & Q4 & Q5). destruct (0 <? tmo).
    - apply bind_inv in H1. destruct H1 as (now & s3 & t5 & t6 & H1 & H2 & ->). apply getTime_inv in H1.
      destruct H1 as (x & rest & E1 & _ & -> & ->). mgo H2. split; auto.
      split; auto. split; auto. split; auto. split; auto. eapply env_recvd_trans; [exact Q4|].
      exists (e_in (s_env s1)), (e_recvs (s_env s1)), rest. destruct s1 as [c1 [? ? ? ? ? ? ?]]; reflexivity.
    - mgo H1. split; auto. split; auto. }
  destruct F2 as (F2 & ->). cbn [app].
  destruct (status_beq st1 NoDataAvailable && negb stop) eqn:E.
  - apply andb_true_iff in E. destruct E as (E & _). assert (st1 = NoDataAvailable) by (destruct st1; auto; discriminate). subst st1.
    destruct K as [(? & _)|(_ & _ & K & _)]; [discriminate|]. specialize (K eq_refl). subst bs.
    apply IH in H. 2: { destruct F2 as (_ & _ & E3 & _). now rewrite E3 in Hb. }
    destruct H as (bs & F3 & K). exists bs. split; auto.
    destruct F2 as (Q1 & Q2 & Q3 & Q4 & Q5). destruct F3 as (R1 & R2 & R3 & R4 & R5).
    split; [rewrite ins_app, Q1, R1; reflexivity|]. split; [apply recv_only_app; auto|].
    split; [rewrite Q3, R3; reflexivity|]. split; [eapply env_recvd_trans; eauto|]. congruence.
  - mgo H. exists bs. rewrite app_nil_r. split; auto. replace st with st1 by congruence. replace h with h1 by congruence. exact K.
Qed.

(** CONNACK [32; 2; b; 0] with session present b arrived and was stored in the buffer,
    or something else happened *)
Definition waited (clean : bool) (res : status) (sp : option bool) (s s' : st) (t : list ev) : Prop :=
  exists bs b, ins t = bs /\ recv_only t /\ e_in (s_env s) = bs ++ e_in (s_env s') /\ env_recvd s s' /\
    zlen b = zlen (x_buf (s_ctx s)) /\ (bytes_ok (x_buf (s_ctx s)) -> bytes_ok b) /\ s_ctx s' = set_buf (s_ctx s) b /\
    (res = Success /\ (exists p : bool, bs = [32; 2; if p then 1 else 0; 0] /\ sp = Some p /\ (clean = true -> p = false)) \/
     res = ServerRefused /\ (exists rc, bs = [32; 2; 0; rc] /\ 1 <= rc <= 5) \/
     res = BadResponse \/ res = RecvFailed \/ res = NoDataAvailable).
Lemma waited_of_fetched clean st sp bs s s' t : fetched bs s s' t ->
  st = BadResponse \/ st = RecvFailed \/ st = NoDataAvailable -> waited clean st sp s s' t.
Proof.
  intros (Q1 & Q2 & Q3 & Q4 & Q5) H. exists bs, (x_buf (s_ctx s)). rewrite set_buf_id. repeat split; auto.
Qed.
Lemma env_times_recvd s r : env_recvd s (mkSt (s_ctx s) (env_times (s_env s) r)).
Proof. exists (e_in (s_env s)), (e_recvs (s_env s)), r. destruct s as [c1 [? ? ? ? ? ? ?]]; reflexivity. Qed.
Lemma connack_header bs rl : header bs 32 rl -> rl = 2 -> bs = [32; 2].
Proof. intros (_ & _ & ->) ->. reflexivity. Qed.
Lemma receiveConnack_spec tmo clean s st sp s' t : bytes_ok (e_in (s_env s)) -> x_status (s_ctx s) = NotConnected ->
  receiveConnack G tmo clean s = Ret (st, sp) s' t -> waited clean st sp s s' t.
Proof.
  intros Hb Hs H. unfold receiveConnack in H.
  apply bind_inv in H. destruct H as (entry & s0 & t0 & t1 & H1 & H & ->). apply getTime_inv in H1.
  destruct H1 as (x & r0 & E1 & _ & -> & ->). cbn [app].
  apply bind_inv in H. destruct H as (e & s1 & t0 & t2 & H1 & H & ->). mgo H1. cbn [app].
  apply bind_inv in H. destruct H as ((st1, h) & s1 & t3 & t4 & H1 & H & ->).
  apply connack_loop_spec in H1; [|exact Hb]. destruct H1 as (bs & F & K).
  assert (F0 : fetched bs s s1 t3).
  { destruct F as (Q1 & Q2 & Q3 & Q4 & Q5). repeat (split; [exact Q1 || exact Q2 || exact Q3 || exact Q4|]). exact Q5. }
  clear F. destruct K as [(-> & ty & rl & -> & Hh)|(Hne & -> & _ & K)].
  2: { assert (E : st = st1 /\ sp = None /\ s' = s1 /\ t4 = []) by (destruct st1; try contradiction; mgo H; repeat split; congruence).
       destruct E as (-> & -> & -> & ->). rewrite app_nil_r. eapply waited_of_fetched; eauto. }
  apply bind_inv in H. destruct H as (now & s2 & t5 & t6 & H1 & H & ->). apply getTime_inv in H1.
  destruct H1 as (y & r1 & E2 & _ & -> & ->). cbn [app].
  assert (F1 : fetched bs s (mkSt (s_ctx s1) (env_times (s_env s1) r1)) t3).
  { destruct F0 as (Q1 & Q2 & Q3 & Q4 & Q5). do 3 (split; [auto|]). split; [|auto].
    eapply env_recvd_trans; [exact Q4|apply env_times_recvd]. }
  clear F0. set (s2 := mkSt (s_ctx s1) (env_times (s_env s1) r1)) in *. clearbody s2.
  apply bind_inv in H. destruct H as (st2 & s3 & t7 & t8 & H1 & H & ->).
  destruct (ty =? PKT_CONNACK) eqn:Ety.
  2: { mgo H1. cbn [status_beq] in H. mgo H. rewrite app_nil_r. assert (st = BadResponse) as -> by congruence. eapply waited_of_fetched; eauto. }
  assert (ty = 32) by (unfold PKT_CONNACK in Ety; lia). subst ty.
  assert (Hrl : 0 <= rl <= 268435455) by (destruct Hh as (_ & ? & _); unfold max_remaining in *; lia).
  pose proof F1 as (Q1 & Q2 & Q3 & Q4 & Q5).
  apply receivePacket_spec in H1; [|lia].
  destruct H1 as [(-> & body & (R1 & R2 & R3 & R4 & R5 & R6) & Hl & Hl2)|(Hst & body & err & (R1 & R2 & R3 & R4 & b & Hlb & Hbb & R5))].
  - cbn [status_beq] in H. apply bind_inv in H. destruct H as (c & s4 & t9 & t10 & H1 & H & ->).
    assert (c = s_ctx s3 /\ s4 = s3 /\ t9 = []) as (-> & -> & ->) by (clear - H1; mgo H1; auto).
    rewrite R6, Q5 in *. cbn [set_buf x_buf] in *.
    set (b := store_at (x_buf (s_ctx s)) 0 body) in *.
    assert (Hb2 : firstn (Z.to_nat rl) b = body).
    { subst b. replace (Z.to_nat rl) with (length body) by (unfold zlen in Hl; lia). apply store_at_0. lia. }
    assert (Lb : zlen b = zlen (x_buf (s_ctx s))) by (apply store_at_len; lia).
    assert (Bb : bytes_ok body).
    { rewrite Q3, R3 in Hb. apply Forall_app in Hb. destruct Hb as (_ & Hb). apply Forall_app in Hb. apply Hb. }
    destruct (connack_decode rl b) as (sp1 & Ed & Esp); [lia|rewrite Hb2; auto|].
    change (PKT_CONNACK) with 32 in Ed. rewrite Hb2 in Ed, Esp.
    assert (exists st3, st = (if status_beq st3 Success && clean && match sp1 with Some true => true | _ => false end then BadResponse else st3) /\
      sp = sp1 /\ s' = s3 /\ t10 = [] /\ st3 = fst (connack_result body)) as (st3 & -> & -> & -> & -> & E3).
    { exists (fst (connack_result body)). rewrite Ed in H. clear - H. unfold bind, lift, ret in H. cbn [app] in H.
      set (z := if _ : bool then _ else _) in *. clearbody z. repeat split; congruence. }
    exists (bs ++ body), b. cbn [app]. rewrite app_nil_r.
    split; [rewrite ins_app, Q1, R1; reflexivity|]. split; [apply recv_only_app; auto|].
    split; [rewrite Q3, R3, app_assoc; reflexivity|]. split; [eapply env_recvd_trans; eauto|]. split; auto. split; [intros; now apply store_at_bytes|]. split; auto.
    unfold connack_result in *. destruct body as [|f [|rc [|? ?]]]; cbn [fst snd] in *; subst st3; cbn [status_beq andb]; auto.
    assert (bs = [32; 2]) as -> by (eapply connack_header; [exact Hh|unfold zlen in Hl; cbn in Hl; lia]).
    destruct ((f =? 0) && (rc =? 0)) eqn:C1; cbn [fst snd] in *.
    { rewrite Esp by discriminate. cbn [status_beq andb]. rewrite andb_false_r. left. split; auto.
      exists false. split; auto. cbn [app]. repeat f_equal; lia. }
    destruct ((f =? 1) && (rc =? 0)) eqn:C2; cbn [fst snd] in *.
    { rewrite Esp by discriminate. cbn [status_beq andb]. rewrite andb_true_r. destruct clean; [auto 10|]. left. split; auto.
      exists true. split; [|split; auto; discriminate]. cbn [app]. repeat f_equal; lia. }
    destruct ((f =? 0) && (1 <=? rc) && (rc <=? 5)) eqn:C3; cbn [fst snd status_beq andb] in *.
    { right; left. split; auto. exists rc. split; [|lia]. cbn [app]. repeat f_equal; lia. }
    auto 10.
  - assert (E : st = st2 /\ sp = None /\ s' = s3 /\ t8 = []).
    { destruct Hst as [->| ->]; cbn [status_beq] in H; mgo H; repeat split; congruence. }
    destruct E as (-> & -> & -> & ->). rewrite app_nil_r. exists (bs ++ body), b. rewrite Q5 in *.
    split; [rewrite ins_app, Q1, R1; reflexivity|]. split; [apply recv_only_app; auto|].
    split; [rewrite Q3, R3, app_assoc; reflexivity|]. split; [eapply env_recvd_trans; eauto|]. split; auto.
    split. { intros B. apply Hbb; auto. rewrite Q3, R3 in Hb. apply Forall_app in Hb. destruct Hb as (_ & Hb). apply Forall_app in Hb. apply Hb. }
    split; [|destruct Hst; auto].
    destruct err; destruct R5 as (_ & ->); auto. unfold transport_broke. cbn [set_buf x_status]. rewrite Hs. reflexivity.
Qed.

(** ** Resuming *)
Lemma in_unique l (f g : flight) : NoDup (ids l) -> In f l -> In g l -> f_id f = f_id g -> f = g.
Proof.
  unfold ids. induction l as [|x l IH]; intros Nd Hf Hg E; [destruct Hf|]. cbn [map] in Nd. apply NoDup_cons_iff in Nd. destruct Nd as (N1 & N2).
  destruct Hf as [->|Hf], Hg as [->|Hg]; auto; exfalso; apply N1; apply in_map_iff; eauto.
Qed.
Lemma mem_in id l : mem id l = true -> In id l.
Proof. unfold mem. intro H. apply existsb_exists in H. destruct H as (x & Hx & E). assert (id = x) by lia. subst. auto. Qed.
Lemma pubq_mark l done : NoDup (ids l) -> (forall id, In id done -> In id (relq l)) -> pubq (mark done l) = pubq l.
Proof.
  intros Nd Hd.
  assert (K : forall f, In f l -> mem (f_id f) done = true -> is_pub f = false).
  { intros f Hf Hm. apply mem_in in Hm. apply Hd in Hm. unfold relq, ids in Hm. apply in_map_iff in Hm. destruct Hm as (g & E & Hg).
    apply filter_In in Hg. destruct Hg as (Hg & Hr). assert (g = f) by (eapply in_unique; eauto). subst g.
    unfold is_rel, is_pub in *. destruct (f_st f); auto; discriminate. }
  clear Nd Hd. unfold pubq, mark, ids. induction l as [|f l IH]; auto. cbn [map filter].
  assert (IH' := IH (fun g Hg => K g (or_intror Hg))). specialize (K f (or_introl eq_refl)).
  destruct (mem (f_id f) done) eqn:E.
  - rewrite (K eq_refl). cbn [is_pub f_st filter]. unfold is_pub at 1. cbn [f_st]. exact IH'.
  - destruct (is_pub f); cbn [map]; congruence.
Qed.
Lemma reach_walks n m c : Reach n m c -> Walk (publishToResend c) 0 (pubq (tracked (outRecs c))) /\
  Walk (pubrelToResend c) 0 (relq (tracked (outRecs c))).
Proof.
  intro H. pose proof (reach_view _ _ _ H) as R. split; [apply (walk_publish _ _ R)|apply (walk_pubrel _ _ R)].
Qed.
Lemma resume_spec n m s st s' t : Reach n m (x_recs (s_ctx s)) -> x_status (s_ctx s) = Connected ->
  handleUncleanSessionResumption G s = Ret st s' t ->
  let before := tracked (outRecs (x_recs (s_ctx s))) in let after := tracked (outRecs (x_recs (s_ctx s'))) in
  Path false s s' t /\ tracked (inRecs (x_recs (s_ctx s'))) = tracked (inRecs (x_recs (s_ctx s))) /\
  exists done got, retrieved t = map (fun p => (fst p, Some (snd p))) done ++ got /\
  (st = SendFailed /\ done = [] /\ got = [] /\ (exists rels id rest k, relq before = rels ++ id :: rest /\ (k < 4)%nat /\
      outs t = flat_map pubrel rels ++ firstn k (pubrel id) /\ after = mark rels before) \/
   after = mark (relq before) before /\
   (st = Success /\ x_status (s_ctx s') = Connected /\ errs t = false /\ got = [] /\
      map fst done = (if x_retr (s_ctx s) then pubq before else []) /\ outs t = flat_map pubrel (relq before) ++ flat_map snd done \/
    x_retr (s_ctx s) = true /\ exists id rest, pubq before = map fst done ++ id :: rest /\
     (st = PublishRetrieveFailed /\ got = [(id, None)] /\ outs t = flat_map pubrel (relq before) ++ flat_map snd done \/
      st = SendFailed /\ exists bs k, got = [(id, Some bs)] /\ (k < length bs)%nat /\
        outs t = flat_map pubrel (relq before) ++ flat_map snd done ++ firstn k bs))).
Proof.
  intros Hr Hs H before after. unfold handleUncleanSessionResumption in H.
  apply bind_inv in H. destruct H as (c & sx & tx & ty & H1 & H & ->).
  assert (c = s_ctx s /\ sx = s /\ tx = []) as (-> & -> & ->) by (clear - H1; mgo H1; auto). clear H1. cbn [app].
  destruct (reach_walks _ _ _ Hr) as (Wp & Wr).
  destruct (pubrelToResend (x_recs (s_ctx s)) 0) as (pid, cur) eqn:E.
  apply bind_inv in H. destruct H as (st1 & s1 & t1 & t2 & H1 & H & ->).
  eapply pubrel_loop_spec in H1; eauto. destruct H1 as (P1 & I1 & So & _ & K). fold before in K.
  pose proof (send_retrieved _ So) as Rt.
  destruct K as [(-> & S1 & Er & O1 & A1)|(-> & rels & id & rest & k & El & Hk & O1 & A1)].
  - cbn [status_beq andb] in H. destruct (x_retr (s_ctx s)) eqn:Ex.
    + pose proof (path_reach _ _ _ _ _ _ P1 Hr) as Hr1. destruct (reach_walks _ _ _ Hr1) as (Wp1 & _).
      rewrite A1 in Wp1. unfold before in Wp1 at 1. rewrite pubq_mark in Wp1; [|eapply ids_unique; eauto|auto].
      eapply publish_loop_spec in H; eauto. destruct H as (P2 & E2 & done & got & Rt2 & K).
      split; [eapply path_app; eauto|]. split; [congruence|]. exists done, got. rewrite retrieved_app, outs_app, errs_app, Rt, Er, O1.
      split; auto. right. subst after. rewrite E2. split; auto.
      destruct K as [(-> & K1 & K2 & -> & K3 & K4)|(id & rest & K1 & K)]; [left; rewrite K4; repeat split; auto|right].
      split; auto. exists id, rest. split; auto. destruct K as [(-> & -> & ->)|(-> & bs & k & -> & K2 & ->)]; [left; auto|right].
      split; auto. exists bs, k. auto.
    + mgo H. rewrite app_nil_r. split; auto. split; auto. exists [], []. split; auto. right. split; auto. left.
      rewrite O1. cbn [flat_map]. rewrite app_nil_r. repeat split; auto.
  - cbn [status_beq andb] in H. mgo H. rewrite app_nil_r. split; auto. split; auto. exists [], []. split; auto.
    left. repeat (split; [auto|]). exists rels, id, rest, k. auto.
Qed.

(** ** MQTT_Connect *)
Definition connected (c : context) (keep : Z) : context := set_keep (set_status c Connected) keep 0 false.
Lemma sentb_nc bs s ok s' t : x_status (s_ctx s) = NotConnected -> sentb bs s ok s' t ->
  exists l, s_ctx s' = set_lastTx (s_ctx s) l.
Proof.
  intros Hs (k & l & _ & _ & _ & _ & _ & _ & [(_ & E)|(_ & _ & E)]); exists l; auto.
  rewrite E. unfold transport_broke. cbn [set_lastTx x_status]. rewrite Hs. reflexivity.
Qed.
Lemma connect_spec n m ci will tmo s st sp s' t : Reach n m (x_recs (s_ctx s)) -> bytes_ok (e_in (s_env s)) ->
  connect G ci will tmo s = Ret (st, sp) s' t ->
  (getConnectPacketSize ci will = (BadParameter, None) /\ st = BadParameter /\ sp = None /\
     s' = mkSt (transport_broke (s_ctx s)) (s_env s) /\ t = []) \/
  exists rl total, getConnectPacketSize ci will = (Success, Some (rl, total)) /\ (
  (x_status (s_ctx s) = Connected /\ st = StConnected /\ sp = None /\ s' = s /\ t = [] \/
   x_status (s_ctx s) = DisconnectPending /\ st = StDisconnectPending /\ sp = None /\ s' = s /\ t = []) \/
  x_status (s_ctx s) = NotConnected /\ (
   st = BadParameter /\ sp = None /\ s' = s /\ t = [] \/
   exists vs ok s1 t1, connect_vectors ci will rl = Ok vs /\ sentb (concat vs) s ok s1 t1 /\
    (ok = false /\ st = SendFailed /\ sp = None /\ s' = s1 /\ t = t1 \/
     ok = true /\ exists st2 s2 t2, waited (c_clean ci) st2 sp s1 s2 t2 /\
      (st2 <> Success /\ st = st2 /\ s' = s2 /\ t = t1 ++ t2 \/
       st2 = Success /\ sp = Some false /\ st = Success /\
         s' = mkSt (connected (cleaned (s_ctx s2)) (c_keepalive ci)) (s_env s2) /\
         t = t1 ++ t2 ++ (if x_retr (s_ctx s) then map EClear (pubq (tracked (outRecs (x_recs (s_ctx s))))) else []) \/
       st2 = Success /\ sp = Some true /\ c_clean ci = false /\
         exists s3 t3, handleUncleanSessionResumption G (mkSt (connected (s_ctx s2) (c_keepalive ci)) (s_env s2)) = Ret st s3 t3 /\
           t = t1 ++ t2 ++ t3 /\
           s' = if status_beq st Success then s3 else mkSt (transport_broke (s_ctx s3)) (s_env s3))))).
Proof.
  intros Hr Hb H. unfold connect in H.
  assert (Hz : getConnectPacketSize ci will = (BadParameter, None) \/ exists rl total, getConnectPacketSize ci will = (Success, Some (rl, total))).
  { unfold getConnectPacketSize. destruct (_ || _); auto. destruct (match will with Some _ => _ | None => _ end); auto. right. eexists _, _. reflexivity. }
  destruct Hz as [Ez|(rl & total & Ez)]; rewrite Ez in H.
  { left. apply bind_inv in H. destruct H as ((sta, spa) & sa & ta & tb & H1 & H & ->). apply ret_inv in H1.
    destruct H1 as (E1 & -> & ->). assert (K : sta = BadParameter /\ spa = None) by (split; congruence). destruct K as (-> & ->).
    cbn [status_beq andb orb] in H. mgo H. repeat split; auto; congruence. }
  right. exists rl, total. split; auto.
  apply bind_inv in H. destruct H as ((sta, spa) & sa & ta & tb & H1 & H & ->).
  apply bind_inv in H1. destruct H1 as (c & sb & tc & td & H1 & H2 & ->). apply getc_inv in H1. destruct H1 as (-> & -> & ->). cbn [app].
  apply bind_inv in H2. destruct H2 as (st1 & s1 & t1 & te & H1 & H2 & ->).
  destruct (x_status (s_ctx s)) eqn:Hs; cbn [status_beq] in H1.
  2,3: left; apply ret_inv in H1; destruct H1 as (-> & -> & ->);
    unfold bind, ret, modc in H2; cbn [status_beq andb app] in H2;
    match type of H2 with Ret (?x, ?y) _ _ = _ => assert (sta = x /\ spa = y /\ sa = s /\ te = []) as (-> & -> & -> & ->) by (repeat split; congruence) end;
    unfold bind, ret, modc in H; cbn [status_beq andb orb app] in H.
  2: right; cbn [app]; repeat split; congruence. 2: left; cbn [app]; repeat split; congruence.
  right. split; auto. unfold sendConnectWithoutCopy in H1.
  destruct (match will with Some wl => _ | None => _ end) eqn:Ew in H1.
  { left. apply ret_inv in H1; destruct H1 as (-> & -> & ->).
    unfold bind, ret, modc in H2; cbn [status_beq andb app] in H2.
    match type of H2 with Ret (?x, ?y) _ _ = _ => assert (sta = x /\ spa = y /\ sa = s /\ te = []) as (-> & -> & -> & ->) by (repeat split; congruence) end.
    unfold bind, ret, modc in H; cbn [status_beq andb orb app] in H. unfold transport_broke in H. rewrite Hs in H. cbn [cstatus_beq] in H.
    replace (mkSt (s_ctx s) (s_env s)) with s in H by (destruct s; reflexivity). cbn [app]. repeat split; congruence. }
  right. apply bind_inv in H1. destruct H1 as (vs & s0 & t0 & tf & H1 & H3 & ->). apply lift_inv in H1. destruct H1 as (Ev & -> & ->).
  apply bind_inv in H3. destruct H3 as (r & s2 & t2 & tg & H1 & H3 & ->). apply ret_inv in H3. destruct H3 as (-> & -> & ->).
  apply sendMessageVector_spec, sent_ok_sentb in H1. cbn [app]. rewrite !app_nil_r.
  exists vs, (r =? zlen (concat vs)), s2, t2. split; auto. split; auto.
  destruct (sentb_nc _ _ _ _ _ Hs H1) as (lt & Ec).
  assert (Hs2 : x_status (s_ctx s2) = NotConnected) by (rewrite Ec; exact Hs).
  assert (Hb2 : bytes_ok (e_in (s_env s2))).
  { destruct H1 as (_ & _ & _ & _ & _ & (x1 & x2 & ->) & _). exact Hb. }
  assert (Tb : forall s3, x_status (s_ctx s3) = NotConnected -> mkSt (transport_broke (s_ctx s3)) (s_env s3) = s3).
  { intros [c3 e3] H3. cbn [s_ctx s_env] in *. unfold transport_broke. rewrite H3. reflexivity. }
  destruct (r =? zlen (concat vs)); cbn [negb] in H2.
  2: { left. unfold bind, ret, modc in H2; cbn [status_beq andb app] in H2.
    match type of H2 with Ret (?x, ?y) _ _ = _ => assert (sta = x /\ spa = y /\ sa = s2 /\ te = []) as (-> & -> & -> & ->) by (repeat split; congruence) end.
    unfold bind, ret, modc in H; cbn [status_beq andb orb app] in H. rewrite (Tb s2 Hs2) in H. rewrite app_nil_r.
    assert (st = SendFailed /\ sp = None /\ s' = s2 /\ tb = []) as (-> & -> & -> & ->) by (repeat split; congruence).
    rewrite app_nil_r. auto. }
  right. split; auto. cbn [status_beq] in H2.
  apply bind_inv in H2. destruct H2 as ((st2, sp2) & s3 & t3 & th & H3 & H2 & ->).
  apply receiveConnack_spec in H3; auto.
  exists st2, s3, t3. pose proof H3 as (bs & b & _ & _ & _ & _ & Hb3 & _ & Ec3 & K).
  assert (Hs3 : x_status (s_ctx s3) = NotConnected) by (rewrite Ec3; exact Hs2).
  assert (Hne : st2 = Success \/ (st2 <> Success /\ st2 <> StConnected /\ st2 <> StDisconnectPending)).
  { destruct K as [(-> & _)|[(-> & _)|[->|[->| ->]]]]; auto; right; repeat split; discriminate. }
  destruct Hne as [->|(N1 & N2 & N3)].
  2: { assert (status_beq st2 Success = false /\ status_beq st2 StConnected = false /\ status_beq st2 StDisconnectPending = false) as (B1 & B2 & B3)
       by (destruct st2; auto; contradiction).
    rewrite B1 in H2. cbn [andb] in H2. unfold bind, ret, modc in H2. cbn [app] in H2. rewrite B1 in H2. cbn [app] in H2.
    assert (sta = st2 /\ spa = sp2 /\ sa = s3 /\ th = []) as (-> & -> & -> & ->) by (repeat split; congruence).
    unfold bind, ret, modc in H. rewrite B1 in H. cbn [andb app] in H. rewrite B1, B2, B3 in H. cbn [orb app] in H. rewrite (Tb s3 Hs3) in H.
    assert (st = st2 /\ sp = sp2 /\ s' = s3 /\ tb = []) as (-> & -> & -> & ->) by (repeat split; congruence).
    split; [exact H3|]. left. rewrite !app_nil_r. auto. }
  destruct K as [(_ & p & Ebs & -> & Hp)|[(? & _)|[?|[?| ?]]]]; try discriminate.
  assert (Er : x_recs (s_ctx s3) = x_recs (s_ctx s) /\ x_retr (s_ctx s3) = x_retr (s_ctx s)) by (rewrite Ec3, Ec; auto). destruct Er as (Er & Ex).
  destruct (reach_walks _ _ _ Hr) as (Wp & _). rewrite <- Er in Wp.
  cbn [status_beq andb] in H2. apply bind_inv in H2. destruct H2 as (st4 & s4 & t4 & ti & H4 & H2 & ->).
  destruct p.
  - apply ret_inv in H4. destruct H4 as (-> & -> & ->). unfold bind, ret, modc in H2. cbn [status_beq app] in H2.
    match type of H2 with Ret _ ?x _ = _ => assert (sta = Success /\ spa = Some true /\ sa = x /\ ti = []) as (-> & -> & -> & ->) by (repeat split; congruence) end.
    cbn [status_beq andb] in H. apply bind_inv in H. destruct H as (st5 & s5 & t5 & tj & H4 & H & ->).
    assert (K : st = st5 /\ sp = Some true /\ tj = [] /\ s' = if status_beq st5 Success then s5 else mkSt (transport_broke (s_ctx s5)) (s_env s5)).
    { assert (st5 <> StConnected /\ st5 <> StDisconnectPending) as (N1 & N2).
      { assert (Hr3 : Reach n m (x_recs (s_ctx (mkSt (connected (s_ctx s3) (c_keepalive ci)) (s_env s3))))) by (cbn; rewrite Er; exact Hr).
        eapply resume_spec in H4; [|exact Hr3|reflexivity]. destruct H4 as (_ & _ & done & got & _ & K).
        destruct K as [(-> & _)|(_ & [(-> & _)|(_ & id & rest & _ & [(-> & _)|(-> & _)])])]; split; discriminate. }
      unfold bind, ret, modc in H. destruct st5; try contradiction; cbn [status_beq orb app] in H |- *; repeat split; congruence. }
    destruct K as (-> & -> & -> & ->). split; [exact H3|]. right. right. split; auto. split; auto. split.
    { destruct (c_clean ci); auto. }
    exists s5, t5. split; [exact H4|]. split; auto. cbn [app]. rewrite !app_nil_r, <- !app_assoc. reflexivity.
  - eapply clean_spec in H4; eauto. destruct H4 as (-> & -> & ->). unfold bind, ret, modc in H2. cbn [status_beq app] in H2.
    match type of H2 with Ret _ ?x _ = _ => assert (sta = Success /\ spa = Some false /\ sa = x /\ ti = []) as (-> & -> & -> & ->) by (repeat split; congruence) end.
    unfold bind, ret, modc in H; cbn [status_beq andb orb app] in H.
    match type of H with Ret _ ?x _ = _ => assert (st = Success /\ sp = Some false /\ s' = x /\ tb = []) as (-> & -> & -> & ->) by (repeat split; congruence) end.
    split; [exact H3|]. right. left. repeat (split; [reflexivity|]). rewrite Ex, Er. rewrite !app_nil_r, <- ?app_assoc. reflexivity.
Qed.
End Conn.
