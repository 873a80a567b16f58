(** Clean and resumed sessions in MQTT_Connect. *)
From Verif Require Import Base StateModel StateSpec StateHarness StateProofs StateProofs2 SerModel WireSpec SerProofs SerProofs3
  CoreModel CoreHarness CoreSpec CoreProofs CoreProofs2 CoreProofs3 CoreProofs5 CoreProofs6 CoreProofs7 CoreProofs8.

(** ** The PUBREL cursor survives sending the PUBRELs *)
Lemma select_ext mask l l' : map (fun r => (rid r, in_mask mask (rst r))) l = map (fun r => (rid r, in_mask mask (rst r))) l' ->
  forall cur, stateSelect l mask cur = stateSelect l' mask cur.
Proof.
  assert (S : forall l l' d, map (fun r => (rid r, in_mask mask (rst r))) l = map (fun r => (rid r, in_mask mask (rst r))) l' ->
    select_loop l mask d = select_loop l' mask d).
  { clear. induction l as [|r l IH]; intros [|r' l'] d E; try discriminate; auto. cbn [map] in E. injection E as E1 E2 E3.
    cbn [select_loop]. rewrite E1, E2. destruct (in_mask mask (rst r')); auto. }
  intros E cur. unfold stateSelect. apply S. rewrite <- !skipn_map. now rewrite E.
Qed.
Lemma map_upd_same {A B} (g : A -> B) l i x y : nth_error l i = Some x -> g y = g x -> map g (upd l i y) = map g l.
Proof.
  revert i. induction l as [|a l IH]; intros [|i] E H; try discriminate; cbn in *; f_equal; auto; try congruence.
Qed.
Lemma pubrel_same_cursor c id st ns c' : updateStateAckApi c id Pubrel OpSend = Ok (st, ns, c') ->
  forall cur, pubrelToResend c' cur = pubrelToResend c cur.
Proof.
  unfold updateStateAckApi. intro H. destruct (id =? 0). { replace c' with c by congruence. auto. }
  cbn [isPublishOutgoing stateop_beq acktype_beq andb orb negb] in H. unfold isPublishOutgoing in H. cbn in H.
  destruct (findInRecord (arr (outRecs c)) id) as [[(i, r)|]|] eqn:E; cbn [rbind] in H; try discriminate.
  2: { replace c' with c by congruence. auto. }
  unfold findInRecord, rassert in E. destruct (negb (id =? 0)) eqn:E0; [|discriminate].
  assert (Ef : find_loop (arr (outRecs c)) 0 id = Some (i, r)) by congruence.
  apply find_loop_some in Ef; [|lia]. destruct Ef as (p & t & Ea & Ei & _).
  assert (Hn : nth_error (arr (outRecs c)) i = Some r).
  { rewrite Ea. subst i. now rewrite nth_error_app2, Nat.sub_diag by lia. }
  destruct (updateStateAck _ _ _ _ _) as [(st', l)|] eqn:Eu; [|discriminate]. cbn [rbind] in H.
  replace c' with (set_out c l) by congruence. clear H.
  assert (K : l = arr (outRecs c) \/ exists st, in_mask [PubCompPending; PubRelSend] st = in_mask [PubCompPending; PubRelSend] (rst r) /\
      l = upd (arr (outRecs c)) i (mkRec (rid r) (rqos r) st)).
  { unfold updateStateAck, calculateStateAck in Eu. cbn [stateop_beq] in Eu.
    destruct (qos_beq (rqos r) Q2).
    - destruct (validateTransitionAck (rst r) PubCompPending) eqn:Ev; [|left; congruence].
      destruct (pstate_beq (rst r) PubCompPending); [left; congruence|].
      unfold updateRecord in Eu. rewrite Hn in Eu. cbn [pstate_beq rbind orb] in Eu.
      right. exists PubCompPending. split; [destruct (rst r); discriminate || reflexivity|]. congruence.
    - left. destruct (rst r); cbn in Eu; congruence. }
  intro cur. unfold pubrelToResend. apply select_ext.
  assert (Hl : arr (outRecs (set_out c l)) = l).
  { unfold set_out. cbn. destruct (outRecs c); cbn in *; [reflexivity|]. destruct i; discriminate. }
  rewrite Hl. destruct K as [->|(x & Hx & ->)]; auto.
  eapply (map_upd_same (fun r => (rid r, in_mask _ (rst r)))); eauto. cbn [rid rst]. now rewrite Hx.
Qed.

(** ** Sending the PUBRELs *)
Lemma mark_nil l : mark [] l = l.
Proof. unfold mark. rewrite <- (map_id l) at 2. apply map_ext. reflexivity. Qed.
Lemma mark_cons id done l : mark done (spec_set l id PubCompPending) = mark (id :: done) l.
Proof.
  unfold mark, spec_set. rewrite map_map. apply map_ext. intro f. cbn [mem existsb].
  destruct (f_id f =? id) eqn:E; cbn [f_id f_qos orb]; auto.
  destruct (mem (f_id f) done); reflexivity.
Qed.
Lemma pubrel_eq id : pubrel id = [98; 2; hi8 id; lo8 id].
Proof.
  unfold pubrel, hi8, lo8, u8. rewrite Z.shiftr_div_pow2 by lia. change (2 ^ 8) with 256. change 255 with (Z.ones 8).
  rewrite Z.land_ones by lia. change (2 ^ 8) with 256. now rewrite Z.mod_mod by lia.
Qed.

(** every publish the PUBREL cursor visits can have its PUBREL sent *)
Lemma ack_pubrel n m c id : Reach n m c -> In id (relq (tracked (outRecs c))) ->
  exists c', updateStateAckApi c id Pubrel OpSend = Ok (Success, Some PubCompPending, c') /\ Reach n m c' /\
    tracked (outRecs c') = spec_set (tracked (outRecs c)) id PubCompPending /\ tracked (inRecs c') = tracked (inRecs c).
Proof.
  intros Hr Hi. unfold relq in Hi. unfold ids in Hi. apply in_map_iff in Hi. destruct Hi as (f & Ef & Hf).
  apply filter_In in Hf. destruct Hf as (Hf & Hrel).
  assert (Hin : In id (ids (tracked (outRecs c)))) by (unfold ids; apply in_map_iff; eauto).
  pose proof (nonzero_in _ _ _ _ Hr Hin) as Hid.
  destruct (ack_effect n m c id Pubrel OpSend Hr Hid) as (st & ns & c' & E & R' & Ho & K).
  unfold other_side, side in *. cbn [concerns_sent] in *.
  destruct (lookup (tracked (outRecs c)) id) as [g|] eqn:El.
  2: { apply lookup_none_iff in El. contradiction. }
  assert (g = f) as ->.
  { destruct (ids_unique _ _ _ Hr) as (Nd & _). clear - Nd El Hf Ef. unfold ids in Nd.
    induction (tracked (outRecs c)) as [|x l IH]; [destruct Hf|]. cbn [lookup find map] in *.
    apply NoDup_cons_iff in Nd. destruct Nd as (N1 & N2). unfold lookup in *. cbn [find] in El.
    destruct (f_id x =? id) eqn:Ex.
    - assert (g = x) by congruence. subst g. destruct Hf as [->|Hf]; auto. exfalso. apply N1. apply in_map_iff. exists f. split; auto. lia.
    - destruct Hf as [->|Hf]; [lia|]. auto. }
  assert (Hok : ok_sent f).
  { destruct (reach_view _ _ _ Hr) as [[_ _ _ _ H5] _]. cbn [view sent] in H5. rewrite Forall_forall in H5. apply H5. exact Hf. }
  unfold ok_sent in Hok. unfold ack_table in K. cbn [concerns_sent] in K.
  destruct f as [fi fq fs]. cbn [f_id f_qos f_st] in *. subst fi.
  unfold is_rel in Hrel. cbn [f_st] in Hrel.
  assert (Q : fq = Q2). { destruct fs; try discriminate; cbn in Hok; destruct fq; intuition discriminate. }
  subst fq. destruct fs; try discriminate; cbn [sender_table apply_action f_id f_st] in K.
  - exists c'. assert (st = Success /\ ns = Some PubCompPending /\ tracked (outRecs c') = spec_set (tracked (outRecs c)) id PubCompPending) as (-> & -> & ->) by (repeat split; congruence). auto.
  - exists c'. assert (st = Success /\ ns = Some PubCompPending /\ tracked (outRecs c') = tracked (outRecs c)) as (-> & -> & ->) by (repeat split; congruence).
    split; auto. split; auto. split; auto.
    destruct (ids_unique _ _ _ Hr) as (Nd & _). clear - Nd Hf. unfold ids in Nd. unfold spec_set.
    induction (tracked (outRecs c)) as [|x l IH]; auto. cbn [map] in *. apply NoDup_cons_iff in Nd. destruct Nd as (N1 & N2).
    destruct Hf as [->|Hf].
    + cbn [f_id f_qos] in *. rewrite Z.eqb_refl. f_equal. rewrite <- (map_id l) at 1. apply map_ext_in. intros a Ha.
      destruct (f_id a =? id) eqn:E; auto. exfalso. apply N1. apply in_map_iff. exists a. split; auto; lia.
    + f_equal; auto. destruct (f_id x =? id) eqn:E; auto. exfalso. apply N1. apply in_map_iff. exists (F id Q2 PubCompPending). split; auto; cbn; lia.
Qed.
Lemma relq_set l id x : In x (relq l) -> In x (relq (spec_set l id PubCompPending)).
Proof.
  unfold relq, ids, spec_set. rewrite !in_map_iff. intros (f & E & H). apply filter_In in H. destruct H as (H & Hr).
  exists (if f_id f =? id then F (f_id f) (f_qos f) PubCompPending else f). split; [destruct (f_id f =? id); auto|].
  apply filter_In. split; [apply in_map_iff; eauto|]. destruct (f_id f =? id); auto.
Qed.

Section Resume.
Variable G : cfg.
Lemma sentb_ok_status bs s s' t : sentb bs s true s' t -> x_status (s_ctx s') = x_status (s_ctx s) /\
  x_retr (s_ctx s') = x_retr (s_ctx s) /\ errs t = false /\ outs t = bs /\ e_retrs (s_env s') = e_retrs (s_env s).
Proof.
  intros (k & l & Q1 & Q2 & Q3 & (a & b & Q4) & Q5 & Q6 & Q7). destruct Q7 as [(E & ->)|(? & _)]; [|discriminate].
  cbn. assert (k = length bs) by tauto. subst k. rewrite firstn_all in Q2. rewrite Q4. auto.
Qed.
Lemma sentb_only bs s ok s' t : sentb bs s ok s' t -> send_only t.
Proof. intros (k & l & _ & _ & H & _). exact H. Qed.
Lemma sentb_fail bs s s' t : sentb bs s false s' t -> exists k, (k < length bs)%nat /\ outs t = firstn k bs /\
  x_recs (s_ctx s') = x_recs (s_ctx s).
Proof.
  intros H. pose proof (sentb_recs _ _ _ _ _ H) as E. destruct H as (k & l & Q1 & Q2 & _ & _ & _ & Q6 & _). exists k.
  split; auto. assert (k <> length bs) by (intro; destruct Q6; intuition congruence). lia.
Qed.
Lemma pubrel_loop_spec n m fuel : forall l cur0 pid cur s st s' t,
  Reach n m (x_recs (s_ctx s)) -> x_status (s_ctx s) = Connected ->
  Walk (pubrelToResend (x_recs (s_ctx s))) cur0 l -> (forall id, In id l -> In id (relq (tracked (outRecs (x_recs (s_ctx s)))))) ->
  pubrelToResend (x_recs (s_ctx s)) cur0 = (pid, cur) ->
  pubrel_loop G fuel pid cur s = Ret st s' t ->
  let before := tracked (outRecs (x_recs (s_ctx s))) in let after := tracked (outRecs (x_recs (s_ctx s'))) in
  Path false s s' t /\ tracked (inRecs (x_recs (s_ctx s'))) = tracked (inRecs (x_recs (s_ctx s))) /\ send_only t /\
  e_retrs (s_env s') = e_retrs (s_env s) /\
  (st = Success /\ x_status (s_ctx s') = Connected /\ errs t = false /\ outs t = flat_map pubrel l /\ after = mark l before \/
   st = SendFailed /\ exists done id rest k, l = done ++ id :: rest /\ (k < 4)%nat /\
     outs t = flat_map pubrel done ++ firstn k (pubrel id) /\ after = mark done before).
Proof.
  induction fuel as [|fuel IH]; intros l cur0 pid cur s st s' t Hr Hs Hw Hin Hc H before after; cbn [pubrel_loop] in H; [mgo H|].
  destruct (pid =? 0) eqn:E0.
  { mgo H. inversion Hw as [c c' Hn|c c' id l' Hn Hid Hw']; subst; [|exfalso; congruence || (rewrite Hc in Hn; assert (pid = id) by congruence; lia)].
    split; [constructor|]. split; auto. split; [reflexivity|]. split; auto. left. subst before after. rewrite mark_nil. auto. }
  inversion Hw as [c c' Hn|c c' id l' Hn Hid Hw']; subst; rewrite Hc in Hn; [exfalso; assert (pid = 0) by congruence; lia|].
  assert (pid = id /\ cur = c') as (-> & ->) by (split; congruence). clear Hn.
  apply bind_inv in H. destruct H as (x & s1 & t1 & t2 & H1 & H & ->).
  pose proof (acks_path G false _ _ _ _ _ _ H1) as P1.
  destruct (ack_pubrel n m _ id Hr (Hin id (or_introl eq_refl))) as (c1 & Ea & R1 & T1 & T2).
  apply sendPublishAcks_spec in H1. cbn [ackToSend] in H1.
  destruct H1 as [(? & _)|[(_ & Hx & _)|(_ & _ & ok & s2 & Hsent & H1)]]; [congruence|congruence|].
  change PKT_PUBREL with 98 in Hsent. rewrite <- pubrel_eq in Hsent.
  assert (So1 : send_only t1) by exact (sentb_only _ _ _ _ _ Hsent).
  destruct H1 as [(-> & -> & ->)|(-> & ns & r & Eu & ->)].
  { cbn [status_beq negb] in H. mgo H. rewrite app_nil_r.
    destruct (sentb_fail _ _ _ _ Hsent) as (k & K1 & K2 & K3).
    assert (Er : e_retrs (s_env s2) = e_retrs (s_env s)) by (destruct Hsent as (? & ? & _ & _ & _ & (? & ? & ->) & _); reflexivity).
    subst before after. rewrite K3. split; [exact P1|]. split; auto. split; auto. split; auto. right. split; auto.
    exists [], id, l', k. cbn [app flat_map]. rewrite mark_nil. repeat split; auto. }
  assert (x = Success /\ r = c1) as (-> & ->) by (split; congruence). cbn [status_beq negb] in H.
  destruct (sentb_ok_status _ _ _ _ Hsent) as (S1 & S2 & S3 & S4 & S5).
  apply bind_inv in H. destruct H as (c & sx & tx & ty & H1 & H & ->). mgo H1. cbn [x_recs set_recs s_ctx] in H.
  rewrite (pubrel_same_cursor _ _ _ _ _ Eu) in H.
  destruct (pubrelToResend (x_recs (s_ctx s)) c') as (pid2, cur2) eqn:E2.
  apply IH with (l := l') (cur0 := c') in H; cbn [s_ctx set_recs x_recs].
  - destruct H as (P2 & I2 & So2 & E4 & H). cbn [s_ctx s_env set_recs x_recs] in I2, H, E4.
    split; [eapply path_app; eauto|]. split; [congruence|]. cbn [app].
    split. { unfold send_only in *. rewrite forallb_app, So1, So2. reflexivity. }
    split; [congruence|]. rewrite !outs_app, errs_app, S4. rewrite T1 in H.
    destruct H as [(-> & X1 & X2 & X3 & X4)|(-> & done & i2 & rest & k & -> & X1 & X2 & X3)].
    + left. split; auto. split; auto. rewrite S3, X2, X3. split; auto. split; auto. subst after. rewrite X4. apply mark_cons.
    + right. split; auto. exists (id :: done), i2, rest, k. split; auto. split; auto. cbn [flat_map]. rewrite X2, app_assoc. split; auto.
      subst after. rewrite X3. apply mark_cons.
  - exact R1.
  - cbn [x_status set_recs set_ctl]. congruence.
  - clear - Hw' Eu. cbn [s_ctx set_recs x_recs]. induction Hw'; econstructor; eauto; rewrite (pubrel_same_cursor _ _ _ _ _ Eu); eauto.
  - intros x Hx. rewrite T1. apply relq_set. apply Hin. now right.
  - now rewrite (pubrel_same_cursor _ _ _ _ _ Eu).
Qed.

(** ** Sending the stored publishes *)
Lemma retrieved_app a b : retrieved (a ++ b) = retrieved a ++ retrieved b.
Proof. apply flat_map_app. Qed.
Lemma send_retrieved t : send_only t -> retrieved t = [].
Proof. induction t as [|e t IH]; auto. unfold send_only. cbn. destruct e; cbn; auto; discriminate. Qed.
Lemma publish_loop_spec fuel : forall l cur s st s' t,
  x_status (s_ctx s) = Connected -> Walk (publishToResend (x_recs (s_ctx s))) cur l ->
  publish_loop G fuel cur s = Ret st s' t ->
  Path false s s' t /\ x_recs (s_ctx s') = x_recs (s_ctx s) /\
  exists done got, retrieved t = map (fun p => (fst p, Some (snd p))) done ++ got /\
  (st = Success /\ x_status (s_ctx s') = Connected /\ errs t = false /\ got = [] /\ map fst done = l /\ outs t = flat_map snd done \/
   exists id rest, l = map fst done ++ id :: rest /\
    (st = PublishRetrieveFailed /\ got = [(id, None)] /\ outs t = flat_map snd done \/
     st = SendFailed /\ exists bs k, got = [(id, Some bs)] /\ (k < length bs)%nat /\ outs t = flat_map snd done ++ firstn k bs)).
Proof.
  induction fuel as [|fuel IH]; intros l cur s st s' t Hs Hw H; cbn [publish_loop] in H; [mgo H|].
  apply bind_inv in H. destruct H as (c & sx & tx & ty & H1 & H & ->). mgo H1.
  destruct (publishToResend (x_recs (s_ctx s)) cur) as (pid, cur2) eqn:E.
  destruct (pid =? 0) eqn:E0.
  { mgo H. inversion Hw as [c c' Hn|c c' id l' Hn Hid Hw']; subst; [|exfalso; rewrite E in Hn; assert (pid = id) by congruence; lia].
    split; [constructor|]. split; auto. exists [], []. split; auto. left. repeat split; auto. }
  inversion Hw as [c c' Hn|c c' id l' Hn Hid Hw']; subst; rewrite E in Hn; [exfalso; assert (pid = 0) by congruence; lia|].
  assert (pid = id /\ cur2 = c') as (-> & ->) by (split; congruence). clear Hn.
  apply bind_inv in H. destruct H as (x & s1 & t1 & t2 & H1 & H & ->).
  unfold retrieve_publish in H1.
  assert (x = match e_retrs (s_env s) with [] => None | x :: _ => x end /\
    s1 = mkSt (s_ctx s) (env_retrs (s_env s) (tl (e_retrs (s_env s)))) /\ t1 = [ERetrieve id x]) as (Ex & Es1 & Et1) by (repeat split; congruence).
  clear H1. assert (P1 : Path false s s1 t1).
  { subst s1 t1. apply path_one, a_local; repeat split. }
  assert (Hs1 : x_status (s_ctx s1) = Connected /\ x_recs (s_ctx s1) = x_recs (s_ctx s)) by (subst s1; auto). destruct Hs1 as (Hs1 & Hc1).
  clear Es1 Ex. subst t1. cbn [app]. destruct x as [bs|].
  2: { mgo H. split; [exact P1|]. split; auto. exists [], [(id, None)]. split; auto. right. exists id, l'. split; auto. }
  apply bind_inv in H. destruct H as (nb & s2 & t1 & t3 & H1 & H & ->).
  apply sendBuffer_spec in H1. pose proof (sent_ok_sentb _ _ _ _ _ H1) as Hb.
  pose proof (sentb_recs _ _ _ _ _ Hb) as Er. assert (Hso : send_only t1) by exact (sentb_only _ _ _ _ _ Hb).
  pose proof (sentb_path false _ _ _ _ _ Hs1 Hb) as P2.
  destruct (nb =? zlen bs) eqn:En; cbn [negb] in H.
  - destruct (sentb_ok_status _ _ _ _ Hb) as (S1 & S2 & S3 & S4 & S5).
    apply IH with (l := l') in H; [|congruence|rewrite Er, Hc1; auto].
    destruct H as (P3 & E3 & done & got & X1 & X2).
    split. { change (ERetrieve id (Some bs) :: t1 ++ t3) with ([ERetrieve id (Some bs)] ++ t1 ++ t3). repeat (eapply path_app; [eassumption|]). auto. }
    split; [congruence|]. exists ((id, bs) :: done), got.
    change (ERetrieve id (Some bs) :: t1 ++ t3) with ([ERetrieve id (Some bs)] ++ t1 ++ t3).
    rewrite !retrieved_app, !outs_app, !errs_app, (send_retrieved _ Hso), X1, S3, S4. split; auto.
    destruct X2 as [(-> & Y1 & Y2 & -> & Y3 & Y4)|(i2 & rest & -> & Y)].
    + left. rewrite Y2, Y4. cbn [map fst flat_map snd]. rewrite Y3. repeat split; auto.
    + right. exists i2, rest. split; auto. cbn [flat_map snd outs app].
      destruct Y as [(-> & -> & Y)|(-> & b & k & -> & Y1 & Y2)].
      * left. rewrite Y. auto.
      * right. split; auto. exists b, k. rewrite Y2, app_assoc. auto.
  - destruct (sentb_fail _ _ _ _ Hb) as (k & K1 & K2 & K3). mgo H. rewrite app_nil_r.
    split. { change (ERetrieve id (Some bs) :: t1) with ([ERetrieve id (Some bs)] ++ t1). eapply path_app; eauto. }
    split; [congruence|]. exists [], [(id, Some bs)].
    change (ERetrieve id (Some bs) :: t1) with ([ERetrieve id (Some bs)] ++ t1).
    rewrite !retrieved_app, !outs_app, (send_retrieved _ Hso), K2. split; auto.
    right. exists id, l'. split; auto. right. split; auto. exists bs, k. auto.
Qed.
End Resume.
