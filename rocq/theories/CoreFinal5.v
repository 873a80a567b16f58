(** What remains true where a property of the findings fails. *)
From Verif Require Import Base StateModel StateSpec StateHarness StateProofs StateProofs2 SerModel WireSpec SerHarness SerProofs SerProofs4
  CoreModel CoreSpec CoreHarness CoreProofs CoreProofs2 CoreProofs3 CoreProofs7 CoreProofs8 CoreProofs9 CoreProofs10 CoreProofs16
  CoreProofs19 CoreProofs20 CoreProofs21 CoreProofs22 CoreProofs23 CoreFinal CoreFinal2 CoreFinal3.

Section Final5.
Variable G : cfg.
Variables n m : nat.

(** ** A publish the store refused *)
Lemma others_last l id q p : ~ In id (ids l) -> others (l ++ [F id q p]) id = l.
Proof.
  unfold others. rewrite filter_app. cbn [filter f_id]. rewrite Z.eqb_refl. cbn [negb]. rewrite app_nil_r.
  induction l as [|f l IH]; intro H; [reflexivity|]. cbn [filter]. cbn [ids map] in H. destruct (f_id f =? id) eqn:E; [exfalso; apply H; left; lia|].
  cbn [negb]. f_equal. apply IH. intro K. apply H. now right.
Qed.
Lemma lookup_none_ids l id : lookup l id = None -> ~ In id (ids l).
Proof.
  unfold lookup, ids. induction l as [|f l IH]; [auto|]. cbn [find map]. destruct (f_id f =? id) eqn:E; [discriminate|]. intros H [K|K]; [lia|]. now apply IH in K.
Qed.
Lemma store_failed p id msg s s' t : Begun G n m s -> pub_means p id msg -> lookup (outgoing s) id = None ->
  publish G p id s = Ret PublishStoreFailed s' t ->
  p_qos p <> Q0 /\ outs t = [] /\ x_status (s_ctx s) = Connected /\ incoming s' = incoming s /\ outgoing s' = outgoing s ++ [F id (p_qos p) PublishSend] /\
  exists s'', cancel id s' = Ret Success s'' [] /\ outgoing s'' = outgoing s /\ incoming s'' = incoming s /\ s_env s'' = s_env s' /\
    s_ctx s'' = set_recs (s_ctx s') (x_recs (s_ctx s'')).
Proof.
  intros HB Hm Hl H. pose proof HB as HB0. destruct (begun_publish G n m p id msg s _ s' t HB Hm H) as (Hi & K).
  destruct K as [(_ & _ & [K|(K & _)])|(Hc & K)]; [discriminate|destruct (x_status (s_ctx s)); discriminate|].
  unfold pub_cases in K. destruct (qos_beq (p_qos p) Q0) eqn:Eq; [destruct K as (_ & [(K & _)|(K & _)]); discriminate|]. rewrite Hl in K.
  destruct (length (outgoing s) <? n)%nat eqn:En; [|destruct K as (_ & K & _); discriminate].
  destruct K as [(_ & K & _)|(Eo & [(_ & K)|(K & _)])]; try discriminate.
  split; [intros E; rewrite E in Eq; discriminate|]. split; [exact K|]. split; [exact Hc|]. split; [exact Hi|]. split; [exact Eo|].
  assert (HR : Reach n m (x_recs (s_ctx s'))).
  { eapply begun_reach, (begun_call G n m (COp (OPublish p id))); [exact HB|]. exact H. }
  assert (Hin : In id (ids (tracked (outRecs (x_recs (s_ctx s')))))).
  { fold (outgoing s'). rewrite Eo. unfold ids. rewrite map_app. apply in_or_app. right. now left. }
  assert (Hid : id <> 0).
  { intros ->. destruct (ids_unique _ _ _ HR) as (_ & _ & Q & _). now apply Q. }
  destruct (cancel_effect n m (x_recs (s_ctx s')) id HR Hid) as (st & c' & E & _ & Hst & E1 & E2).
  assert (Hst' : st = Success).
  { destruct Hst as [(_ & ->)|(Q & _)]; [reflexivity|now apply Q in Hin]. }
  subst st. exists (mkSt (set_recs (s_ctx s') c') (s_env s')).
  assert (Hsome : outRecs (x_recs (s_ctx s')) <> None).
  { intro Q. rewrite Q in Hin. destruct Hin. }
  split; [unfold cancel, bind, getc; destruct (outRecs (x_recs (s_ctx s'))); [|congruence]; unfold on_recs; rewrite E; reflexivity|].
  split; [|split; [|split; reflexivity]].
  - unfold outgoing at 1. cbn [s_ctx set_recs x_recs]. rewrite E1. fold (outgoing s'). rewrite Eo. apply others_last. now apply lookup_none_ids.
  - unfold incoming at 1. cbn [s_ctx set_recs x_recs]. rewrite E2. fold (incoming s'). exact Hi.
Qed.

(** ** A pass that handles one packet *)
Lemma spec_session v id k op : fst (fst (spec_step v (Acked id k op))) <> Success -> snd (spec_step v (Acked id k op)) = v.
Proof.
  destruct v as [co so ci re]. cbn [spec_step cap_out sent cap_in recvd]. destruct (id =? 0); [reflexivity|].
  destruct (concerns_sent k op).
  - destruct (lookup so id) as [f|]; [|reflexivity]. destruct (sender_table _ _ _ _); cbn [apply_action fst snd]; congruence.
  - destruct (lookup re id) as [f|]; [|reflexivity]. destruct (receiver_table _ _ _ _); cbn [apply_action fst snd]; congruence.
Qed.
Lemma ack_pass mk s st s' t k id : Begun G n m s -> run_call G (if mk : bool then CProcess else CReceive) s = Ret st s' t ->
  In (EPkt (ack_first (ack_of k)) (be16 id)) t ->
  exists u v s2 s3, t = u ++ EPkt (ack_first (ack_of k)) (be16 id) :: v /\ forallb unseen u = true /\
    ack_handled G n m k (be16 id) s2 st s3 v /\ session_of n m s2 = session_of n m s /\ session_of n m s3 = session_of n m s' /\
    x_status (s_ctx s3) = x_status (s_ctx s') /\ x_recs (s_ctx s2) = x_recs (s_ctx s).
Proof.
  intros HB H Hi. apply (call_loop G n m) in H; auto. eapply loop_packet in H; eauto. destruct H as (u & v & s2 & s3 & -> & Hu & H & Er & Hs & _).
  assert (Er' : x_recs (s_ctx s2) = x_recs (s_ctx s)) by (rewrite Er; destruct mk; reflexivity).
  exists u, v, s2, s3. split; [reflexivity|]. split; [exact Hu|]. split.
  - inversion H as [r s1 t1 A B|k0 r s1 t1 A B| | | | | | | |]; subst; try (destruct k; discriminate).
    + assert (k0 = k) by (destruct k0, k; discriminate || reflexivity). now subst.
    + exfalso. match goal with Q : ~ In _ _ |- _ => apply Q end. destruct k; cbn; auto 10.
  - unfold session_of, outgoing, incoming. rewrite Er'. split; [reflexivity|].
    destruct Hs as (b & i & Hs). destruct (status_beq st Success); [destruct Hs as (x & l & _ & ->)|subst s']; auto.
Qed.
Lemma ack_refused mk s st s' t k id : Begun G n m s -> run_call G (if mk : bool then CProcess else CReceive) s = Ret st s' t ->
  In (EPkt (ack_first (ack_of k)) (be16 id)) t -> 1 <= id <= 65535 ->
  fst (fst (spec_step (session_of n m s) (Acked id k OpReceive))) <> Success ->
  st = fst (fst (spec_step (session_of n m s) (Acked id k OpReceive))) /\ session_of n m s' = session_of n m s /\
  exists u, t = u ++ [EPkt (ack_first (ack_of k)) (be16 id)] /\ forallb unseen u = true.
Proof.
  intros HB H Hi Hid Hn. destruct (ack_pass _ _ _ _ _ _ _ HB H Hi) as (u & v & s2 & s3 & -> & Hu & Ha & E2 & E3 & _).
  inversion Ha as [Hb|id' s1 A1 A2 r A3 A4 A5|id' s0 s1 t1 res s4 t2 A1 A2 r A3 A4 A5 A6 A7]; subst.
  - exfalso. eapply Hb; eauto.
  - apply be16_inj in A2; [|lia|lia]. subst id'. unfold r. rewrite E2 in *. split; [reflexivity|]. split; [congruence|]. exists u. auto.
  - exfalso. apply be16_inj in A2; [|lia|lia]. subst id'. unfold r in A3. rewrite E2 in A3. now apply Hn in A3.
Qed.
Lemma clear_after mk s st s' t x : loop_handled G n m mk s st s' t -> In (EClear x) t ->
  exists t1 ty body t2, t = t1 ++ EPkt ty body :: t2 /\ In (EClear x) t2.
Proof.
  intros H Hi. destruct H as [s1 H1 H2 H3 H4|bs s1 k s2 t2 res s' t3 H1 H1' H2 H3 H4 H5 H6].
  - destruct Hi as [Hi|[]]; discriminate.
  - assert (K2 : send_only t2).
    { destruct (mk && _); [apply kept_recs in H5; apply H5|]. destruct H5 as (_ & _ & ->). reflexivity. }
    destruct Hi as [Hi|Hi]; [discriminate|]. apply in_app_iff in Hi.
    destruct Hi as [Hi|Hi]; [unfold send_only in K2; rewrite forallb_forall in K2; apply K2 in Hi; discriminate|].
    destruct H6 as [(_ & _ & -> & ->)|(-> & H6)]; [destruct Hi|].
    destruct H6 as [E|E|E|h part ty' rem' s3 err s' t A1 A2 A3 A4 A5 A6 A7 A8 A9 A10|h ty' body' rest r s3 s' t A1 A2 A3 A4 A5 A6 A7]; try (destruct Hi; fail).
    + destruct Hi as [Hi|Hi]; [discriminate|]. unfold recv_only in A4. rewrite forallb_forall in A4. apply A4 in Hi. discriminate.
    + destruct Hi as [Hi|Hi]; [discriminate|]. exists (EIn bs :: t2), ty', body', t. auto.
Qed.
(** ** PUBREC once more *)
Lemma pubrec_again mk s st s' t id f : Begun G n m s -> run_call G (if mk : bool then CProcess else CReceive) s = Ret st s' t ->
  In (EPkt 80 (be16 id)) t -> 1 <= id <= 65535 -> lookup (outgoing s) id = Some f -> f_st f = PubRelSend \/ f_st f = PubCompPending ->
  st = IllegalState /\ outgoing s' = outgoing s /\ incoming s' = incoming s /\ callbacks t = [] /\ cleared t = [] /\ In id (half_done (outgoing s')).
Proof.
  intros HB H Hi Hid Hf Hs.
  assert (E : fst (fst (spec_step (session_of n m s) (Acked id Pubrec OpReceive))) = IllegalState).
  { cbn [spec_step session_of]. replace (id =? 0) with false by lia. cbn [concerns_sent session_of sent]. rewrite Hf. destruct Hs as [-> | ->]; destruct (f_qos f); reflexivity. }
  destruct (ack_refused mk s st s' t Pubrec id HB H Hi Hid) as (A & B & u & -> & Hu); [congruence|].
  rewrite E in A. assert (Eo : outgoing s' = outgoing s) by (unfold session_of in B; congruence). split; [exact A|]. split; [exact Eo|]. split; [unfold session_of in B; congruence|].
  assert (K : forall e, In e (u ++ [EPkt 80 (be16 id)]) -> match e with ECb _ _ _ _ _ | EClear _ => False | _ => True end).
  { intros e He. destruct e; try exact I.
    - apply in_app_iff in He. destruct He as [He|[He|[]]]; [|discriminate]. rewrite forallb_forall in Hu. apply Hu in He. discriminate.
    - pose proof He as He'. apply (call_loop G n m) in H; auto. eapply clear_after in H; eauto. destruct H as (t1 & ty & body & t2 & E1 & E2).
      revert E1 E2 Hu. clear. revert t1. induction u as [|a u IH]; intros [|b t1] E E2 Hu; cbn [app] in E; injection E as E0 E1.
      + subst t2. destruct E2.
      + destruct t1; discriminate.
      + subst a. discriminate.
      + cbn [forallb] in Hu. apply andb_true_iff in Hu. destruct Hu. eauto. }
  split; [|split].
  - unfold callbacks. clear - K. induction (u ++ [_]) as [|e l IH]; [reflexivity|]. cbn [filter]. pose proof (K e (or_introl eq_refl)) as Q. rewrite IH by (intros x Hx; apply K; now right). destruct e; try reflexivity. destruct Q.
  - unfold cleared. clear - K. induction (u ++ [_]) as [|e l IH]; [reflexivity|]. cbn [flat_map]. pose proof (K e (or_introl eq_refl)) as Q. rewrite IH by (intros x Hx; apply K; now right). destruct e; try reflexivity. destruct Q.
  - rewrite Eo. unfold half_done, ids. apply in_map_iff. exists f. unfold lookup in Hf. apply find_some in Hf. destruct Hf as (Hf & Ef). split; [lia|]. apply filter_In. split; [exact Hf|]. now destruct Hs as [-> | ->].
Qed.
(** ** PUBREL while its exchange is open *)
Lemma pubrel_open mk s st s' t id f : Begun G n m s -> run_call G (if mk : bool then CProcess else CReceive) s = Ret st s' t ->
  In (EPkt 98 (be16 id)) t -> 1 <= id <= 65535 -> lookup (incoming s) id = Some f -> f_st f = PubRelPending \/ f_st f = PubCompSend ->
  In (ECb 98 (be16 id) id None Success) t /\
  ((exists a, outs t = a ++ ack_packet KPubcomp id) /\ st = Success /\ lookup (incoming s') id = None \/
   st <> Success /\ lookup (incoming s') id = Some (F id Q2 PubCompSend)).
Proof.
  intros HB H Hi Hid Hf Hs. pose proof (begun_reach G n m s HB) as HR.
  destruct (ack_pass _ _ _ _ _ Pubrel _ HB H Hi) as (u & v & s2 & s3 & -> & Hu & Ha & E2 & E3 & _).
  assert (Hq : f_id f = id /\ f_qos f = Q2).
  { unfold lookup in Hf. pose proof (find_some _ _ Hf) as (Hin & Ef). split; [lia|].
    destruct (reach_view _ _ _ HR) as [_ [_ _ _ _ H5]]. cbn [view recvd] in H5. rewrite Forall_forall in H5. apply H5 in Hin. unfold ok_recvd in Hin. destruct Hin as (_ & Hin).
    destruct Hs as [E|E]; rewrite E in Hin; destruct (f_qos f); try contradiction; reflexivity. }
  destruct Hq as (Eid & Eq).
  assert (Hsp : spec_step (session_of n m s) (Acked id Pubrel OpReceive) = (Success, Some PubCompSend, mkSession n (outgoing s) m (spec_set (incoming s) id PubCompSend))).
  { cbn [spec_step session_of]. replace (id =? 0) with false by lia. cbn [concerns_sent session_of recvd cap_out cap_in sent]. rewrite Hf, Eq. destruct Hs as [E|E]; rewrite E; cbn [receiver_table apply_action]; rewrite ?Eid; [reflexivity|].
    repeat f_equal; auto. symmetry. unfold spec_set. rewrite <- (map_id (incoming s)) at 2. apply map_ext_in. intros g Hg. destruct (f_id g =? id) eqn:Eg; [|reflexivity].
    assert (g = f). { destruct (ids_unique _ _ _ HR) as (_ & Q & _). clear - Q Hg Hf Eg. unfold lookup in Hf. apply find_some in Hf. destruct Hf as (Hf & Ef).
      fold (incoming s) in Q. revert Q Hg Hf. unfold ids. induction (incoming s) as [|x l IH]; [intros _ []|]. cbn [map]. intro Q. inversion_clear Q as [|? ? Q1 Q2].
      intros [->|Hg] [->|Hf]; auto; exfalso; apply Q1; apply in_map_iff; [exists f|exists g]; split; auto; lia. }
    subst g. clear - E Eq. destruct f; cbn in *; subst; reflexivity. }
  assert (Eid' : (f_id f =? id) = true) by lia. clear Eid.
  inversion Ha as [Hb|id' s1 A1 A2 r A3 A4 A5|id' s0 s1 t1 res s4 t2 A1 A2 r A3 A4 A5 A6 A7]; subst.
  - exfalso. eapply Hb; eauto.
  - exfalso. apply be16_inj in A2; [|lia|lia]. subst id'. apply A3. unfold r. rewrite E2, Hsp. reflexivity.
  - apply be16_inj in A2; [|lia|lia]. subst id'. cbn [reply_to app] in *. unfold r in A5. rewrite E2, Hsp in A5. cbn [snd] in A5.
    assert (Ei : incoming s1 = spec_set (incoming s) id PubCompSend).
    { destruct A6 as (t' & _ & A6). apply run_ops_frame in A6. destruct A6 as (A6 & _). unfold incoming at 1. rewrite A6. change (incoming s0 = spec_set (incoming s) id PubCompSend). unfold session_of in A5. congruence. }
    assert (El : lookup (incoming s1) id = Some (F id Q2 PubCompSend)).
    { rewrite Ei. clear - Hf Eq. unfold lookup, spec_set in *. revert Hf. induction (incoming s) as [|x l IH]; [discriminate|]. cbn [find map].
      destruct (f_id x =? id) eqn:E; [|rewrite E; exact IH]. intro Q. assert (x = f) by congruence. subst x. cbn [f_id]. rewrite E. f_equal. rewrite Eq. f_equal. lia. }
    split; [apply in_or_app; right; right; apply in_or_app; left; destruct A6 as (t' & -> & _); now left|].
    assert (Ein : incoming s3 = incoming s') by (unfold session_of in E3; congruence). rewrite <- Ein.
    destruct A7 as [(Hc & -> & -> & ->)|(Hc & _ & _ & _ & _ & [(_ & -> & _ & E5)|(Ho & _ & Er & Ev)])].
    + right. split; [destruct (x_status (s_ctx s1)); discriminate|exact El].
    + right. split; [discriminate|]. now rewrite E5.
    + left. assert (Hsp2 : spec_step (session_of n m s1) (Acked id Pubcomp OpSend) = (Success, Some PublishDone, mkSession n (outgoing s1) m (spec_drop (incoming s1) id))).
      { cbn [spec_step session_of]. replace (id =? 0) with false by lia. cbn [concerns_sent session_of recvd cap_out cap_in sent]. rewrite El. reflexivity. }
      rewrite Hsp2 in Er, Ev. cbn [fst snd] in Er, Ev. split; [|split; [exact Er|]].
      * exists (outs u ++ outs t1). rewrite outs_app. cbn [outs flat_map app]. fold (outs (t1 ++ t2)). rewrite outs_app, Ho, app_assoc. reflexivity.
      * assert (Ed : incoming s3 = spec_drop (incoming s1) id) by (unfold session_of in Ev; congruence). rewrite Ed. unfold lookup, spec_drop.
        clear. induction (incoming s1) as [|x l IH]; [reflexivity|]. cbn [filter]. destruct (f_id x =? id) eqn:E; cbn [negb find]; [exact IH|]. rewrite E. exact IH.
Qed.

(** ** Topics *)
Lemma served_shown mk t : forall cur, served mk cur t -> forall ty body id pub r, In (ECb ty body id pub r) t ->
  shown mk ty body id pub r /\ (cur = Some (ty, body) \/ In (EPkt ty body) t).
Proof.
  induction t as [|e t IH]; intros cur H ty body id pub r Hi; [destruct Hi|].
  assert (Hrec : forall cur', served mk cur' t -> (cur' = cur \/ cur' = None) -> In (ECb ty body id pub r) t -> shown mk ty body id pub r /\ (cur = Some (ty, body) \/ In (EPkt ty body) (e :: t))).
  { intros cur' Hs Hc Hin. destruct (IH _ Hs _ _ _ _ _ Hin) as (A & [B|B]); split; auto; [destruct Hc as [<-|Hc]; [now left|congruence]|right; now right]. }
  destruct e; cbn [served] in H; try (destruct Hi as [Hi|Hi]; [discriminate|eauto; fail]).
  - destruct Hi as [Hi|Hi]; [discriminate|]. destruct (IH _ H _ _ _ _ _ Hi) as (A & [B|B]); split; auto; right; [left; congruence|now right].
  - destruct H as (E & S & H). destruct Hi as [Hi|Hi]; [injection Hi as <- <- <- <- <-; auto|eauto].
Qed.
Lemma topic_delivered c s st s' t : Begun G n m s -> run_call G c s = Ret st s' t ->
  forall ty body id d r, In (ECb ty body id (Some d) r) t ->
  exists msg, publish_means ty body msg /\ In (EPkt ty body) t /\ sub body (d_topicoff d) (d_topiclen d) = pm_topic msg.
Proof.
  intros HB H ty body id d r Hi. apply (call_served G n m) in H; auto. destruct (served_shown _ _ _ H _ _ _ _ _ Hi) as (A & [B|B]); [discriminate|].
  inversion A as [msg d0 A1 A2| | | |]; subst. exists msg. split; [exact A1|]. split; [exact B|]. apply A2.
Qed.
End Final5.
