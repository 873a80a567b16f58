(** Deliveries: exactly once, and only of valid packets. *)
From Verif Require Import Base StateModel StateSpec StateHarness StateProofs StateProofs2 SerModel WireSpec SerHarness SerProofs SerProofs4
  CoreModel CoreSpec CoreHarness CoreProofs CoreProofs2 CoreProofs3 CoreProofs7 CoreProofs8 CoreProofs10 CoreProofs12 CoreProofs13 CoreProofs16 CoreProofs19 CoreProofs20 CoreProofs21.

Definition held (id : Z) (l : list flight) : Prop := exists f, In f l /\ f_id f = id /\ f_qos f = Q2.
Definition calm_t (t : list ev) : Prop := forall e, In e t -> delivery e = None.
Lemma calm_app a b : calm_t (a ++ b) <-> calm_t a /\ calm_t b.
Proof. unfold calm_t. setoid_rewrite in_app_iff. firstorder. Qed.
Lemma calm_nil : calm_t [].
Proof. intros e []. Qed.
Lemma calm_cons e t : delivery e = None -> calm_t t -> calm_t (e :: t).
Proof. intros H K x [<-|Hx]; auto. Qed.
Lemma send_calm t : send_only t -> calm_t t.
Proof. unfold send_only. rewrite forallb_forall. intros H e He. specialize (H e He). destruct e; discriminate || reflexivity. Qed.
Lemma recv_calm t : recv_only t -> calm_t t.
Proof. unfold recv_only. rewrite forallb_forall. intros H e He. specialize (H e He). destruct e; discriminate || reflexivity. Qed.
Lemma op_calm t : forallb op_ev t = true -> calm_t t.
Proof. rewrite forallb_forall. intros H e He. specialize (H e He). destruct e; discriminate || reflexivity. Qed.

Lemma held_set id l id0 x : held id (spec_set l id0 x) <-> held id l.
Proof.
  unfold held, spec_set. split.
  - intros (f & Hf & E1 & E2). apply in_map_iff in Hf. destruct Hf as (g & Eg & Hg). exists g. split; auto.
    destruct (f_id g =? id0); subst f; cbn in *; auto.
  - intros (f & Hf & E1 & E2). exists (if f_id f =? id0 then F (f_id f) (f_qos f) x else f).
    split; [apply in_map_iff; exists f; auto|]. destruct (f_id f =? id0); auto.
Qed.
Lemma held_drop id l id0 : id <> id0 -> held id l -> held id (spec_drop l id0).
Proof.
  intros Hn (f & Hf & E1 & E2). exists f. split; auto. unfold spec_drop. apply filter_In. split; auto. apply negb_true_iff. lia.
Qed.
Lemma lookup_in l id f : lookup l id = Some f -> In f l /\ f_id f = id.
Proof. unfold lookup. intro H. apply find_some in H. split; [apply H|lia]. Qed.
Lemma nodup_same l f g : NoDup (ids l) -> In f l -> In g l -> f_id f = f_id g -> f = g.
Proof.
  unfold ids. induction l as [|x l IH]; [intros _ []|]. cbn [map]. intros H. inversion H; subst. intros [<-|Hf] [<-|Hg] E; auto.
  - exfalso. apply H2. rewrite E. now apply in_map.
  - exfalso. apply H2. rewrite <- E. now apply in_map.
Qed.

(** acknowledgements sent or received keep the publish, except PUBCOMP sent *)
Lemma acked_held v id0 k op id : NoDup (ids (recvd v)) -> held id (recvd v) ->
  held id (recvd (snd (spec_step v (Acked id0 k op)))) \/ id0 = id /\ k = Pubcomp /\ op = OpSend.
Proof.
  intros Hn Hh. cbn [spec_step]. destruct (id0 =? 0); [now left|]. destruct (concerns_sent k op) eqn:Ec.
  - left. destruct (lookup _ id0) as [f|]; [|exact Hh]. destruct (apply_action _ _ _) as ((a, b), l). exact Hh.
  - destruct (lookup (recvd v) id0) as [f|] eqn:El; [|now left]. apply lookup_in in El. destruct El as (Hf & Ef).
    destruct (receiver_table (f_qos f) (f_st f) k op) eqn:Et; cbn [apply_action snd recvd].
    + left. now apply held_set.
    + exfalso. destruct (f_qos f), (f_st f), k, op; discriminate.
    + now left.
    + destruct (Z.eq_dec id (f_id f)) as [E|E]; [|left; now apply held_drop]. right.
      destruct Hh as (g & Hg & Eg & Qg). assert (g = f) by (apply (nodup_same (recvd v)); auto; congruence). subst g.
      rewrite Qg in Et. destruct (f_st f), k, op; try discriminate. split; [congruence|auto].
    + now left.
Qed.

(** ** MQTT_Connect shows nothing to the application *)
Definition unseen (e : ev) : bool := match e with EPkt _ _ | ECb _ _ _ _ _ => false | _ => true end.
Definition hidden (s s' : st) (t : list ev) : Prop := forallb unseen t = true.
Section Hidden.
Variable G : cfg.
Notation K := (keeps hidden).
Lemma h_trans a b c t u : hidden a b t -> hidden b c u -> hidden a c (t ++ u).
Proof. unfold hidden. intros H1 H2. rewrite forallb_app, H1. exact H2. Qed.
Lemma h_refl s : hidden s s []. Proof. reflexivity. Qed.
Lemma h_any {A} (f : Mo A) : (forall s a s' t, f s = Ret a s' t -> forallb unseen t = true) -> K f.
Proof. exact (fun H => H). Qed.
Lemma h_bind {A B} (f : Mo A) (k : A -> Mo B) : K f -> (forall a, K (k a)) -> K (bind f k).
Proof. apply k_bind. apply h_trans. Qed.
Lemma h_modc f : K (modc f).
Proof. intros s [] s' t H. apply modc_inv in H. destruct H as (_ & ->). reflexivity. Qed.
Lemma h_emit e : unseen e = true -> K (emit e).
Proof. intros He s [] s' t H. apply emit_inv in H. destruct H as (_ & ->). unfold hidden. cbn. now rewrite He. Qed.
Lemma h_on_recs {A} (f : recs -> Base.R (A * recs)) : K (on_recs f).
Proof. intros s a s' t H. apply on_recs_inv in H. destruct H as (c & _ & _ & ->). reflexivity. Qed.
Lemma h_getTime : K getTime.
Proof. apply h_any. intros s a s' t H. unfold getTime in H. destruct (e_times _); [discriminate|]. injection H as _ _ <-. reflexivity. Qed.
Lemma h_trecv n : K (trecv n).
Proof. apply h_any. intros s a s' t H. unfold trecv in H. destruct (e_recvs _); [discriminate|]. destruct (z <? 0); injection H as _ _ <-; reflexivity. Qed.
Lemma h_retrieve id : K (retrieve_publish id).
Proof. apply h_any. intros s a s' t H. unfold retrieve_publish in H. injection H as _ _ <-. reflexivity. Qed.
Lemma recv_unseen t : recv_only t -> forallb unseen t = true.
Proof. unfold recv_only. rewrite !forallb_forall. intros H e He. specialize (H e He). destruct e; discriminate || reflexivity. Qed.
Lemma h_header : K getIncomingHeader.
Proof. apply h_any. intros s [st h] s' t H. apply CoreProofs6.getIncomingHeader_spec in H. destruct H as (bs & e & _ & (_ & F & _) & _). now apply recv_unseen. Qed.
Lemma h_op_event (s : st) e : op_event e = true -> hidden s s [e].
Proof. destruct e; discriminate || reflexivity. Qed.
Lemma h_sendBuffer bs : K (sendBuffer G bs).
Proof. apply k_sendBuffer; [apply h_refl|apply h_trans|reflexivity|apply h_op_event]. Qed.
Lemma h_sendv vs : K (sendMessageVector G vs).
Proof. apply k_sendMessageVector; [apply h_refl|apply h_trans|reflexivity|apply h_op_event]. Qed.
Opaque sendBuffer sendMessageVector getIncomingHeader recvExact.
Ltac hp := repeat first
  [ assumption
  | apply k_ret, h_refl | apply k_lift, h_refl | apply k_massert, h_refl | apply k_getc, h_refl | apply k_gete, h_refl
  | apply h_getTime | apply h_trecv | apply k_undef | apply k_stuck | apply h_on_recs | apply h_sendBuffer | apply h_sendv | apply h_header | apply h_retrieve
  | apply h_modc | apply h_emit; reflexivity
  | apply h_bind; [|intros ?]
  | match goal with
    | |- keeps _ (if ?b then _ else _) => destruct b
    | |- keeps _ (match ?x with _ => _ end) => destruct x
    end ].
Lemma h_acks id ps : K (sendPublishAcks G id ps).
Proof. unfold sendPublishAcks. hp. Qed.
Opaque sendPublishAcks.
Lemma h_exact_loop fuel : forall a b c d, K (recvExact_loop G fuel a b c d).
Proof. induction fuel as [|fuel IH]; intros; cbn [recvExact_loop]; [hp|]. unfold recv_into. hp; auto. Qed.
Transparent recvExact.
Lemma h_exact k : K (recvExact G k).
Proof. unfold recvExact. hp. apply h_exact_loop. Qed.
Opaque recvExact.
Lemma h_discard2 a b : K (discardPacket G a b).
Proof.
  assert (L : forall fuel a b c d e, K (discard_loop G fuel a b c d e)).
  { induction fuel as [|fuel IH]; intros; cbn [discard_loop]; [hp|]. hp; auto using h_exact. }
  unfold discardPacket. hp. apply L.
Qed.
Opaque discardPacket.
Lemma h_connect ci will tmo : K (connect G ci will tmo).
Proof.
  assert (L1 : forall fuel a b c, K (connack_loop G fuel a b c)).
  { induction fuel as [|fuel IH]; intros; cbn [connack_loop]; hp. apply IH. }
  assert (L2 : forall fuel a b, K (pubrel_loop G fuel a b)).
  { induction fuel as [|fuel IH]; intros; cbn [pubrel_loop]; hp; auto using h_acks. }
  assert (L3 : forall fuel a, K (publish_loop G fuel a)).
  { induction fuel as [|fuel IH]; intros; cbn [publish_loop]; hp; auto. }
  assert (L4 : forall fuel a, K (clear_loop fuel a)).
  { induction fuel as [|fuel IH]; intros; cbn [clear_loop]; unfold clear_publish; hp; auto. }
  unfold connect, sendConnectWithoutCopy, receiveConnack, receivePacket, handleCleanSession, handleUncleanSessionResumption.
  hp; auto using h_exact, h_discard2.
Qed.
End Hidden.
Transparent sendBuffer sendMessageVector getIncomingHeader recvExact sendPublishAcks discardPacket.
Lemma unseen_calm t : forallb unseen t = true -> calm_t t.
Proof. rewrite forallb_forall. intros H e He. specialize (H e He). destruct e; discriminate || reflexivity. Qed.

Section Deliver.
Variable G : cfg.
Variables n m : nat.
Definition idsok (s : st) : Prop := NoDup (ids (incoming s)).
Lemma reach_ids s : Reach n m (x_recs (s_ctx s)) -> idsok s.
Proof. intro H. apply ids_unique in H. unfold idsok, incoming. tauto. Qed.

Lemma app_frame e s s' t : app_call G e s s' t -> incoming s' = incoming s /\ exists t', t = e :: t' /\ forallb op_ev t' = true.
Proof.
  intros (t' & -> & H). apply run_ops_frame in H. destruct H as (E & F). split; [unfold incoming; rewrite E; reflexivity|eauto].
Qed.
Lemma replied_held k id0 s res s' t id : replied n m k id0 s res s' t -> idsok s -> held id (incoming s) ->
  calm_t t /\ (held id (incoming s') \/ id0 = id /\ k = Pubcomp /\ outs t = ack_packet KPubcomp id).
Proof.
  intros [(_ & _ & -> & ->)|(_ & Hs & _ & _ & _ & [(_ & _ & _ & E)|(Ho & _ & Hr)])] Hn Hh.
  - split; [apply calm_nil|auto].
  - split; [now apply send_calm|]. left. now rewrite E.
  - split; [now apply send_calm|]. cbv zeta in Hr. destruct Hr as (_ & Hr).
    destruct (acked_held (session_of n m s) id0 k OpSend id) as [K|(-> & -> & _)]; auto.
    left. rewrite <- Hr in K. exact K.
Qed.
Lemma session_incoming s s0 : session_of n m s0 = session_of n m s -> incoming s0 = incoming s.
Proof. unfold session_of. congruence. Qed.

(** what handling a packet means for the publish [id] *)
Definition once (id : Z) (s s' : st) (t : list ev) : Prop :=
  (held id (incoming s) -> (forall e q, In e t -> delivery e <> Some (id, q)) /\ (held id (incoming s') \/ completed id t)) /\
  (forall t1 e t2, t = t1 ++ e :: t2 -> delivery e = Some (id, Q2) -> calm_t t1 /\ calm_t t2 /\ held id (incoming s')).
Lemma once_calm id s s' t : calm_t t -> (held id (incoming s) -> held id (incoming s') \/ completed id t) -> once id s s' t.
Proof.
  intros Hc Hh. split.
  - intro K. split; auto. intros e q He. rewrite (Hc e He). discriminate.
  - intros t1 e t2 -> He. rewrite (Hc e) in He; [discriminate|]. apply in_or_app. right. now left.
Qed.
Lemma calm_split t1 t2 u e v id q : calm_t t1 -> calm_t t2 -> forall x, t1 ++ x :: t2 = u ++ e :: v -> delivery e = Some (id, q) -> e = x /\ u = t1 /\ v = t2.
Proof.
  revert u. induction t1 as [|a t1 IH]; intros u H1 H2 x E He.
  - destruct u as [|b u]; cbn [app] in E; [injection E as -> ->; auto|]. injection E as -> ->. rewrite (H2 e) in He; [discriminate|]. apply in_or_app. right. now left.
  - destruct u as [|b u]; cbn [app] in E.
    + injection E as -> _. rewrite (H1 e) in He; [discriminate|]. now left.
    + injection E as -> E. destruct (IH u) with (x := x) as (-> & -> & ->); auto. intros y Hy. apply H1. now right.
Qed.
Lemma publish_once id ty body s res s' t : idsok s -> publish_handled G n m ty body s res s' t -> once id s s' t.
Proof.
  intros Hn H. destruct H.
  - apply once_calm; [apply calm_nil|auto].
  - apply app_frame in H2. destruct H2 as (E & t' & -> & F). apply once_calm; [|rewrite E; auto].
    apply calm_cons; [|now apply op_calm]. cbn [delivery]. destruct H0 as (-> & _). now rewrite H1.
  - apply once_calm; [apply calm_nil|auto].
  - assert (E : incoming s0 = incoming s) by now apply session_incoming. assert (Hn0 : idsok s0) by (unfold idsok; rewrite E; exact Hn).
    assert (C : calm_t t).
    { destruct H5 as [(_ & _ & -> & ->)|(_ & Hs & _)]; [apply calm_nil|now apply send_calm]. }
    apply once_calm; auto. intro Hh. rewrite <- E in Hh. destruct (replied_held _ _ _ _ _ _ _ H5 Hn0 Hh) as (_ & [K|(_ & K & _)]); auto.
    destruct (pm_qos msg); discriminate.
  - apply app_frame in H8. destruct H8 as (E1 & t' & -> & F). apply op_calm in F.
    assert (Hn1 : idsok s1).
    { unfold idsok. rewrite E1, H7. unfold ids. rewrite map_app. cbn [map f_id].
      assert (Hni : ~ In (pm_id msg) (map f_id (incoming s))). { intro K. apply in_flight_iff in K. congruence. }
      clear - Hn Hni. unfold idsok, ids in Hn. revert Hn Hni. generalize (map f_id (incoming s)). intro l. induction l as [|a l IH]; intros Hn Hni; cbn [app].
      - constructor; [intros []|constructor].
      - inversion Hn; subst. constructor; [|apply IH; auto; intro K; apply Hni; now right]. rewrite in_app_iff. intros [K|[<-|[]]]; [auto|]. apply Hni. now left. }
    assert (C : calm_t t).
    { destruct H9 as [(_ & _ & -> & ->)|(_ & Hs & _)]; [apply calm_nil|now apply send_calm]. }
    assert (Ed : delivery (ECb ty body (pm_id msg) (Some d) Success) = Some (pm_id msg, pm_qos msg)).
    { cbn [delivery]. destruct H0 as (-> & _). destruct (pm_qos msg); [congruence|reflexivity..]. }
    split.
    + intro Hh.
      assert (Hne : id <> pm_id msg).
      { intros ->. destruct Hh as (f & Hf & Ef & _). assert (in_flight (incoming s) (pm_id msg) = true); [|congruence].
        apply in_flight_iff. unfold ids. rewrite <- Ef. now apply in_map. }
      split.
      * intros e q He. cbn [app] in He. destruct He as [<-|He]; [rewrite Ed; congruence|]. apply in_app_iff in He.
        destruct He as [He|He]; [rewrite (F e He)|rewrite (C e He)]; discriminate.
      * left. assert (Hh1 : held id (incoming s1)).
        { rewrite E1, H7. destruct Hh as (f & Hf & K). exists f. split; auto. apply in_or_app. now left. }
        destruct (replied_held _ _ _ _ _ _ _ H9 Hn1 Hh1) as (_ & [K|(K & _)]); [exact K|congruence].
    + intros t1 e t2 E He. cbn [app] in E. change (ECb ty body (pm_id msg) (Some d) Success :: t' ++ t) with ([] ++ ECb ty body (pm_id msg) (Some d) Success :: t' ++ t) in E.
      destruct (calm_split [] (t' ++ t) t1 e t2 id Q2) with (x := ECb ty body (pm_id msg) (Some d) Success) as (-> & -> & ->); auto; [apply calm_nil|apply calm_app; auto|].
      rewrite Ed in He. assert (pm_id msg = id) by congruence. assert (Eq : pm_qos msg = Q2) by congruence.
      split; [apply calm_nil|]. split; [apply calm_app; auto|].
      assert (Hh1 : held id (incoming s1)).
      { rewrite E1, H7, Eq. exists (StateSpec.F id Q2 PubRecSend). split; [apply in_or_app; right; left; congruence|auto]. }
      rewrite Eq in H9. destruct (replied_held _ _ _ _ _ _ _ H9 Hn1 Hh1) as (_ & [K|(_ & K & _)]); [exact K|discriminate].
  - apply once_calm; [apply calm_nil|]. left. now rewrite (session_incoming _ _ H5).
Qed.
Lemma ack_once id k ty body s res s' t : idsok s -> ty = ack_first (ack_of k) -> ack_handled G n m k body s res s' t ->
  calm_t t /\ (held id (incoming s) -> held id (incoming s') \/ completed id (EPkt ty body :: t)).
Proof.
  intros Hn -> H. destruct H.
  - split; [apply calm_nil|auto].
  - split; [apply calm_nil|]. left. now rewrite (session_incoming _ _ H3).
  - apply app_frame in H4. destruct H4 as (E1 & t' & -> & F). apply op_calm in F.
    assert (C : calm_t t).
    { destruct (reply_to k); [|destruct H5 as (_ & _ & ->); apply calm_nil]. destruct H5 as [(_ & _ & -> & ->)|(_ & Hs & _)]; [apply calm_nil|now apply send_calm]. }
    split.
    { apply calm_app. split; [destruct k; try apply calm_nil; destruct (x_retr (s_ctx s)); try apply calm_nil; apply calm_cons; auto using calm_nil|].
      apply calm_app. split; auto. apply calm_cons; auto. }
    intro Hh. assert (Er : incoming s1 = recvd (snd r)) by (rewrite E1, <- H3; reflexivity).
    assert (Hh1 : held id (incoming s1)).
    { rewrite Er. destruct (acked_held (session_of n m s) id0 k OpReceive id) as [K|(_ & _ & K)]; auto. discriminate. }
    assert (Hn1 : idsok s1).
    { unfold idsok. rewrite Er. subst r. clear - Hn. cbn [spec_step]. destruct (id0 =? 0); [exact Hn|]. destruct (concerns_sent k OpReceive).
      - destruct (lookup _ id0) as [f|]; [|exact Hn]. destruct (apply_action _ _ _) as ((a, b), l). exact Hn.
      - destruct (lookup _ id0) as [f|] eqn:El; [|exact Hn].
        destruct (receiver_table (f_qos f) (f_st f) k OpReceive) eqn:Et; cbn [apply_action snd recvd]; try exact Hn.
        + unfold idsok, ids, spec_set in *. rewrite map_map. erewrite map_ext; [exact Hn|]. intro a. destruct (f_id a =? f_id f); reflexivity.
        + exfalso. destruct (f_qos f), (f_st f), k; discriminate.
        + exfalso. destruct (f_qos f), (f_st f), k; discriminate. }
    destruct (reply_to k) as [k'|] eqn:Ek; [|destruct H5 as (_ & -> & _); now left].
    destruct (replied_held _ _ _ _ _ _ _ H5 Hn1 Hh1) as (_ & [K|(-> & -> & K)]); [now left|]. right.
    destruct k; try discriminate. split; [left; rewrite <- H0; reflexivity|].
    cbn [app]. unfold outs. cbn [flat_map]. rewrite !flat_map_app. cbn [flat_map app]. fold (outs t') (outs t). rewrite K.
    exists (outs t'), []. now rewrite app_nil_r.
Qed.
Lemma packet_once id mk ty body s res s' t : idsok s -> packet_handled G n m mk ty body s res s' t -> once id s s' (EPkt ty body :: t).
Proof.
  intros Hn H.
  assert (C : forall t, once id s s' t -> once id s s' (EPkt ty body :: t)).
  { clear. intros t (A & B). split.
    - intro K. destruct (A K) as (A1 & A2). split.
      + intros e q [<-|He]; [discriminate|auto].
      + destruct A2 as [A2|(A2 & A3)]; [now left|]. right. split; [now right|exact A3].
    - intros t1 e t2 E He. destruct t1 as [|a t1]; cbn [app] in E; injection E as <- E; [discriminate|].
      destruct (B _ _ _ E He) as (B1 & B2 & B3). split; [apply calm_cons; auto|auto]. }
  assert (D : forall e u, app_call G e s s' u -> delivery e = None -> once id s s' u).
  { intros e u Hc He. apply app_frame in Hc. destruct Hc as (E & t' & -> & F). apply once_calm; [apply calm_cons; auto; now apply op_calm|rewrite E; auto]. }
  assert (N : once id s s []) by (apply once_calm; [apply calm_nil|auto]).
  destruct H.
  - apply C. eapply publish_once; eauto.
  - destruct (ack_once id _ _ _ _ _ _ _ Hn H H0) as (K1 & K2). apply once_calm; [apply calm_cons; auto|exact K2].
  - apply C. eapply D; eauto.
  - apply C, N.
  - apply C. eapply D; eauto.
  - apply C, N.
  - apply C. apply once_calm; [apply calm_nil|]. now left.
  - apply C. eapply D; eauto.
  - apply C, N.
  - apply C, N.
Qed.
Lemma only_rx_recs s s1 : only_rx s s1 -> x_recs (s_ctx s1) = x_recs (s_ctx s).
Proof. intros (b & i & p & r & t & ->). reflexivity. Qed.
Lemma stamped_recs r s s1 : stamped r s s1 -> x_recs (s_ctx s1) = x_recs (s_ctx s).
Proof. intros (b & i & H). destruct (status_beq r Success); [destruct H as (x & l & _ & ->)|subst s1]; reflexivity. Qed.
Lemma kept_recs s k s' t : kept_alive G s k s' t -> x_recs (s_ctx s') = x_recs (s_ctx s) /\ send_only t.
Proof.
  intros (now & s1 & (x & l & _ & _ & ->) & H). destruct (x_waiting (s_ctx s)); [destruct H as (_ & -> & ->); split; reflexivity|].
  destruct (ping_due _ _ _); [|destruct H as (_ & -> & ->); split; reflexivity].
  destruct H as [(_ & _ & -> & ->)|(_ & H1 & _ & _ & _ & H2 & _)]; [split; reflexivity|]. split; [exact H2|exact H1].
Qed.
Lemma once_prefix id s s1 s' t u : calm_t t -> incoming s1 = incoming s -> once id s1 s' u -> once id s s' (t ++ u).
Proof.
  intros Ct E (A & B). rewrite E in A. split.
  - intro K. destruct (A K) as (A1 & A2). split.
    + intros e q He. apply in_app_iff in He. destruct He as [He|He]; [rewrite (Ct e He); discriminate|auto].
    + destruct A2 as [A2|(A2 & a & b & A3)]; [now left|]. right. split; [apply in_or_app; now right|]. exists (outs t ++ a), b.
      unfold outs in *. rewrite flat_map_app, A3. now rewrite <- app_assoc.
  - intros t1 e t2 Et He.
    assert (exists w, t1 = t ++ w /\ u = w ++ e :: t2) as (w & -> & Eu).
    { clear - Et Ct He. revert t1 Et. induction t as [|a t IH]; intros t1 Et; [exists t1; auto|]. destruct t1 as [|b t1]; cbn [app] in Et; injection Et as -> Et.
      - rewrite (Ct e) in He; [discriminate|now left].
      - destruct (IH) with (t1 := t1) as (w & -> & K); auto; [intros y Hy; apply Ct; now right|]. exists w. auto. }
    destruct (B _ _ _ Eu He) as (B1 & B2). split; [apply calm_app; auto|exact B2].
Qed.
Lemma loop_once id mk s res s' t : idsok s -> loop_handled G n m mk s res s' t -> once id s s' t.
Proof.
  intros Hn H. destruct H.
  - apply once_calm; [apply calm_cons; auto using calm_nil|]. left. apply only_rx_recs in H. unfold incoming, broken. cbn [s_ctx set_status x_recs]. now rewrite H.
  - apply only_rx_recs in H.
    assert (K : x_recs (s_ctx s2) = x_recs (s_ctx s) /\ send_only t2).
    { destruct (mk && _); [apply kept_recs in H4; destruct H4 as (-> & K); auto|]. destruct H4 as (_ & -> & ->). split; [exact H|reflexivity]. }
    destruct K as (K1 & K2). change (EIn bs :: t2 ++ t3) with ((EIn bs :: t2) ++ t3).
    assert (Ei : incoming s2 = incoming s) by (unfold incoming; now rewrite K1).
    apply (once_prefix id s s2); [apply calm_cons; auto; now apply send_calm|exact Ei|].
    assert (Hn2 : idsok s2) by (unfold idsok; rewrite Ei; exact Hn).
    destruct H5 as [(_ & _ & -> & ->)|(_ & H5)]; [apply once_calm; [apply calm_nil|auto]|].
    destruct H5; try (apply once_calm; [apply calm_nil|now left]).
    + apply once_calm; [apply calm_cons; [reflexivity|now apply recv_calm]|]. left. apply only_rx_recs in H12.
      replace (incoming s') with (incoming s2); auto. unfold incoming. subst s'. destruct err; cbn; now rewrite H12.
    + destruct (packet_once id _ _ _ _ _ _ _ Hn2 H8) as (A & B). apply stamped_recs in H9.
      assert (E3 : incoming s' = incoming s3) by (unfold incoming; now rewrite H9). unfold once. rewrite E3. split; auto.
Qed.
Lemma connect_incoming ci will tmo s st sp s' t : rx_all G s -> Reach n m (x_recs (s_ctx s)) ->
  connect G ci will tmo s = Ret (st, sp) s' t -> ins t <> [32; 2; 0; 0] -> incoming s' = incoming s.
Proof.
  intros Hr HR H Hn. pose proof H as H0. eapply connect_spec in H; eauto; [|apply Hr].
  destruct H as [(_ & _ & _ & -> & _)|(rl & total & _ & H)].
  { unfold incoming, transport_broke. cbn [s_ctx]. destruct (cstatus_beq _ _); reflexivity. }
  destruct H as [[(_ & _ & _ & -> & _)|(_ & _ & _ & -> & _)]|(Hs & H)]; auto.
  destruct H as [(_ & _ & -> & ->)|(vs & ok & s1 & t1 & Hv & H1 & H)]; auto.
  destruct (sentb_nc _ _ _ _ _ Hs H1) as (l & Ec).
  assert (E1 : incoming s1 = incoming s) by (unfold incoming; rewrite Ec; reflexivity).
  destruct H as [(_ & _ & _ & -> & ->)|(-> & st2 & s2 & t2 & Hw & H)]; auto.
  destruct Hw as (bs & b & Eb & _ & _ & _ & _ & _ & Ec2 & Hw).
  assert (E2 : x_recs (s_ctx s2) = x_recs (s_ctx s)) by (rewrite Ec2; cbn; rewrite Ec; reflexivity).
  destruct H as [(_ & _ & -> & ->)|[(-> & -> & _ & -> & ->)|(-> & -> & _ & s3 & t3 & H3 & -> & ->)]].
  - unfold incoming. now rewrite E2.
  - exfalso. apply Hn.
    destruct Hw as [(_ & p & -> & Ep & _)|[(K & _)|[K|[K|K]]]]; try discriminate. assert (p = false) by congruence. subst p.
    assert (Hi : forall u, send_only u -> ins u = []).
    { clear. unfold send_only. induction u as [|x u IH]; [reflexivity|]. cbn [forallb]. rewrite andb_true_iff. intros (A & B). unfold ins in *. cbn [flat_map]. rewrite IH by exact B. destruct x; discriminate || reflexivity. }
    destruct H1 as (k & l1 & _ & _ & Hso & _).
    unfold ins in *. rewrite !flat_map_app, Eb. change (flat_map _ t1) with (ins t1). rewrite Hi by (apply Hso || exact Hso). cbn [app].
    destruct (x_retr (s_ctx s)); [|reflexivity]. generalize (pubq (tracked (outRecs (x_recs (s_ctx s))))). clear. induction l as [|x l IH]; [reflexivity|]. exact IH.
  - eapply resume_spec in H3; [|cbn; rewrite E2; exact HR|reflexivity]. destruct H3 as (_ & E3 & _). cbn [s_ctx connected set_keep set_status x_recs] in E3.
    unfold incoming. rewrite <- E2, <- E3. destruct (status_beq st Success); [reflexivity|]. unfold transport_broke. cbn [s_ctx]. destruct (cstatus_beq _ _); reflexivity.
Qed.
Lemma call_once id c s st s' t : Begun G n m s -> (call_conn c = true -> ins t <> [32; 2; 0; 0]) -> run_call G c s = Ret st s' t -> once id s s' t.
Proof.
  intros HB Hc H. apply begun_inv in HB. destruct HB as ((Hr & Hr') & HR & Hd).
  destruct c; cbn [run_call] in H.
  - apply run_op_frame in H. destruct H as (E & F). apply once_calm; [now apply op_calm|]. left. unfold incoming. now rewrite E.
  - apply bind_inv in H. destruct H as ((st1, sp) & s1 & t1 & t2 & H & H2 & ->). apply ret_inv in H2. destruct H2 as (-> & -> & ->). rewrite app_nil_r in *.
    apply once_calm; [apply unseen_calm; exact (h_connect G _ _ _ _ _ _ _ H)|].
    left. erewrite connect_incoming; eauto. split; auto.
  - rewrite process_eq in H. apply (iteration_handled G n m) in H; auto. apply loop_once with (id := id) in H; [exact H|]. apply reach_ids. exact HR.
  - apply (iteration_handled G n m) in H; auto. apply loop_once with (id := id) in H; [exact H|]. apply reach_ids. exact HR.
Qed.
Lemma completed_app_l id a b : completed id a -> completed id (a ++ b).
Proof.
  intros (H & x & y & E). split; [apply in_or_app; now left|]. exists x, (y ++ outs b). unfold outs in *. rewrite flat_map_app, E, <- !app_assoc. reflexivity.
Qed.
Lemma completed_app_r id a b : completed id b -> completed id (a ++ b).
Proof.
  intros (H & x & y & E). split; [apply in_or_app; now right|]. exists (outs a ++ x), y. unfold outs in *. rewrite flat_map_app, E, <- !app_assoc. reflexivity.
Qed.
Lemma split_app {A} (a b u v : list A) x : a ++ b = u ++ x :: v ->
  (exists w, a = u ++ x :: w /\ v = w ++ b) \/ (exists w, u = a ++ w /\ b = w ++ x :: v).
Proof.
  revert u. induction a as [|y a IH]; intros u E; [right; exists u; auto|].
  destruct u as [|z u]; cbn [app] in E; injection E as -> E; [left; exists a; auto|].
  destruct (IH u E) as [(w & -> & ->)|(w & -> & ->)]; [left; exists w|right; exists w]; auto.
Qed.
Lemma calls_held id l : forall s rs s' t, Begun G n m s -> same_session G l s -> run_calls G l s = Ret rs s' t ->
  held id (incoming s) -> forall t1 e q t2, t = t1 ++ e :: t2 -> delivery e = Some (id, q) -> completed id t1.
Proof.
  induction l as [|c l IH]; intros s rs s' t HB Hc H Hh t1 e q t2 Et He; cbn [run_calls] in H.
  - apply ret_inv in H. destruct H as (_ & _ & ->). destruct t1; discriminate.
  - apply bind_inv in H. destruct H as (a & s1 & u1 & u2 & H1 & H & ->). cbn [same_session] in Hc. rewrite H1 in Hc. destruct Hc as (Hc1 & Hc2). apply bind_inv in H. destruct H as (b & s2 & u3 & u4 & H2 & H & ->).
    apply ret_inv in H. destruct H as (_ & _ & ->). rewrite app_nil_r in Et.
    destruct (call_once id _ _ _ _ _ HB Hc1 H1) as (A & _). destruct (A Hh) as (A1 & A2).
    apply split_app in Et. destruct Et as [(w & -> & _)|(w & -> & E)].
    + exfalso. apply (A1 e q); auto. apply in_or_app. right. now left.
    + destruct A2 as [A2|A2]; [|now apply completed_app_l]. apply completed_app_r. exact (IH _ _ _ _ (begun_call _ _ _ _ _ _ _ _ HB H1) Hc2 H2 A2 _ _ _ _ E He).
Qed.
Lemma calls_once id l : forall s rs s' t, Begun G n m s -> same_session G l s -> run_calls G l s = Ret rs s' t ->
  forall t1 e q t2 e' t3, t = t1 ++ e :: t2 ++ e' :: t3 -> delivery e = Some (id, Q2) -> delivery e' = Some (id, q) -> completed id t2.
Proof.
  induction l as [|c l IH]; intros s rs s' t HB Hc H t1 e q t2 e' t3 Et He He'; cbn [run_calls] in H.
  - apply ret_inv in H. destruct H as (_ & _ & ->). destruct t1; discriminate.
  - apply bind_inv in H. destruct H as (a & s1 & u1 & u2 & H1 & H & ->). cbn [same_session] in Hc. rewrite H1 in Hc. destruct Hc as (Hc1 & Hc2). apply bind_inv in H. destruct H as (b & s2 & u3 & u4 & H2 & H & ->).
    apply ret_inv in H. destruct H as (_ & _ & ->). rewrite app_nil_r in Et.
    destruct (call_once id _ _ _ _ _ HB Hc1 H1) as (_ & B). pose proof (begun_call _ _ _ _ _ _ _ _ HB H1) as HB1.
    apply split_app in Et. destruct Et as [(w & -> & E)|(w & -> & E)].
    + destruct (B _ _ _ eq_refl He) as (_ & B2 & B3). symmetry in E. apply split_app in E. destruct E as [(w' & -> & _)|(w' & -> & E)].
      * rewrite (B2 e') in He'; [discriminate|]. apply in_or_app. right. now left.
      * apply completed_app_r. exact (calls_held id l _ _ _ _ HB1 Hc2 H2 B3 _ _ _ _ E He').
    + exact (IH _ _ _ _ HB1 Hc2 H2 _ _ _ _ _ _ E He He').
Qed.

(** ** Callbacks *)
Lemma served_unseen mk u v : forall cur, forallb unseen u = true -> served mk cur v -> served mk cur (u ++ v).
Proof. induction u as [|e u IH]; intros cur H K; [exact K|]. cbn [forallb] in H. apply andb_true_iff in H. destruct H as (H1 & H2). destruct e; try discriminate; cbn [app served]; auto. Qed.
Lemma served_all mk u cur : forallb unseen u = true -> served mk cur u.
Proof. intro H. rewrite <- (app_nil_r u). now apply served_unseen. Qed.
Lemma op_unseen t : forallb op_ev t = true -> forallb unseen t = true.
Proof. rewrite !forallb_forall. intros H e He. specialize (H e He). destruct e; discriminate || reflexivity. Qed.
Lemma send_unseen t : send_only t -> forallb unseen t = true.
Proof. unfold send_only. rewrite !forallb_forall. intros H e He. specialize (H e He). destruct e; discriminate || reflexivity. Qed.
Lemma replied_unseen k id0 s res s' t : replied n m k id0 s res s' t -> forallb unseen t = true.
Proof. intros [(_ & _ & -> & ->)|(_ & Hs & _)]; [reflexivity|now apply send_unseen]. Qed.
Lemma app_served mk ty body id pub r s s' t u : app_call G (ECb ty body id pub r) s s' t -> shown mk ty body id pub r -> forallb unseen u = true ->
  served mk (Some (ty, body)) (t ++ u).
Proof.
  intros H K Hu. apply app_frame in H. destruct H as (_ & t' & -> & F). apply op_unseen in F. cbn [app served]. split; [reflexivity|]. split; [exact K|].
  apply served_unseen; auto. now apply served_all.
Qed.
Lemma app_served0 mk ty body id pub r s s' t : app_call G (ECb ty body id pub r) s s' t -> shown mk ty body id pub r ->
  served mk (Some (ty, body)) t.
Proof. intros H K. rewrite <- (app_nil_r t). eapply app_served; eauto. Qed.
Lemma packet_served mk ty body s res s' t : packet_handled G n m mk ty body s res s' t -> served mk (Some (ty, body)) t.
Proof.
  intro H. destruct H as [res s' t _ H|k res s' t Hty H|r id s' t Ht H1 H2 H| |id s' t Ht H1 H2 H| | |s' t Hm Ht H1 H| |]; try exact I.
  - destruct H as [?|msg d s' t H1 H2 H3 H4|?|msg s0 res s' t H1 H2 H3 H4 H5 H6 H7|msg d s0 s1 t1 res s' t H1 H2 H3 H4 H5 H6 H7 H8 H9 H10 H11|?]; try exact I.
    + eapply app_served0; eauto. pose proof (sh_publish mk ty body msg d H1) as K. rewrite H3 in K. apply K, H2.
    + apply served_all. eapply replied_unseen; eauto.
    + eapply app_served; eauto; [|eapply replied_unseen; eauto]. pose proof (sh_publish mk ty body msg d H1) as K. destruct (pm_qos msg); [congruence|apply K, H2..].
  - destruct H as [?|?|id s0 s1 t1 res s' t H1 H2 r H3 H4 H5 H6 H7]; try exact I.
    apply served_unseen; [destruct k; try reflexivity; destruct (x_retr (s_ctx s)); reflexivity|]. rewrite Hty. eapply app_served; eauto.
    + eapply sh_ack; eauto.
    + destruct (reply_to k); [eapply replied_unseen; eauto|]. destruct H7 as (_ & _ & ->). reflexivity.
  - eapply app_served0; eauto. eapply sh_suback; eauto.
  - eapply app_served0; eauto. eapply sh_unsuback; eauto.
  - eapply app_served0; eauto. eapply sh_pingresp; eauto.
Qed.
Lemma loop_served mk s res s' t : loop_handled G n m mk s res s' t -> served mk None t.
Proof.
  intro H. destruct H; [exact I|]. change (served mk None (t2 ++ t3)). apply served_unseen.
  { apply send_unseen. destruct (mk && _); [apply kept_recs in H4; apply H4|]. destruct H4 as (_ & _ & ->). reflexivity. }
  destruct H5 as [(_ & _ & -> & ->)|(_ & H5)]; [exact I|]. destruct H5; try exact I.
  - apply served_all. cbn [forallb unseen andb]. now apply recv_unseen.
  - cbn [served]. eapply packet_served; eauto.
Qed.
Lemma call_served c s st s' t : Begun G n m s -> run_call G c s = Ret st s' t -> served (manages c) None t.
Proof.
  intros HB H. apply begun_inv in HB. destruct HB as ((Hr & Hr') & HR & Hd).
  destruct c; cbn [run_call] in H.
  - apply run_op_frame in H. destruct H as (E & F). now apply served_all, op_unseen.
  - apply bind_inv in H. destruct H as ((st1, sp) & s1 & t1 & t2 & H & H2 & ->). apply ret_inv in H2. destruct H2 as (-> & -> & ->). rewrite app_nil_r in *.
    apply served_all. exact (h_connect G _ _ _ _ _ _ _ H).
  - rewrite process_eq in H. apply (iteration_handled G n m) in H; auto. eapply loop_served; eauto.
  - apply (iteration_handled G n m) in H; auto. eapply loop_served; eauto.
Qed.
(** ** One call of the loop, from any state a history leads to *)
Lemma receive_outcome s st s' t : Begun G n m s -> receiveLoop G s = Ret st s' t -> loop_handled G n m false s st s' t.
Proof. intros HB H. apply begun_inv in HB. destruct HB as ((Hr & Hr') & HR & Hd). now apply (iteration_handled G n m) in H. Qed.
Lemma process_outcome s st s' t : Begun G n m s -> processLoop G s = Ret st s' t ->
  loop_handled G n m true (mkSt (set_ctl (s_ctx s) false) (s_env s)) st s' t.
Proof. intros HB H. apply begun_inv in HB. destruct HB as ((Hr & Hr') & HR & Hd). rewrite process_eq in H. now apply (iteration_handled G n m) in H. Qed.
End Deliver.

(** ** Packet ids *)
Lemma counted_nth l : forall a b i, counted a l b -> 1 <= a <= 65535 -> (i < length l)%nat -> nth i l 0 = (a - 1 + Z.of_nat i) mod 65535 + 1.
Proof.
  induction l as [|x l IH]; intros a b i H Ha Hi; cbn [length] in Hi; [lia|]. cbn [counted] in H. destruct H as (-> & H).
  destruct i as [|i]; cbn [nth]; [rewrite Z.add_0_r, Z.mod_small by lia; lia|].
  rewrite (IH (next_id a) b i H); [|unfold next_id; destruct (a =? 65535) eqn:E; lia|lia]. unfold next_id. destruct (a =? 65535) eqn:E.
  - f_equal. assert (a = 65535) by lia. subst a. replace (65535 - 1 + Z.of_nat (S i)) with (1 - 1 + Z.of_nat i + 1 * 65535) by lia. now rewrite Z.mod_add by lia.
  - f_equal. f_equal. lia.
Qed.
Lemma counted_range l a b : counted a l b -> 1 <= a <= 65535 -> forall x, In x l -> 1 <= x <= 65535.
Proof.
  intros H Ha x Hx. destruct (In_nth _ _ 0 Hx) as (i & Hi & <-). rewrite (counted_nth _ _ _ _ H Ha Hi).
  pose proof (Z.mod_pos_bound (a - 1 + Z.of_nat i) 65535). lia.
Qed.
Lemma counted_distinct l a b i j : counted a l b -> 1 <= a <= 65535 -> (i < j)%nat -> (j < length l)%nat -> Z.of_nat j - Z.of_nat i < 65535 ->
  nth i l 0 <> nth j l 0.
Proof.
  intros H Ha Hij Hj Hd E. rewrite !(counted_nth _ _ _ _ H Ha) in E by lia.
  pose proof (Z.div_mod (a - 1 + Z.of_nat i) 65535). pose proof (Z.div_mod (a - 1 + Z.of_nat j) 65535). lia.
Qed.
