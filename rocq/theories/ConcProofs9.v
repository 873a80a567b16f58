(** Resuming a session while other threads leave the publishes in flight alone. *)
From Verif Require Import Base StateModel StateSpec StateHarness StateProofs StateProofs2 SerModel WireSpec SerHarness SerProofs SerProofs2 SerProofs3 SerProofs4 SerProofs5
  CoreModel CoreHarness CoreSpec CoreProofs CoreProofs2 CoreProofs3 CoreProofs4 CoreProofs5 CoreProofs6 CoreProofs7 CoreProofs8 CoreProofs9 CoreProofs10 CoreProofs11 CoreProofs12 CoreProofs13 CoreProofs14 CoreProofs15 CoreProofs16 CoreProofs17 CoreProofs18 CoreProofs19 CoreProofs20 CoreProofs21 CoreProofs22 CoreProofs23 ConcModel ConcHarness ConcProofs ConcProofs2 ConcProofs3 ConcProofs4 ConcProofs5 ConcProofs6 ConcProofs7 ConcProofs8.

Definition sob (c : context) (i : list Z) : recs * bool * list Z := (x_recs c, x_retr c, i).
Lemma leaves_op G o : leaves_session o = true -> keeps (clocked sob) (run_op G o).
Proof.
  destruct o; cbn [run_op leaves_session]; try discriminate; intro H.
  - apply o_publish0; try reflexivity. destruct (p_qos p); try reflexivity; discriminate.
  - apply o_subscribe; reflexivity.
  - apply o_unsubscribe; reflexivity.
  - apply o_ping; reflexivity.
  - apply o_bind; [apply o_getPacketId; reflexivity|intros ?; apply o_ret].
  - apply o_check.
Qed.
Lemma within_skip ps a b : within ps b -> within ps (a ++ b).
Proof. intros H. destruct H; [constructor|]. rewrite app_assoc. now constructor. Qed.
Lemma within_more ps a b : within ps a -> within ps (a ++ b).
Proof. induction 1; [constructor|]. rewrite <- !app_assoc. now constructor. Qed.
Lemma within_app p q a b : within p a -> within q b -> within (p ++ q) (a ++ b).
Proof. intros H K. induction H; cbn [app]; [now apply within_skip|]. rewrite <- !app_assoc. now constructor. Qed.
Lemma op_ev_retrieved t : forallb op_ev t = true -> retrieved t = [].
Proof. induction t as [|e t IH]; [reflexivity|]. cbn [forallb]. intro H. apply andb_true_iff in H. destruct H as (H1 & H2). unfold retrieved in *. cbn [flat_map]. rewrite IH by exact H2. destruct e; discriminate || reflexivity. Qed.
Section Session.
Variable G : cfg.
Variables n m : nat.
Notation post := (post leaves_session).
Definition left (s s' : st) (t : list ev) : Prop := x_recs (s_ctx s') = x_recs (s_ctx s) /\ x_retr (s_ctx s') = x_retr (s_ctx s) /\ retrieved t = [].
Lemma left_refl s : left s s []. Proof. repeat split. Qed.
Lemma left_trans a b c t u : left a b t -> left b c u -> left a c (t ++ u).
Proof. intros (A1 & A2 & A3) (B1 & B2 & B3). unfold left. rewrite retrieved_app, A3, B3. repeat split; congruence. Qed.
Lemma others_left s s1 t1 : by_others G leaves_session s s1 t1 -> left s s1 t1.
Proof.
  intros (l & a & Hl & E). pose proof (o_ops G _ _ _ (leaves_op G) l Hl _ _ _ _ E) as (E1 & _). unfold sob in E1.
  pose proof (run_ops_frame _ _ _ _ _ _ E) as (_ & F). split; [congruence|]. split; [congruence|now apply op_ev_retrieved].
Qed.
Lemma sentb_left bs s ok s' t : sentb bs s ok s' t -> left s s' t.
Proof.
  intro H. pose proof (sentb_recs _ _ _ _ _ H) as E1. pose proof (sentb_only _ _ _ _ _ H) as E2. split; [exact E1|]. split; [|now apply send_retrieved].
  destruct H as (k & l & _ & _ & _ & _ & _ & _ & [(_ & ->)|(_ & _ & ->)]); [reflexivity|]. unfold transport_broke. destruct (cstatus_beq _ _); reflexivity.
Qed.
Lemma rel_visit {A} (f : Mo A) s (R : A -> st -> list ev -> Prop) :
  (forall s1 t1 a s2 t2, left s s1 t1 -> f s1 = Ret a s2 t2 -> R a s2 (t1 ++ t2)) -> post (visit G f) s R.
Proof. intro K. apply post_visit. intros s1 t1 a s2 t2 O E. apply (K s1); auto. now apply others_left. Qed.
Lemma rel_section {A} (f : Mo A) s (R : A -> st -> list ev -> Prop) :
  (forall s1 t1 a s2 t2, left s s1 t1 -> f s1 = Ret a s2 t2 -> R a s2 (t1 ++ t2)) -> post (locked G (atomic f)) s R.
Proof. intro K. apply post_section. intros s1 t1 a s2 t2 O E. apply (K s1); auto. now apply others_left. Qed.
Lemma look_left s : post (visit G getc) s (fun c s1 t1 => c = s_ctx s1 /\ left s s1 t1).
Proof. apply rel_visit. intros s1 t1 a s2 t2 H E. apply getc_inv in E. destruct E as (-> & -> & ->). rewrite app_nil_r. auto. Qed.


Lemma pubrel_acks id s : Reach n m (x_recs (s_ctx s)) -> In id (relq (tracked (outRecs (x_recs (s_ctx s))))) ->
  post (c_sendPublishAcks G id PubRelSend) s (fun st s' t => st = Success ->
    updateStateAckApi (x_recs (s_ctx s)) id Pubrel OpSend = Ok (Success, Some PubCompPending, x_recs (s_ctx s')) /\
    x_retr (s_ctx s') = x_retr (s_ctx s) /\ retrieved t = [] /\ within [pubrel id] (outs t)).
Proof.
  intros Hr Hin. destruct (ack_pubrel n m _ id Hr Hin) as (c1 & Ea & R1 & T1 & T2).
  unfold c_sendPublishAcks. cbn [ackToSend]. rewrite (serializeAck_bytes PKT_PUBREL Pubrel PubRelSend id eq_refl).
  eapply (post_bind _ _ _ _ _ (fun p s' t => s' = s /\ t = [] /\ p = if id =? 0 then (BadParameter, Some (repeat 0 4)) else (Success, Some [PKT_PUBREL; 2; hi8 id; lo8 id]))).
  { apply post_atomic. intros a s' t H. apply lift_inv in H. destruct H as (H & -> & ->). repeat split. congruence. }
  cbv beta. intros p s0 t0 (-> & -> & ->). destruct (id =? 0) eqn:E0.
  { cbn [status_beq]. eapply (post_bind _ _ _ _ _ (fun st _ _ => st = BadParameter)); [now apply post_ret|]. intros a s1 t1 ->. cbn [status_beq]. apply post_ret. discriminate. }
  cbn [status_beq app].
  eapply (post_bind _ _ _ _ _ (fun st s' t => left s s' t /\ (st = Success -> within [pubrel id] (outs t)))).
  { apply rel_section. intros s1 t1 st s2 t2 L E. unfold ack_send in E. apply bind_inv in E. destruct E as (c & s3 & t3 & t4 & E1 & E & ->). apply getc_inv in E1. destruct E1 as (-> & -> & ->).
    destruct (status_beq (must_be_connected (s_ctx s1)) Success) eqn:Ec.
    2: { apply ret_inv in E. destruct E as (-> & -> & ->). rewrite app_nil_r. split; auto. intro X. rewrite X in Ec. discriminate. }
    apply bind_inv in E. destruct E as (r & s4 & t5 & t6 & E1 & E & ->). apply ret_inv in E. destruct E as (-> & -> & ->). cbn [app]. rewrite app_nil_r.
    apply sendBuffer_spec in E1. pose proof (sent_ok_sentb _ _ _ _ _ E1) as Hb. split; [eapply left_trans; [exact L|eapply sentb_left; exact Hb]|].
    destruct (r <? 4) eqn:Er; [discriminate|]. intros _. rewrite outs_app. apply within_skip. destruct E1 as (k & l & Q1 & Q2 & _ & _ & _ & Q6). cbn [length] in Q1.
    assert (k = 4%nat) as -> by (destruct Q6 as [(? & _)|(? & _)]; lia). rewrite Q2, pubrel_eq. rewrite <- (app_nil_r (firstn 4 _)).
    change ([98; 2; hi8 id; lo8 id]) with (firstn 4 [PKT_PUBREL; 2; hi8 id; lo8 id]).
    exact (within_cons _ [] [] [] (within_nil [])). }
  cbv beta. intros st s1 t1 (L1 & Hw). destruct (status_beq st Success) eqn:Es.
  2: { apply post_ret. intros ->. discriminate. }
  assert (st = Success) as -> by (destruct st; discriminate || reflexivity). specialize (Hw eq_refl). cbn [app].
  eapply (post_bind _ _ _ _ _ (fun _ s' t => left s1 s' t)).
  { apply rel_visit. intros s2 t2 [] s3 t3 L E. apply modc_inv in E. destruct E as (-> & ->). rewrite app_nil_r. exact L. }
  cbv beta. intros _ s2 t2 L2. apply rel_section. intros s3 t3 st s4 t4 L3 E.
  unfold ack_update in E. apply bind_inv in E. destruct E as ((st5, ns) & s5 & t5 & t6 & E1 & E & ->). apply ret_inv in E. destruct E as (-> & -> & ->).
  apply on_recs_inv in E1. destruct E1 as (c & E1 & -> & ->). intros ->. cbn [app].
  destruct L1 as (A1 & A2 & A3), L2 as (B1 & B2 & B3), L3 as (C1 & C2 & C3). rewrite C1, B1, A1 in E1.
  assert (c = c1) as -> by congruence. cbn [s_ctx set_recs x_recs x_retr]. split; [exact Ea|]. split; [congruence|].
  rewrite !retrieved_app, A3, B3, C3. split; auto. rewrite outs_app. now apply within_more.
Qed.
Lemma c_pubrels fuel : forall l cur0 pid cur s, Reach n m (x_recs (s_ctx s)) ->
  Walk (pubrelToResend (x_recs (s_ctx s))) cur0 l -> (forall id, In id l -> In id (relq (tracked (outRecs (x_recs (s_ctx s)))))) ->
  pubrelToResend (x_recs (s_ctx s)) cur0 = (pid, cur) ->
  post (c_pubrel_loop G fuel pid cur) s (fun st s' t => st = Success ->
    Reach n m (x_recs (s_ctx s')) /\ tracked (outRecs (x_recs (s_ctx s'))) = mark l (tracked (outRecs (x_recs (s_ctx s)))) /\
    tracked (inRecs (x_recs (s_ctx s'))) = tracked (inRecs (x_recs (s_ctx s))) /\
    x_retr (s_ctx s') = x_retr (s_ctx s) /\ retrieved t = [] /\ within (map pubrel l) (outs t)).
Proof.
  induction fuel as [|fuel IH]; intros l cur0 pid cur s Hr Hw Hin Hc; cbn [c_pubrel_loop].
  { apply post_atomic. discriminate. }
  destruct (pid =? 0) eqn:E0.
  { apply post_ret. intros _. inversion Hw as [c c' Hn|c c' id l' Hn Hid Hw']; subst; [|exfalso; rewrite Hc in Hn; assert (pid = id) by congruence; lia].
    split; auto. rewrite mark_nil. repeat split. constructor. }
  inversion Hw as [c c' Hn|c c' id l' Hn Hid Hw']; subst; rewrite Hc in Hn; [exfalso; assert (pid = 0) by congruence; lia|].
  assert (pid = id /\ cur = c') as (-> & ->) by (split; congruence). clear Hn.
  destruct (ack_pubrel n m _ id Hr (Hin id (or_introl eq_refl))) as (c1 & Ea & R1 & T1 & T2).
  eapply post_bind; [exact (pubrel_acks id s Hr (Hin id (or_introl eq_refl)))|].
  cbv beta. intros st s1 t1 H1. destruct (status_beq st Success) eqn:Es; cbn [negb].
  2: { apply post_ret. intros ->. discriminate. }
  assert (st = Success) as -> by (destruct st; discriminate || reflexivity). destruct (H1 eq_refl) as (Eu & X1 & X2 & X3). clear H1.
  rewrite Ea in Eu. assert (Ec : x_recs (s_ctx s1) = c1) by congruence. clear Eu.
  eapply post_bind; [apply look_left|]. cbv beta. intros c s2 t2 (-> & L1 & L2 & L3).
  assert (Ec2 : x_recs (s_ctx s2) = c1) by congruence.
  rewrite Ec2. rewrite (pubrel_same_cursor _ _ _ _ _ Ea). destruct (pubrelToResend (x_recs (s_ctx s)) c') as (pid2, cur2) eqn:E2.
  eapply post_weaken; [apply (IH l' c')|]; rewrite ?Ec2.
  - exact R1.
  - clear - Hw' Ea. induction Hw'; econstructor; eauto; rewrite (pubrel_same_cursor _ _ _ _ _ Ea); eauto.
  - intros x Hx. rewrite T1. apply relq_set. apply Hin. now right.
  - now rewrite (pubrel_same_cursor _ _ _ _ _ Ea).
  - cbv beta. intros st s3 t3 H ->. destruct (H eq_refl) as (Y1 & Y2 & Y3 & Y4 & Y5 & Y6). split; auto. rewrite Y2, T1. split; [apply mark_cons|].
    split; [congruence|]. split; [congruence|]. rewrite !retrieved_app, X2, L3, Y5. split; auto. rewrite !outs_app. cbn [map].
    change (pubrel id :: map pubrel l') with ([pubrel id] ++ map pubrel l'). apply within_app; [exact X3|]. now apply within_skip.
Qed.
Lemma c_publishes fuel : forall l cur s, Walk (publishToResend (x_recs (s_ctx s))) cur l ->
  post (c_publish_loop G fuel cur) s (fun st s' t => st = Success -> x_recs (s_ctx s') = x_recs (s_ctx s) /\
    exists copies, retrieved t = map (fun p => (fst p, Some (snd p))) copies /\ map fst copies = l /\ within (map snd copies) (outs t)).
Proof.
  induction fuel as [|fuel IH]; intros l cur s Hw; cbn [c_publish_loop].
  { apply post_atomic. discriminate. }
  eapply post_bind; [apply look_left|]. cbv beta. intros c s1 t1 (-> & L1 & L2 & L3). rewrite L1.
  destruct (publishToResend (x_recs (s_ctx s)) cur) as (pid, cur2) eqn:E. destruct (pid =? 0) eqn:E0.
  { apply post_ret. intros _. inversion Hw as [c c' Hn|c c' id l' Hn Hid Hw']; subst; [|exfalso; rewrite E in Hn; assert (pid = id) by congruence; lia].
    split; auto. exists []. rewrite app_nil_r, L3. repeat split. constructor. }
  inversion Hw as [c c' Hn|c c' id l' Hn Hid Hw']; subst; rewrite E in Hn; [exfalso; assert (pid = 0) by congruence; lia|].
  assert (pid = id /\ cur2 = c') as (-> & ->) by (split; congruence). clear Hn.
  eapply (post_bind _ _ _ _ _ (fun r s2 t2 => x_recs (s_ctx s2) = x_recs (s_ctx s1) /\ retrieved t2 = [(id, r)])).
  { apply rel_visit. intros s2 t2 r s3 t3 (A1 & A2 & A3) H. unfold retrieve_publish in H. injection H as <- <- <-. rewrite retrieved_app, A3. auto. }
  cbv beta. intros [bs|] s2 t2 (B1 & B2).
  2: { apply post_ret. discriminate. }
  eapply (post_bind _ _ _ _ _ (fun k s3 t3 => left s2 s3 t3 /\ (k = zlen bs -> within [bs] (outs t3)))).
  { apply rel_section. intros s3 t3 k s4 t4 L H. apply sendBuffer_spec in H. pose proof (sent_ok_sentb _ _ _ _ _ H) as Hb.
    split; [eapply left_trans; [exact L|eapply sentb_left; exact Hb]|]. intros ->. rewrite Z.eqb_refl in Hb. destruct (sentb_outs _ _ _ _ Hb) as (Eo & _).
    rewrite outs_app, Eo. apply within_skip. rewrite <- (app_nil_r bs) at 2. exact (within_cons bs [] [] [] (within_nil [])). }
  cbv beta. intros k s3 t3 ((C1 & C2 & C3) & Hk). destruct (k =? zlen bs) eqn:Ek; cbn [negb].
  2: { apply post_ret. discriminate. }
  specialize (Hk ltac:(lia)).
  eapply post_weaken; [apply (IH l' c')|]; [rewrite C1, B1, L1; exact Hw'|].
  cbv beta. intros st s4 t4 H ->. destruct (H eq_refl) as (Y1 & copies & Y2 & Y3 & Y4). split; [congruence|].
  exists ((id, bs) :: copies). rewrite !retrieved_app, L3, B2, C3, Y2. split; auto. cbn [map fst snd]. rewrite Y3. split; auto.
  rewrite !outs_app. apply within_skip, within_skip. change (bs :: map snd copies) with ([bs] ++ map snd copies). now apply within_app.
Qed.
Lemma c_resume s : Reach n m (x_recs (s_ctx s)) ->
  post (c_handleUncleanSessionResumption G) s (fun st s' t => st = Success ->
    tracked (outRecs (x_recs (s_ctx s'))) = mark (relq (tracked (outRecs (x_recs (s_ctx s))))) (tracked (outRecs (x_recs (s_ctx s)))) /\
    tracked (inRecs (x_recs (s_ctx s'))) = tracked (inRecs (x_recs (s_ctx s))) /\
    exists copies, retrieved t = map (fun p => (fst p, Some (snd p))) copies /\
      map fst copies = (if x_retr (s_ctx s) then pubq (tracked (outRecs (x_recs (s_ctx s)))) else []) /\
      within (map pubrel (relq (tracked (outRecs (x_recs (s_ctx s))))) ++ map snd copies) (outs t)).
Proof.
  intro Hr. unfold c_handleUncleanSessionResumption. eapply post_bind; [apply look_left|]. cbv beta zeta. intros c s1 t1 (-> & L1 & L2 & L3).
  destruct (reach_walks _ _ _ Hr) as (Wp & Wr). destruct (pubrelToResend (x_recs (s_ctx s1)) 0) as (pid, cur) eqn:E.
  eapply post_bind; [apply (c_pubrels _ (relq (tracked (outRecs (x_recs (s_ctx s))))) 0)|]; rewrite ?L1; auto; [now rewrite L1 in E|].
  cbv beta. intros st s2 t2 H1. destruct (status_beq st Success) eqn:Es; cbn [andb].
  2: { apply post_ret. intros ->. discriminate. }
  assert (st = Success) as -> by (destruct st; discriminate || reflexivity). destruct (H1 eq_refl) as (X1 & X2 & X3 & X4 & X5 & X6). clear H1.
  rewrite L2. destruct (x_retr (s_ctx s)) eqn:Ex.
  - destruct (reach_walks _ _ _ X1) as (Wp1 & _). rewrite X2 in Wp1. rewrite pubq_mark in Wp1; [|eapply ids_unique; eauto|auto].
    eapply post_weaken; [apply (c_publishes _ _ _ _ Wp1)|]. cbv beta. intros st s3 t3 H ->. destruct (H eq_refl) as (Y1 & copies & Y2 & Y3 & Y4).
    rewrite Y1. split; auto. split; auto. exists copies. rewrite !retrieved_app, L3, X5, Y2. split; auto. split; auto. rewrite !outs_app. apply within_skip. now apply within_app.
  - apply post_ret. intros _. split; auto. split; auto. exists []. rewrite !retrieved_app, L3, X5. split; auto. split; auto.
    rewrite !outs_app. cbn [map]. rewrite !app_nil_r. now apply within_skip.
Qed.

Definition resumed_all (ci : coninfo) (will : option pubinfo) (s : st) (a : status * option bool) (s' : st) (t : list ev) : Prop :=
  a = (Success, Some true) ->
    tracked (outRecs (x_recs (s_ctx s'))) = mark (relq (tracked (outRecs (x_recs (s_ctx s))))) (tracked (outRecs (x_recs (s_ctx s)))) /\
    tracked (inRecs (x_recs (s_ctx s'))) = tracked (inRecs (x_recs (s_ctx s))) /\
    exists rl total vs copies, getConnectPacketSize ci will = (Success, Some (rl, total)) /\ connect_vectors ci will rl = Ok vs /\
      retrieved t = map (fun p => (fst p, Some (snd p))) copies /\
      map fst copies = (if x_retr (s_ctx s) then pubq (tracked (outRecs (x_recs (s_ctx s)))) else []) /\
      within (concat vs :: map pubrel (relq (tracked (outRecs (x_recs (s_ctx s))))) ++ map snd copies) (outs t).
Lemma recv_retrieved t : recv_only t -> retrieved t = [].
Proof. induction t as [|e t IH]; auto. unfold recv_only. cbn. destruct e; cbn; auto; discriminate. Qed.
Lemma c_connect_resumed ci will tmo s : Reach n m (x_recs (s_ctx s)) -> bytes_ok (e_in (s_env s)) -> post (c_connect G ci will tmo) s (resumed_all ci will s).
Proof.
  intros Hr Hb. unfold c_connect. destruct (getConnectPacketSize ci will) as (st0, size) eqn:Ez.
  eapply (post_bind _ _ _ _ _ (fun a s1 t1 => a = (Success, Some true) -> left s s1 t1 /\
    exists rl total vs, getConnectPacketSize ci will = (Success, Some (rl, total)) /\ connect_vectors ci will rl = Ok vs /\ within [concat vs] (outs t1))).
  { assert (HF : forall r, post (cret (r, @None bool)) s (fun a s1 t1 => a = (Success, Some true) -> left s s1 t1 /\
    exists rl total vs, getConnectPacketSize ci will = (Success, Some (rl, total)) /\ connect_vectors ci will rl = Ok vs /\ within [concat vs] (outs t1))) by (intro; apply post_ret; discriminate).
    destruct st0; try apply HF. destruct size as [(rl, total)|]; [|apply HF]. apply post_locked. intros s1 t1 O.
    pose proof (others_left _ _ _ O) as L. assert (Hb1 : bytes_ok (e_in (s_env s1))).
    { destruct O as (l & a & Hl & E). pose proof (o_ops G _ _ _ (leaves_op G) l Hl _ _ _ _ E) as (E1 & _). unfold sob in E1. congruence. }
    intros w oa w' s2 t2 Hh Hp E. pose proof (sim_region G ci will rl tmo s1 w Hh ltac:(discriminate)) as S. rewrite E in S. destruct oa as [(r, sp)|]; [|exact I].
    destruct S as (S & ->). split; [exact Hp|]. intro Ea. injection Ea as -> ->.
    apply (region_spec G n m) in S; [|destruct L as (-> & _); exact Hr|exact Hb1].
    destruct S as [[(_ & ? & _)|(_ & ? & _)]|(Es & [(? & _)|(vs & ok & s3 & t3 & Ev & Hs & [(_ & ? & _)|(-> & st2 & s4 & t4 & Hw & S)])])]; try discriminate.
    destruct S as [(Hn & Ex & _)|[(_ & ? & _)|(_ & _ & _ & -> & ->)]]; [congruence|discriminate|].
    destruct Hw as (bs & b & W1 & W2 & W3 & W4 & W5 & W6 & W7 & _). pose proof (sentb_left _ _ _ _ _ Hs) as L2. destruct (sentb_outs _ _ _ _ Hs) as (Eo & _).
    split.
    - eapply left_trans; [exact L|]. eapply left_trans; [exact L2|]. unfold left. cbn [s_ctx connected set_keep set_status x_recs x_retr]. rewrite W7. cbn [set_buf x_recs x_retr].
      split; [reflexivity|]. split; [reflexivity|]. now apply recv_retrieved.
    - exists rl, total, vs. split; auto. split; auto. rewrite !outs_app, Eo. apply within_skip. exact (within_cons _ [] [] _ (within_nil _)). }
  cbv beta. intros (r, sp) s1 t1 H1.
  eapply (post_bind _ _ _ _ _ (fun r' s' t => r' = Success /\ sp = Some true -> resumed_all ci will s (r', sp) s' (t1 ++ t))).
  { destruct (status_beq r Success && _) eqn:Eb.
    2: { apply post_ret. intros (-> & ->). discriminate. }
    destruct sp as [[|]|]; try (rewrite andb_false_r in Eb; discriminate). assert (r = Success) as -> by (destruct r; discriminate || reflexivity).
    destruct (H1 eq_refl) as ((L1 & L2 & L3) & rl & total & vs & X1 & X2 & X3).
    eapply post_weaken; [apply c_resume; rewrite L1; exact Hr|]. rewrite L1, L2. cbv beta. intros r s2 t2 H (-> & _) _. destruct (H eq_refl) as (Y1 & Y2 & copies & Y3 & Y4 & Y5).
    split; auto. split; auto. exists rl, total, vs, copies. split; auto. split; auto. rewrite retrieved_app, L3, Y3. split; auto. split; auto.
    rewrite outs_app. change (concat vs :: ?x) with ([concat vs] ++ x). now apply within_app. }
  cbv beta. intros r' s2 t2 H2.
  eapply (post_bind _ _ _ _ _ (fun _ s' t => r' = Success -> s' = s2 /\ t = [])).
  { destruct (status_beq r' Success) eqn:Er; cbn [orb].
    - apply post_ret. auto.
    - assert (Hn : r' <> Success) by (intros ->; discriminate). destruct (_ || _); [apply post_ret; contradiction|].
      unfold c_broke. apply (rel_section (modc transport_broke)). contradiction. }
  cbv beta. intros _ s3 t3 H3. apply post_ret. intro Ea. injection Ea as -> ->. destruct (H3 eq_refl) as (-> & ->). rewrite !app_nil_r. now apply H2.
Qed.
End Session.

(** stated with the vocabulary of the harness *)
Lemma threads_resumed G n m ci will cm tmo w s w' s' t : Shared G n m w s -> con_means ci will cm -> only_calls leaves_session w ->
  c_connect G ci will tmo w s = Ret (Some (Success, Some true), w') s' t ->
  outgoing s' = mark (half_done (outgoing s)) (outgoing s) /\ incoming s' = incoming s /\
  exists copies, retrieved t = map (fun p => (fst p, Some (snd p))) copies /\
    map fst copies = (if x_retr (s_ctx s) then unacked (outgoing s) else []) /\
    within (connect_packet cm :: map pubrel (half_done (outgoing s)) ++ map snd copies) (outs t).
Proof.
  intros H Hm Hp E. destruct (shared_inv _ _ _ _ _ H) as (HM & HV & Hr & Hg & Hw).
  assert (Hh : w_held w = false) by apply Hw.
  pose proof (c_connect_resumed G n m ci will tmo s (proj1 Hg) (proj2 (proj2 (proj2 (proj2 (proj1 Hr))))) w _ _ _ _ Hh Hp E) as (_ & _ & K).
  destruct (K eq_refl) as (K1 & K2 & rl & total & vs & copies & E4 & E5 & K3 & K4 & K5).
  split; [exact K1|]. split; [exact K2|]. exists copies. split; [exact K3|]. split; [exact K4|].
  assert (Hne : cm_id cm <> []).
  { intro Ei. unfold getConnectPacketSize in E4. destruct Hm as (_ & _ & _ & Hid & _). apply holds_len in Hid. rewrite Ei in Hid.
    change (zlen []) with 0 in Hid. replace (c_idlen ci =? 0) with true in E4 by lia. discriminate. }
  rewrite (connect_size_ok _ _ _ Hm Hne) in E4. destruct (will_fits cm) eqn:Ew; [|discriminate].
  assert (rl = zlen (connect_body cm)) by congruence. subst rl.
  destruct (connect_vectors_ok _ _ _ Hm Ew) as (vs' & Ev' & Ec). assert (vs' = vs) by congruence. subst vs'. rewrite <- Ec. exact K5.
Qed.
