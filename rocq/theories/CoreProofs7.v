(** Everything the client does while it handles a packet or an API call (except
    connecting and reading) is a sequence of a few kinds of steps. *)
From Verif Require Import Base StateModel StateSpec StateHarness StateProofs StateProofs2 SerModel WireSpec
  CoreModel CoreHarness CoreProofs CoreProofs2 CoreProofs3.

(** ** Steps *)
Definition is_silent (e : ev) : bool :=
  match e with EStore _ _ _ | ERetrieve _ _ | EClear _ | EId _ => true | _ => false end.
Definition silent (t : list ev) : Prop := forallb is_silent t = true.
(** Nothing changed but timers, flags, the next packet id and scripts of the clock,
    the transport's send and the storage callbacks. *)
Definition same_ctx (c c' : context) : Prop :=
  x_recs c' = x_recs c /\ x_buf c' = x_buf c /\ x_index c' = x_index c /\ x_status c' = x_status c /\ x_retr c' = x_retr c.
Definition same_env (e e' : env) : Prop :=
  e_in e' = e_in e /\ e_recvs e' = e_recvs e /\ e_cbs e' = e_cbs e.
(** contract of the engine calls, in terms of the arrays present *)
Definition call_pre (c : recs) (o : sop) : Prop :=
  match o with
  | Reserve _ (Q1 | Q2) => outRecs c <> None
  | Published _ OpReceive (Q1 | Q2) => inRecs c <> None
  | Cancel id => id <> 0 /\ outRecs c <> None
  | _ => True
  end.
Inductive atom (d : bool) : st -> st -> list ev -> Prop :=
| a_local s s' t : same_ctx (s_ctx s) (s_ctx s') -> same_env (s_env s) (s_env s') -> silent t -> atom d s s' t
| a_engine s o r c : call_pre (x_recs (s_ctx s)) o -> engine_step (x_recs (s_ctx s)) (to_call o) = Ok (r, c) ->
    atom d s (mkSt (set_recs (s_ctx s) c) (s_env s)) []
| a_send s bs ok s' t : x_status (s_ctx s) = Connected -> sentb bs s ok s' t -> atom d s s' t
| a_callback s type data id pub result :
    atom d s (mkSt (s_ctx s) (env_cbs (s_env s) (tl (e_cbs (s_env s))))) [ECb type data id pub result]
| a_disconnect s ok s' t : d = true -> x_status (s_ctx s) <> NotConnected ->
    sentb [224; 0] (mkSt (disconnected (s_ctx s)) (s_env s)) ok s' t -> atom d s s' t.
Inductive Path (d : bool) : st -> st -> list ev -> Prop :=
| p_nil s : Path d s s []
| p_step s1 s2 s3 t1 t2 : atom d s1 s2 t1 -> Path d s2 s3 t2 -> Path d s1 s3 (t1 ++ t2).

Lemma path_one d s s' t : atom d s s' t -> Path d s s' t.
Proof. intro H. rewrite <- (app_nil_r t). eapply p_step; [exact H|]. constructor. Qed.
Lemma path_app d s1 s2 s3 t1 t2 : Path d s1 s2 t1 -> Path d s2 s3 t2 -> Path d s1 s3 (t1 ++ t2).
Proof.
  intro H. revert s3 t2. induction H as [s|s1 s2 s3 t1 t2 A H IH]; intros s4 t3 K; [exact K|].
  rewrite <- app_assoc. eapply p_step; eauto.
Qed.
Lemma same_ctx_refl c : same_ctx c c. Proof. repeat split. Qed.
Lemma same_env_refl c : same_env c c. Proof. repeat split. Qed.

(** ** Tactics *)
Definition paths {A} (d : bool) (m : Mo A) (s : st) : Prop := forall a s' t, m s = Ret a s' t -> Path d s s' t.
Lemma paths_ret {A} d (a : A) s : paths d (ret a) s.
Proof. intros b s' t H. apply ret_inv in H. destruct H as (_ & -> & ->). constructor. Qed.
Lemma paths_bind {A B} d (m : Mo A) (f : A -> Mo B) s :
  paths d m s -> (forall a s1 t1, m s = Ret a s1 t1 -> paths d (f a) s1) -> paths d (bind m f) s.
Proof.
  intros Hm Hf b s' t H. apply bind_inv in H. destruct H as (a & s1 & t1 & t2 & H1 & H2 & ->).
  eapply path_app; [eapply Hm; eauto|]. eapply Hf; eauto.
Qed.
Lemma paths_lift {A} d (r : R A) s : paths d (lift r) s.
Proof. intros b s' t H. apply lift_inv in H. destruct H as (_ & -> & ->). constructor. Qed.
Lemma paths_getc d s : paths d getc s.
Proof. intros b s' t H. apply getc_inv in H. destruct H as (_ & -> & ->). constructor. Qed.
Lemma paths_gete d s : paths d gete s.
Proof. intros b s' t H. apply gete_inv in H. destruct H as (_ & -> & ->). constructor. Qed.
Lemma paths_massert d b s : paths d (massert b) s.
Proof. intros a s' t H. apply massert_inv in H. destruct H as (_ & -> & ->). constructor. Qed.
Lemma paths_getTime d s : paths d getTime s.
Proof.
  intros b s' t H. apply getTime_inv in H. destruct H as (x & xr & E & -> & -> & ->). apply path_one, a_local;
    [apply same_ctx_refl|repeat split|reflexivity].
Qed.
Lemma paths_modc d f s : same_ctx (s_ctx s) (f (s_ctx s)) -> paths d (modc f) s.
Proof.
  intros K b s' t H. apply modc_inv in H. destruct H as (-> & ->). apply path_one, a_local; [exact K|repeat split|reflexivity].
Qed.
Lemma paths_emit d e s : is_silent e = true -> paths d (emit e) s.
Proof.
  intros K b s' t H. apply emit_inv in H. destruct H as (-> & ->). apply path_one, a_local; [repeat split..|].
  unfold silent. cbn. now rewrite K.
Qed.
Lemma paths_engine {A} d (f : recs -> R (A * recs)) o (g : A -> status * option pstate) s :
  call_pre (x_recs (s_ctx s)) o ->
  (forall a c, f (x_recs (s_ctx s)) = Ok (a, c) -> engine_step (x_recs (s_ctx s)) (to_call o) = Ok (g a, c)) ->
  paths d (on_recs f) s.
Proof.
  intros Hp He a s' t H. apply on_recs_inv in H. destruct H as (c & E & -> & ->).
  apply path_one. eapply a_engine; eauto.
Qed.
Lemma paths_reserve d id q s : (q <> Q0 -> outRecs (x_recs (s_ctx s)) <> None) ->
  paths d (on_recs (fun r => reserveState r id q)) s.
Proof.
  intro K. apply (paths_engine d _ (Reserve id q) (fun st => (st, None))).
  - cbn. destruct q; auto; apply K; discriminate.
  - intros a c E. cbn [to_call engine_step]. now rewrite E.
Qed.
Lemma paths_published d id op q s : (q <> Q0 -> op = OpReceive -> inRecs (x_recs (s_ctx s)) <> None) ->
  paths d (on_recs (fun r => updateStatePublishApi r id op q)) s.
Proof.
  intro K. apply (paths_engine d _ (Published id op q) (fun x => x)).
  - cbn. destruct op; auto; destruct q; auto; apply K; discriminate || reflexivity.
  - intros [? ?] c E. cbn [to_call engine_step]. now rewrite E.
Qed.
Lemma paths_acked d id ty op s : paths d (on_recs (fun r => updateStateAckApi r id ty op)) s.
Proof.
  apply (paths_engine d _ (Acked id ty op) (fun x => x)); [exact I|]. intros [? ?] c E. cbn [to_call engine_step]. now rewrite E.
Qed.

(** ** API functions *)
Section Paths.
Variable G : cfg.

Lemma sentb_path d bs s ok s' t : x_status (s_ctx s) = Connected -> sentb bs s ok s' t -> Path d s s' t.
Proof. intros. apply path_one. eapply a_send; eauto. Qed.

Lemma publish_path d p id s : paths d (publish G p id) s.
Proof.
  intros st s' t H. apply publish_spec in H.
  destruct H as [(-> & -> & _)|(Hc & Hv & rl & ps & h & hs & rst & r1 & K1 & K2 & K3 & K4)]; [constructor|].
  assert (P1 : Path d s (mkSt (set_recs (s_ctx s) r1) (s_env s)) []).
  { unfold reserve_step in K3. destruct (p_qos p) eqn:Eq.
    - assert (r1 = x_recs (s_ctx s)) by congruence. subst r1. apply path_one, a_local; repeat split.
    - destruct (reserveState (x_recs (s_ctx s)) id Q1) as [(st1, rr)|] eqn:E; [|discriminate]. cbn [rbind] in K3.
      assert (rr = r1) by congruence. subst rr. eapply path_one, a_engine with (o := Reserve id Q1).
      + cbn. unfold validatePublishParams in Hv. rewrite Eq in Hv. cbn in Hv. destruct (outRecs _); [discriminate|].
        destruct (id =? 0); [discriminate|]. destruct (_ && _); discriminate.
      + cbn [to_call engine_step]. rewrite E. reflexivity.
    - destruct (reserveState (x_recs (s_ctx s)) id Q2) as [(st1, rr)|] eqn:E; [|discriminate]. cbn [rbind] in K3.
      assert (rr = r1) by congruence. subst rr. eapply path_one, a_engine with (o := Reserve id Q2).
      + cbn. unfold validatePublishParams in Hv. rewrite Eq in Hv. cbn in Hv. destruct (outRecs _); [discriminate|].
        destruct (id =? 0); [discriminate|]. destruct (_ && _); discriminate.
      + cbn [to_call engine_step]. rewrite E. reflexivity. }
  cbv zeta in K4. destruct K4 as [(_ & _ & -> & ->)|(-> & vd & ok & e & te & S1 & S2 & S3)]; [exact P1|].
  assert (P2 : Path d s (mkSt (set_recs (s_ctx s) r1) e) te).
  { change te with ([] ++ te). eapply path_app; [exact P1|]. unfold store_step in S1.
    destruct (_ && _); destruct S1 as (_ & -> & ->); apply path_one, a_local; cbn; repeat split. }
  destruct S3 as [(_ & _ & -> & ->)|(-> & vs & sok & t1 & s1 & S3 & S4 & -> & S5)]; [exact P2|].
  assert (P3 : Path d s s1 (te ++ t1)).
  { eapply path_app; [exact P2|]. eapply sentb_path; [|exact S4]. exact Hc. }
  destruct S5 as [(_ & _ & ->)|(_ & S5)]; [exact P3|].
  pose proof (sentb_recs _ _ _ _ _ S4) as Er. cbn in Er.
  destruct (p_qos p) eqn:Eq.
  - destruct S5 as (_ & ->). exact P3.
  - destruct S5 as (ns & r2 & E & ->). rewrite <- (app_nil_r (te ++ t1)). eapply path_app; [exact P3|].
    eapply path_one, a_engine with (o := Published id OpSend Q1); [exact I|]. rewrite Er. cbn [to_call engine_step]. rewrite E. reflexivity.
  - destruct S5 as (ns & r2 & E & ->). rewrite <- (app_nil_r (te ++ t1)). eapply path_app; [exact P3|].
    eapply path_one, a_engine with (o := Published id OpSend Q2); [exact I|]. rewrite Er. cbn [to_call engine_step]. rewrite E. reflexivity.
Qed.
Lemma subscribe_path d l n id s : paths d (subscribe G l n id) s.
Proof.
  intros st s' t H. apply subscribe_any in H. destruct H as [(-> & -> & _)|(Hc & bs & ok & H & _)]; [constructor|].
  eapply sentb_path; eauto.
Qed.
Lemma unsubscribe_path d l n id s : paths d (unsubscribe G l n id) s.
Proof.
  intros st s' t H. apply unsubscribe_any in H. destruct H as [(-> & -> & _)|(Hc & bs & ok & H & _)]; [constructor|].
  eapply sentb_path; eauto.
Qed.
Lemma ping_path d s : paths d (ping G) s.
Proof.
  intros st s' t H. apply ping_spec in H. destruct H as [(_ & _ & -> & ->)|(Hc & ok & s1 & H & K)]; [constructor|].
  apply (sentb_path d) in H; [|exact Hc]. destruct K as [(_ & _ & ->)|(_ & _ & ->)]; [exact H|].
  rewrite <- (app_nil_r t). eapply path_app; [exact H|]. apply path_one, a_local; repeat split.
Qed.
Lemma acks_path d id ps s : paths d (sendPublishAcks G id ps) s.
Proof.
  intros st s' t H. apply sendPublishAcks_spec in H. destruct (ackToSend ps) as [(ty, ak)|].
  2: { destruct H as (_ & -> & ->). constructor. }
  destruct H as [(_ & _ & -> & ->)|[(_ & _ & _ & -> & ->)|(_ & Hc & ok & s1 & H & K)]]; try constructor.
  pose proof (sentb_recs _ _ _ _ _ H) as Er.
  apply (sentb_path d) in H; [|exact Hc]. destruct K as [(_ & _ & ->)|(_ & ns & r & E & ->)]; [exact H|].
  rewrite <- (app_nil_r t). eapply path_app; [exact H|]. change (@nil ev) with (@nil ev ++ []).
  eapply path_app with (s2 := mkSt (set_ctl (s_ctx s1) true) (s_env s1)).
  - apply path_one, a_local; repeat split.
  - eapply path_one, (a_engine _ (mkSt (set_ctl (s_ctx s1) true) (s_env s1)) (Acked id ak OpSend)); [exact I|]. cbn [s_ctx set_ctl x_recs].
    rewrite Er. cbn [to_call engine_step]. rewrite E. reflexivity.
Qed.
Lemma disconnect_path s : paths true (disconnect G) s.
Proof.
  intros st s' t H. apply disconnect_spec in H. destruct H as [(_ & _ & -> & ->)|(Hc & ok & H & _)]; [constructor|].
  eapply path_one, a_disconnect; eauto.
Qed.
Lemma getPacketId_path d s : paths d getPacketId s.
Proof.
  unfold getPacketId. apply paths_bind; [apply paths_getc|]. intros c s1 t1 _.
  apply paths_bind; [apply paths_modc; repeat split|]. intros ? s2 t2 _.
  apply paths_bind; [apply paths_emit; reflexivity|]. intros. apply paths_ret.
Qed.
Lemma cancel_path d id s : paths d (cancel id) s.
Proof.
  unfold cancel. apply paths_bind; [apply paths_getc|]. intros c s1 t1 H1. apply getc_inv in H1. destruct H1 as (-> & -> & ->).
  destruct (outRecs (x_recs (s_ctx s))) eqn:E; [|apply paths_ret].
  intros a s' t H. apply on_recs_inv in H. destruct H as (c & E2 & -> & ->).
  eapply path_one, a_engine with (o := Cancel id).
  - cbn. split; [|congruence]. intros ->. unfold removeStateRecord in E2. rewrite E in E2. discriminate.
  - cbn [to_call engine_step]. rewrite E2. reflexivity.
Qed.

Lemma run_op_path d o s : (is_disc o = true -> d = true) -> paths d (run_op G o) s.
Proof.
  intro Hd. destruct o; cbn [run_op is_disc] in *; auto using publish_path, subscribe_path, unsubscribe_path, ping_path, cancel_path.
  - rewrite Hd by reflexivity. apply disconnect_path.
  - apply paths_bind; [apply getPacketId_path|]. intros. apply paths_ret.
  - unfold checkConnectStatus. apply paths_bind; [apply paths_getc|]. intros. apply paths_ret.
Qed.
Lemma run_ops_path d l : forall s, (existsb is_disc l = true -> d = true) -> paths d (run_ops G l) s.
Proof.
  induction l as [|o l IH]; intros s Hd; cbn [run_ops existsb] in *; [apply paths_ret|].
  apply paths_bind; [apply run_op_path; intro K; apply Hd; rewrite K; reflexivity|]. intros.
  apply IH. intro K. apply Hd. rewrite K. apply orb_true_r.
Qed.

(** No Disconnect is called from the callbacks to come, unless [d]. *)
Definition cbs_ok (d : bool) (s : st) : Prop := existsb (existsb is_disc) (e_cbs (s_env s)) = true -> d = true.
Lemma cbs_ok_tl d s c : cbs_ok d s -> cbs_ok d (mkSt c (env_cbs (s_env s) (tl (e_cbs (s_env s))))).
Proof.
  unfold cbs_ok. cbn. destruct (e_cbs (s_env s)) as [|a l]; auto. cbn. intros H K. apply H. rewrite K. apply orb_true_r.
Qed.
Lemma path_cbs d s s' t : Path d s s' t -> cbs_ok d s -> cbs_ok d s'.
Proof.
  induction 1 as [s|s1 s2 s3 t1 t2 A H IH]; auto. intro K. apply IH. clear IH H. destruct A.
  - unfold cbs_ok in *. destruct H0 as (_ & _ & ->). exact K.
  - exact K.
  - unfold cbs_ok in *. destruct H0 as (k & l & _ & _ & _ & (x & y & ->) & _). exact K.
  - now apply cbs_ok_tl.
  - intros _. exact H.
Qed.
Lemma callback_path d type data id pub result s : cbs_ok d s -> paths d (callback G type data id pub result) s.
Proof.
  intros Hd a s' t H. unfold callback in H.
  apply bind_inv in H. destruct H as (u & s1 & t1 & t2 & H1 & H & ->). mgo H1.
  apply bind_inv in H. destruct H as (e & s2 & t3 & t4 & H1 & H & ->). mgo H1.
  apply bind_inv in H. destruct H as (u2 & s3 & t5 & t6 & H1 & H & ->).
  assert (s3 = mkSt (s_ctx s) (env_cbs (s_env s) (tl (e_cbs (s_env s)))) /\ t5 = []) as (-> & ->) by (split; congruence).
  cbn [app]. eapply (path_app d s _ s' [_]); [apply path_one, a_callback|].
  eapply run_ops_path; [|exact H]. intro K. apply Hd. destruct (e_cbs (s_env s)); [discriminate|]. cbn. rewrite K. reflexivity.
Qed.

(** ** Handlers *)
Lemma handlePublish_path d type rem data s : cbs_ok d s -> paths d (handleIncomingPublish G type rem data) s.
Proof.
  intros Hd. unfold handleIncomingPublish. apply paths_bind; [apply paths_lift|]. intros (st, dd) s1 t1 H1. mgo H1.
  destruct st; try apply paths_ret. destruct dd as [(pub, pid)|]; [|apply paths_ret].
  apply paths_bind; [apply paths_getc|]. intros c s1 t1 H1. mgo H1.
  match goal with |- paths _ (if ?b then _ else _) _ => destruct b eqn:Eb end; [apply paths_ret|].
  apply paths_bind.
  { apply paths_published. intros Hq _ E. rewrite E in Eb. destruct (d_qos pub); [congruence|discriminate|discriminate]. }
  intros (st, ns) s1 t1 H1.
  assert (Hd1 : cbs_ok d s1).
  { apply on_recs_inv in H1. destruct H1 as (c & _ & -> & _). exact Hd. }
  match goal with |- paths _ (match ?x with (_, _) => _ end) _ => destruct x as ((st2, dup), ns2) end.
  destruct (status_beq st2 Success); [|apply paths_ret].
  apply paths_bind.
  { destruct dup; [apply paths_ret|]. now apply callback_path. }
  intros. apply acks_path.
Qed.
Lemma handleAcks_path d type rem data s : cbs_ok d s -> paths d (handlePublishAcks G type rem data) s.
Proof.
  intros Hd. unfold handlePublishAcks. apply paths_bind; [apply paths_lift|]. intros ak s1 t1 H1. mgo H1.
  apply paths_bind; [apply paths_lift|]. intros ((st, pid), x) s1 t1 H1. mgo H1.
  apply paths_bind. { destruct (status_beq st Success); [apply paths_acked|apply paths_ret]. }
  intros (st2, ns) s1 t1 H1.
  assert (Hd1 : cbs_ok d s1).
  { destruct (status_beq st Success).
    - apply on_recs_inv in H1. destruct H1 as (c & _ & -> & _). exact Hd.
    - apply ret_inv in H1. destruct H1 as (_ & -> & _). exact Hd. }
  apply paths_bind; [apply paths_getc|]. intros c s2 t2 H2. mgo H2.
  assert (Pc : paths d (if (acktype_beq ak Puback || acktype_beq ak Pubrec) && status_beq st2 Success && x_retr (s_ctx s1)
    then clear_publish match pid with Some i => i | None => 0 end else ret tt) s1).
  { match goal with |- paths _ (if ?b then _ else _) _ => destruct b end; [apply paths_emit; reflexivity|apply paths_ret]. }
  apply paths_bind; [exact Pc|].
  intros ? s2 t2 H2. apply Pc in H2. apply path_cbs in H2; auto.
  destruct (status_beq st2 Success); [|apply paths_ret].
  apply paths_bind; [now apply callback_path|]. intros. apply acks_path.
Qed.
Lemma handleAck_path d type rem data mk s : cbs_ok d s -> paths d (handleIncomingAck G type rem data mk) s.
Proof.
  intros Hd. unfold handleIncomingAck.
  match goal with |- paths _ (if ?b then _ else _) _ => destruct b end; [now apply handleAcks_path|].
  apply paths_bind.
  { destruct (type =? PKT_PINGRESP).
    - apply paths_bind; [apply paths_lift|]. intros ((st, pid), x) s1 t1 H1. apply paths_bind; [|intros; apply paths_ret].
      match goal with |- paths _ (if ?b then _ else _) _ => destruct b end; [apply paths_modc; repeat split|apply paths_ret].
    - destruct (_ || _).
      + apply paths_bind; [apply paths_lift|]. intros ((st, pid), x) s1 t1 H1. apply paths_ret.
      + apply paths_ret. }
  intros ((st, id), inv) s1 t1 H1. destruct inv; [|apply paths_ret].
  apply paths_bind; [|intros; apply paths_ret]. apply callback_path.
  clear - Hd H1. unfold cbs_ok in *. replace (e_cbs (s_env s1)) with (e_cbs (s_env s)); auto.
  destruct (type =? PKT_PINGRESP).
  - apply bind_inv in H1. destruct H1 as (((a, b), c) & s2 & t2 & t3 & H1 & H2 & _). mgo H1.
    apply bind_inv in H2. destruct H2 as (u & s3 & t4 & t5 & H2 & H3 & _). mgo H3.
    match type of H2 with (if ?b then _ else _) _ = _ => destruct b end; mgo H2; reflexivity.
  - destruct (_ || _).
    + mgo H1. reflexivity.
    + mgo H1. reflexivity.
Qed.
(** what the receive loop does with a complete packet *)
Definition dispatch (type rem : Z) (data : list Z) (mk : bool) : Mo status :=
  if Z.land type 240 =? PKT_PUBLISH then handleIncomingPublish G type rem data
  else handleIncomingAck G type rem data mk.
Lemma dispatch_path d type rem data mk s : cbs_ok d s -> paths d (dispatch type rem data mk) s.
Proof. unfold dispatch. destruct (_ =? PKT_PUBLISH); auto using handlePublish_path, handleAck_path. Qed.
Lemma keepAlive_path d s : paths d (handleKeepAlive G) s.
Proof.
  unfold handleKeepAlive. apply paths_bind; [apply paths_getTime|]. intros now s1 t1 H1.
  apply paths_bind; [apply paths_getc|]. intros c s2 t2 H2.
  destruct (x_waiting c); [apply paths_ret|].
  destruct (_ && _); [apply ping_path|]. destruct (_ && _); [apply ping_path|apply paths_ret].
Qed.
End Paths.

(** ** What follows for the record arrays *)
Lemma step_shape c o r c' : engine_step c (to_call o) = Ok (r, c') ->
  (outRecs c' = None <-> outRecs c = None) /\ (inRecs c' = None <-> inRecs c = None).
Proof.
  assert (So : forall c l, (outRecs (set_out c l) = None <-> outRecs c = None) /\ (inRecs (set_out c l) = None <-> inRecs c = None)).
  { intros [[?|] ?] l0; cbn; split; split; congruence. }
  assert (Si : forall c l, (outRecs (set_in c l) = None <-> outRecs c = None) /\ (inRecs (set_in c l) = None <-> inRecs c = None)).
  { intros [? [?|]] l0; cbn; split; split; congruence. }
  assert (E : c' = c \/ (exists l, c' = set_out c l) \/ (exists l, c' = set_in c l) \/ c' = resetRecs c ->
    (outRecs c' = None <-> outRecs c = None) /\ (inRecs c' = None <-> inRecs c = None)).
  { intros [->|[(l & ->)|[(l & ->)| ->]]]; auto; [tauto|]. destruct c as [[|] [|]]; cbn; repeat split; congruence. }
  intro H. apply E. clear E So Si. destruct o as [id q|id op q|id ty op|id|]; cbn [to_call engine_step] in H.
  - unfold reserveState in H. destruct (qos_beq q Q0); [left; cbn in H; congruence|].
    destruct (id =? 0); [left; cbn in H; congruence|].
    destruct (addRecord _ _ _ _) as [(st, l)|]; [|discriminate]. cbn in H. right; left. exists l. congruence.
  - assert (U : forall i cur new st s', updateStatePublish c i id op q cur new = Ok (st, s') ->
      s' = c \/ (exists l, s' = set_out c l) \/ (exists l, s' = set_in c l) \/ s' = resetRecs c).
    { clear. intros i cur new st s' E. unfold updateStatePublish, rassert in E.
      destruct (_ && _); [|discriminate]. destruct (validateTransitionPublish _ _ _ _); [|left; congruence].
      destruct op.
      - destruct (pstate_beq cur new); [left; congruence|]. destruct i; [|discriminate].
        destruct (updateRecord _ _ _ _) as [y|]; [|discriminate]. cbn in E. right; left. exists y. congruence.
      - destruct (addRecord _ _ _ _) as [(x, y)|]; [|discriminate]. cbn in E. right; right; left. exists y. congruence. }
    unfold updateStatePublishApi in H. destruct q; [left; cbn in H; congruence|..].
    all: destruct (id =? 0); [left; cbn in H; congruence|]; destruct op.
    1,3: destruct (findInRecord _ _) as [[(i, r0)|]|]; [|left; cbn in H; congruence|discriminate];
      cbn [rbind] in H; destruct (negb _); [left; cbn in H; congruence|].
    all: destruct (updateStatePublish _ _ _ _ _ _ _) as [(st, s')|] eqn:E; [|discriminate]; cbn in H;
      assert (s' = c') by congruence; subst s'; clear H; eapply U; exact E.
  - unfold updateStateAckApi in H. destruct (id =? 0); [left; cbn in H; congruence|].
    destruct (findInRecord _ _) as [[(i, r0)|]|]; [|left; cbn in H; congruence|discriminate]. cbn [rbind] in H.
    destruct (updateStateAck _ _ _ _ _) as [(st, l)|]; [|discriminate]. cbn [rbind] in H.
    destruct (isPublishOutgoing ty op); [right; left|right; right; left]; exists l; congruence.
  - unfold removeStateRecord in H. destruct (outRecs c); [|left; cbn in H; congruence].
    destruct (findInRecord _ _) as [[(i, r0)|]|]; [|left; cbn in H; congruence|discriminate]. cbn [rbind] in H.
    destruct (pstate_beq _ _); [left; cbn in H; congruence|]. destruct (_ && _); [left; cbn in H; congruence|].
    destruct (updateRecord _ _ _ _) as [l'|]; [|discriminate]. cbn in H. right; left. exists l'. congruence.
  - right; right; right. congruence.
Qed.
Lemma reach_shape n m c : Reach n m c -> (n = 0%nat -> outRecs c = None) /\ (m = 0%nat -> inRecs c = None).
Proof.
  intros (ops & outs & _ & H).
  assert (K : forall ops c0 outs c, engine_run c0 (map to_call ops) = Ok (outs, c) ->
     (outRecs c = None <-> outRecs c0 = None) /\ (inRecs c = None <-> inRecs c0 = None)).
  { clear. induction ops as [|o ops IH]; intros c0 outs c H; cbn [map engine_run] in H.
    - assert (c = c0) by congruence. subst. tauto.
    - destruct (engine_step c0 (to_call o)) as [(r, c1)|] eqn:E; [|discriminate]. cbn [rbind] in H.
      destruct (engine_run c1 (map to_call ops)) as [(rs, c2)|] eqn:E2; [|discriminate]. cbn [rbind] in H.
      assert (c2 = c) by congruence. subst c2. apply IH in E2. apply step_shape in E. tauto. }
  apply K in H. split; intros ->; apply H; reflexivity.
Qed.
Lemma call_pre_ok n m c o : Reach n m c -> call_pre c o -> call_ok n m o.
Proof.
  intros H. apply reach_shape in H. destruct H as (H1 & H2).
  destruct o as [id q|id op q|id ty op|id|]; cbn; try tauto; destruct q; try destruct op; tauto || (intros; intro; auto).
Qed.
Lemma atom_reach d n m s s' t : atom d s s' t -> Reach n m (x_recs (s_ctx s)) -> Reach n m (x_recs (s_ctx s')).
Proof.
  intros A H. destruct A.
  - destruct H0 as (-> & _). exact H.
  - pose proof (call_pre_ok _ _ _ _ H H0) as K. destruct (reach_step _ _ _ _ H K) as (c' & E & _ & R').
    cbn. assert (c' = c) by congruence. subst. exact R'.
  - rewrite (sentb_recs _ _ _ _ _ H1). exact H.
  - exact H.
  - rewrite (sentb_recs _ _ _ _ _ H2). exact H.
Qed.
Lemma path_reach d n m s s' t : Path d s s' t -> Reach n m (x_recs (s_ctx s)) -> Reach n m (x_recs (s_ctx s')).
Proof. induction 1; auto. intro K. apply IHPath. eapply atom_reach; eauto. Qed.
