(** Statements about single API calls and histories, continued: the stored copy of a
    publish, calls without a connection, broken connections, MQTT_Disconnect. *)
From Verif Require Import Base StateModel StateSpec StateHarness StateProofs StateProofs2 SerModel WireSpec SerHarness SerProofs SerProofs2 SerProofs3 SerProofs4 SerProofs5
  CoreModel CoreHarness CoreSpec CoreProofs CoreProofs2 CoreProofs3 CoreProofs4 CoreProofs5 CoreProofs6 CoreProofs7 CoreProofs8 CoreProofs9 CoreProofs10 CoreProofs11 CoreProofs12 CoreProofs13 CoreProofs14 CoreProofs15.

(** ** Vectors given to the store callback *)
Lemma fold_bytes M (vec : list (list Z)) : forall a, 0 < M -> 0 <= a -> a + zlen (concat vec) < M ->
  fold_left (fun n v => (n + zlen v) mod M) vec a = a + zlen (concat vec).
Proof.
  induction vec as [|v vec IH]; intros a HM Ha H; cbn [fold_left concat]; [change (zlen (@nil Z)) with 0; lia|].
  cbn [concat] in H. rewrite zlen_app in *. pose proof (zlen_nonneg v). pose proof (zlen_nonneg (concat vec)).
  rewrite Z.mod_small by lia. rewrite IH; lia.
Qed.
Lemma vec_bytes M (vec : list (list Z)) : zlen (concat vec) < M -> getBytesInMQTTVec M vec = zlen (concat vec).
Proof. intro H. pose proof (zlen_nonneg (concat vec)). unfold getBytesInMQTTVec. rewrite fold_bytes; lia. Qed.
Lemma vec_serialize_wr mem vec : forall c, zlen c + zlen (concat vec) <= zlen mem ->
  serializeMQTTVec (wr mem c) vec = Ok (wr mem (c ++ concat vec)).
Proof.
  induction vec as [|v vec IH]; intros c H; cbn [serializeMQTTVec concat].
  - now rewrite app_nil_r.
  - cbn [concat] in H. rewrite zlen_app in H. pose proof (zlen_nonneg (concat vec)).
    rewrite put_wrz by lia. cbn [rbind]. rewrite IH by (rewrite zlen_app; lia). now rewrite app_assoc.
Qed.
Lemma vec_serialize mem vec : zlen (concat vec) <= zlen mem ->
  serializeMQTTVec (mem, 0%nat) vec = Ok (concat vec ++ skipn (length (concat vec)) mem, length (concat vec)).
Proof. intro H. change (mem, 0%nat) with (wr mem []). rewrite vec_serialize_wr by (change (zlen []) with 0; lia). reflexivity. Qed.

Section Calls.
Variable G : cfg.
Lemma send_stores t : send_only t -> stores t = [].
Proof.
  unfold send_only. induction t as [|e t IH]; auto. cbn [forallb]. intro H. apply andb_true_iff in H. destruct H as (H1 & H2).
  destruct e; try discriminate; cbn; auto.
Qed.

(** [t] stores nothing, or begins with storing the packet with DUP set *)
Lemma publish_stored p id msg s st s' t : pub_means p id msg -> publish G p id s = Ret st s' t ->
  stores t = [] /\ (outs t <> [] -> p_qos p = Q0 \/ x_retr (s_ctx s) = false) /\ st <> PublishStoreFailed \/
  p_qos p <> Q0 /\ x_retr (s_ctx s) = true /\ exists vec ok t1, t = EStore id vec ok :: t1 /\ send_only t1 /\
    concat vec = publish_packet (with_dup msg) /\ (ok = false -> t1 = [] /\ st = PublishStoreFailed).
Proof.
  intros Hm H. apply publish_spec in H.
  destruct H as [(_ & -> & Hf & _)|(Hc & Hv & rl & ps & h & hs & rst & r1 & K1 & K2 & K3 & K4)].
  { left. split; auto. split; [intro E; now elim E|]. intros ->. destruct Hf as [K|[K|K]]; discriminate. }
  destruct (publish_prepared _ _ _ _ _ _ _ Hm K1 K2) as (Hne & Hmax & -> & -> & _ & (vd' & Ed & Ec)).
  cbv zeta in K4. destruct K4 as [(Nr & <- & _ & ->)|(-> & vd & ok & e & te & S1 & S2 & S3)].
  { left. split; auto. split; [intro E; now elim E|]. intros ->. unfold reserve_step in K3. destruct (p_qos p); [congruence|..];
    match type of K3 with (let! _ := ?r in _) = _ => destruct r as [[x y]|] eqn:Ey end; cbn [rbind] in K3; try discriminate;
    apply reserve_status in Ey; destruct Ey as [K|[K|[K|K]]]; subst x; destruct (p_dup p); discriminate. }
  change (x_retr (set_recs (s_ctx s) r1)) with (x_retr (s_ctx s)) in S2. unfold store_step in S1.
  change (x_retr (set_recs (s_ctx s) r1)) with (x_retr (s_ctx s)) in S1.
  destruct (negb (qos_beq (p_qos p) Q0) && x_retr (s_ctx s)) eqn:Eq.
  - right. apply andb_true_iff in Eq. destruct Eq as (Eq & Er). split; [intros E; rewrite E in Eq; discriminate|]. split; auto.
    assert (vd = vd') by (assert (Ok vd = Ok vd') by (rewrite <- Ed; symmetry; auto); congruence). subst vd'.
    destruct S1 as (E1 & E2 & ->). exists vd, ok.
    destruct S3 as [(-> & -> & _ & ->)|(-> & vs & sok & t1 & s1 & _ & S4 & -> & _)].
    + exists []. repeat split; auto.
    + exists t1. split; auto. split; [eapply sentb_only; eauto|]. split; [exact Ec|discriminate].
  - left. destruct S1 as (-> & -> & ->). destruct S3 as [(K & _)|(_ & vs & sok & t1 & s1 & _ & S4 & -> & S5)]; [discriminate|].
    cbn [app]. split; [apply send_stores; eapply sentb_only; eauto|]. split.
    + intros _. apply andb_false_iff in Eq. destruct Eq as [Eq|Eq]; auto. left. destruct (p_qos p); auto; discriminate.
    + destruct S5 as [(_ & -> & _)|(_ & S5)]; [discriminate|].
      assert (K : forall q', q' = p_qos p -> match q' with Q0 => st = Success /\ s' = s1 | _ => exists ns r2, updateStatePublishApi r1 id OpSend q' = Ok (st, ns, r2) /\
                    s' = mkSt (set_recs (s_ctx s1) r2) (s_env s1) end -> st <> PublishStoreFailed).
      { intros q' _ K ->. destruct q'; [destruct K; discriminate|..]; destruct K as (ns & r2 & K & _); apply published_status in K; intuition discriminate. }
      exact (K (p_qos p) eq_refl S5).
Qed.

(** ** Calls without a connection *)
Lemma must_be_result c : x_status c <> Connected -> must_be_connected c = not_connected_result (x_status c).
Proof. unfold must_be_connected. destruct (x_status c); congruence || auto. Qed.
Lemma op_refused o s st s' t : asks_traffic o = true -> run_op G o s = Ret st s' t -> x_status (s_ctx s) <> Connected ->
  s' = s /\ t = [] /\ (st = BadParameter \/ st = not_connected_result (x_status (s_ctx s))).
Proof.
  intros Ha H Hn. rewrite <- must_be_result by exact Hn. destruct o; try discriminate; cbn [run_op] in H.
  - apply publish_spec in H. destruct H as [(-> & -> & _ & H)|(K & _)]; [tauto|contradiction].
  - apply subscribe_any in H. destruct H as [(-> & -> & _ & H)|(K & _)]; [tauto|contradiction].
  - apply unsubscribe_any in H. destruct H as [(-> & -> & _ & H)|(K & _)]; [tauto|contradiction].
  - apply ping_spec in H. destruct H as [(_ & -> & -> & ->)|(K & _)]; [tauto|contradiction].
Qed.

(** ** Histories *)
Lemma calm_cbs s : calm (s_env s) <-> cbs_ok false s.
Proof. unfold calm, cbs_ok. destruct (existsb _ _); split; auto; intro H; discriminate (H eq_refl). Qed.
Lemma opened_inv n m s : opened G n m s -> rx_all G s /\ Reach n m (x_recs (s_ctx s)) /\ cbs_ok false s.
Proof.
  intros (buf & retr & e & H1 & H2 & H3 & H4 & H5 & ->). split; [|split; [apply reach_fresh|now apply calm_cbs]].
  split; [|exact H3]. pose proof (zlen_nonneg buf). repeat split; cbn; auto; try lia. constructor.
Qed.
Lemma begun_inv n m s : Begun G n m s -> rx_all G s /\ Reach n m (x_recs (s_ctx s)) /\ cbs_ok false s.
Proof.
  intros (s0 & l & rs & t & H0 & H). apply opened_inv in H0. destruct H0 as (K1 & K2 & K3).
  destruct (calls_x G n m l s0 rs s t K1 K2 K3 H) as (_ & ?). exact H0.
Qed.
Lemma run_calls_app l1 : forall l2 s r1 s1 t1 r2 s2 t2, run_calls G l1 s = Ret r1 s1 t1 -> run_calls G l2 s1 = Ret r2 s2 t2 ->
  run_calls G (l1 ++ l2) s = Ret (r1 ++ r2) s2 (t1 ++ t2).
Proof.
  induction l1 as [|c l1 IH]; intros l2 s r1 s1 t1 r2 s2 t2 H1 H2; cbn [app run_calls] in *.
  - mgo H1. exact H2.
  - apply bind_inv in H1. destruct H1 as (x & s3 & t3 & t4 & K1 & H1 & ->).
    apply bind_inv in H1. destruct H1 as (xs & s4 & t5 & t6 & K2 & H1 & ->). apply ret_inv in H1. destruct H1 as (-> & -> & ->).
    unfold bind at 1. rewrite K1. unfold bind at 1. rewrite (IH _ _ _ _ _ _ _ _ K2 H2). cbn [ret app]. rewrite !app_nil_r, app_assoc. reflexivity.
Qed.
Lemma begun_calls n m l s rs s' t : Begun G n m s -> run_calls G l s = Ret rs s' t -> Begun G n m s'.
Proof.
  intros (s0 & l0 & r0 & t0 & H0 & H) K. exists s0, (l0 ++ l), (r0 ++ rs), (t0 ++ t). split; auto. eapply run_calls_app; eauto.
Qed.
Lemma begun_call n m c s st s' t : Begun G n m s -> run_call G c s = Ret st s' t -> Begun G n m s'.
Proof.
  intros H K. eapply (begun_calls n m [c]); eauto. cbn [run_calls]. unfold bind. rewrite K. cbn [ret]. reflexivity.
Qed.

(** As long as the client is neither connected nor asked to connect, nothing is sent. *)
Lemma no_traffic n m l s rs s' t : Begun G n m s -> run_calls G l s = Ret rs s' t ->
  existsb call_disc l = false -> existsb call_conn l = false -> x_status (s_ctx s) <> Connected ->
  outs t = [] /\ x_status (s_ctx s') = x_status (s_ctx s).
Proof.
  intros HB H Hd Hc Hn. apply begun_inv in HB. destruct HB as (K1 & K2 & K3).
  destruct (calls_x G n m l s rs s' t K1 K2 K3 H) as (X & _). rewrite Hd, Hc in X. apply xpath_live in X.
  unfold live in X. destruct (x_status (s_ctx s)); auto. contradiction.
Qed.
(** A disconnected client sends only as part of MQTT_Connect. *)
(** After a transport error the connection is broken until MQTT_Disconnect. *)
Lemma broken_connection n m l s rs s' t : Begun G n m s -> run_calls G l s = Ret rs s' t ->
  existsb call_disc l = false ->
  (x_status (s_ctx s) = Connected -> quiet t /\ x_status (s_ctx s') <> NotConnected /\
     (errs t = true -> x_status (s_ctx s') = DisconnectPending)) /\
  (x_status (s_ctx s) = DisconnectPending -> outs t = [] /\ x_status (s_ctx s') = DisconnectPending).
Proof.
  intros HB H Hd. apply begun_inv in HB. destruct HB as (K1 & K2 & K3).
  destruct (calls_x G n m l s rs s' t K1 K2 K3 H) as (X & _). rewrite Hd in X.
  apply xpath_mono with (d' := false) (k' := true) in X; auto. apply xpath_broken in X.
  unfold stuck_broken in X. destruct (x_status (s_ctx s)); split; intro; try discriminate; auto.
Qed.

(** ** MQTT_Disconnect *)
Lemma disconnect_effect s st s' t : disconnect G s = Ret st s' t ->
  x_status (s_ctx s) = NotConnected /\ st = StNotConnected /\ s' = s /\ t = [] \/
  x_status (s_ctx s) <> NotConnected /\ (st = Success \/ st = SendFailed) /\
    (exists k, (k <= 2)%nat /\ outs t = firstn k disconnect_packet /\ (st = Success <-> k = 2%nat)) /\
    quiet t /\ ins t = [] /\
    x_status (s_ctx s') = NotConnected /\ x_index (s_ctx s') = 0 /\ x_recs (s_ctx s') = x_recs (s_ctx s) /\
    x_retr (s_ctx s') = x_retr (s_ctx s) /\ e_in (s_env s') = e_in (s_env s).
Proof.
  intro H. apply disconnect_spec in H. destruct H as [H|(Hn & ok & H & ->)]; [left; exact H|right].
  split; auto. split; [destruct ok; auto|]. pose proof (sentb_exact _ _ _ _ _ H) as (k & W1 & W2 & W3 & W4 & W5 & W6).
  split. { exists k. split; [exact W1|]. split; [exact W2|]. change (length [224; 0]) with 2%nat in W4. rewrite <- W4. destruct ok; split; congruence. }
  split; auto. split; [apply send_ins; eapply sentb_only; eauto|].
  destruct H as (k2 & l & _ & _ & _ & (x & y & E) & _ & _ & [(_ & Ec)|(_ & _ & Ec)]); rewrite Ec, E; cbn; repeat split; auto.
Qed.
End Calls.
