(** The client used from several threads is the abstract client: whole histories. *)
From Verif Require Import Base StateModel StateSpec StateHarness StateProofs StateProofs2 SerModel WireSpec SerHarness SerProofs SerProofs2 SerProofs3 SerProofs4 SerProofs5
  CoreModel CoreHarness CoreSpec CoreProofs CoreProofs2 CoreProofs3 CoreProofs4 CoreProofs5 CoreProofs6 CoreProofs7 CoreProofs8 CoreProofs9 CoreProofs10 CoreProofs11 CoreProofs12 CoreProofs13 CoreProofs14 CoreProofs15 CoreProofs16 CoreProofs17 CoreProofs18 CoreProofs19 CoreProofs20 CoreProofs21 CoreProofs22 CoreFinal2 ConcModel ConcHarness ConcProofs ConcProofs2 ConcProofs3 ConcProofs4 ConcProofs5 ConcProofs6 ConcProofs7 Machine MachProofs MachProofs2 MachProofs3 MachProofs4.

Section MP5.
Context {cc : may_start}.
Variable G : cfg.
Variables n m : nat.
Variables rt cn : bool.
Hypothesis HM : 4294967296 <= g_M G.
Hypothesis HV : 3 <= g_maxvec G.
Hypothesis HB : g_big G = false.
Notation good := (good n m).
Notation fits := (op_fits (g_M G) cn).
Notation mstep := (mstep rt cn).
Notation ms := (ms n m).
Notation does := (does n m rt cn).
Notation Inv := (Inv G n m rt cn).
Notation logs := (logs G n m rt cn).
Notation act := (act G n m rt cn).
Local Notation "'let^' x ':=' m 'in' k" := (cbind m (fun x => k))
  (at level 200, x pattern, m at level 100, k at level 200).
Local Notation "m ;^ k" := (cbind m (fun _ => k)) (at level 190, right associativity).
Let lb := @logs_bind cc G n m rt cn.
Let lv := @logs_visit cc G n m rt cn HM HB.



(** ** Sending again *)
Lemma found mask p c cur id cur' : (forall l, slots_ok l -> forall r, In r l -> in_mask mask (rst r) = true -> rid r <> 0) -> in_mask mask StateNull = false ->
  (forall r, p (to_flight r) = in_mask mask (rst r)) -> Reach n m c ->
  stateSelect (arr (outRecs c)) mask cur = (id, cur') -> id <> 0 -> In id (ids (filter p (tracked (outRecs c)))).
Proof.
  intros H1 H2 H3 Hr E Hid. pose proof (reach_view _ _ _ Hr) as ([K1 K2 K3 K4 K5] & _). unfold tracked. rewrite <- (mask_abs _ _ p K3 H2 H3).
  pose proof (select_walk (arr (outRecs c)) mask (H1 _ K3) _ cur eq_refl) as W. inversion W as [c0 c' Hn Hc El|c0 c' i l Hn Hi W' Hc El]; [congruence|].
  assert (i = id) by congruence. subst i. apply (f_equal (In id)) in El.
  assert (J : In id (map rid (filter (fun r => in_mask mask (rst r)) (skipn cur (arr (outRecs c)))))) by (rewrite <- El; now left).
  apply in_map_iff in J. destruct J as (r & Er & J). apply filter_In in J. destruct J as (J1 & J2). apply in_map_iff. exists r. split; auto. apply filter_In. split; auto.
  rewrite <- (firstn_skipn cur (arr (outRecs c))). apply in_app_iff. auto.
Qed.
Lemma found_rel c cur id cur' : Reach n m c -> pubrelToResend c cur = (id, cur') -> id <> 0 -> In id (half_done (tracked (outRecs c))).
Proof.
  intros. eapply (found [PubCompPending; PubRelSend] is_rel); eauto using in_mask_rel. intros r. unfold is_rel. cbn [to_flight f_st]. destruct (rst r); reflexivity.
Qed.
Lemma found_pub c cur id cur' : Reach n m c -> publishToResend c cur = (id, cur') -> id <> 0 -> In id (unacked (tracked (outRecs c))).
Proof.
  intros. eapply (found [PublishSend; PubAckPending; PubRecPending] is_pub); eauto using in_mask_pub. intros r. unfold is_pub. cbn [to_flight f_st]. destruct (rst r); reflexivity.
Qed.
Definition pends (st : status) : Prop := st = StConnected \/ st = StDisconnectPending.
Lemma acked_status se id k op : ~ pends (ok_of (spec_step se (Acked id k op))).
Proof.
  unfold pends, ok_of. cbn [spec_step]. intro H. destruct (id =? 0); [destruct H; discriminate|].
  destruct (concerns_sent k op); (destruct (lookup _ _) as [f|]; [|destruct H; discriminate]).
  - destruct (sender_table (f_qos f) (f_st f) k op); cbn in H; destruct H; discriminate.
  - destruct (receiver_table (f_qos f) (f_st f) k op); cbn in H; destruct H; discriminate.
Qed.
(** the connection that is not there any more is the reason of such a status *)
Lemma logs_pubrel id s : logs (Owe Pubrel id Resume) (c_sendPublishAcks G id PubRelSend) s
  (fun st j' s' => j' = (if status_beq st Success then Resume else Failed) /\ (pends st -> x_status (s_ctx s') <> Connected)).
Proof.
  assert (Ek : ackToSend PubRelSend = Some (ack_first (ack_of Pubrel), Pubrel)) by reflexivity.
  apply logs_inv. intros HI (Hid & Hj). unfold c_sendPublishAcks. rewrite Ek. rewrite (serializeAck_bytes _ _ _ _ Ek).
  assert (E0 : (id =? 0) = false) by (unfold id_ok in Hid; lia). rewrite E0.
  eapply lb; [apply logs_lift|]. cbv beta. intros p j1 s1 (-> & -> & ->). cbn [status_beq].
  eapply (lb _ _ _ _ _ _ _ (fun st j' s' => j' = (if status_beq st Success then Note Pubrel id Resume else Failed) /\ (pends st -> x_status (s_ctx s') <> Connected))).
  { apply logs_locked; auto. intros s2 t2 _ I2 st s3 t3 H. pose proof (ack_send_ok G _ _ _ _ _ _ _ _ Ek H) as (P & _).
    assert (X : pends st -> x_status (s_ctx s3) <> Connected).
    { unfold ack_send in H. apply bind_inv in H. destruct H as (c & s4 & t4 & t5 & H1 & H & ->). apply getc_inv in H1. destruct H1 as (-> & -> & ->).
      destruct (status_beq (must_be_connected (s_ctx s2)) Success) eqn:E.
      - apply bind_inv in H. destruct H as (r & s5 & t6 & t7 & H1 & H & ->). apply ret_inv in H. destruct H as (-> & _ & _). intros [Q|Q]; destruct (r <? 4); discriminate.
      - apply ret_inv in H. destruct H as (-> & -> & _). intros _. unfold must_be_connected in E. destruct (x_status (s_ctx s2)); discriminate. }
    apply (ack_send_does n m rt cn) with (k := Pubrel) (id := id) (j := Resume) (ps := PubRelSend) in H || apply (ack_send_does G n m rt cn Pubrel id Resume) with (ps := PubRelSend) in H; auto.
    destruct (inv_next G n m rt cn false _ _ (Owe Pubrel id Resume) _ _ I2 (conj Hid Hj) (cpath_path _ _ _ _ _ P) H) as (I3 & J3). eexists. eauto. }
  cbv beta. intros st j2 s2 (-> & X). destruct (status_beq st Success) eqn:Est; [|apply logs_ret; rewrite Est; auto].
  eapply (lb _ _ _ _ _ _ _ (fun _ j' s' => j' = Note Pubrel id Resume)).
  { apply logs_mod; auto. }
  cbv beta. intros _ j3 s3 ->. apply logs_locked; auto. intros s4 t4 _ I4 st5 s5 t5 H. unfold ack_update in H. apply bind_inv in H.
  destruct H as ((st6, ns) & s6 & t6 & t7 & H1 & H & ->). mgo H. rewrite ?app_nil_r.
  assert (P : Path false s4 s6 t6) by (eapply paths_acked; eauto).
  assert (J : job_ok (if status_beq st6 Success then Resume else give_up Resume)) by (destruct (status_beq st6 Success); exact I).
  assert (X6 : ~ pends st6).
  { apply on_recs_inv in H1. destruct H1 as (c & E & _ & _). destruct (acked_eq n m (x_recs (s_ctx s4)) id Pubrel OpSend (proj1 (proj1 I4))) as (c' & E1 & _ & _). rewrite E1 in E.
    pose proof (acked_status (view n m (x_recs (s_ctx s4))) id Pubrel OpSend) as Z. unfold ok_of in Z. congruence. }
  destruct (acked_does G n m rt cn Pubrel id Resume _ _ _ _ _ _ I4 H1 J eq_refl) as (D & ->).
  destruct (inv_next G n m rt cn false _ _ _ _ _ I4 (conj Hid Hj : job_ok (Note Pubrel id Resume)) (cpath_path _ _ _ _ _ P) D) as (I5 & J5). eexists. split; [exact I5|]. split; [exact J5|]. split; [exact D|]. split; [reflexivity|tauto].
Qed.
Definition rel_job (id : Z) : job := if id =? 0 then Resume else Owe Pubrel id Resume.
Definition resumes (st : status) (j' : job) (s' : CoreModel.st) : Prop :=
  j' = (if status_beq st Success then Resume else Failed) /\ (pends st -> x_status (s_ctx s') <> Connected).
(** looking for the next PUBREL *)
Lemma logs_next_rel cur s : logs Resume (visit G getc) s (fun c j' s' => j' = rel_job (fst (pubrelToResend (x_recs c) cur)) /\ x_retr c = rt).
Proof.
  apply lv. intros s1 t1 _ I1 c s2 t2 H. apply getc_inv in H. destruct H as (-> & -> & ->). destruct (pubrelToResend (x_recs (s_ctx s1)) cur) as (id, cur') eqn:E.
  exists (rel_job id). split; [exact I1|]. assert (T : rel_job id = rel_job (fst (pubrelToResend (x_recs (s_ctx s1)) cur)) /\ x_retr (s_ctx s1) = rt) by (rewrite E; split; [reflexivity|apply I1]).
  unfold rel_job in *. destruct (Z.eq_dec id 0) as [->|Hid].
  - split; [exact I|]. split; [apply does_refl|exact T].
  - replace (id =? 0) with false in * by lia. pose proof (found_rel _ _ _ _ (proj1 (proj1 I1)) E Hid) as F'.
    split; [split; [eapply half_ok; [apply I1|exact F']|exact I]|]. split; [|exact T]. apply does_quiet, s_resume_pubrel. exact F'.
Qed.
Lemma logs_pubrel_loop fuel : forall id cur s, logs (rel_job id) (c_pubrel_loop G fuel id cur) s resumes.
Proof.
  induction fuel as [|fuel IH]; intros id cur s; cbn [c_pubrel_loop]; [apply logs_stuck|]. unfold rel_job. destruct (id =? 0); [apply logs_ret; split; auto; intros [Q|Q]; discriminate|].
  eapply lb; [apply logs_pubrel|]. cbv beta. intros st j1 s1 (-> & X). destruct (status_beq st Success) eqn:E; cbn [negb]; [|apply logs_ret; unfold resumes; rewrite E; auto].
  eapply lb; [apply (logs_next_rel cur)|]. cbv beta. intros c j2 s2 (-> & _). destruct (pubrelToResend (x_recs c) cur) as (id', cur'). cbn [fst]. apply IH.
Qed.
Lemma logs_publish_loop fuel : rt = true -> forall cur s, logs Resume (c_publish_loop G fuel cur) s resumes.
Proof.
  intro Hrt. induction fuel as [|fuel IH]; intros cur s; cbn [c_publish_loop]; [apply logs_stuck|].
  eapply (lb _ _ _ _ _ _ _ (fun c j' s' => j' = let id := fst (publishToResend (x_recs c) cur) in if id =? 0 then Resume else Fetch id)).
  { apply lv. intros s1 t1 _ I1 c s2 t2 H. apply getc_inv in H. destruct H as (-> & -> & ->). destruct (publishToResend (x_recs (s_ctx s1)) cur) as (id, cur') eqn:E.
    exists (if id =? 0 then Resume else Fetch id). split; [exact I1|].
    assert (T : (if id =? 0 then Resume else Fetch id) = let id := fst (publishToResend (x_recs (s_ctx s1)) cur) in if id =? 0 then Resume else Fetch id) by (now rewrite E).
    destruct (Z.eq_dec id 0) as [->|Hid]; [split; [exact I|]; split; [apply does_refl|exact T]|].
    replace (id =? 0) with false in * by lia. split; [exact I|]. split; [|exact T]. apply does_quiet, s_resume_publish; auto. eapply found_pub; eauto. apply I1. }
  cbv beta. intros c j1 s1 ->. destruct (publishToResend (x_recs c) cur) as (id, cur'). cbn [fst]. destruct (id =? 0); [apply logs_ret; split; auto; intros [Q|Q]; discriminate|].
  eapply (lb _ _ _ _ _ _ _ (fun r j' s' => j' = match r with Some bs => Again id bs | None => Failed end)).
  { apply lv. intros s2 t2 _ I2 r s3 t3 H. unfold retrieve_publish in H.
    assert (s3 = mkSt (s_ctx s2) (env_retrs (s_env s2) (tl (e_retrs (s_env s2)))) /\ t3 = [ERetrieve id r]) as (-> & ->) by (split; congruence).
    exists (match r with Some bs => Again id bs | None => Failed end). split; [apply (inv_same G n m rt cn s2); auto|]. split; [destruct r; exact I|]. split; [|reflexivity].
    apply does_event; [reflexivity|]. apply s_fetch. }
  cbv beta. intros r j2 s2 ->. destruct r as [bs|]; [|apply logs_ret; split; auto; intros [Q|Q]; discriminate].
  eapply (lb _ _ _ _ _ _ _ (fun k j' s' => j' = if k =? zlen bs then Resume else Failed)).
  { apply logs_locked; auto. intros s3 t3 _ I3 k s4 t4 H. apply sendBuffer_spec in H. pose proof (sent_ok_sentb _ _ _ _ _ H) as Hb.
    pose proof (sentb_recs _ _ _ _ _ Hb) as E1. pose proof (sentb_next _ _ _ _ _ Hb) as E2. change bs with (bytes (KAgain id bs)) in Hb.
    destruct (sentb_says _ _ _ _ _ Hb) as (l & S1 & S2).
    assert (D : does s3 (Again id bs) s4 (if k =? zlen bs then Resume else Failed) t4).
    { eapply does_step; [exact S1|exact (unstarted_sends cc _ _ _ _ _ S2 I)|]. unfold MachProofs.ms. rewrite (session_same n m _ _ E1), E2. now apply s_again with (ok := k =? zlen bs). }
    exists (if k =? zlen bs then Resume else Failed). assert (J : job_ok (if k =? zlen bs then Resume else Failed)) by (destruct (k =? zlen bs); exact I).
    split; [|auto]. apply (inv_same G n m rt cn s3); auto; [exact (proj1 (sentb_stays _ _ _ _ _ Hb))|]. destruct Hb as (_ & _ & _ & _ & _ & (x & y & ->) & _). reflexivity. }
  cbv beta. intros k j3 s3 ->. destruct (k =? zlen bs); cbn [negb]; [apply IH|]. apply logs_ret. split; auto. intros [Q|Q]; discriminate.
Qed.
Lemma logs_resume s : logs Resume (c_handleUncleanSessionResumption G) s resumes.
Proof.
  unfold c_handleUncleanSessionResumption. eapply lb; [apply (logs_next_rel 0)|]. cbv beta. intros c j1 s1 (-> & Hrt). destruct (pubrelToResend (x_recs c) 0) as (id, cur). cbn [fst].
  eapply lb; [apply logs_pubrel_loop|]. cbv beta. intros st j2 s2 (-> & X). destruct (status_beq st Success) eqn:E; cbn [andb]; [|apply logs_ret; unfold resumes; rewrite E; auto].
  destruct (x_retr c); [apply logs_publish_loop; auto|]. apply logs_ret. unfold resumes. rewrite E. auto.
Qed.

(** ** Calls that may hang *)
Definition clogs {A} (j : job) (f : Mc A) (s : st) (R : A -> job -> st -> Prop) : Prop :=
  Inv s -> job_ok j -> forall w a w' s' t, wok G cn w -> f w s = Ret (Some a, w') s' t ->
  wok G cn w' /\ Inv s' /\ exists j', job_ok j' /\ does s j s' j' t /\ R a j' s'.
Lemma clogs_logs {A} j (f : Mc A) s R : logs j f s R -> clogs j f s R.
Proof.
  intros H HI Hj w a w' s' t Hw E. destruct (H HI Hj _ _ _ _ _ Hw E) as (K1 & K2 & b & j' & Eb & K3 & K4 & K5). assert (b = a) by congruence. subst b. eauto 8.
Qed.
Lemma clogs_bind {A B} j (f : Mc A) (k : A -> Mc B) s (R : B -> job -> st -> Prop) R1 :
  clogs j f s R1 -> (forall a j1 s1, R1 a j1 s1 -> clogs j1 (k a) s1 R) -> clogs j (cbind f k) s R.
Proof.
  intros H K HI Hj w b w' s' t Hw E. apply cbind_some in E. destruct E as (a & w1 & s1 & t1 & t2 & E1 & E2 & ->).
  destruct (H HI Hj _ _ _ _ _ Hw E1) as (W1 & I1 & j1 & J1 & D1 & R1'). destruct (K _ _ _ R1' I1 J1 _ _ _ _ _ W1 E2) as (W2 & I2 & j2 & J2 & D2 & R2').
  split; auto. split; auto. exists j2. split; auto. split; auto. eapply does_trans; eauto.
Qed.
Lemma clogs_locked {A} j (f : Mc A) (f0 : Mo A) s R : (forall s1, sim G true true f f0 s1) ->
  (forall s1 t1, others s s1 t1 -> Inv s1 -> forall a s2 t2, f0 s1 = Ret a s2 t2 -> act j s1 R a s2 t2) -> clogs j (locked G f) s R.
Proof.
  intros Hsim K HI Hj w a w' s' t Hw E. pose proof Hw as ((Hh & Hf) & _).
  assert (Z : locked G f w s = match run_ops G (hd [] (w_sched w)) s with
    | Ret _ s1 t1 => match f (mkW true (tl (w_sched w))) s1 with
        | Ret (Some a, w') s2 t2 => Ret (Some a, mkW false (w_sched w')) s2 (t1 ++ t2)
        | Ret (None, w') s2 t2 => Ret (None, w') s2 (t1 ++ t2)
        | Undef => Undef | Stuck => Stuck end
    | Undef => Undef | Stuck => Stuck end).
  { unfold locked, acquire, release, cbind, yield, cret. rewrite Hh. unfold bind, ret.
    destruct (run_ops G (hd [] (w_sched w)) s) as [a0 s1 t1| |]; auto. cbn [w_held w_sched andb].
    destruct (f (mkW true (tl (w_sched w))) s1) as [[[b|] w2] s2 t2| |]; auto; rewrite ?app_nil_r; reflexivity. }
  rewrite Z in E. clear Z. destruct (run_ops G (hd [] (w_sched w)) s) as [a0 s1 t1| |] eqn:E1; try discriminate.
  destruct (run_yield G n m rt cn HM HB j _ _ _ _ _ Hw HI Hj E1) as (O & D & I1).
  specialize (Hsim s1 (mkW true (tl (w_sched w))) eq_refl ltac:(discriminate)).
  destruct (f (mkW true (tl (w_sched w))) s1) as [[[b|] w2] s2 t2| |]; try discriminate.
  destruct Hsim as (E2 & ->). cbn [w_sched] in E. assert (a = b /\ w' = mkW false (tl (w_sched w)) /\ s' = s2 /\ t = t1 ++ t2) as (-> & -> & -> & ->) by (repeat split; congruence).
  destruct (K _ _ O I1 _ _ _ E2) as (j' & A1 & A2 & A3 & A4). split; [now apply wok_yield|]. split; auto. exists j'. split; auto. split; auto. eapply does_trans; eauto.
Qed.

Lemma logs_leave s : x_status (s_ctx s) <> Connected -> logs Failed (cret tt) s (fun _ j' _ => j' = Idle).
Proof.
  intro Hc. apply (logs_step G n m rt cn Failed Idle); [exact I| |now apply logs_ret]. unfold MachProofs.ms.
  pose proof (s_failed rt cn (x_status (s_ctx s)) (session_of n m s) (x_nextId (s_ctx s))) as K. destruct (x_status (s_ctx s)); try contradiction; exact K.
Qed.
Lemma clogs_connect ci will tmo s : (x_status (s_ctx s) = NotConnected -> cc = true) -> con_sound ci will -> rx_all G s -> clogs Idle (c_connect G ci will tmo) s (fun _ j' _ => j' = Idle).
Proof.
  intros Hcc Hs Hr. unfold c_connect. destruct (getConnectPacketSize ci will) as (st0, size) eqn:Ez.
  assert (Hst : st0 = BadParameter /\ size = None \/ st0 = Success /\ exists rl total, size = Some (rl, total)).
  { unfold getConnectPacketSize in Ez. destruct (_ || _); [left; split; congruence|]. destruct (match will with Some _ => _ | None => _ end) in Ez; [left; split; congruence|].
    right. split; [congruence|]. eexists _, _. symmetry. injection Ez as _ Ez. exact Ez. }
  set (R1 := fun (a : status * option bool) (j' : job) (s' : CoreModel.st) => j' = after_region (fst a) (snd a)).
  apply (clogs_bind _ _ _ _ _ R1).
  { destruct Hst as [(-> & ->)|(-> & rl & total & ->)].
    - apply clogs_logs. apply (logs_step G n m rt cn Idle Failed); [exact I|apply s_refused|]. apply logs_ret. reflexivity.
    - apply (clogs_locked _ _ (region G ci will rl tmo)); [intro; apply sim_region|]. intros s1 t1 O I1 (st, sp) s2 t2 E.
      pose proof (proj1 O) as X. apply path_same_rx in X. destruct X as (X & _). pose proof (same_rx_all G _ _ X Hr) as Hr1.
      assert (Hcc1 : x_status (s_ctx s1) = NotConnected -> cc = true).
      { intro Q. apply Hcc. destruct (x_status (s_ctx s)) eqn:Es; auto; exfalso; refine (proj1 (proj2 (proj2 (proj2 (resumed_others G _ _ _ _ O)))) Q); congruence. }
      pose proof (region_does G n m rt cn HM HB _ _ _ _ _ _ _ _ _ _ Hcc1 I1 Hr1 Hs Ez E) as D. destruct (region_greeted G n m _ _ _ _ _ _ _ _ _ Hr1 (proj1 I1) E) as (P & _).
      destruct (inv_next G n m rt cn true _ _ Idle _ _ I1 I P D) as (I2 & J2). exists (after_region st sp). unfold R1. cbn [fst snd]. auto. }
  intros (st, sp) j1 s1 E1. unfold R1 in E1. cbn [fst snd] in E1. subst j1. clear R1.
  set (R2 := fun (st2 : status) (j' : job) (s' : CoreModel.st) =>
     j' = Idle /\ (status_beq st2 Success || status_beq st2 StConnected || status_beq st2 StDisconnectPending = true) \/
     j' = Failed /\ (status_beq st2 Success = false) /\ (pends st2 -> x_status (s_ctx s') <> Connected)).
  apply (clogs_bind _ _ _ _ _ R2).
  { apply clogs_logs. destruct (status_beq st Success && match sp with Some true => true | _ => false end) eqn:Eb.
    - apply andb_true_iff in Eb. destruct Eb as (Eb & Ep). apply status_beq_eq in Eb. subst st. destruct sp as [[|]|]; try discriminate. cbn [after_region].
      intros HI Hj w oa w' s' t Hw E. destruct (logs_resume s1 HI Hj _ _ _ _ _ Hw E) as (K1 & K2 & st2 & j' & -> & K3 & K4 & K5 & K6). subst j'.
      split; auto. split; auto. destruct (status_beq st2 Success) eqn:E2.
      + exists st2, Idle. split; auto. split; [exact I|]. split; [|left; split; auto; now rewrite E2]. rewrite <- (app_nil_r t). eapply does_trans; [exact K4|]. apply does_quiet, s_resumed.
      + exists st2, Failed. split; auto. split; [exact I|]. split; auto. right. auto.
    - apply logs_ret. unfold R2. destruct st; cbn [after_region status_beq orb]; auto; try (right; split; auto; split; auto; intros [Q|Q]; discriminate).
      left. split; auto. cbn [status_beq andb] in Eb. destruct sp as [[|]|]; auto; discriminate. }
  intros st2 j2 s2 H2. apply (clogs_bind _ _ _ _ _ (fun _ j' _ => j' = Idle)).
  { apply clogs_logs. destruct H2 as [(-> & E2)|(-> & E2 & X)]; [rewrite E2; now apply logs_ret|]. rewrite E2. cbn [orb].
    destruct (status_beq st2 StConnected || status_beq st2 StDisconnectPending) eqn:E3; [|now apply logs_broke]. apply logs_leave, X.
    apply orb_true_iff in E3. destruct E3 as [E3|E3]; apply status_beq_eq in E3; [now left|now right]. }
  intros u j3 s3 ->. now apply clogs_logs, logs_ret.
Qed.
Lemma clogs_call c s : (call_conn c = true -> x_status (s_ctx s) = NotConnected -> cc = true) -> call_sound c -> call_fits (g_M G) cn c -> rx_all G s -> clogs Idle (c_run_call G c) s (fun _ j' _ => j' = Idle).
Proof.
  intros Hcc Hs Hf Hr. destruct c as [o|ci will tmo| |]; cbn [c_run_call].
  - now apply clogs_logs, logs_op.
  - eapply clogs_bind; [apply clogs_connect; auto|]. cbv beta. intros (st, sp) j1 s1 ->. now apply clogs_logs, logs_ret.
  - apply clogs_logs. unfold c_processLoop. apply logs_inv. intros HI _. eapply (lb _ _ _ _ _ _ _ (fun _ j' s' => j' = Idle /\ rx_all G s')).
    + apply lv. intros s1 t1 O I1 [] s2 t2 H. apply modc_inv in H. destruct H as (-> & ->). apply act_still; try reflexivity; auto; try exact I. split; auto.
      pose proof (proj1 O) as X. apply path_same_rx in X. destruct X as (X & _). exact (same_rx_all G _ _ X Hr).
    + cbv beta. intros _ j1 s1 (-> & Hr1). now apply logs_iteration.
  - now apply clogs_logs, logs_iteration.
Qed.
Lemma calls_do l : cc = true -> forall w s rs w' s' t, Forall call_sound l -> Forall (call_fits (g_M G) cn) l -> rx_all G s -> Inv s -> wok G cn w ->
  c_run_calls G l w s = Ret (Some rs, w') s' t -> does s Idle s' Idle t /\ Inv s'.
Proof.
  intro Hcc. induction l as [|c l IH]; intros w s rs w' s' t Hs Hf Hr HI Hw E.
  - apply calls_nil in E. destruct E as (_ & _ & -> & ->). split; [apply does_refl|auto].
  - apply calls_cons in E. destruct E as (r & w1 & s1 & t1 & rs2 & t2 & E1 & E2 & -> & _). apply Forall_cons_iff in Hs, Hf. destruct Hs as (H1 & H2), Hf as (H3 & H4).
    destruct (shared_call G n m HM HV c w s _ _ _ _ H1 Hr (proj1 HI) (proj1 Hw) E1) as (_ & Hr1 & _).
    destruct (clogs_call c s (fun _ _ => Hcc) H1 H3 Hr HI I _ _ _ _ _ Hw E1) as (W1 & I1 & j' & _ & D1 & ->).
    apply IH in E2; auto. destruct E2 as (D2 & I2). split; auto. eapply does_trans; eauto.
Qed.
End MP5.

(** ** The refinement *)
(** the limits hold of the calls of all threads, and of the calls made in callbacks *)
Definition all_fit (G : cfg) (cn : bool) (l : list call) (w : world) (s : st) : Prop :=
  Forall (call_fits (g_M G) cn) l /\ Forall (Forall (op_fits (g_M G) cn)) (w_sched w) /\ Forall (Forall (op_fits (g_M G) cn)) (e_cbs (s_env s)).
Lemma opened_machine G n m cn s : opened G n m s -> cbs_sound (s_env s) -> Forall (Forall (op_fits (g_M G) cn)) (e_cbs (s_env s)) ->
  Inv G n m (x_retr (s_ctx s)) cn s /\ ms n m s Idle = mkM NotConnected (fresh_session n m) 1 Idle.
Proof.
  intros Ho Hc Hf. pose proof (opened_inv _ _ _ _ Ho) as (A1 & A2 & A3). destruct Ho as (buf & retr & e & H1 & H2 & H3 & H4 & H5 & ->).
  assert (E : ms n m (mkSt (init_context buf (fresh_recs n m) retr) e) Idle = mkM NotConnected (fresh_session n m) 1 Idle).
  { unfold ms. cbn [s_ctx init_context x_status x_nextId]. f_equal. unfold session_of, outgoing, incoming. cbn [s_ctx init_context x_recs].
    pose proof (reach_view n m (fresh_recs n m) A2) as R. 
    assert (K : forall k, tracked (Some (repeat empty_rec k)) = []) by (intro k; unfold tracked, abs; cbn [arr]; induction k; auto).
    unfold fresh_recs, fresh_session. cbn [outRecs inRecs]. f_equal; destruct n, m; cbn; auto; apply K. }
  split; [|exact E]. split; [exact (conj A2 (conj A3 Hc))|]. split; [reflexivity|]. split; [|exact Hf]. rewrite E. repeat split; cbn; try constructor; unfold id_ok; lia.
Qed.
Lemma refinement G n m cn l w s rs w' s' t : legal G n m l w s -> g_big G = false -> all_fit G cn l w s ->
  c_run_calls G l w s = Ret (Some rs, w') s' t ->
  exists k, Says t k /\ Run (x_retr (s_ctx s)) cn (mkM NotConnected (fresh_session n m) 1 Idle) k
    (mkM (x_status (s_ctx s')) (session_of n m s') (x_nextId (s_ctx s')) Idle).
Proof.
  intros Hl HB (F1 & F2 & F3) E. destruct (legal_inv _ _ _ _ _ _ Hl) as (HM & HV & Hr & Hg & Hw & Hs). destruct Hl as (Ho & _ & Hc & _).
  destruct (opened_machine _ _ _ cn _ Ho Hc F3) as (HI & E0).
  destruct (@calls_do true G n m (x_retr (s_ctx s)) cn HM HV HB _ eq_refl _ _ _ _ _ _ Hs F1 Hr HI (conj Hw F2) E) as ((k & S & R & _) & _). rewrite E0 in R. exists k. split; [exact S|exact R].
Qed.
