(** The client used from several threads is the abstract client: reading and the
    handlers. *)
From Verif Require Import Base StateModel StateSpec StateHarness StateProofs StateProofs2 SerModel WireSpec SerHarness SerProofs SerProofs2 SerProofs3 SerProofs4 SerProofs5
  CoreModel CoreHarness CoreSpec CoreProofs CoreProofs2 CoreProofs3 CoreProofs4 CoreProofs5 CoreProofs6 CoreProofs7 CoreProofs8 CoreProofs9 CoreProofs10 CoreProofs11 CoreProofs12 CoreProofs13 CoreProofs14 CoreProofs15 CoreProofs16 CoreProofs17 CoreProofs18 CoreProofs19 CoreProofs20 CoreProofs21 CoreProofs22 CoreFinal2 ConcModel ConcHarness ConcProofs ConcProofs2 ConcProofs3 ConcProofs4 Machine MachProofs.

Section MP2.
Context {cc : may_start}.
Variable G : cfg.
Variables n m : nat.
Variables rt cn : bool.
Hypothesis HM : 4294967296 <= g_M G.
Hypothesis HV : 3 <= g_maxvec G.
Hypothesis HB : g_big G = false.
Notation good := (good n m).
Notation fits := (op_fits (g_M G) cn).
Notation mstep := (mstep rt cn).
Notation ms := (ms n m).
Notation does := (does n m rt cn).
Notation Inv := (Inv G n m rt cn).
Local Notation "'let^' x ':=' m 'in' k" := (cbind m (fun x => k))
  (at level 200, x pattern, m at level 100, k at level 200).
Local Notation "m ;^ k" := (cbind m (fun _ => k)) (at level 190, right associativity).

Lemma cpath_any k s s' t : Path k s s' t -> CPath G k s s' t.
Proof. induction 1; [constructor|]. eapply cp_step; [apply ca_atom; eauto|auto]. Qed.
(** nothing the machine sees has changed *)
Lemma inv_same s s' : x_recs (s_ctx s') = x_recs (s_ctx s) -> x_nextId (s_ctx s') = x_nextId (s_ctx s) -> x_retr (s_ctx s') = x_retr (s_ctx s) ->
  e_cbs (s_env s') = e_cbs (s_env s) -> Inv s -> Inv s'.
Proof.
  intros E1 E2 E3 E4 (H1 & H2 & (H3 & H4 & _) & H5). split; [eapply good_same; eauto|]. split; [congruence|]. split; [|rewrite E4; exact H5].
  split; [|split; [|exact I]]; cbn [m_ses m_next MachProofs.ms]; [rewrite (session_same n m _ _ E1); exact H3|rewrite E2; exact H4].
Qed.
Lemma does_still s s' j : x_recs (s_ctx s') = x_recs (s_ctx s) -> x_nextId (s_ctx s') = x_nextId (s_ctx s) -> x_status (s_ctx s') = x_status (s_ctx s) -> does s j s' j [].
Proof. intros E1 E2 E3. eapply does_same; [reflexivity| |apply does_refl]. unfold MachProofs.ms. rewrite E2, E3, (session_same n m _ _ E1). reflexivity. Qed.

(** ** What the others do *)
Lemma op_does o j s a s' t : Inv s -> job_ok j -> op_sound o -> fits o -> (is_disc o = true -> j = Idle) ->
  run_op G o s = Ret a s' t -> does s j s' j t /\ Inv s'.
Proof.
  intros HI Hj H1 H2 H3 H. assert (D : does s j s' j t) by (eapply run_op_does; eauto). split; auto.
  assert (P : Path true s s' t) by (eapply (run_op_path G true); eauto). apply (inv_next G n m rt cn true s s' j j t); auto. now apply cpath_any.
Qed.
Lemma ops_does l : forall j s a s' t, Inv s -> job_ok j -> ops_fine l -> Forall fits l -> run_ops G l s = Ret a s' t -> does s j s' j t /\ Inv s'.
Proof.
  induction l as [|o l IH]; intros j s a s' t HI Hj (Hs & Hd) Hf H; cbn [run_ops] in H; [mgo H; split; [apply does_refl|auto]|].
  apply bind_inv in H. destruct H as (b & s1 & t1 & t2 & H1 & H & ->). inversion Hs; subst. inversion Hf; subst.
  cbn [existsb] in Hd. apply orb_false_iff in Hd. destruct Hd as (Hd1 & Hd2).
  apply (op_does o j) in H1; auto; [|congruence]. destruct H1 as (D1 & I1). apply (IH j) in H; auto; [|split; auto]. destruct H as (D2 & I2).
  split; auto. eapply does_trans; eauto.
Qed.

(** ** Computations of the loop thread *)
Definition wok (w : world) : Prop := free w /\ Forall (Forall fits) (w_sched w).
Definition logs {A} (j : job) (f : Mc A) (s : st) (R : A -> job -> st -> Prop) : Prop :=
  Inv s -> job_ok j -> forall w oa w' s' t, wok w -> f w s = Ret (oa, w') s' t ->
  wok w' /\ Inv s' /\ exists a j', oa = Some a /\ job_ok j' /\ does s j s' j' t /\ R a j' s'.
Definition act {A} (j : job) (s : st) (R : A -> job -> st -> Prop) (a : A) (s' : st) (t : list ev) : Prop :=
  exists j', Inv s' /\ job_ok j' /\ does s j s' j' t /\ R a j' s'.

Lemma logs_weaken {A} j (f : Mc A) s (R R' : A -> job -> st -> Prop) : logs j f s R -> (forall a j' s', Inv s' -> job_ok j' -> R a j' s' -> R' a j' s') -> logs j f s R'.
Proof.
  intros H K HI Hj w oa w' s' t Hw E. destruct (H HI Hj _ _ _ _ _ Hw E) as (K1 & K2 & a & j' & K3 & K4 & K5 & K6). split; auto. split; auto. exists a, j'. auto 6.
Qed.
Lemma logs_inv {A} j (f : Mc A) s (R : A -> job -> st -> Prop) : (Inv s -> job_ok j -> logs j f s R) -> logs j f s R.
Proof. intros H HI Hj. now apply H. Qed.
Lemma logs_ret {A} j (a : A) s (R : A -> job -> st -> Prop) : R a j s -> logs j (cret a) s R.
Proof.
  intros H HI Hj w oa w' s' t Hw E. unfold cret in E. apply ret_inv in E. destruct E as (E & -> & ->).
  assert (oa = Some a /\ w' = w) as (-> & ->) by (split; congruence). split; auto. split; auto. exists a, j. split; auto. split; auto. split; [apply does_refl|auto].
Qed.
Lemma logs_bind {A B} j (f : Mc A) (k : A -> Mc B) s (R : B -> job -> st -> Prop) R1 :
  logs j f s R1 -> (forall a j1 s1, R1 a j1 s1 -> logs j1 (k a) s1 R) -> logs j (cbind f k) s R.
Proof.
  intros H K HI Hj w oa w' s' t Hw E. unfold cbind in E. apply bind_inv in E. destruct E as ((ob, w1) & s1 & t1 & t2 & E1 & E2 & ->).
  destruct (H HI Hj _ _ _ _ _ Hw E1) as (W1 & I1 & b & j1 & -> & J1 & D1 & R1'). destruct (K _ _ _ R1' I1 J1 _ _ _ _ _ W1 E2) as (W2 & I2 & a & j2 & -> & J2 & D2 & R2').
  split; auto. split; auto. exists a, j2. split; auto. split; auto. split; auto. eapply does_trans; eauto.
Qed.
Lemma logs_step {A} j j1 (f : Mc A) s R : job_ok j1 -> mstep (ms s j) [] (ms s j1) -> logs j1 f s R -> logs j f s R.
Proof.
  intros H1 H K HI Hj w oa w' s' t Hw E. destruct (K HI H1 _ _ _ _ _ Hw E) as (W2 & I2 & a & j2 & -> & J2 & D2 & R2').
  split; auto. split; auto. exists a, j2. split; auto. split; auto. split; auto. change t with ([] ++ t). eapply does_trans; [apply does_quiet; exact H|exact D2].
Qed.
Lemma logs_atomic {A} j (f : Mo A) s R : (forall a s' t, f s = Ret a s' t -> act j s R a s' t) -> logs j (atomic f) s R.
Proof.
  intros K HI Hj w oa w' s' t Hw E. unfold atomic in E. apply bind_inv in E. destruct E as (a & s1 & t1 & t2 & E1 & E2 & ->). apply ret_inv in E2.
  destruct E2 as (E2 & -> & ->). rewrite app_nil_r. assert (oa = Some a /\ w' = w) as (-> & ->) by (split; congruence).
  destruct (K _ _ _ E1) as (j' & A1 & A2 & A3 & A4). split; auto. split; auto. exists a, j'. auto.
Qed.
Lemma wok_yield w : wok w -> wok (mkW false (tl (w_sched w))).
Proof.
  intros ((H1 & H2) & H3). split; [split; [reflexivity|now apply fine_tl]|]. cbn. destruct (w_sched w); auto. now inversion H3.
Qed.
Lemma run_yield j w s a s1 t1 : wok w -> Inv s -> job_ok j -> run_ops G (hd [] (w_sched w)) s = Ret a s1 t1 -> others s s1 t1 /\ does s j s1 j t1 /\ Inv s1.
Proof.
  intros ((H1 & H2) & H3) HI Hj E. pose proof (fine_hd _ H2) as Hl. split; [eapply run_others; eauto|]. eapply ops_does; eauto.
  destruct (w_sched w); [constructor|]. now inversion H3.
Qed.
Lemma logs_visit {A} j (f : Mo A) s R : (forall s1 t1, others s s1 t1 -> Inv s1 -> forall a s2 t2, f s1 = Ret a s2 t2 -> act j s1 R a s2 t2) -> logs j (visit G f) s R.
Proof.
  intros K. unfold visit. eapply (logs_bind _ _ _ _ _ (fun _ j1 s1 => j1 = j /\ Inv s1 /\ exists t1, others s s1 t1)).
  - intros HI Hj w oa w' s' t Hw E. pose proof Hw as ((Hh & _) & _). unfold yield in E. rewrite Hh in E. apply bind_inv in E.
    destruct E as (a & s1 & t1 & t2 & E1 & E2 & ->). apply ret_inv in E2. destruct E2 as (E2 & -> & ->). rewrite app_nil_r.
    assert (oa = Some tt /\ w' = mkW false (tl (w_sched w))) as (-> & ->) by (split; congruence).
    destruct (run_yield j _ _ _ _ _ Hw HI Hj E1) as (O & D & I1). split; [now apply wok_yield|]. split; auto. exists tt, j. eauto 8.
  - cbv beta. intros _ j1 s1 (-> & I1 & t1 & O). apply logs_atomic. intros a s2 t2 E. eapply K; eauto.
Qed.
Lemma logs_locked {A} j (f : Mo A) s R : (forall s1 t1, others s s1 t1 -> Inv s1 -> forall a s2 t2, f s1 = Ret a s2 t2 -> act j s1 R a s2 t2) -> logs j (locked G (atomic f)) s R.
Proof.
  intros K HI Hj w oa w' s' t Hw E. pose proof Hw as ((Hh & Hf) & _).
  unfold locked, acquire, release, cbind, yield, atomic, cret in E. rewrite Hh in E. cbn [w_held andb] in E. unfold bind, ret in E.
  destruct (run_ops G (hd [] (w_sched w)) s) as [a0 s1 t1| |] eqn:E1; [|discriminate..].
  destruct (run_yield j _ _ _ _ _ Hw HI Hj E1) as (O & D & I1). cbn [w_held andb] in E.
  destruct (f s1) as [a1 s2 t2| |] eqn:E2; [|discriminate..]. cbn [w_sched] in E.
  assert (oa = Some a1 /\ w' = mkW false (tl (w_sched w)) /\ s' = s2 /\ t = t1 ++ t2) as (-> & -> & -> & ->).
  { rewrite !app_nil_r in E. repeat split; congruence. }
  destruct (K _ _ O I1 _ _ _ E2) as (j' & A1 & A2 & A3 & A4). split; [now apply wok_yield|]. split; auto. exists a1, j'. split; auto. split; auto. split; auto. eapply does_trans; eauto.
Qed.
(** together with what is known of the computation *)
Lemma logs_with {A} j (f : Mc A) s R R2 : logs j f s R -> steps f s R2 -> logs j f s (fun a j' s' => R a j' s' /\ exists t, R2 a s' t).
Proof.
  intros H K HI Hj w oa w' s' t Hw E. destruct (H HI Hj _ _ _ _ _ Hw E) as (W1 & I1 & b & j1 & -> & J1 & D1 & R1').
  destruct (K w (proj1 Hw)) as (_ & K2). destruct (K2 _ _ _ _ E) as (_ & b' & Eb & R2'). assert (b' = b) by congruence. subst b'.
  split; auto. split; auto. exists b, j1. split; auto. split; auto. split; auto. split; eauto.
Qed.
Lemma act_still {A} j s (R : A -> job -> st -> Prop) a s' : job_ok j -> Inv s -> x_recs (s_ctx s') = x_recs (s_ctx s) -> x_nextId (s_ctx s') = x_nextId (s_ctx s) ->
  x_status (s_ctx s') = x_status (s_ctx s) -> x_retr (s_ctx s') = x_retr (s_ctx s) -> e_cbs (s_env s') = e_cbs (s_env s) -> R a j s' -> act j s R a s' [].
Proof. intros Hj HI E1 E2 E3 E4 E5 HR. exists j. split; [eapply inv_same; eauto|]. split; auto. split; auto. now apply does_still. Qed.

(** ** Calls, callbacks, acknowledgements *)
Lemma logs_op o j s : op_sound o -> fits o -> (is_disc o = true -> j = Idle) -> logs j (c_op G o) s (fun _ j' _ => j' = j).
Proof.
  intros H1 H2 H3. apply logs_inv. intros _ Hj. apply logs_locked. intros s1 t1 _ I1 a s2 t2 E. apply (op_does o j) in E; auto. destruct E as (D & I2).
  exists j. auto.
Qed.
Lemma logs_ops l : forall j s, Forall op_sound l -> Forall fits l -> existsb is_disc l = false -> logs j (c_ops G l) s (fun _ j' _ => j' = j).
Proof.
  induction l as [|o l IH]; intros j s Hs Hf Hd; cbn [c_ops]; [now apply logs_ret|]. inversion Hs; subst. inversion Hf; subst.
  cbn [existsb] in Hd. apply orb_false_iff in Hd. destruct Hd as (Hd1 & Hd2).
  eapply logs_bind; [apply logs_op; auto; congruence|]. cbv beta. intros _ j1 s1 ->. apply IH; auto.
Qed.
Lemma logs_callback ty data id pub res j s : logs (Show (ECb ty data id pub res) j) (c_callback G ty data id pub res) s (fun _ j' _ => j' = j).
Proof.
  unfold c_callback. eapply (logs_bind _ _ _ _ _ (fun l j' s' => j' = j /\ Forall op_sound l /\ Forall fits l /\ existsb is_disc l = false)).
  - apply logs_inv. intros _ Hj. apply logs_visit. intros s1 t1 _ I1 l s2 t2 E. unfold bind, emit, gete, ret in E.
    assert (s2 = mkSt (s_ctx s1) (env_cbs (s_env s1) (tl (e_cbs (s_env s1)))) /\ t2 = [ECb ty data id pub res] /\ l = match e_cbs (s_env s1) with [] => [] | x :: _ => x end) as (-> & -> & ->)
      by (cbn [app] in E; repeat split; congruence).
    assert (P : Path false s1 (mkSt (s_ctx s1) (env_cbs (s_env s1) (tl (e_cbs (s_env s1))))) [ECb ty data id pub res]) by (apply path_one, a_callback).
    assert (D : does s1 (Show (ECb ty data id pub res) j) (mkSt (s_ctx s1) (env_cbs (s_env s1) (tl (e_cbs (s_env s1))))) j [ECb ty data id pub res]).
    { apply does_event; [reflexivity|]. apply s_show. }
    exists j. destruct (inv_next G n m rt cn false _ _ _ _ _ I1 Hj (cpath_path _ _ _ _ _ P) D) as (I2 & J2). split; auto. split; auto. split; auto. split; auto.
    destruct I1 as ((_ & H2 & H3) & _ & _ & H4). unfold cbs_ok in H2. unfold cbs_sound in H3. destruct (e_cbs (s_env s1)) as [|x r]; [repeat split; constructor|].
    inversion H3; subst. inversion H4; subst. split; auto. split; auto. cbn [existsb] in H2. destruct (existsb is_disc x); auto. cbn [orb] in H2. specialize (H2 eq_refl). discriminate.
  - cbv beta. intros l j1 s1 (-> & L1 & L2 & L3). now apply logs_ops.
Qed.
Lemma logs_broke s : logs Failed (c_broke G) s (fun _ j' _ => j' = Idle).
Proof.
  apply logs_locked. intros s1 t1 _ I1 [] s2 t2 E. apply modc_inv in E. destruct E as (-> & ->). destruct (broke_fields (s_ctx s1)) as (F1 & F2 & F3 & F4).
  assert (D : does s1 Failed (mkSt (transport_broke (s_ctx s1)) (s_env s1)) Idle []).
  { apply does_quiet. unfold MachProofs.ms. cbn [s_ctx]. rewrite broke_status.
    replace (session_of n m (mkSt (transport_broke (s_ctx s1)) (s_env s1))) with (session_of n m s1) by (symmetry; now apply session_same).
    replace (x_nextId (transport_broke (s_ctx s1))) with (x_nextId (s_ctx s1)) by (unfold transport_broke; destruct (cstatus_beq _ _); reflexivity).
    replace (match x_status (s_ctx s1) with NotConnected => NotConnected | _ => DisconnectPending end) with (broke (x_status (s_ctx s1))) by (destruct (x_status (s_ctx s1)); reflexivity).
    apply s_failed. }
  exists Idle. destruct (inv_next G n m rt cn false _ _ Failed Idle _ I1 I (cpath_one _ _ _ _ _ (ca_broke _ _ _)) D) as (I2 & J2). auto.
Qed.
Lemma acked_does k id j j' s a b s' t : Inv s -> on_recs (fun r => updateStateAckApi r id k OpSend) s = Ret (a, b) s' t ->
  job_ok j' -> j' = (if status_beq a Success then j else give_up j) -> does s (Note k id j) s' j' t /\ t = [].
Proof.
  intros HI H Hj Ej. apply on_recs_inv in H. destruct H as (c & E & -> & ->). split; auto. apply does_quiet.
  destruct (acked_eq n m (x_recs (s_ctx s)) id k OpSend (proj1 (proj1 HI))) as (c' & E1 & R' & V'). rewrite E1 in E. assert (c' = c) by congruence. subst c'.
  unfold MachProofs.ms. change (session_of n m (mkSt (set_recs (s_ctx s) c) (s_env s))) with (view n m c). rewrite V', Ej.
  assert (a = ok_of (spec_step (session_of n m s) (Acked id k OpSend))) as -> by (unfold ok_of; change (session_of n m s) with (view n m (x_recs (s_ctx s))); congruence).
  apply s_note.
Qed.
Lemma ack_send_does k id j s st s' t ps : ackToSend ps = Some (ack_first (ack_of k), k) -> id_ok id -> ack_send G (Some [ack_first (ack_of k); 2; hi8 id; lo8 id]) s = Ret st s' t ->
  does s (Owe k id j) s' (if status_beq st Success then Note k id j else give_up j) t.
Proof.
  intros Ek Hid H. unfold ack_send in H. apply bind_inv in H. destruct H as (c & s1 & t1 & t2 & H1 & H & ->). mgo H1.
  destruct (status_beq (must_be_connected (s_ctx s)) Success) eqn:E.
  2: { mgo H. rewrite E. apply does_quiet. unfold MachProofs.ms. apply s_owe_not. unfold must_be_connected in E. destruct (x_status (s_ctx s)); discriminate. }
  assert (Hc : x_status (s_ctx s) = Connected) by (unfold must_be_connected in E; destruct (x_status (s_ctx s)); discriminate || reflexivity).
  apply bind_inv in H. destruct H as (r & s2 & t3 & t4 & H1 & H & ->). apply ret_inv in H. destruct H as (-> & -> & ->).
  cbn [app]. rewrite app_nil_r. apply sendBuffer_spec in H1. pose proof (sent_ok_sentb _ _ _ _ _ H1) as Hb.
  assert (Ep : [ack_first (ack_of k); 2; hi8 id; lo8 id] = bytes (KAck k id)).
  { cbn [bytes]. unfold ack_packet, packet. unfold id_ok in Hid. rewrite <- be16_eq by lia. reflexivity. }
  pose proof (sentb_recs _ _ _ _ _ Hb) as E1. pose proof (sentb_next _ _ _ _ _ Hb) as E2. rewrite Ep in Hb.
  destruct (sentb_says _ _ _ _ _ Hb) as (l & S1 & S2). rewrite Hc in S2. change (zlen [ack_first (ack_of k); 2; hi8 id; lo8 id]) with 4 in S2.
  eapply does_step; [exact S1|exact (unstarted_sends cc _ _ _ _ _ S2 I)|]. unfold MachProofs.ms. rewrite (session_same n m _ _ E1), E2, Hc.
  assert (Er : status_beq (if r <? 4 then SendFailed else Success) Success = (r =? 4)).
  { destruct H1 as (q & l0 & Q1 & Q2 & _ & _ & _ & Q6). cbn [length] in Q1. destruct (r <? 4) eqn:Er; cbn [status_beq]; [lia|]. destruct Q6 as [(? & _)|(? & _)]; lia. }
  rewrite Er. apply (s_owe rt cn _ _ k id j (r =? 4) l). exact S2.
Qed.
Lemma logs_acks id ps k j s : ackToSend ps = Some (ack_first (ack_of k), k) ->
  logs (Owe k id j) (c_sendPublishAcks G id ps) s (fun st j' _ => j' = if status_beq st Success then j else give_up j).
Proof.
  intros Ek. apply logs_inv. intros HI (Hid & Hj). unfold c_sendPublishAcks. rewrite Ek. rewrite (serializeAck_bytes _ _ _ _ Ek).
  assert (E0 : (id =? 0) = false) by (unfold id_ok in Hid; lia). rewrite E0.
  eapply (logs_bind _ _ _ _ _ (fun p j' s' => j' = Owe k id j /\ p = (Success, Some [ack_first (ack_of k); 2; hi8 id; lo8 id]))).
  { apply logs_atomic. intros a s' t H. apply lift_inv in H. destruct H as (H & -> & ->). apply act_still; try reflexivity; auto; [split; auto|]. split; [auto|congruence]. }
  cbv beta. intros p j1 s1 (-> & ->). cbn [status_beq].
  eapply (logs_bind _ _ _ _ _ (fun st j' s' => j' = if status_beq st Success then Note k id j else give_up j)).
  { apply logs_locked. intros s2 t2 _ I2 st s3 t3 H. pose proof (ack_send_ok G _ _ _ _ _ _ _ _ Ek H) as (P & _). apply (ack_send_does k id j) with (ps := ps) in H; auto.
    destruct (inv_next G n m rt cn false _ _ (Owe k id j) _ _ I2 (conj Hid Hj) (cpath_path _ _ _ _ _ P) H) as (I3 & J3). eexists. eauto. }
  cbv beta. intros st j2 s2 ->. destruct (status_beq st Success) eqn:Est; [|apply logs_ret; now rewrite Est].
  eapply (logs_bind _ _ _ _ _ (fun _ j' s' => j' = Note k id j)).
  { apply logs_inv. intros _ Hj2. apply logs_visit. intros s3 t3 _ I3 [] s4 t4 H. apply modc_inv in H. destruct H as (-> & ->). apply act_still; try reflexivity; auto. }
  cbv beta. intros _ j3 s3 ->. apply logs_locked. intros s4 t4 _ I4 st5 s5 t5 H. unfold ack_update in H. apply bind_inv in H.
  destruct H as ((st6, ns) & s6 & t6 & t7 & H1 & H & ->). mgo H. rewrite ?app_nil_r.
  assert (P : Path false s4 s6 t6) by (eapply paths_acked; eauto).
  assert (J : job_ok (if status_beq st6 Success then j else give_up j)) by (destruct (status_beq st6 Success); [auto|apply give_up_ok]).
  destruct (acked_does k id j _ _ _ _ _ _ I4 H1 J eq_refl) as (D & ->).
  destruct (inv_next G n m rt cn false _ _ _ _ _ I4 (conj Hid Hj : job_ok (Note k id j)) (cpath_path _ _ _ _ _ P) D) as (I5 & J5). eexists. eauto.
Qed.
Lemma logs_noacks id ps j s : ackToSend ps = None -> logs j (c_sendPublishAcks G id ps) s (fun st j' _ => j' = j /\ st = Success).
Proof. intro E. unfold c_sendPublishAcks. rewrite E. apply logs_ret. auto. Qed.

(** ** The handlers *)
Lemma logs_lift {A} j (r : A) s : logs j (atomic (lift (Ok r))) s (fun p j' s' => j' = j /\ s' = s /\ p = r).
Proof.
  apply logs_inv. intros HI Hj. apply logs_atomic. intros a s' t H. apply lift_inv in H. destruct H as (H & -> & ->). apply act_still; try reflexivity; auto.
  split; auto. split; [auto|congruence].
Qed.
Lemma logs_getc j s : logs j (atomic getc) s (fun p j' s' => j' = j /\ s' = s /\ p = s_ctx s).
Proof.
  apply logs_inv. intros HI Hj. apply logs_atomic. intros a s' t H. apply getc_inv in H. destruct H as (-> & -> & ->). apply act_still; try reflexivity; auto.
Qed.
Lemma logs_same {A} j (a : A) s : logs j (cret a) s (fun p j' s' => j' = j /\ s' = s /\ p = a).
Proof. apply logs_ret. auto. Qed.
Lemma logs_ignore {A} ty body (a : A) s : logs (Got ty body) (cret a) s (fun _ j' _ => j' = Idle).
Proof. apply (logs_step _ Idle); [exact I|apply s_ignore|]. now apply logs_ret. Qed.
Lemma logs_ignore_same {A} ty body (a : A) s : logs (Got ty body) (cret a) s (fun b j' _ => b = a /\ j' = Idle).
Proof. apply (logs_step _ Idle); [exact I|apply s_ignore|]. now apply logs_ret. Qed.
Lemma session_set s c : session_of n m (mkSt (set_recs (s_ctx s) c) (s_env s)) = view n m c.
Proof. reflexivity. Qed.
Lemma view_set s (se : session) : session_of n m s = se -> view n m (x_recs (s_ctx s)) = se.
Proof. intros <-. reflexivity. Qed.

Lemma logs_handlePublish ty rem data s : is_byte ty -> ty / 16 = 3 -> 0 <= rem <= zlen data -> rem < g_M G -> bytes_ok (firstn (Z.to_nat rem) data) ->
  logs (Got ty (firstn (Z.to_nat rem) data)) (c_handleIncomingPublish G ty rem data) s (fun _ j' _ => j' = Idle).
Proof.
  intros Hb H3 Hr HrM Hd. unfold c_handleIncomingPublish.
  rewrite (deser_api _ _ _ _ HM Hb H3 Hr HrM Hd). set (body := firstn (Z.to_nat rem) data) in *.
  destruct (pdec ty body) as [msg|] eqn:Ep.
  2: { eapply logs_bind; [apply logs_lift|]. cbv beta. intros p j1 s1 (-> & -> & ->). apply logs_ignore. }
  eapply logs_bind; [apply logs_lift|]. cbv beta. intros p j1 s1 (-> & -> & ->).
  destruct (decode_body _ _ _ Hb H3 Hd Ep) as (Hmean & Hdp).
  destruct (dpub_of msg) as (pub, pid). cbn [fst snd] in Hdp. pose proof Hdp as (Dq & _ & _ & _ & _ & _ & _ & Dp). rewrite Dq.
  pose proof Hmean as (_ & _ & _ & _ & _ & Hid).
  eapply logs_bind; [apply logs_getc|]. cbv beta. intros c j1 s1 (-> & -> & ->).
  destruct (qos_beq (pm_qos msg) Q0) eqn:Eq.
  - assert (Eq0 : pm_qos msg = Q0) by (destruct (pm_qos msg); congruence || discriminate). rewrite Eq0 in *. subst pid. cbn [negb]. rewrite andb_false_r.
    eapply (logs_bind _ _ _ _ _ (fun p j' s' => j' = Show (ECb ty body 0 (Some pub) Success) Idle /\ p = (Success, Some PublishDone))).
    { apply logs_locked. intros s1 t1 Ho I1 a s2 t2 H.
      apply on_recs_inv in H. destruct H as (c & E & -> & ->). cbn [updateStatePublishApi] in E.
      assert (a = (Success, Some PublishDone) /\ c = x_recs (s_ctx s1)) as (-> & ->) by (split; congruence).
      replace (mkSt (set_recs (s_ctx s1) (x_recs (s_ctx s1))) (s_env s1)) with s1 by (destruct s1 as [[] ?]; reflexivity).
      eexists. split; [exact I1|]. split; [|split; [|split; reflexivity]]; [exact I|]. apply does_quiet. unfold MachProofs.ms.
      apply (s_got_publish0 rt cn _ _ _ ty body msg pub); auto. }
    cbv beta. intros p j1 s1 (-> & ->). cbn [status_beq]. eapply logs_bind; [apply logs_callback|]. cbv beta. intros _ j2 s2 ->.
    eapply logs_weaken; [apply logs_noacks; reflexivity|]. cbv beta. intros ? ? ? _ _ (-> & _). reflexivity.
  - assert (Hq : pm_qos msg <> Q0) by (destruct (pm_qos msg); discriminate). specialize (Hid Hq).
    assert (pid = Some (pm_id msg)) as -> by (destruct (pm_qos msg); congruence). cbn [negb]. rewrite andb_true_r.
    apply logs_inv. intros HI _. pose proof (in_shape n m _ (proj1 (proj1 HI))) as Hsh.
    destruct (inRecs (x_recs (s_ctx s))) as [arrs|] eqn:Ei; [|apply logs_ignore].
    assert (Hm0 : m <> 0%nat) by (intro K; apply Hsh in K; discriminate).
    set (nx := match pm_qos msg with Q1 => PubAckSend | _ => PubRecSend end). set (k := answer (pm_qos msg)).
    assert (Hack : ackToSend nx = Some (ack_first (ack_of k), k)) by (unfold nx, k; destruct (pm_qos msg); reflexivity).
    set (owe := Owe k (pm_id msg) Idle). assert (Jo : job_ok owe) by (split; [exact Hid|exact I]).
    eapply (logs_bind _ _ _ _ _ (fun p j' s' => p = (StateCollision, None) /\ j' = owe \/ p = (NoMemory, None) /\ j' = Idle \/
       p = (Success, Some nx) /\ j' = Show (ECb ty body (pm_id msg) (Some pub) Success) owe)).
    { apply logs_locked. intros s1 t1 Ho I1 [a b] s2 t2 H. pose proof I1 as (Hg1 & _).
      assert (Hsh1 : inRecs (x_recs (s_ctx s1)) <> None) by (intro K; apply (in_shape n m _ (proj1 Hg1)) in K; contradiction).
      assert (P : Path false s1 s2 t2) by (eapply paths_published; [|exact H]; auto).
      apply on_recs_inv in H. destruct H as (c & E & -> & ->).
      destruct (received_eq n m (x_recs (s_ctx s1)) (pm_id msg) (pm_qos msg) (proj1 Hg1) Hq Hm0) as (c' & E' & R' & V'). rewrite E' in E.
      assert (c = c') by congruence. subst c'.
      assert (ES : spec_step (view n m (x_recs (s_ctx s1))) (Published (pm_id msg) OpReceive (pm_qos msg)) =
        let '(st, l) := spec_add m (incoming s1) (pm_id msg) (pm_qos msg) nx in
        ((st, if status_beq st Success then Some nx else None), mkSession n (outgoing s1) m l)).
      { cbn [spec_step]. replace (pm_id msg =? 0) with false by lia. unfold nx. destruct (pm_qos msg); [congruence|reflexivity..]. }
      set (s2 := mkSt (set_recs (s_ctx s1) c) (s_env s1)) in *.
      assert (Fin : forall j', job_ok j' -> mstep (ms s1 (Got ty body)) [] (ms s2 j') -> Inv s2 /\ does s1 (Got ty body) s2 j' []).
      { intros j' Hj' St. assert (D : does s1 (Got ty body) s2 j' []) by (now apply does_quiet). split; auto.
        eapply (inv_next G n m rt cn false s1 s2 (Got ty body) j' []); eauto; [exact I|now apply cpath_path]. }
      unfold spec_add in ES. 
      destruct (in_flight (incoming s1) (pm_id msg)) eqn:Ef; [|destruct (length (incoming s1) <? m)%nat eqn:El]; cbn [fst snd status_beq] in ES.
      - rewrite ES in E, V'. cbn [fst snd] in E, V'. exists owe.
        destruct (Fin owe Jo) as (F1 & F2); [|split; auto; split; auto; split; auto; left; split; [congruence|auto]].
        unfold MachProofs.ms. change (session_of n m s2) with (view n m c). rewrite V'. change (mkSession n (outgoing s1) m (incoming s1)) with (session_of n m s1).
        apply s_got_repeated; auto. change (session_of n m s1) with (view n m (x_recs (s_ctx s1))). rewrite ES. reflexivity.
      - exists (Show (ECb ty body (pm_id msg) (Some pub) Success) owe).
        destruct (Fin (Show (ECb ty body (pm_id msg) (Some pub) Success) owe) Jo) as (F1 & F2).
        + unfold MachProofs.ms. change (session_of n m s2) with (view n m c). rewrite V'.
          apply (s_got_publish rt cn _ (session_of n m s1) _ ty body msg pub); auto. change (session_of n m s1) with (view n m (x_recs (s_ctx s1))). rewrite ES. reflexivity.
        + split; auto. split; auto. split; auto. right. right. split; [|auto]. rewrite ES in E. cbn [fst snd] in E. congruence.
      - rewrite ES in E, V'. cbn [fst snd] in E, V'. exists Idle.
        destruct (Fin Idle I) as (F1 & F2); [|split; auto; split; [exact I|]; split; auto; right; left; split; [congruence|auto]].
        unfold MachProofs.ms. change (session_of n m s2) with (view n m c). rewrite V'. change (mkSession n (outgoing s1) m (incoming s1)) with (session_of n m s1). apply s_ignore. }
    cbv beta. intros p j1 s1 [(-> & ->)|[(-> & ->)|(-> & ->)]]; cbn [status_beq].
    + eapply logs_bind; [apply logs_same|]. cbv beta. intros ? j2 s2 (-> & -> & _).
      replace (calculateStatePublish OpReceive (pm_qos msg)) with nx by (unfold nx; destruct (pm_qos msg); congruence || reflexivity).
      eapply logs_weaken; [apply (logs_acks _ _ k); exact Hack|]. cbv beta. intros st j' s' _ _ ->. destruct (status_beq st Success); reflexivity.
    + now apply logs_ret.
    + eapply logs_bind; [apply logs_callback|]. cbv beta. intros _ j2 s2 ->.
      eapply logs_weaken; [apply (logs_acks _ _ k); exact Hack|]. cbv beta. intros st j' s' _ _ ->. destruct (status_beq st Success); reflexivity.
Qed.

Lemma acked_fails se id k op : ok_of (spec_step se (Acked id k op)) <> Success -> snd (spec_step se (Acked id k op)) = se.
Proof.
  unfold ok_of. cbn [spec_step]. destruct (id =? 0); auto. destruct (concerns_sent k op).
  - destruct (lookup (sent se) id) as [f|]; auto. destruct (sender_table _ _ _ _); cbn [apply_action fst snd]; intro H; try congruence. destruct se; reflexivity.
  - destruct (lookup (StateSpec.recvd se) id) as [f|]; auto. destruct (receiver_table _ _ _ _); cbn [apply_action fst snd]; intro H; try congruence. destruct se; reflexivity.
Qed.
Lemma logs_handleAcks k rem data s : 0 <= rem <= zlen data -> bytes_ok (firstn (Z.to_nat rem) data) ->
  logs (Got (ack_first (ack_of k)) (firstn (Z.to_nat rem) data)) (c_handlePublishAcks G (ack_first (ack_of k)) rem data) s (fun _ j' _ => j' = Idle).
Proof.
  intros Hr Hd. unfold c_handlePublishAcks. set (body := firstn (Z.to_nat rem) data) in *.
  replace (getAckFromPacketType (ack_first (ack_of k))) with (Ok k) by (destruct k; reflexivity).
  eapply logs_bind; [apply logs_lift|]. cbv beta. intros p j1 s1 (-> & -> & ->).
  destruct (ack_decode (ack_of k) rem data Hr Hd) as [(id & Hid & Eb & E)|(Hno & o & E)]; [fold body in Eb|fold body in Hno]; rewrite E.
  2: { eapply logs_bind; [apply logs_lift|]. cbv beta. intros p j1 s1 (-> & -> & ->). cbn [status_beq].
       eapply logs_bind; [apply logs_same|]. cbv beta. intros p j1 s1 (-> & -> & ->).
       eapply logs_bind; [apply logs_getc|]. cbv beta. intros p j1 s1 (-> & -> & ->).
       rewrite ?andb_false_r. cbn [status_beq andb]. rewrite ?andb_false_r. cbn [andb].
       eapply logs_bind; [apply logs_same|]. cbv beta. intros p j1 s1 (-> & -> & _). apply logs_ignore. }
  eapply logs_bind; [apply logs_lift|]. cbv beta. intros p j1 s1 (-> & -> & ->). cbn [status_beq].
  set (told := Show (ECb (ack_first (ack_of k)) (be16 id) id None Success) (match reply_to k with Some k' => Owe k' id Idle | None => Idle end)).
  assert (Hk : id_ok id) by (unfold id_ok; lia).
  assert (Jt : job_ok told) by (unfold told; cbn [job_ok]; destruct (reply_to k); [split; [exact Hk|exact I]|exact I]).
  eapply (logs_bind _ _ _ _ _ (fun p j' s' =>
     status_beq (fst p) Success = false /\ j' = Idle \/
     fst p = Success /\ j' = (match k with Puback | Pubrec => if rt then Clear id told else told | _ => told end) /\
     exists ps, snd p = Some ps /\ ackToSend ps = match reply_to k with Some k' => Some (ack_first (ack_of k'), k') | None => None end)).
  { apply logs_locked. intros s1 t1 Ho I1 [a b] s2 t2 H. pose proof I1 as (Hg1 & _).
    assert (P : Path false s1 s2 t2) by (eapply paths_acked; eauto).
    apply on_recs_inv in H. destruct H as (c & E' & -> & ->).
    destruct (acked_eq n m (x_recs (s_ctx s1)) id k OpReceive (proj1 Hg1)) as (c' & E1 & R' & V').
    rewrite E1 in E'. assert (c' = c) by congruence. subst c'. cbn [fst snd]. set (s2 := mkSt (set_recs (s_ctx s1) c) (s_env s1)) in *.
    assert (Ha : a = ok_of (spec_step (session_of n m s1) (Acked id k OpReceive))) by (unfold ok_of; change (session_of n m s1) with (view n m (x_recs (s_ctx s1))); congruence).
    assert (Fin : forall j', job_ok j' -> mstep (ms s1 (Got (ack_first (ack_of k)) body)) [] (ms s2 j') -> Inv s2 /\ does s1 (Got (ack_first (ack_of k)) body) s2 j' []).
    { intros j' Hj' St. assert (D : does s1 (Got (ack_first (ack_of k)) body) s2 j' []) by (now apply does_quiet). split; auto.
      eapply (inv_next G n m rt cn false s1 s2 (Got (ack_first (ack_of k)) body) j' []); eauto; [exact I|now apply cpath_path]. }
    destruct (status_beq a Success) eqn:Ea.
    - assert (a = Success) as Ha1 by (destruct a; discriminate || reflexivity).
      eexists. assert (J : job_ok (match k with Puback | Pubrec => if rt then Clear id told else told | _ => told end)) by (destruct k, rt; exact Jt).
      destruct (Fin _ J) as (F1 & F2).
      + unfold MachProofs.ms. change (session_of n m s2) with (view n m c). rewrite V', Eb. apply s_got_ack; [exact Hk|]. rewrite <- Ha1. symmetry. exact Ha.
      + split; [exact F1|]. split; [exact J|]. split; [exact F2|]. right. split; auto. split; auto.
        destruct (ack_next n m (x_recs (s_ctx s1)) id k _ eq_refl) as (ps & Eps & Ek).
        { change (view n m (x_recs (s_ctx s1))) with (session_of n m s1). unfold ok_of in Ha. congruence. }
        exists ps. split; auto. cbn [snd]. congruence.
    - exists Idle. destruct (Fin Idle I) as (F1 & F2).
      + unfold MachProofs.ms. change (session_of n m s2) with (view n m c). rewrite V'.
        assert (Es : snd (spec_step (view n m (x_recs (s_ctx s1))) (Acked id k OpReceive)) = session_of n m s1).
        { change (view n m (x_recs (s_ctx s1))) with (session_of n m s1). apply acked_fails. rewrite <- Ha. intros ->. discriminate. }
        rewrite Es. apply s_ignore.
      + split; [exact F1|]. split; [exact I|]. split; [exact F2|]. now left. }
  cbv beta. intros [a b] j1 s1 Hp. cbn [fst snd] in Hp. apply logs_inv. intros I1 _.
  eapply logs_bind; [apply logs_getc|]. cbv beta. intros p j2 s2 (-> & -> & ->). pose proof I1 as (_ & Hrt & _). rewrite Hrt.
  destruct Hp as [(Ea & ->)|(-> & -> & ps & -> & Eps)].
  { rewrite Ea, andb_false_r. cbn [andb]. eapply logs_bind; [apply logs_same|]. cbv beta. intros p j2 s2 (-> & -> & _). now apply logs_ret. }
  cbn [status_beq]. rewrite andb_true_r.
  eapply (logs_bind _ _ _ _ _ (fun _ j' _ => j' = told)).
  { assert (Cl : logs (Clear id told) (visit G (clear_publish id)) s1 (fun _ j' _ => j' = told)).
    { apply logs_visit. intros s2 t2 _ I2 [] s3 t3 H. apply emit_inv in H. destruct H as (-> & ->). exists told. split; auto. split; auto. split; auto.
      apply does_event; [reflexivity|]. apply s_clear. }
    destruct k; cbn [acktype_beq orb andb]; try (now apply logs_ret); destruct rt; try exact Cl; now apply logs_ret. }
  cbv beta. intros _ j2 s2 ->. unfold told. rewrite Eb. eapply logs_bind; [apply logs_callback|]. cbv beta. intros _ j3 s3 ->.
  destruct (reply_to k) as [k'|].
  - eapply logs_weaken; [apply (logs_acks _ _ k'); exact Eps|]. cbv beta. intros st j' s' _ _ ->. destruct (status_beq st Success); reflexivity.
  - eapply logs_weaken; [apply logs_noacks; exact Eps|]. cbv beta. intros st j' s' _ _ (-> & _). reflexivity.
Qed.

Lemma logs_handleAck ty rem data mk s : 0 <= rem <= zlen data -> bytes_ok (firstn (Z.to_nat rem) data) ->
  logs (Got ty (firstn (Z.to_nat rem) data)) (c_handleIncomingAck G ty rem data mk) s (fun _ j' _ => j' = Idle).
Proof.
  intros Hr Hd. unfold c_handleIncomingAck.
  destruct ((ty =? PKT_PUBACK) || (ty =? PKT_PUBREC) || (ty =? PKT_PUBREL) || (ty =? PKT_PUBCOMP)) eqn:Ea.
  { assert (exists k, ty = ack_first (ack_of k)) as (k & ->).
    { assert (K : ty = PKT_PUBACK \/ ty = PKT_PUBREC \/ ty = PKT_PUBREL \/ ty = PKT_PUBCOMP) by lia.
      destruct K as [->|[->|[->| ->]]]; [exists Puback|exists Pubrec|exists Pubrel|exists Pubcomp]; reflexivity. }
    now apply logs_handleAcks. }
  pose proof (SerProofs.zlen_firstn data rem Hr) as Lb. set (body := firstn (Z.to_nat rem) data) in *.
  eapply (logs_bind _ _ _ _ _ (fun p j' _ => let '(st, id, invoke) := p in
    (invoke : bool) = true /\ j' = Show (ECb ty body id None st) Idle \/ invoke = false /\ j' = Idle)).
  2: { cbv beta. intros ((st, id), invoke) j1 s1 [(-> & ->)|(-> & ->)]; [|now apply logs_ret].
       eapply logs_bind; [apply logs_callback|]. cbv beta. intros _ j2 s2 ->. now apply logs_ret. }
  destruct (ty =? PKT_PINGRESP) eqn:Ep.
  - apply Z.eqb_eq in Ep. subst ty. rewrite pingresp_decode. eapply logs_bind; [apply logs_lift|]. cbv beta. intros p j1 s1 (-> & -> & ->).
    destruct (rem =? 0) eqn:E0; cbn [status_beq andb].
    + assert (Eb : body = []) by (destruct body; auto; unfold zlen in Lb; cbn in Lb; lia). destruct mk; cbn [negb].
      * eapply (logs_bind _ _ _ _ _ (fun _ j' _ => j' = Got PKT_PINGRESP body)).
        { apply logs_inv. intros _ Hj. apply logs_visit. intros s1 t1 _ I1 [] s2 t2 H. apply modc_inv in H. destruct H as (-> & ->). apply act_still; try reflexivity; auto. }
        cbv beta. intros _ j1 s1 ->. eapply logs_weaken; [apply logs_ignore_same|]. cbv beta. intros q0 j0 s0 _ _ (-> & ->). now right.
      * eapply logs_bind; [apply logs_same|]. cbv beta. intros ? j1 s1 (-> & -> & _). rewrite Eb.
        apply (logs_step _ (Show (ECb 208 [] 0 None Success) Idle)); [exact I|apply s_got_pingresp|]. apply logs_ret. left. auto.
    + eapply logs_bind; [apply logs_same|]. cbv beta. intros ? j1 s1 (-> & -> & _). eapply logs_weaken; [apply logs_ignore_same|]. cbv beta. intros q0 j0 s0 _ _ (-> & ->). now right.
  - destruct ((ty =? PKT_SUBACK) || (ty =? PKT_UNSUBACK)) eqn:Es.
    2: { eapply logs_weaken; [apply logs_ignore_same|]. cbv beta. intros q0 j0 s0 _ _ (-> & ->). now right. }
    apply orb_true_iff in Es. destruct Es as [Es|Es]; apply Z.eqb_eq in Es; subst ty.
    + destruct (suback_decode rem data Hr Hd) as (i & E & Ei). fold body in E, Ei. rewrite E. eapply logs_bind; [apply logs_lift|]. cbv beta. intros p j1 s1 (-> & -> & ->).
      destruct (suback_kinds body) as [Eb|(r & sid & Eb & Hk)].
      * rewrite Eb. cbn [status_beq orb]. eapply logs_weaken; [apply logs_ignore_same|]. cbv beta. intros q0 j0 s0 _ _ (-> & ->). now right.
      * rewrite Eb in *. cbn [fst snd] in *. assert (i = Some sid) by (apply Ei; destruct Hk; congruence). subst i.
        replace (status_beq r Success || status_beq r ServerRefused) with true by (destruct Hk as [->| ->]; reflexivity).
        apply (logs_step _ (Show (ECb 144 body sid None r) Idle)); [exact I|now apply s_got_suback|]. apply logs_ret. left. auto.
    + change PKT_UNSUBACK with (ack_first KUnsuback). destruct (ack_decode KUnsuback rem data Hr Hd) as [(i & Hi & Eb & E)|(_ & o & E)]; rewrite E;
        (eapply logs_bind; [apply logs_lift|]); cbv beta; intros p j1 s1 (-> & -> & ->); cbn [status_beq orb].
      * fold body in Eb. rewrite Eb. apply (logs_step _ (Show (ECb 176 (be16 i) i None Success) Idle)); [exact I|apply s_got_unsuback; exact Hi|]. apply logs_ret. left. auto.
      * eapply logs_weaken; [apply logs_ignore_same|]. cbv beta. intros q0 j0 s0 _ _ (-> & ->). now right.
Qed.
Lemma logs_dispatch ty rem data mk s : is_byte ty -> 0 <= rem <= zlen data -> rem < g_M G -> bytes_ok (firstn (Z.to_nat rem) data) ->
  logs (Got ty (firstn (Z.to_nat rem) data)) (c_dispatch G ty rem data mk) s (fun _ j' _ => j' = Idle).
Proof.
  intros Hb Hr HrM Hd. unfold c_dispatch.
  assert (Hp : (Z.land ty 240 =? PKT_PUBLISH) = (ty / 16 =? 3)) by (rewrite land240 by exact Hb; reflexivity).
  rewrite Hp. destruct (ty / 16 =? 3) eqn:E3; [apply logs_handlePublish|apply logs_handleAck]; auto; lia.
Qed.
End MP2.
