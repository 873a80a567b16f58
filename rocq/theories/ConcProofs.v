(** Reasoning about the client used from several threads: the handlers. *)
From Verif Require Import Base StateModel StateSpec StateHarness StateProofs StateProofs2 SerModel WireSpec SerHarness SerProofs SerProofs2 SerProofs3 SerProofs4 SerProofs5
  CoreModel CoreHarness CoreSpec CoreProofs CoreProofs2 CoreProofs3 CoreProofs4 CoreProofs5 CoreProofs6 CoreProofs7 CoreProofs8 CoreProofs9 CoreProofs10 CoreProofs11 CoreProofs12 CoreProofs13 CoreProofs14 CoreProofs15 CoreProofs16 CoreProofs17 CoreProofs18 CoreProofs19 CoreProofs20 CoreProofs21 CoreProofs22 ConcModel ConcHarness.

Lemma fine_tl w : fine w -> Forall ops_fine (tl (w_sched w)).
Proof. unfold fine. destruct (w_sched w); auto. now inversion 1. Qed.
Lemma fine_hd w : fine w -> ops_fine (hd [] (w_sched w)).
Proof. unfold fine. destruct (w_sched w); [split; [constructor|reflexivity]|]. now inversion 1. Qed.

Lemma path_shape d s s' t : Path d s s' t -> (inRecs (x_recs (s_ctx s')) = None <-> inRecs (x_recs (s_ctx s)) = None).
Proof.
  induction 1 as [s|s1 s2 s3 t1 t2 A H IH]; [tauto|]. rewrite IH. clear IH H. destruct A.
  - destruct H as (-> & _). tauto.
  - apply step_shape in H0. cbn. tauto.
  - now rewrite (sentb_recs _ _ _ _ _ H0).
  - tauto.
  - now rewrite (sentb_recs _ _ _ _ _ H1).
Qed.

Section CP.
Variable G : cfg.
Variables n m : nat.
Hypothesis HM : 4294967296 <= g_M G.
Hypothesis HV : 3 <= g_maxvec G.
Notation good := (good n m).

(** [m] begun in [s] without the mutex meets no undefined behaviour, does not
    wait for ever, and ends without the mutex as [R] says *)
Definition steps {A} (f : Mc A) (s : st) (R : A -> st -> list ev -> Prop) : Prop := forall w, free w ->
  f w s <> Undef /\ forall oa w' s' t, f w s = Ret (oa, w') s' t -> free w' /\ exists a, oa = Some a /\ R a s' t.
(** what the other threads do meanwhile *)
Definition others (s s' : st) (t : list ev) : Prop :=
  Path false s s' t /\ inRecs (x_recs (s_ctx s')) = inRecs (x_recs (s_ctx s)) /\ forallb op_ev t = true.
Lemma others_path s s' t : others s s' t -> Path false s s' t. Proof. intros (H & _); exact H. Qed.

Lemma steps_weaken {A} (f : Mc A) s (R R' : A -> st -> list ev -> Prop) : steps f s R -> (forall a s' t, R a s' t -> R' a s' t) -> steps f s R'.
Proof.
  intros H K w Hw. destruct (H w Hw) as (H1 & H2). split; auto. intros oa w' s' t E. destruct (H2 _ _ _ _ E) as (F1 & a & F2 & F3). eauto.
Qed.
Lemma steps_ret {A} (a : A) s (R : A -> st -> list ev -> Prop) : R a s [] -> steps (cret a) s R.
Proof.
  intros H w Hw. unfold cret. split; [discriminate|]. intros oa w' s' t E. apply ret_inv in E. destruct E as (E & -> & ->).
  assert (oa = Some a /\ w' = w) as (-> & ->) by (split; congruence). eauto.
Qed.
Lemma steps_bind {A B} (f : Mc A) (k : A -> Mc B) s (R : B -> st -> list ev -> Prop) R1 :
  steps f s R1 -> (forall a s1 t1, R1 a s1 t1 -> steps (k a) s1 (fun b s2 t2 => R b s2 (t1 ++ t2))) -> steps (cbind f k) s R.
Proof.
  intros H K w Hw. destruct (H w Hw) as (H1 & H2). unfold cbind. split.
  - unfold bind. destruct (f w s) as [[oa w'] s1 t1| |] eqn:E; [|contradiction|discriminate].
    destruct (H2 _ _ _ _ eq_refl) as (F1 & a & -> & F3). destruct (K _ _ _ F3 w' F1) as (K1 & _).
    destruct (k a w' s1); [discriminate|contradiction|discriminate].
  - intros ob w2 s2 t E. apply bind_inv in E. destruct E as ((oa, w1) & s1 & t1 & t2 & E1 & E2 & ->).
    destruct (H2 _ _ _ _ E1) as (F1 & a & -> & F3). destruct (K _ _ _ F3 w1 F1) as (_ & K2). exact (K2 _ _ _ _ E2).
Qed.
Lemma steps_atomic {A} (f : Mo A) s (R : A -> st -> list ev -> Prop) :
  safe f s -> (forall a s' t, f s = Ret a s' t -> R a s' t) -> steps (atomic f) s R.
Proof.
  intros H K w Hw. unfold atomic. split.
  - apply safe_bind; [exact H|]. intros; discriminate.
  - intros oa w' s' t E. apply bind_inv in E. destruct E as (a & s1 & t1 & t2 & E1 & E2 & ->). apply ret_inv in E2.
    destruct E2 as (E2 & -> & ->). rewrite app_nil_r. assert (oa = Some a /\ w' = w) as (-> & ->) by (split; congruence). eauto.
Qed.
Lemma run_others l s a s' t : ops_fine l -> run_ops G l s = Ret a s' t -> others s s' t.
Proof.
  intros (_ & Hl) H. split; [eapply (run_ops_path G false); eauto; congruence|]. apply run_ops_frame in H. exact H.
Qed.
Lemma steps_yield s (R : unit -> st -> list ev -> Prop) : good s ->
  (forall s1 t1, others s s1 t1 -> good s1 -> R tt s1 t1) -> steps (yield G) s R.
Proof.
  intros Hg K w (Hh & Hf). pose proof (fine_hd _ Hf) as Hl. unfold yield. rewrite Hh. split.
  - apply safe_bind; [eapply run_ops_safe; eauto; [apply Hl|apply Hg]|]. intros; discriminate.
  - intros oa w' s' t E. apply bind_inv in E. destruct E as (a & s1 & t1 & t2 & E1 & E2 & ->). apply ret_inv in E2.
    destruct E2 as (E2 & -> & ->). rewrite app_nil_r. assert (oa = Some tt /\ w' = mkW false (tl (w_sched w))) as (-> & ->) by (split; congruence).
    split; [split; [reflexivity|now apply fine_tl]|]. exists tt. split; auto. pose proof (run_others _ _ _ _ _ Hl E1) as Ho.
    apply K; auto. eapply good_path; [apply Ho|exact Hg].
Qed.
Definition when_safe {A} (f : Mo A) (s s1 : st) (t1 : list ev) (R : A -> st -> list ev -> Prop) : Prop :=
  safe f s1 /\ forall a s2 t2, f s1 = Ret a s2 t2 -> R a s2 (t1 ++ t2).
Lemma steps_visit {A} (f : Mo A) s (R : A -> st -> list ev -> Prop) : good s ->
  (forall s1 t1, others s s1 t1 -> good s1 -> safe f s1 /\ forall a s2 t2, f s1 = Ret a s2 t2 -> R a s2 (t1 ++ t2)) -> steps (visit G f) s R.
Proof.
  intros Hg K. unfold visit. eapply (steps_bind _ _ _ _ (fun _ s1 t1 => others s s1 t1 /\ good s1)).
  - eapply steps_yield; [exact Hg|]. intros s1 t1 H1 H2. exact (conj H1 H2).
  - cbv beta. intros [] s1 t1 (H1 & H2). destruct (K _ _ H1 H2) as (K1 & K2). apply steps_atomic; auto.
Qed.
Lemma steps_locked {A} (f : Mo A) s (R : A -> st -> list ev -> Prop) : good s ->
  (forall s1 t1, others s s1 t1 -> good s1 -> safe f s1 /\ forall a s2 t2, f s1 = Ret a s2 t2 -> R a s2 (t1 ++ t2)) -> steps (locked G (atomic f)) s R.
Proof.
  intros Hg K w Hw. pose proof Hw as (Hh & Hf). pose proof (fine_hd _ Hf) as Hl.
  assert (Q : forall a0 s1 t1, run_ops G (hd [] (w_sched w)) s = Ret a0 s1 t1 -> others s s1 t1 /\ good s1).
  { intros a0 s1 t1 E1. pose proof (run_others _ _ _ _ _ Hl E1) as Ho. split; auto. eapply good_path; [apply Ho|exact Hg]. }
  unfold locked, acquire, release, cbind, yield, atomic, cret. rewrite Hh. cbn [w_held andb].
  split.
  - unfold bind, ret. pose proof (run_ops_safe G n m HM HV _ s (proj1 Hl) (proj1 Hg)) as Sf. unfold safe in Sf.
    destruct (run_ops G (hd [] (w_sched w)) s) as [a0 s1 t1| |] eqn:E1; [|contradiction|discriminate].
    destruct (Q _ _ _ eq_refl) as (Q1 & Q2). destruct (K _ _ Q1 Q2) as (K1 & _). cbn [w_held andb]. unfold safe in K1.
    destruct (f s1) as [a1 s2 t2| |]; [discriminate|contradiction|discriminate].
  - unfold bind, ret. intros oa w' s' t E.
    destruct (run_ops G (hd [] (w_sched w)) s) as [a0 s1 t1| |] eqn:E1; [|discriminate..].
    destruct (Q _ _ _ eq_refl) as (Q1 & Q2). destruct (K _ _ Q1 Q2) as (_ & K2). cbn [w_held andb] in E.
    destruct (f s1) as [a1 s2 t2| |] eqn:E2; [|discriminate..]. cbn [w_sched] in E.
    assert (oa = Some a1 /\ w' = mkW false (tl (w_sched w)) /\ s' = s2 /\ t = t1 ++ t2) as (-> & -> & -> & ->).
    { rewrite !app_nil_r in E. repeat split; congruence. }
    split; [split; [reflexivity|now apply fine_tl]|]. eauto.
Qed.

(** ** Everything but reading and connecting is a path *)
Definition pathy {A} (f : Mc A) (s : st) : Prop := steps f s (fun _ s' t => Path false s s' t /\ good s').
Lemma pathy_bind {A B} (f : Mc A) (k : A -> Mc B) s : pathy f s -> (forall a s1, good s1 -> pathy (k a) s1) -> pathy (cbind f k) s.
Proof.
  intros H K. eapply steps_bind; [exact H|]. cbv beta. intros a s1 t1 (H1 & H2). eapply steps_weaken; [apply (K a s1 H2)|].
  cbv beta. intros b s2 t2 (K1 & K2). split; auto. eapply path_app; eauto.
Qed.
Lemma pathy_ret {A} (a : A) s : good s -> pathy (cret a) s.
Proof. intro. apply steps_ret. split; [constructor|auto]. Qed.
Lemma pathy_atomic {A} (f : Mo A) s : good s -> safe f s -> paths false f s -> pathy (atomic f) s.
Proof. intros Hg H K. apply steps_atomic; auto. intros a s' t E. apply K in E. split; auto. eapply good_path; eauto. Qed.
Lemma pathy_visit {A} (f : Mo A) s : good s -> (forall s1, good s1 -> safe f s1 /\ paths false f s1) -> pathy (visit G f) s.
Proof.
  intros Hg H. apply steps_visit; auto. intros s1 t1 Ho H1. destruct (H s1 H1) as (K1 & K2). split; auto. intros a s2 t2 E. apply K2 in E.
  split; [eapply path_app; [apply Ho|exact E]|]. eapply good_path; eauto.
Qed.
Lemma pathy_locked {A} (f : Mo A) s : good s -> (forall s1, good s1 -> safe f s1 /\ paths false f s1) -> pathy (locked G (atomic f)) s.
Proof.
  intros Hg H. apply steps_locked; auto. intros s1 t1 Ho H1. destruct (H s1 H1) as (K1 & K2). split; auto. intros a s2 t2 E. apply K2 in E.
  split; [eapply path_app; [apply Ho|exact E]|]. eapply good_path; eauto.
Qed.
Lemma pathy_op o s : good s -> op_sound o -> is_disc o = false -> pathy (c_op G o) s.
Proof.
  intros Hg H1 H2. apply pathy_locked; auto. intros s1 Hg1. split; [eapply run_op_safe; eauto; apply Hg1|]. apply run_op_path. congruence.
Qed.
Lemma keepAlive_pathy s : good s -> pathy (c_handleKeepAlive G) s.
Proof.
  intro Hg. unfold c_handleKeepAlive.
  apply pathy_bind; [apply pathy_visit; auto; intros; split; [safe1|apply paths_getTime]|]. intros now s1 H1.
  assert (Rd : forall B (f : context -> B) s, good s -> safe (let* c := getc in ret (f c)) s /\ paths false (let* c := getc in ret (f c)) s).
  { intros B f s0 _. split; [apply safe_bind; [safe1|intros; safe1]|]. apply paths_bind; [apply paths_getc|intros; apply paths_ret]. }
  apply pathy_bind; [apply pathy_visit; auto|]. intros keep s2 H2.
  apply pathy_bind; [apply pathy_visit; auto|]. intros waiting s3 H3. destruct waiting.
  - apply pathy_bind; [apply pathy_visit; auto|]. intros pt s4 H4. now apply pathy_ret.
  - apply pathy_bind; [apply pathy_locked; auto|]. intros lt s4 H4. destruct (_ && _); [apply pathy_op; auto; exact I|].
    apply pathy_bind; [apply pathy_visit; auto|]. intros lr s5 H5. destruct (_ && _); [apply pathy_op; auto; exact I|now apply pathy_ret].
Qed.

(** ** The handlers and the incoming publishes *)
(** [x]: the incoming publish whose exchange may be completed by a PUBCOMP *)
Definition kept (x : option Z) (s s' : st) (t : list ev) : Prop :=
  Path false s s' t /\ calm_t t /\
  forall id, held id (incoming s) -> held id (incoming s') \/ x = Some id /\ exists a b, outs t = a ++ ack_packet KPubcomp id ++ b.
Lemma kept_others s s' t : others s s' t -> kept None s s' t.
Proof. intros (H1 & H2 & H3). split; auto. split; [now apply op_calm|]. intros id H. left. unfold incoming in *. now rewrite H2. Qed.
Lemma kept_refl x s : kept x s s [].
Proof. split; [constructor|]. split; [apply calm_nil|auto]. Qed.
Lemma kept_trans x s1 s2 s3 t1 t2 : kept None s1 s2 t1 -> kept x s2 s3 t2 -> kept x s1 s3 (t1 ++ t2).
Proof.
  intros (P1 & C1 & K1) (P2 & C2 & K2). split; [eapply path_app; eauto|]. split; [apply calm_app; auto|]. intros id H.
  destruct (K1 id H) as [K|(K & _)]; [|discriminate]. destruct (K2 id K) as [Q|(Q & a & b & Q2)]; [now left|]. right. split; auto.
  exists (outs t1 ++ a), b. rewrite outs_app, Q2, <- app_assoc. reflexivity.
Qed.
Lemma kept_after x s1 s2 s3 t1 t2 : kept x s1 s2 t1 -> kept None s2 s3 t2 -> kept x s1 s3 (t1 ++ t2).
Proof.
  intros (P1 & C1 & K1) (P2 & C2 & K2). split; [eapply path_app; eauto|]. split; [apply calm_app; auto|]. intros id H.
  destruct (K1 id H) as [K|(K & a & b & Q2)].
  - destruct (K2 id K) as [Q|(Q & _)]; [now left|discriminate].
  - right. split; auto. exists a, (b ++ outs t2). rewrite outs_app, Q2, <- !app_assoc. reflexivity.
Qed.
Lemma kept_weak x s s' t : kept None s s' t -> kept x s s' t.
Proof. intros (P & C & K). split; auto. split; auto. intros id H. destruct (K id H) as [Q|(Q & _)]; [auto|discriminate]. Qed.

Lemma ops_steps l : forall s, good s -> Forall op_sound l -> existsb is_disc l = false ->
  steps (c_ops G l) s (fun _ s' t => kept None s s' t /\ good s' /\ incoming s' = incoming s /\ forallb op_ev t = true).
Proof.
  induction l as [|o l IH]; intros s Hg Hl Hd; cbn [c_ops].
  - apply steps_ret. split; [apply kept_refl|auto].
  - inversion Hl; subst. cbn [existsb] in Hd. apply orb_false_iff in Hd. destruct Hd as (Hd1 & Hd2).
    eapply (steps_bind _ _ _ _ (fun _ s' t => others s s' t /\ good s')).
    + apply steps_locked; auto. intros s1 t1 Ho Hg1. split; [eapply run_op_safe; eauto; apply Hg1|]. intros a s2 t2 E.
      assert (O2 : others s1 s2 t2). { split; [eapply run_op_path; eauto; congruence|]. now apply run_op_frame in E. }
      split; [|eapply good_path; [apply O2|auto]]. destruct Ho as (P1 & I1 & F1), O2 as (P2 & I2 & F2).
      split; [eapply path_app; eauto|]. split; [congruence|]. now rewrite forallb_app, F1.
    + cbv beta. intros a s1 t1 (Ho & Hg1). eapply steps_weaken; [apply IH; auto|]. cbv beta. intros b s2 t2 (K1 & K2 & K3 & K4).
      split; [eapply kept_trans; [apply kept_others; eauto|exact K1]|]. split; auto. destruct Ho as (_ & E & F). split.
      * rewrite K3. unfold incoming. now rewrite E.
      * now rewrite forallb_app, F.
Qed.
(** the callback: nothing but calls around the event *)
Lemma callback_steps type data id pub result s : good s ->
  steps (c_callback G type data id pub result) s (fun _ s' t =>
    Path false s s' t /\ good s' /\ incoming s' = incoming s /\
    exists t1 t2, t = t1 ++ ECb type data id pub result :: t2 /\ forallb op_ev t1 = true /\ forallb op_ev t2 = true).
Proof.
  intro Hg. unfold c_callback.
  eapply (steps_bind _ _ _ _ (fun l s' t => Path false s s' t /\ good s' /\ incoming s' = incoming s /\
    (exists t1, t = t1 ++ [ECb type data id pub result] /\ forallb op_ev t1 = true) /\ Forall op_sound l /\ existsb is_disc l = false)).
  - apply steps_visit; auto. intros s1 t1 Ho Hg1. split.
    { unfold safe, bind, emit, gete, ret. discriminate. }
    intros l s2 t2 E. unfold bind, emit, gete, ret in E.
    assert (s2 = mkSt (s_ctx s1) (env_cbs (s_env s1) (tl (e_cbs (s_env s1)))) /\ t2 = [ECb type data id pub result] /\ l = match e_cbs (s_env s1) with [] => [] | x :: _ => x end) as (-> & -> & ->)
      by (cbn [app] in E; repeat split; congruence).
    assert (P : Path false s1 (mkSt (s_ctx s1) (env_cbs (s_env s1) (tl (e_cbs (s_env s1))))) [ECb type data id pub result]) by (apply path_one, a_callback).
    destruct Ho as (P1 & I1 & F1). split; [eapply path_app; eauto|]. split; [eapply good_path; eauto|].
    split; [unfold incoming; cbn [s_ctx]; now rewrite I1|]. split; [eauto|].
    destruct Hg1 as (_ & H2 & H3). unfold cbs_ok in H2. unfold cbs_sound in H3. destruct (e_cbs (s_env s1)) as [|x r]; [split; [constructor|reflexivity]|].
    inversion H3; subst. split; auto. cbn [existsb] in H2. destruct (existsb is_disc x); auto. cbn [orb] in H2. specialize (H2 eq_refl). discriminate.
  - cbv beta. intros l s1 t1 (P1 & Hg1 & I1 & (t0 & -> & F0) & L1 & L2). eapply steps_weaken; [apply ops_steps; auto|].
    cbv beta. intros b s2 t2 ((P2 & _) & Hg2 & I2 & F2). split; [eapply path_app; eauto|]. split; auto. split; [congruence|].
    exists t0, t2. rewrite <- app_assoc. auto.
Qed.

Lemma acked_kept id0 k op s a s' t : good s -> on_recs (fun r => updateStateAckApi r id0 k op) s = Ret a s' t ->
  Path false s s' t /\ good s' /\ t = [] /\
  forall id, held id (incoming s) -> held id (incoming s') \/ id0 = id /\ k = Pubcomp /\ op = OpSend.
Proof.
  intros Hg H. pose proof (paths_acked false _ _ _ _ _ _ _ H) as P. split; auto. split; [eapply good_path; eauto|].
  apply on_recs_inv in H. destruct H as (c & E & -> & ->). split; auto. intros id Hh.
  pose proof (proj1 Hg) as HR. pose proof (reach_ids n m s HR) as Hn.
  destruct (acked_held (session_of n m s) id0 k op id Hn Hh) as [K|K]; [left|now right].
  assert (Hp : call_ok n m (Acked id0 k op)) by exact I.
  destruct (reach_step _ _ _ _ HR Hp) as (c' & E1 & E2 & _). cbn [to_call engine_step] in E1. rewrite E in E1.
  destruct a as [a1 a2]. cbn [rbind] in E1. assert (c' = c) by congruence. subst c'.
  change (session_of n m s) with (view n m (x_recs (s_ctx s))) in K. rewrite <- E2 in K. exact K.
Qed.

Lemma kept_same s s' t : Path false s s' t -> calm_t t -> incoming s' = incoming s -> kept None s s' t.
Proof. intros H1 H2 H3. split; auto. split; auto. intros id H. left. now rewrite H3. Qed.
Lemma ack_send_ok ps ty ak id s st s' t : ackToSend ps = Some (ty, ak) -> ack_send G (Some [ty; 2; hi8 id; lo8 id]) s = Ret st s' t ->
  Path false s s' t /\ send_only t /\ x_recs (s_ctx s') = x_recs (s_ctx s) /\ (final st = Success -> outs t = [ty; 2; hi8 id; lo8 id]).
Proof.
  intros Ek H. unfold ack_send in H. apply bind_inv in H. destruct H as (c & s1 & t1 & t2 & H1 & H & ->). mgo H1.
  destruct (status_beq (must_be_connected (s_ctx s)) Success) eqn:E.
  2: { mgo H. split; [constructor|]. split; [reflexivity|]. split; auto. unfold must_be_connected in *. destruct (x_status (s_ctx s)); discriminate. }
  assert (Hc : x_status (s_ctx s) = Connected) by (unfold must_be_connected in E; destruct (x_status (s_ctx s)); discriminate || reflexivity).
  apply bind_inv in H. destruct H as (r & s2 & t3 & t4 & H1 & H & ->). apply ret_inv in H. destruct H as (-> & -> & ->).
  cbn [app]. rewrite app_nil_r. apply sendBuffer_spec in H1. pose proof (sent_ok_sentb _ _ _ _ _ H1) as Hb.
  split; [eapply sentb_path; eauto|]. split; [destruct Hb as (? & ? & _ & _ & ? & _); auto|]. split; [now apply sentb_recs in Hb|].
  destruct (r <? 4) eqn:Er; [discriminate|]. intros _. destruct H1 as (k & l & Q1 & Q2 & _ & _ & _ & Q6). cbn [length] in Q1.
  assert (k = 4%nat) as -> by (destruct Q6 as [(? & _)|(? & _)]; lia). exact Q2.
Qed.
Lemma ack_send_safe buf s : safe (ack_send G buf) s.
Proof.
  unfold ack_send. apply safe_bind; [safe1|]. intros. destruct (status_beq _ _); [|safe1]. apply safe_bind; [apply sendBuffer_safe|intros; safe1].
Qed.
Lemma acks_steps id ps s : good s -> u16_ok id \/ ps = PubRelSend ->
  steps (c_sendPublishAcks G id ps) s (fun st s' t =>
    kept (match ackToSend ps with Some (_, Pubcomp) => Some id | _ => None end) s s' t /\ good s' /\
    (final st = Success -> u16_ok id -> forall ty ak, ackToSend ps = Some (ty, ak) -> exists a b, outs t = a ++ ack_packet (ack_of ak) id ++ b)).
Proof.
  intros Hg Hid. unfold c_sendPublishAcks. destruct (ackToSend ps) as [[ty ak]|] eqn:Ek.
  2: { apply steps_ret. split; [apply kept_refl|]. split; auto. discriminate. }
  rewrite (serializeAck_bytes _ _ _ _ Ek).
  assert (Ep : u16_ok id -> [ty; 2; hi8 id; lo8 id] = ack_packet (ack_of ak) id).
  { intro Hi. unfold u16_ok in Hi. unfold ack_packet, packet. rewrite <- be16_eq by lia. destruct ps; inversion Ek; subst; reflexivity. }
  eapply (steps_bind _ _ _ _ (fun p s' t => s' = s /\ t = [] /\ (if id =? 0 then (BadParameter, Some (repeat 0 4)) else (Success, Some [ty; 2; hi8 id; lo8 id])) = p)).
  { apply steps_atomic; [apply safe_lift; discriminate|]. intros a s' t H. apply lift_inv in H. destruct H as (H & -> & ->). repeat split. congruence. }
  cbv beta. intros p s0 t0 (-> & -> & <-).
  destruct (id =? 0) eqn:E0.
  { cbn [status_beq]. eapply (steps_bind _ _ _ _ (fun p s' t => s' = s /\ t = [] /\ p = BadParameter)); [apply steps_ret; auto|].
    cbv beta. intros p s0 t0 (-> & -> & ->). cbn [status_beq app]. apply steps_ret. split; [apply kept_refl|]. split; auto. discriminate. }
  cbn [status_beq].
  eapply (steps_bind _ _ _ _ (fun st s' t => kept None s s' t /\ good s' /\ (final st = Success -> exists a b, outs t = a ++ [ty; 2; hi8 id; lo8 id] ++ b))).
  { apply steps_locked; auto. intros s1 t1 Ho Hg1. split; [apply ack_send_safe|]. intros st s2 t2 H. eapply ack_send_ok in H; eauto.
    destruct H as (P & Hs & Er & Hout). split; [|split].
    - eapply kept_trans; [apply kept_others; exact Ho|]. apply kept_same; auto; [now apply send_calm|]. unfold incoming. now rewrite Er.
    - eapply good_path; eauto.
    - intro E. exists (outs t1), []. rewrite outs_app, Hout, app_nil_r; auto. }
  cbv beta. intros st s1 t1 (K1 & Hg1 & Hout). destruct (status_beq st Success) eqn:Est.
  2: { apply steps_ret. rewrite app_nil_r. cbn [app]. split; [now apply kept_weak|]. split; auto. intros K Hi ty0 ak0 E. assert (ak0 = ak) by congruence. subst ak0. rewrite <- (Ep Hi). exact (Hout K). }
  assert (st = Success) as -> by (destruct st; discriminate || reflexivity). specialize (Hout eq_refl). cbn [app].
  eapply (steps_bind _ _ _ _ (fun _ s' t => kept None s1 s' t /\ good s')).
  { apply steps_visit; auto. intros s2 t2 Ho Hg2. split; [safe1|]. intros [] s3 t3 H. apply modc_inv in H. destruct H as (-> & ->). rewrite app_nil_r.
    split; [|exact Hg2]. rewrite <- (app_nil_r t2). eapply kept_after; [apply kept_others; exact Ho|].
    apply kept_same; [apply path_one, a_local; repeat split|apply calm_nil|reflexivity]. }
  cbv beta. intros _ s2 t2 (K2 & Hg2).
  apply steps_locked; auto. intros s3 t3 Ho Hg3.
  assert (Sf : safe (ack_update id ak) s3).
  { unfold ack_update. apply safe_bind; [apply safe_on_recs; eapply acked_safe; apply Hg3|]. intros (?, ?) ? ? ?. safe1. }
  split; [exact Sf|]. intros st4 s4 t4 H. unfold ack_update in H. apply bind_inv in H. destruct H as ((st5, ns) & s5 & t5 & t6 & H1 & H & ->). mgo H. rewrite ?app_nil_r.
  apply acked_kept in H1; auto. destruct H1 as (P & Hg4 & -> & Hk).
  assert (Kall : kept None s s3 (t1 ++ t2 ++ t3)).
  { eapply kept_trans; [exact K1|]. eapply kept_trans; [exact K2|]. now apply kept_others. }
  destruct Hout as (a & b & Hout). rewrite ?app_nil_r.
  split; [|split; auto].
  - destruct Kall as (P0 & C0 & H0). split; [rewrite <- (app_nil_r (t1 ++ t2 ++ t3)); eapply path_app; eauto|]. split; auto.
    intros i Hi. destruct (H0 i Hi) as [Hi1|(Hi1 & _)]; [|discriminate]. destruct (Hk i Hi1) as [Hi2|(-> & -> & _)]; [now left|]. right. split; auto.
    destruct Hid as [Hid| ->]; [|discriminate]. rewrite (Ep Hid) in Hout. exists a, (b ++ outs (t2 ++ t3)). rewrite outs_app, Hout, <- !app_assoc. reflexivity.
  - intros _ Hi ty0 ak0 E. assert (ak0 = ak) by congruence. subst ak0. rewrite (Ep Hi) in Hout. exists a, (b ++ outs (t2 ++ t3)). rewrite outs_app, Hout, <- !app_assoc. reflexivity.
Qed.
End CP.
