(** The client used from several threads, when the others send no PINGREQ. *)
From Verif Require Import Base StateModel StateSpec StateHarness StateProofs StateProofs2 SerModel WireSpec SerHarness SerProofs SerProofs2 SerProofs3 SerProofs4 SerProofs5
  CoreModel CoreHarness CoreSpec CoreProofs CoreProofs2 CoreProofs3 CoreProofs4 CoreProofs5 CoreProofs6 CoreProofs7 CoreProofs8 CoreProofs9 CoreProofs10 CoreProofs11 CoreProofs12 CoreProofs13 CoreProofs14 CoreProofs15 CoreProofs16 CoreProofs17 CoreProofs18 CoreProofs19 CoreProofs20 CoreProofs21 CoreProofs22 CoreProofs23 ConcModel ConcHarness ConcProofs ConcProofs2 ConcProofs3 ConcProofs4 ConcProofs5 ConcProofs6 ConcProofs7.

(** ** Partial correctness: what a computation gives if it ends *)
Section Post.
Variable G : cfg.
Variable P : op -> bool.
Definition post {A} (f : Mc A) (s : st) (R : A -> st -> list ev -> Prop) : Prop := forall w oa w' s' t,
  w_held w = false -> only_calls P w -> f w s = Ret (oa, w') s' t ->
  match oa with Some a => w_held w' = false /\ only_calls P w' /\ R a s' t | None => True end.
Lemma post_weaken {A} (f : Mc A) s (R R' : A -> st -> list ev -> Prop) : post f s R -> (forall a s' t, R a s' t -> R' a s' t) -> post f s R'.
Proof. intros H K w oa w' s' t H1 H2 E. specialize (H _ _ _ _ _ H1 H2 E). destruct oa; auto. destruct H as (? & ? & ?). auto. Qed.
Lemma post_ret {A} (a : A) s (R : A -> st -> list ev -> Prop) : R a s [] -> post (cret a) s R.
Proof.
  intros H w oa w' s' t H1 H2 E. apply ret_inv in E. destruct E as (E & -> & ->).
  assert (oa = Some a /\ w' = w) as (-> & ->) by (split; congruence). auto.
Qed.
Lemma post_bind {A B} (f : Mc A) (k : A -> Mc B) s (R : B -> st -> list ev -> Prop) R1 :
  post f s R1 -> (forall a s1 t1, R1 a s1 t1 -> post (k a) s1 (fun b s2 t2 => R b s2 (t1 ++ t2))) -> post (cbind f k) s R.
Proof.
  intros H K w ob w2 s2 t Hh Hp E. unfold cbind in E. apply bind_inv in E. destruct E as ((oa, w1) & s1 & t1 & t2 & E1 & E2 & ->).
  specialize (H _ _ _ _ _ Hh Hp E1). destruct oa as [a|].
  - destruct H as (F1 & F2 & F3). exact (K _ _ _ F3 _ _ _ _ _ F1 F2 E2).
  - apply ret_inv in E2. destruct E2 as (E2 & _). assert (ob = None) as -> by congruence. exact I.
Qed.
Lemma post_atomic {A} (f : Mo A) s (R : A -> st -> list ev -> Prop) : (forall a s' t, f s = Ret a s' t -> R a s' t) -> post (atomic f) s R.
Proof.
  intros K w oa w' s' t Hh Hp E. unfold atomic in E. apply bind_inv in E. destruct E as (a & s1 & t1 & t2 & E1 & E2 & ->). apply ret_inv in E2.
  destruct E2 as (E2 & -> & ->). rewrite app_nil_r. assert (oa = Some a /\ w' = w) as (-> & ->) by (split; congruence). auto.
Qed.
Definition by_others (s s1 : st) (t1 : list ev) : Prop := exists l a, forallb P l = true /\ run_ops G l s = Ret a s1 t1.
Lemma only_hd w : only_calls P w -> forallb P (hd [] (w_sched w)) = true.
Proof. unfold only_calls. destruct (w_sched w); [reflexivity|]. now inversion 1. Qed.
Lemma only_tl w b : only_calls P w -> only_calls P (mkW b (tl (w_sched w))).
Proof. unfold only_calls. cbn. destruct (w_sched w); auto. now inversion 1. Qed.
Lemma post_yield s (R : unit -> st -> list ev -> Prop) : (forall s1 t1, by_others s s1 t1 -> R tt s1 t1) -> post (yield G) s R.
Proof.
  intros K w oa w' s' t Hh Hp E. unfold yield in E. rewrite Hh in E.
  apply bind_inv in E. destruct E as (a & s1 & t1 & t2 & E1 & E2 & ->). apply ret_inv in E2.
  destruct E2 as (E2 & -> & ->). rewrite app_nil_r. assert (oa = Some tt /\ w' = mkW false (tl (w_sched w))) as (-> & ->) by (split; congruence).
  split; [reflexivity|]. split; [now apply only_tl|]. apply K. exists (hd [] (w_sched w)), a. split; [now apply only_hd|auto].
Qed.
Lemma post_visit {A} (f : Mo A) s (R : A -> st -> list ev -> Prop) :
  (forall s1 t1 a s2 t2, by_others s s1 t1 -> f s1 = Ret a s2 t2 -> R a s2 (t1 ++ t2)) -> post (visit G f) s R.
Proof.
  intro K. unfold visit. apply (post_bind _ _ _ _ (fun _ s1 t1 => by_others s s1 t1)); [now apply post_yield|].
  intros _ s1 t1 H1. apply post_atomic. eauto.
Qed.
(** a region that is only run with the mutex held *)
Definition alone {A} (f : Mc A) (s : st) (R : A -> st -> list ev -> Prop) : Prop := forall w oa w' s' t,
  w_held w = true -> only_calls P w -> f w s = Ret (oa, w') s' t ->
  match oa with Some a => only_calls P w' /\ R a s' t | None => True end.
Lemma alone_atomic {A} (f : Mo A) s (R : A -> st -> list ev -> Prop) : (forall a s' t, f s = Ret a s' t -> R a s' t) -> alone (atomic f) s R.
Proof.
  intros K w oa w' s' t Hh Hp E. unfold atomic in E. apply bind_inv in E. destruct E as (a & s1 & t1 & t2 & E1 & E2 & ->). apply ret_inv in E2.
  destruct E2 as (E2 & -> & ->). rewrite app_nil_r. assert (oa = Some a /\ w' = w) as (-> & ->) by (split; congruence). auto.
Qed.
Lemma locked_eq {A} (f : Mc A) w s : w_held w = false -> locked G f w s = match run_ops G (hd [] (w_sched w)) s with
    | Ret _ s1 t1 => match f (mkW true (tl (w_sched w))) s1 with
        | Ret (Some a, w') s2 t2 => Ret (Some a, mkW false (w_sched w')) s2 (t1 ++ t2)
        | Ret (None, w') s2 t2 => Ret (None, w') s2 (t1 ++ t2)
        | Undef => Undef | Stuck => Stuck end
    | Undef => Undef | Stuck => Stuck end.
Proof.
  intro Hh. unfold locked, acquire, release, cbind, yield, cret. rewrite Hh. unfold bind, ret.
  destruct (run_ops G (hd [] (w_sched w)) s) as [a0 s1 t1| |]; auto. cbn [w_held w_sched andb].
  destruct (f (mkW true (tl (w_sched w))) s1) as [[[a|] w'] s2 t2| |]; auto; rewrite ?app_nil_r; reflexivity.
Qed.
Lemma post_locked {A} (f : Mc A) s (R : A -> st -> list ev -> Prop) :
  (forall s1 t1, by_others s s1 t1 -> alone f s1 (fun a s2 t2 => R a s2 (t1 ++ t2))) -> post (locked G f) s R.
Proof.
  intros K w oa w' s' t Hh Hp E. rewrite (locked_eq _ _ _ Hh) in E.
  destruct (run_ops G (hd [] (w_sched w)) s) as [a0 s1 t1| |] eqn:E1; [|discriminate..].
  assert (O : by_others s s1 t1) by (exists (hd [] (w_sched w)), a0; split; [now apply only_hd|exact E1]).
  specialize (K _ _ O). destruct (f (mkW true (tl (w_sched w))) s1) as [[[a|] w1] s2 t2| |] eqn:E2; [| |discriminate..].
  - specialize (K (mkW true (tl (w_sched w))) _ _ _ _ eq_refl (only_tl _ true Hp) E2). cbv beta iota in K. destruct K as (K1 & K2).
    assert (oa = Some a /\ w' = mkW false (w_sched w1) /\ s' = s2 /\ t = t1 ++ t2) as (-> & -> & -> & ->) by (repeat split; congruence).
    split; [reflexivity|]. split; [exact K1|exact K2].
  - assert (oa = None) as -> by congruence. exact I.
Qed.
Lemma post_section {A} (f : Mo A) s (R : A -> st -> list ev -> Prop) :
  (forall s1 t1 a s2 t2, by_others s s1 t1 -> f s1 = Ret a s2 t2 -> R a s2 (t1 ++ t2)) -> post (locked G (atomic f)) s R.
Proof. intro K. apply post_locked. intros s1 t1 H1. apply alone_atomic. eauto. Qed.
End Post.

(** ** The calls of other threads and one part [ob] of the context *)
Definition clocked {X} (ob : context -> list Z -> X) (s s' : st) (t : list ev) : Prop :=
  ob (s_ctx s') (e_in (s_env s')) = ob (s_ctx s) (e_in (s_env s)) /\ ins t = [] /\ exists used, e_times (s_env s) = used ++ e_times (s_env s').
Lemma cl_refl {X} (ob : context -> list Z -> X) s : clocked ob s s [].
Proof. split; [reflexivity|]. split; [reflexivity|]. now exists []. Qed.
Lemma cl_trans {X} (ob : context -> list Z -> X) a b c t u : clocked ob a b t -> clocked ob b c u -> clocked ob a c (t ++ u).
Proof. intros (E1 & I1 & x & E2) (F1 & I2 & y & F2). split; [congruence|]. split; [now rewrite ins_app, I1, I2|]. exists (x ++ y). rewrite E2, F2. apply app_assoc. Qed.
Section Observe.
Variable G : cfg.
Variable X : Type.
Variable ob : context -> list Z -> X.
Hypothesis Otx : forall c i x, ob (set_lastTx c x) i = ob c i.
Hypothesis Ost : forall c i x, ob (set_status c x) i = ob c i.
Hypothesis Oid : forall c i x, ob (set_nextId c x) i = ob c i.
Notation K := (keeps (clocked ob)).
Lemma o_any {A} (m : Mo A) : (forall s a s' t, m s = Ret a s' t -> ob (s_ctx s') (e_in (s_env s')) = ob (s_ctx s) (e_in (s_env s)) /\ ins t = [] /\ exists used, e_times (s_env s) = used ++ e_times (s_env s')) -> K m.
Proof. intros H s a s' t E. exact (H _ _ _ _ E). Qed.
Lemma o_ret {A} (a : A) : K (ret a). Proof. apply k_ret, cl_refl. Qed.
Lemma o_bind {A B} (m : Mo A) (k : A -> Mo B) : K m -> (forall a, K (k a)) -> K (bind m k).
Proof. apply k_bind. apply cl_trans. Qed.
Lemma o_modc f : (forall c i, ob (f c) i = ob c i) -> K (modc f).
Proof. intro H. apply o_any. intros s [] s' t E. apply modc_inv in E. destruct E as (-> & ->). split; [apply H|split; [reflexivity|now exists []]]. Qed.
Lemma o_emit e : ins [e] = [] -> K (emit e).
Proof. intro He. apply o_any. intros s [] s' t E. apply emit_inv in E. destruct E as (-> & ->). split; [reflexivity|split; [exact He|now exists []]]. Qed.
Lemma o_getTime : K getTime.
Proof. apply o_any. intros s a s' t H. apply getTime_inv in H. destruct H as (x & r & E & _ & -> & ->). split; [reflexivity|split; [reflexivity|now exists [x]]]. Qed.
Lemma o_tsend bs : K (tsend bs).
Proof. apply o_any. intros s a s' t H. unfold tsend in H. destruct (e_sends _); [discriminate|]. destruct (z <? 0); injection H as _ <- <-; (split; [reflexivity|split; [reflexivity|now exists []]]). Qed.
Lemma o_store id vs : K (store_publish id vs).
Proof. apply o_any. intros s a s' t H. unfold store_publish in H. cbv zeta in H. injection H as _ <- <-. split; [reflexivity|split; [reflexivity|now exists []]]. Qed.
Lemma o_broke : K (modc transport_broke).
Proof. apply o_modc. intros c i. unfold transport_broke. destruct (cstatus_beq _ _); auto. Qed.
Ltac op1 := first
  [ assumption
  | apply o_ret | apply k_lift, cl_refl | apply k_massert, cl_refl | apply k_getc, cl_refl | apply k_gete, cl_refl
  | apply o_getTime | apply o_tsend | apply k_undef | apply k_stuck | apply o_store | apply o_broke
  | apply o_modc; solve [intros ? ?; repeat match goal with |- context [if ?b then _ else _] => destruct b end; auto]
  | apply o_emit; reflexivity
  | apply o_bind; [|intros ?]
  | match goal with
    | |- keeps _ (if ?b then _ else _) => destruct b
    | |- keeps _ (match ?x with _ => _ end) => destruct x
    end ].
Lemma o_sendv vs : K (sendMessageVector G vs).
Proof.
  assert (L : forall fuel vs b st0 sent, K (sendv_loop G fuel vs b st0 sent)).
  { induction fuel as [|fuel IH]; intros; cbn [sendv_loop]; [apply k_stuck|]. repeat op1; auto. }
  unfold sendMessageVector. repeat op1. apply L.
Qed.
Lemma o_sendBuffer bs : K (sendBuffer G bs).
Proof.
  assert (L : forall fuel vs b st0 sent, K (sendb_loop G fuel vs b st0 sent)).
  { induction fuel as [|fuel IH]; intros; cbn [sendb_loop]; [apply k_stuck|]. repeat op1; auto. }
  unfold sendBuffer. repeat op1. apply L.
Qed.
Opaque sendMessageVector sendBuffer.
Lemma o_subscribe l c id : K (subscribe G l c id).
Proof.
  assert (L : forall fuel l vs, K (sub_send_loop G fuel l vs)).
  { induction fuel as [|fuel IH]; intros; cbn [sub_send_loop]; [apply k_stuck|]. repeat op1; auto using o_sendv. }
  unfold subscribe, validateSubUnsub, sendSubscribeWithoutCopy. repeat op1; auto.
Qed.
Lemma o_unsubscribe l c id : K (unsubscribe G l c id).
Proof.
  assert (L : forall fuel l vs, K (unsub_send_loop G fuel l vs)).
  { induction fuel as [|fuel IH]; intros; cbn [unsub_send_loop]; [apply k_stuck|]. repeat op1; auto using o_sendv. }
  unfold unsubscribe, validateSubUnsub, sendUnsubscribeWithoutCopy. repeat op1; auto.
Qed.
Lemma o_getPacketId : K getPacketId.
Proof. unfold getPacketId. repeat op1. Qed.
Lemma o_sendPublish p h k id : K (sendPublishWithoutCopy G p h k id).
Proof. unfold sendPublishWithoutCopy. repeat op1; auto using o_sendv. Qed.
Opaque sendPublishWithoutCopy.
Lemma o_publish0 p id : p_qos p = Q0 -> K (publish G p id).
Proof. intro Hq. unfold publish. rewrite Hq. cbn [qos_beq negb andb]. repeat op1; auto using o_sendPublish.
  apply o_any. intros s b s' t H. apply on_recs_inv in H. destruct H as (c & E & -> & ->). cbn [updateStatePublishApi] in E.
  assert (c = x_recs (s_ctx s)) as -> by (unfold updateStatePublishApi in E; congruence). split; [cbn [s_ctx]; f_equal; now destruct (s_ctx s)|]. split; [reflexivity|now exists []].
Qed.
Lemma o_publish p id : (forall c i x, ob (set_recs c x) i = ob c i) -> K (publish G p id).
Proof.
  intro Hr. assert (R : forall A (f : recs -> Base.R (A * recs)), K (on_recs f)).
  { intros A f. apply o_any. intros s a s' t H. apply on_recs_inv in H. destruct H as (c & _ & -> & ->). split; [apply Hr|split; [reflexivity|now exists []]]. }
  unfold publish. repeat op1; auto using o_sendPublish.
Qed.
Lemma o_cancel id : (forall c i x, ob (set_recs c x) i = ob c i) -> K (cancel id).
Proof.
  intro Hr. unfold cancel. repeat op1. apply o_any. intros s b s' t H. apply on_recs_inv in H. destruct H as (c & _ & -> & ->). split; [apply Hr|split; [reflexivity|now exists []]].
Qed.
Lemma o_ping : (forall c i a b d, ob (set_keep c a b d) i = ob c i) -> K (ping G).
Proof. intro Hk. unfold ping. repeat op1; auto using o_sendBuffer. Qed.
Lemma o_disconnect : (forall c i x, ob (set_index c x) i = ob c i) -> (forall c i x, ob (set_buf c x) i = ob c i) -> K (disconnect G).
Proof. intros H1 H2. unfold disconnect. repeat op1; auto using o_sendBuffer. apply o_modc. intros c i. now rewrite H2, H1, Ost. Qed.
Lemma o_check : K checkConnectStatus.
Proof. unfold checkConnectStatus. repeat op1. Qed.
Lemma o_ops P : (forall o, P o = true -> K (run_op G o)) -> forall l, forallb P l = true -> K (run_ops G l).
Proof.
  intros H l. induction l as [|o l IH]; cbn [run_ops forallb]; intro Hl; [apply o_ret|]. apply andb_true_iff in Hl.
  apply o_bind; [apply H, Hl|]. intros _. now apply IH.
Qed.
End Observe.

(** ** C70: the keep-alive when nobody else sends PINGREQ *)
Definition kaob (c : context) (_ : list Z) : bool * Z := (x_waiting c, x_pingTime c).
Lemma unpinged_op G o : not_ping o = true -> keeps (clocked kaob) (run_op G o).
Proof.
  destruct o; cbn [run_op not_ping]; try discriminate; intros _.
  - apply o_publish; reflexivity.
  - apply o_subscribe; reflexivity.
  - apply o_unsubscribe; reflexivity.
  - apply o_disconnect; reflexivity.
  - apply o_bind; [apply o_getPacketId; reflexivity|intros ?; apply o_ret].
  - apply o_cancel; reflexivity.
  - apply o_check.
Qed.
Lemma never_ping G s k s' t : ping G s = Ret k s' t -> k <> KeepAliveTimeout.
Proof.
  intros H. apply ping_spec in H. destruct H as [(_ & -> & _)|(_ & ok & s1 & _ & [(_ & -> & _)|(_ & -> & _)])]; try discriminate.
  unfold must_be_connected. destruct (x_status (s_ctx s)); discriminate.
Qed.
Section KeepAlive.
Variable G : cfg.
Notation post := (post not_ping).
Notation gives := (fun A (f : Mc A) (Q : A -> Prop) => forall w s a w' s' t, f w s = Ret (Some a, w') s' t -> Q a).
Lemma others_unpinged s s1 t1 : by_others G not_ping s s1 t1 -> clocked kaob s s1 t1.
Proof. intros (l & a & Hl & E). exact (o_ops G _ _ _ (unpinged_op G) l Hl _ _ _ _ E). Qed.
Lemma ka_visit {A} (f : Mo A) s (R : A -> st -> list ev -> Prop) :
  (forall s1 t1 a s2 t2, clocked kaob s s1 t1 -> f s1 = Ret a s2 t2 -> R a s2 (t1 ++ t2)) -> post (visit G f) s R.
Proof. intro K. apply post_visit. intros s1 t1 a s2 t2 H. apply K. now apply others_unpinged. Qed.
Lemma ka_keeps {A} (f : Mo A) s : keeps (clocked kaob) f -> post (visit G f) s (fun _ s' t => clocked kaob s s' t).
Proof. intro H. apply ka_visit. intros s1 t1 a s2 t2 H1 E. eapply cl_trans; [exact H1|]. eapply H; eauto. Qed.

(** a pass that reports a dead connection: the clock shows it *)
Lemma overdue_around s s1 s2 s3 t1 t2 : clocked kaob s s1 t1 -> overdue G s1 s2 -> clocked kaob s2 s3 t2 -> overdue G s s3.
Proof.
  intros (E & _ & u & Hu) (W & v & x & Hv & Hx & Ho) (_ & _ & z & Hz). unfold kaob in E. assert (x_waiting (s_ctx s1) = x_waiting (s_ctx s) /\ x_pingTime (s_ctx s1) = x_pingTime (s_ctx s)) as (E1 & E2) by (split; congruence).
  split; [congruence|]. exists (u ++ v ++ z), x. split; [rewrite Hu, Hv, Hz, <- !app_assoc; reflexivity|]. split; [|congruence]. rewrite !in_app_iff. auto.
Qed.
Definition rd {X} (f : context -> X) : Mo X := let* c := getc in ret (f c).
Lemma rd_inv {X} (f : context -> X) s a s' t : rd f s = Ret a s' t -> a = f (s_ctx s) /\ s' = s /\ t = [].
Proof. unfold rd, bind, getc, ret. intro H. cbn in H. repeat split; congruence. Qed.
Lemma keepAlive_overdue s : post (c_handleKeepAlive G) s (fun k s' t => k = KeepAliveTimeout -> overdue G s s' /\ ins t = []).
Proof.
  unfold c_handleKeepAlive. apply (post_bind _ _ _ _ _ (fun now s1 t1 => clocked kaob s s1 t1 /\ exists used x, e_times (s_env s) = used ++ e_times (s_env s1) /\ In x used /\ now = x mod 4294967296)).
  { apply ka_visit. intros s1 t1 a s2 t2 H1 E. split; [eapply cl_trans; [exact H1|]; eapply o_getTime; eauto|].
    apply getTime_inv in E. destruct E as (x & r & E & -> & -> & ->). destruct H1 as (_ & _ & u & Hu). exists (u ++ [x]), x. cbn [s_env e_times env_times].
    split; [rewrite Hu, E, <- app_assoc; reflexivity|]. split; [apply in_app_iff; cbn; auto|reflexivity]. }
  intros now s1 t1 (H1 & used & x & Hu & Hx & ->).
  assert (RD : forall X (f : context -> X) s0, post (visit G (rd f)) s0 (fun a s2 t2 => clocked kaob s0 s2 t2 /\ a = f (s_ctx s2))).
  { intros X f s0. apply ka_visit. intros s3 t3 a s4 t4 H3 E. apply rd_inv in E. destruct E as (-> & -> & ->). rewrite app_nil_r. auto. }
  eapply post_bind; [apply (RD _ x_keep)|]. cbv beta zeta. intros keep s2 t2 (H2 & _).
  eapply post_bind; [apply (RD _ x_waiting)|]. cbv beta. intros wt s3 t3 (H3 & ->).
  assert (H : clocked kaob s s3 (t1 ++ t2 ++ t3)) by (eapply cl_trans; [exact H1|]; eapply cl_trans; eauto).
  destruct (x_waiting (s_ctx s3)) eqn:Ew.
  - eapply post_bind; [apply (RD _ x_pingTime)|]. cbv beta. intros pt s4 t4 (H4 & ->). apply post_ret. rewrite app_nil_r.
    destruct (_ <? _) eqn:Eo; [|discriminate]. intros _. pose proof (cl_trans _ _ _ _ _ _ H H4) as (E & I4 & _). unfold kaob in E.
    split; [|rewrite <- !app_assoc in I4; exact I4].
    destruct H2 as (_ & _ & u2 & U2), H3 as (E3 & _ & u3 & U3). pose proof H4 as (E4 & _ & u4 & U4). unfold kaob in E4.
    split; [congruence|]. exists (used ++ u2 ++ u3 ++ u4), x. split; [rewrite Hu, U2, U3, U4, <- !app_assoc; reflexivity|]. split; [rewrite !in_app_iff; auto|].
    apply Z.ltb_lt in Eo. replace (x_pingTime (s_ctx s)) with (x_pingTime (s_ctx s4)) by congruence. exact Eo.
  - assert (PI : forall s0, post (c_op G OPing) s0 (fun k _ _ => k <> KeepAliveTimeout)).
    { intro s0. apply post_section. intros s4 t4 a s5 t5 _ E. apply (never_ping G s4 a s5 t5 E). }
    apply (post_bind _ _ _ _ _ (fun _ _ _ => True)); [apply post_section; auto|]. intros lt s4 t4 _.
    destruct (_ && _); [eapply post_weaken; [apply PI|]; cbv beta; contradiction|].
    eapply post_bind; [apply (RD _ x_lastRx)|]. cbv beta. intros lr s5 t5 _.
    destruct (_ && _); [eapply post_weaken; [apply PI|]; cbv beta; contradiction|apply post_ret; discriminate].
Qed.
(** results of the other parts *)
Notation anyhow := (fun _ _ _ => True).
Notation other := (fun k _ _ => k <> KeepAliveTimeout).
Lemma any_bind {A B} (f : Mc A) (k : A -> Mc B) s (Q : B -> Prop) : post f s anyhow -> (forall a s1, post (k a) s1 (fun b _ _ => Q b)) -> post (cbind f k) s (fun b _ _ => Q b).
Proof. intros H K. apply (post_bind _ _ _ _ _ anyhow); [exact H|]. intros a s1 t1 _. apply K. Qed.
Lemma val_bind {A B} (f : Mc A) (k : A -> Mc B) s (Q1 : A -> Prop) (Q : B -> Prop) : post f s (fun a _ _ => Q1 a) -> (forall a s1, Q1 a -> post (k a) s1 (fun b _ _ => Q b)) -> post (cbind f k) s (fun b _ _ => Q b).
Proof. intros H K. apply (post_bind _ _ _ _ _ (fun a _ _ => Q1 a)); [exact H|]. intros a s1 t1 H1. now apply K. Qed.
Lemma any_visit {A} (f : Mo A) s : post (visit G f) s anyhow. Proof. apply post_visit. auto. Qed.
Lemma any_section {A} (f : Mo A) s : post (locked G (atomic f)) s anyhow. Proof. apply post_section. auto. Qed.
Lemma any_atomic {A} (f : Mo A) s : post (atomic f) s anyhow. Proof. apply post_atomic. auto. Qed.
Ltac vp := repeat first
  [ apply any_visit | apply any_section | apply any_atomic | apply post_ret; solve [exact I|discriminate|assumption|congruence|match goal with |- (if ?b then _ else _) <> _ => destruct b; solve [discriminate|assumption|congruence] end]
  | apply any_bind; [|intros ? ?]
  | match goal with
    | |- ConcProofs8.post _ (if ?b then _ else _) _ _ => destruct b
    | |- ConcProofs8.post _ (match ?x with _ => _ end) _ _ => destruct x
    end ].
Lemma any_ops l : forall s, post (c_ops G l) s anyhow.
Proof. induction l as [|o l IH]; intro s; cbn [c_ops]; [vp|]. apply any_bind; [apply any_section|]. intros _ s1. apply IH. Qed.
Lemma any_callback a b c d e s : post (c_callback G a b c d e) s anyhow.
Proof. unfold c_callback. apply any_bind; [apply any_visit|]. intros l s1. apply any_ops. Qed.
Lemma any_exact k s : post (c_recvExact G k) s anyhow.
Proof.
  assert (L : forall fuel a b c d s, post (c_recvExact_loop G fuel a b c d) s anyhow).
  { induction fuel as [|fuel IH]; intros; cbn [c_recvExact_loop]; [vp|]. vp; auto. }
  unfold c_recvExact. apply any_bind; [apply any_atomic|]. intros _ s1. apply any_bind; [apply any_visit|]. intros now s2. apply any_bind; [apply any_atomic|]. intros e s3. apply L.
Qed.
Lemma other_discard a b c s : post (c_discardStoredPacket G a b c) s other.
Proof.
  assert (L : forall fuel a b c s, post (c_discardStored_loop G fuel a b c) s anyhow).
  { induction fuel as [|fuel IH]; intros; cbn [c_discardStored_loop]; [vp|]. destruct (_ <? _); [|vp]. cbv zeta. apply any_bind; [apply any_exact|]. intros r s1. destruct (negb _); [vp|apply IH]. }
  unfold c_discardStoredPacket. cbv zeta. apply any_bind; [apply any_visit|]. intros x s1. apply any_bind; [apply any_atomic|]. intros _ s2. apply any_bind; [apply any_atomic|]. intros e s3.
  apply any_bind; [apply L|]. intros tot s4. apply any_bind; [apply any_visit|]. intros _ s5. vp.
Qed.
Ltac vals H := repeat match type of H with
  | context [if ?b then _ else _] => destruct b
  | context [match ?x with _ => _ end] => destruct x eqn:?
  end; try discriminate; try (injection H; intros; subst; discriminate); try congruence.
Lemma no_kat_add l id q p st l' : addRecord l id q p = Ok (st, l') -> st <> KeepAliveTimeout.
Proof. unfold addRecord, rbind, rassert. cbv zeta. intro H. vals H. Qed.
Lemma no_kat_ack l i id a b st l' : updateStateAck l i id a b = Ok (st, l') -> st <> KeepAliveTimeout.
Proof.
  unfold updateStateAck. cbv zeta. intro H. destruct (validateTransitionAck a b); [|congruence]. destruct (pstate_beq a b); [congruence|].
  destruct (updateRecord _ _ _ _) as [l1|]; cbn [rbind] in H; [|discriminate]. destruct (pstate_beq b PubRelSend); [eapply no_kat_add; eauto|congruence].
Qed.
Lemma no_kat_ackapi r id a o st ns r' : updateStateAckApi r id a o = Ok (st, ns, r') -> st <> KeepAliveTimeout.
Proof.
  unfold updateStateAckApi. cbv zeta. intro H. destruct (id =? 0); [congruence|]. destruct (findInRecord _ _) as [[(i, x)|]|]; cbn [rbind] in H; [|congruence|discriminate].
  destruct (updateStateAck _ _ _ _ _) as [(st1, l)|] eqn:E; cbn [rbind] in H; [|discriminate]. apply no_kat_ack in E. congruence.
Qed.
Lemma no_kat_pubapi r id o q st ns r' : updateStatePublishApi r id o q = Ok (st, ns, r') -> st <> KeepAliveTimeout.
Proof.
  assert (L : forall i cur new st l, updateStatePublish r i id o q cur new = Ok (st, l) -> st <> KeepAliveTimeout).
  { clear. intros i cur new st l. unfold updateStatePublish, rassert. destruct (_ && _); [|discriminate]. destruct (validateTransitionPublish _ _ _ _); [|congruence].
    destruct o; [destruct (pstate_beq _ _); [congruence|]; destruct i; [|discriminate]; destruct (updateRecord _ _ _ _); cbn [rbind]; congruence|].
    destruct (addRecord _ _ _ _) as [(st1, l1)|] eqn:E; cbn [rbind]; [|discriminate]. apply no_kat_add in E. congruence. }
  unfold updateStatePublishApi. cbv zeta. destruct q; [congruence|..]; (destruct (id =? 0); [congruence|]); destruct o;
  repeat match goal with
  | |- context [findInRecord ?a ?b] => destruct (findInRecord a b) as [[(? & ?)|]|]; cbn [rbind]; try congruence
  | |- (if ?b then _ else _) = _ -> _ => destruct b; [congruence|]
  | |- context [updateStatePublish ?a ?b ?c ?d ?e ?f ?g] => destruct (updateStatePublish a b c d e f g) as [(? & ?)|] eqn:E; cbn [rbind]; [apply L in E; congruence|discriminate]
  end.
Qed.
(** the same for a computation with value [Q] *)
Definition giving {A} (Q : A -> Prop) (r : Base.R A) : Prop := forall a, r = Ok a -> Q a.
Lemma gv_ok {A} (Q : A -> Prop) a : Q a -> giving Q (Ok a). Proof. intros H b E. assert (b = a) as -> by congruence. exact H. Qed.
Lemma gv_ub {A} (Q : A -> Prop) : giving Q Ub. Proof. discriminate. Qed.
Lemma gv_bind {A B} (Q1 : A -> Prop) (Q : B -> Prop) r k : giving Q1 r -> (forall a, Q1 a -> giving Q (k a)) -> giving Q (rbind r k).
Proof. intros H K b E. destruct r as [a|]; [|discriminate]. eapply K; [apply H; reflexivity|exact E]. Qed.
Lemma gv_any {A B} (Q : B -> Prop) (r : Base.R A) k : (forall a, giving Q (k a)) -> giving Q (rbind r k).
Proof. intro K. apply (gv_bind (fun _ => True)); [intros ? ?; exact I|auto]. Qed.
Ltac gv := repeat match goal with
  | |- giving _ (Ok _) => apply gv_ok; cbn [fst snd]; solve [discriminate|assumption|repeat match goal with |- (if ?b then _ else _) <> _ => destruct b end; (discriminate || assumption)]
  | |- giving _ Ub => apply gv_ub
  | |- giving _ (rbind _ _) => apply gv_any; intros ?
  | |- giving _ (if ?b then _ else _) => destruct b
  | |- giving _ (match ?x with _ => _ end) => destruct x
  end.
Notation fine1 := (fun p => fst p <> KeepAliveTimeout).
Lemma gv_connack rem d : giving fine1 (deserializeConnack rem d).
Proof.
  unfold deserializeConnack, rassert. destruct (negb _); [gv|]. apply gv_any. intro b0. destruct (negb _); [gv|]. cbv zeta.
  apply (gv_bind (fun st => st <> KeepAliveTimeout)); [gv|]. intros st Hst. gv.
Qed.
Lemma gv_suback rem d : giving fine1 (deserializeSuback rem d).
Proof.
  unfold deserializeSuback. destruct (_ <? _); [gv|]. apply gv_any. intro id. destruct (id =? 0); [gv|].
  apply (gv_bind (fun st => st <> KeepAliveTimeout)); [|intros st Hst; gv]. unfold readSubackStatus.
  assert (L : forall n d off st, st <> KeepAliveTimeout -> giving (fun st => st <> KeepAliveTimeout) (readSubackStatus_loop n d off st)).
  { induction n as [|n IH]; intros; cbn [readSubackStatus_loop]; [gv|]. apply gv_any. intro b. cbv zeta.
    set (st1 := if (b =? 0) || (b =? 1) || (b =? 2) then st else _). assert (st1 <> KeepAliveTimeout) by (subst st1; destruct (_ || _); [auto|destruct (b =? 128); discriminate]). clearbody st1.
    destruct (status_beq _ _); [gv|auto]. }
  apply L. discriminate.
Qed.
Lemma gv_simple rem d : giving fine1 (deserializeSimpleAck rem d).
Proof. unfold deserializeSimpleAck. gv. Qed.
Lemma gv_deser k : giving (fun p => fst (fst p) <> KeepAliveTimeout) (deserializeAck k).
Proof.
  unfold deserializeAck, deserializePingresp. cbv zeta. destruct (k_data k); [|gv].
  destruct (_ =? _); [apply (gv_bind fine1); [apply gv_connack|]; intros (st, sp) H; cbn [fst] in H; gv|].
  destruct (_ =? _); [apply (gv_bind fine1); [apply gv_suback|]; intros (st, sp) H; cbn [fst] in H; gv|].
  destruct (_ =? _); [gv|]. destruct (_ || _); [|gv]. apply (gv_bind fine1); [apply gv_simple|]; intros (st, sp) H; cbn [fst] in H; gv.
Qed.
Lemma gv_publish M k : giving fine1 (deserializePublishApi M k).
Proof. unfold deserializePublishApi, deserializePublish. gv. Qed.
Lemma gv_header b i : giving fine1 (processIncomingPacketTypeAndLength b i).
Proof.
  unfold processIncomingPacketTypeAndLength. destruct (_ <? _); [gv|]. apply gv_any. intro ty. destruct (incomingPacketValid ty); [|gv].
  apply (gv_bind fine1); [|intros (st, r) H; cbn [fst] in H; gv]. unfold processRemainingLength.
  assert (L : forall n b i x y z, giving (fun p => fst (fst p) <> KeepAliveTimeout) (processRemainingLength_loop n b i x y z)).
  { induction n as [|n IH]; intros; cbn [processRemainingLength_loop]; [gv|]. cbv zeta. repeat (gv; auto). }
  apply (gv_bind (fun p => fst (fst p) <> KeepAliveTimeout)); [apply L|]. intros ((st, rl), k) H. cbn [fst] in H. gv.
Qed.
Lemma val_lift {A} (r : Base.R A) s (Q : A -> Prop) : giving Q r -> post (atomic (lift r)) s (fun a _ _ => Q a).
Proof. intro H. apply post_atomic. intros a s' t E. apply lift_inv in E. destruct E as (E & _). now apply H. Qed.
Lemma val_recs {A} (f : recs -> Base.R (A * recs)) s (Q : A -> Prop) : (forall r, giving (fun p => Q (fst p)) (f r)) -> post (locked G (atomic (on_recs f))) s (fun a _ _ => Q a).
Proof. intro H. apply post_section. intros s1 t1 a s2 t2 _ E. apply on_recs_inv in E. destruct E as (c & E & _). exact (H _ _ E). Qed.
Lemma other_acks id ps s : post (c_sendPublishAcks G id ps) s other.
Proof.
  unfold c_sendPublishAcks. destruct (ackToSend ps) as [(tb, ty)|]; [|vp].
  apply (val_bind _ _ _ fine1).
  { apply val_lift. unfold serializeAck. gv. }
  intros (st, buf) s1 H. cbn [fst] in H.
  apply (val_bind _ _ _ (fun k => k <> KeepAliveTimeout)).
  { destruct (status_beq st Success); [|vp]. apply post_section. intros s2 t2 a s3 t3 _ E. unfold ack_send in E.
    apply bind_inv in E. destruct E as (c & s4 & t4 & t5 & _ & E & _). unfold must_be_connected in E. destruct (x_status c); cbn [status_beq] in E; try (apply ret_inv in E; destruct E as (-> & _); discriminate).
    apply bind_inv in E. destruct E as (r & s5 & t6 & t7 & _ & E & _). apply ret_inv in E. destruct E as (-> & _). destruct (r <? 4); discriminate. }
  intros st2 s2 H2. destruct (status_beq st2 Success); [|vp]. apply any_bind; [vp|]. intros _ s3.
  apply post_section. intros s4 t4 a s5 t5 _ E. unfold ack_update in E. apply bind_inv in E. destruct E as ((x, y) & s6 & t6 & t7 & E & E2 & _).
  apply ret_inv in E2. destruct E2 as (-> & _). apply on_recs_inv in E. destruct E as (c & E & _). now apply no_kat_ackapi in E.
Qed.
Lemma other_publish ty rem d s : post (c_handleIncomingPublish G ty rem d) s other.
Proof.
  unfold c_handleIncomingPublish. apply (val_bind _ _ _ fine1); [apply val_lift, gv_publish|]. intros (st, dd) s1 H. cbn [fst] in H.
  destruct st; try (vp; fail). destruct dd as [(pub, pid)|]; [|vp]. cbv zeta. apply any_bind; [vp|]. intros c s2. destruct (_ && _); [vp|].
  apply (val_bind _ _ _ fine1).
  { apply val_recs. intros r ((x, y), z) E. cbn [fst]. now apply no_kat_pubapi in E. }
  intros (st, ns) s3 H3. cbn [fst] in H3. destruct (status_beq st Success) eqn:E1; [|destruct (status_beq st StateCollision)].
  - cbn [status_beq]. apply any_bind; [apply any_callback|]. intros _ s4. apply other_acks.
  - cbn [status_beq]. apply any_bind; [vp|]. intros _ s4. apply other_acks.
  - rewrite E1. vp.
Qed.
Lemma other_pubacks ty rem d s : post (c_handlePublishAcks G ty rem d) s other.
Proof.
  unfold c_handlePublishAcks. apply any_bind; [vp|]. intros aty s1. apply (val_bind _ _ _ (fun p => fst (fst p) <> KeepAliveTimeout)); [apply val_lift, gv_deser|].
  intros ((st, pid), sp) s2 H. cbn [fst] in H. cbv zeta. apply (val_bind _ _ _ fine1).
  { destruct (status_beq st Success); [|vp]. apply val_recs. intros r ((x, y), z) E. cbn [fst]. now apply no_kat_ackapi in E. }
  intros (st2, ns) s3 H3. cbn [fst] in H3. apply any_bind; [vp|]. intros c s4. apply any_bind; [vp|]. intros _ s5. destruct (status_beq st2 Success); [|vp].
  apply any_bind; [apply any_callback|]. intros _ s6. apply other_acks.
Qed.
Lemma other_ack ty rem d mk s : post (c_handleIncomingAck G ty rem d mk) s other.
Proof.
  unfold c_handleIncomingAck. destruct (_ || _); [apply other_pubacks|].
  apply (val_bind _ _ _ (fun p => fst (fst p) <> KeepAliveTimeout)).
  - destruct (_ =? _); [|destruct (_ || _)].
    + apply (val_bind _ _ _ (fun p => fst (fst p) <> KeepAliveTimeout)); [apply val_lift, gv_deser|]. intros ((st, pid), sp) s2 H. cbn [fst] in H.
      apply any_bind; [vp|]. intros _ s3. apply post_ret. exact H.
    + apply (val_bind _ _ _ (fun p => fst (fst p) <> KeepAliveTimeout)); [apply val_lift, gv_deser|]. intros ((st, pid), sp) s2 H. cbn [fst] in H. apply post_ret. exact H.
    + apply post_ret. discriminate.
  - intros ((st, id), inv) s2 H. cbn [fst] in H. destruct inv; [|vp]. apply any_bind; [apply any_callback|]. intros _ s3. vp.
Qed.
(** one pass *)
Lemma iteration_overdue mk s : post (c_receiveSingleIteration G mk) s (fun k s' t => k = KeepAliveTimeout -> mk = true /\ overdue G s s' /\ ins t = []).
Proof.
  unfold c_receiveSingleIteration.
  assert (RC : forall s0, post (visit G getc) s0 (fun _ s2 t2 => clocked kaob s0 s2 t2)) by (intro; apply ka_keeps, k_getc, cl_refl).
  eapply post_bind; [apply RC|]. cbv beta. intros c s1 t1 H1.
  apply (post_bind _ _ _ _ _ (fun r s2 t2 => r = 0 -> clocked kaob s1 s2 t2)).
  { apply ka_visit. intros s2 t2 r s3 t3 H2 E Hr. apply recv_into_inv in E. destruct E as (_ & _ & _ & [(? & _)|(bs & Eb & _ & -> & _ & (rv & Ee & _) & Ec)]); [lia|].
    assert (bs = []) as -> by (destruct bs; [reflexivity|unfold zlen in Eb; cbn in Eb; lia]).
    eapply cl_trans; [exact H2|]. split; [now rewrite Ec|]. split; [reflexivity|]. exists []. now rewrite Ee. }
  intros r s2 t2 H2. 
  apply (post_bind _ _ _ _ _ (fun (p : status * Z * Z * Z) s3 t3 => fst (fst (fst p)) <> KeepAliveTimeout /\ (r = 0 -> clocked kaob s2 s3 t3))).
  { destruct (r <? 0) eqn:Er.
    - apply (post_bind _ _ _ _ _ anyhow); [apply any_section|]. intros _ s3 t3 _. apply post_ret. split; [discriminate|lia].
    - eapply post_bind; [apply RC|]. cbv beta. intros c3 s3 t3 H3. destruct (_ && _).
      + apply post_ret. split; [discriminate|]. rewrite app_nil_r. auto.
      + eapply post_bind; [apply ka_keeps, o_modc; reflexivity|]. cbv beta. intros _ s4 t4 H4.
        eapply post_bind; [apply RC|]. cbv beta. intros c5 s5 t5 H5.
        apply (post_bind _ _ _ _ _ (fun p s6 t6 => fst p <> KeepAliveTimeout /\ s6 = s5 /\ t6 = [])).
        { apply post_atomic. intros a s6 t6 E. apply lift_inv in E. destruct E as (E & -> & ->). split; [now apply gv_header in E|auto]. }
        intros (st, h) s6 t6 (H6 & -> & ->). cbn [fst] in H6. apply post_ret. rewrite !app_nil_r.
        split; [destruct h as [((? & ?) & ?)|]; exact H6|]. intros _. repeat (eapply cl_trans; [eassumption|]). exact H5. }
  intros (((st, ty), rem), hdr) s3 t3 (Hst & H3). cbn [fst] in Hst. cbv zeta.
  apply (post_bind _ _ _ _ _ (fun k s4 t4 => k = KeepAliveTimeout -> r = 0 /\ mk = true /\ overdue G s3 s4 /\ ins t4 = [])).
  { destruct mk; [|rewrite andb_false_r; apply post_ret; contradiction]. rewrite andb_true_r. destruct (r =? 0) eqn:Er; [|apply post_ret; contradiction].
    eapply post_bind; [apply keepAlive_overdue|]. cbv beta. intros k s4 t4 H4. apply post_ret. rewrite app_nil_r.
    destruct (status_beq k Success); [contradiction|]. intros ->. split; [lia|auto]. }
  intros k s4 t4 H4. eapply post_bind; [apply RC|]. cbv beta. intros c5 s5 t5 H5.
  apply (post_bind _ _ _ _ _ (fun k2 s6 t6 => k2 = KeepAliveTimeout -> k = KeepAliveTimeout /\ s6 = s5 /\ t6 = [])).
  { destruct (negb _); [apply post_ret; auto|]. destruct (_ <? _); [|destruct (_ <? _); apply post_ret; discriminate].
    eapply post_weaken; [apply other_discard|]. cbv beta. contradiction. }
  intros k2 s6 t6 H6.
  apply (post_bind _ _ _ _ _ (fun k3 s7 t7 => k3 = KeepAliveTimeout -> k2 = KeepAliveTimeout /\ s7 = s6 /\ t7 = [])).
  { destruct (status_beq k2 Success); [|apply post_ret; auto].
    apply (post_weaken _ _ _ other); [|cbv beta; contradiction].
    apply any_bind; [vp|]. intros d s7. apply (val_bind _ _ _ (fun k => k <> KeepAliveTimeout)).
    - destruct (_ =? _); [apply other_publish|apply other_ack].
    - intros k3 s8 H8. apply any_bind; [vp|]. intros _ s9. apply any_bind; [|intros _ s10; vp]. destruct (status_beq k3 Success); [|vp]. apply any_bind; [vp|]. intros now s10. vp. }
  intros k3 s7 t7 H7. apply post_ret. intro E. assert (k3 = KeepAliveTimeout) as Ek by (destruct (status_beq k3 NoDataAvailable); [discriminate|exact E]).
  destruct (H7 Ek) as (E2 & -> & ->). destruct (H6 E2) as (E1 & -> & ->). destruct (H4 E1) as (Er & Em & Ho & I4). specialize (H2 Er). specialize (H3 Er).
  split; [exact Em|]. split; [|rewrite !ins_app, I4; destruct H1 as (_ & -> & _), H2 as (_ & -> & _), H3 as (_ & -> & _), H5 as (_ & -> & _); reflexivity].
  eapply overdue_around; [|exact Ho|exact H5]. eapply cl_trans; [exact H1|]. eapply cl_trans; [exact H2|exact H3].
Qed.
End KeepAlive.
Lemma loops_overdue G mk w s w' s' t : w_held w = false -> only_calls not_ping w ->
  c_run_call G (if mk : bool then CProcess else CReceive) w s = Ret (Some KeepAliveTimeout, w') s' t -> mk = true /\ overdue G s s' /\ ins t = [].
Proof.
  intros Hh Hp E. destruct mk; cbn [c_run_call] in E.
  - assert (P : post not_ping (c_processLoop G) s (fun k s' t => k = KeepAliveTimeout -> overdue G s s' /\ ins t = [])).
    { unfold c_processLoop. eapply post_bind; [apply (ka_keeps G); apply o_modc; reflexivity|]. cbv beta. intros _ s1 t1 H1.
      eapply post_weaken; [apply iteration_overdue|]. cbv beta. intros k s2 t2 H2 Ek. destruct (H2 Ek) as (_ & Ho & I2). split.
      - eapply overdue_around; [exact H1|exact Ho|apply cl_refl].
      - rewrite ins_app, I2. destruct H1 as (_ & -> & _). reflexivity. }
    destruct (P _ _ _ _ _ Hh Hp E) as (_ & _ & Q). split; [reflexivity|auto].
  - destruct (iteration_overdue G false s _ _ _ _ _ Hh Hp E) as (_ & _ & Q). destruct (Q eq_refl). discriminate.
Qed.
