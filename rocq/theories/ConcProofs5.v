(** The client used from several threads: with the mutex held, or when the other
    threads make no calls, the loop thread computes what the sequential functions compute. *)
From Verif Require Import Base StateModel StateSpec StateHarness StateProofs StateProofs2 SerModel WireSpec SerHarness SerProofs SerProofs2 SerProofs3 SerProofs4 SerProofs5
  CoreModel CoreHarness CoreSpec CoreProofs CoreProofs2 CoreProofs3 CoreProofs4 CoreProofs5 CoreProofs6 CoreProofs7 CoreProofs8 CoreProofs9 CoreProofs10 CoreProofs11 CoreProofs12 CoreProofs13 CoreProofs14 CoreProofs15 CoreProofs16 CoreProofs17 CoreProofs18 CoreProofs19 CoreProofs20 CoreProofs21 CoreProofs22 ConcModel ConcHarness ConcProofs ConcProofs2 ConcProofs3 ConcProofs4.

Lemma dead_app a b : dead b -> dead (a ++ b).
Proof. intros (t0 & ->). exists (a ++ t0). apply app_assoc. Qed.

Section CP5.
Variable G : cfg.
(** [h]: the mutex is held; [d]: the thread may hang *)
Definition sim (h d : bool) {A} (f : Mc A) (f0 : Mo A) (s : st) : Prop := forall w, w_held w = h -> (h = false -> still w) ->
  match f w s with
  | Ret (Some a, w') s' t => f0 s = Ret a s' t /\ (if h then w' = w else w_held w' = false /\ still w')
  | Ret (None, _) _ t => d = true /\ g_nest G = false /\ dead t
  | Undef => f0 s = Undef
  | Stuck => f0 s = Stuck
  end.
Lemma sim_ext h d {A} (f : Mc A) f0 f1 s : f0 s = f1 s -> sim h d f f1 s -> sim h d f f0 s.
Proof. intros E H w H1 H2. rewrite E. now apply H. Qed.
Lemma sim_ret h d {A} (a : A) s : sim h d (cret a) (ret a) s.
Proof. intros w H1 H2. unfold cret, ret. split; auto. destruct h; auto. Qed.
Lemma sim_bind h d {A B} (f : Mc A) f0 (k : A -> Mc B) k0 s : sim h d f f0 s -> (forall a s1 t1, f0 s = Ret a s1 t1 -> sim h d (k a) (k0 a) s1) -> sim h d (cbind f k) (bind f0 k0) s.
Proof.
  intros H K w H1 H2. unfold cbind, bind. specialize (H w H1 H2). destruct (f w s) as [[[a|] w'] s1 t1| |]; try (now rewrite H).
  - destruct H as (E & Hw). rewrite E.
    assert (Hw' : w_held w' = h /\ (h = false -> still w')) by (destruct h; [subst w'; split; [assumption|discriminate]|tauto]). destruct Hw' as (W1 & W2).
    specialize (K a s1 t1 E w' W1 W2). destruct (k a w' s1) as [[[b|] w2] s2 t2| |]; try (now rewrite K).
    + destruct K as (-> & K). split; auto. destruct h; congruence.
    + destruct K as (K1 & K2 & K3). split; auto. split; auto. now apply dead_app.
  - unfold ret. rewrite app_nil_r. exact H.
Qed.
Lemma sim_atomic h d {A} (f : Mo A) s : sim h d (atomic f) f s.
Proof.
  intros w H1 H2. unfold atomic, bind. destruct (f s) as [a s1 t1| |]; auto. unfold ret. rewrite app_nil_r. split; auto. destruct h; auto.
Qed.
Lemma sim_yield h d s : sim h d (yield G) (ret tt) s.
Proof.
  intros w H1 H2. unfold yield. rewrite H1. destruct h; [split; auto|]. specialize (H2 eq_refl). unfold still in H2.
  assert (hd [] (w_sched w) = []) as -> by (destruct H2; auto). unfold bind, ret. cbn [run_ops app]. unfold ret. split; auto. split; auto.
  unfold still. cbn [w_sched]. destruct H2; cbn [tl]; [constructor|assumption].
Qed.
Lemma sim_visit h d {A} (f : Mo A) s : sim h d (visit G f) f s.
Proof.
  unfold visit. apply (sim_ext _ _ _ _ (ret tt ;; f)).
  - unfold bind, ret. destruct (f s); reflexivity.
  - apply sim_bind; [apply sim_yield|intros [] ? ? ?; apply sim_atomic].
Qed.
Lemma sim_locked d {A} (f : Mc A) f0 s : sim true d f f0 s -> sim false d (locked G f) f0 s.
Proof.
  intros H. unfold locked, acquire. intros w H1 H2. unfold cbind at 1 2. pose proof (sim_yield false d s w H1 H2) as Y. unfold bind.
  destruct (yield G w s) as [[[[]|] w'] s1 t1| |] eqn:E; try discriminate.
  2: { unfold yield in E. rewrite H1 in E. unfold bind in E. destruct (run_ops _ _ _); discriminate. }
  destruct Y as (Y1 & Y2 & Y3). rewrite Y2. cbn [andb]. unfold ret in Y1.
  assert (s1 = s /\ t1 = []) as (-> & ->) by (split; congruence). unfold ret at 1. cbn [app].
  specialize (H (mkW true (w_sched w')) eq_refl ltac:(discriminate)). unfold cbind at 1, bind at 1.
  destruct (f (mkW true (w_sched w')) s) as [[[a|] w2] s2 t2| |]; auto.
  - destruct H as (-> & ->). unfold cbind, release, cret, bind, ret. cbn [app w_sched w_held]. rewrite app_nil_r. rewrite H1. split; auto.
  - unfold ret. rewrite app_nil_r. exact H.
Qed.
Lemma sim_broke d s : sim false d (c_broke G) (modc transport_broke) s.
Proof. apply sim_locked, sim_atomic. Qed.
(** the hook after a failed read *)
Lemma sim_recv h {A} off k (e : Z -> A) (K : Z -> Mc A) K0 s : (forall r s1 t1, recv_into off k s = Ret r s1 t1 -> sim h h (K r) (K0 r) s1) ->
  sim h h (cbind (visit G (recv_into off k)) (fun r => if r <? 0 then cbind (c_broke G) (fun _ => cret (e r)) else K r))
    (bind (recv_into off k) (fun r => if r <? 0 then modc transport_broke ;; ret (e r) else K0 r)) s.
Proof.
  intros HK. destruct h.
  2: { apply sim_bind; [apply sim_visit|]. intros r s1 t1 E. destruct (r <? 0); [|eauto]. apply sim_bind; [apply sim_broke|]. intros; apply sim_ret. }
  intros w H1 H2. unfold cbind at 1, bind at 1. pose proof (sim_visit true true (recv_into off k) s w H1 H2) as V. unfold bind at 1.
  destruct (visit G (recv_into off k) w s) as [[[r|] w'] s1 t1| |]; try (unfold bind; now rewrite V).
  - destruct V as (V & ->). rewrite V. destruct (r <? 0) eqn:Er.
    + unfold c_broke, locked, acquire, cbind, yield, bind, ret. rewrite H1. cbn [app]. rewrite ?H1. destruct (g_nest G) eqn:En; cbn [app andb negb].
      { unfold atomic, bind, modc, release, cret, ret. cbn [app w_sched]. split; auto. destruct w as (h, sch). cbn [w_held] in H1. now subst h. }
      split; auto. split; auto. apply recv_into_inv in V. destruct V as (_ & _ & _ & [(_ & -> & _)|(bs & -> & _)]); [exists []; reflexivity|].
      pose proof (CoreProofs.zlen_nonneg bs). lia.
    + specialize (HK r s1 t1 V w H1 H2). destruct (K r w s1) as [[[b|] w2] s2 t2| |]; try (unfold bind; rewrite V, Er; now rewrite HK).
      * destruct HK as (-> & HK). auto.
      * destruct HK as (HK1 & HK2 & HK3). split; auto. split; auto. now apply dead_app.
  - unfold ret. rewrite app_nil_r. exact V.
Qed.
Ltac sims := repeat first
  [ match goal with
    | |- sim _ _ (cret _) _ _ => apply sim_ret
    | |- sim _ _ (atomic _) _ _ => apply sim_atomic
    | |- sim _ _ (visit _ _) _ _ => apply sim_visit
    | |- sim _ _ (locked _ (atomic _)) _ _ => apply sim_locked, sim_atomic
    | |- sim _ _ (cbind _ _) (bind _ _) _ => apply sim_bind; [|intros ? ? ? ?]
    | |- sim _ _ (if ?b then _ else _) (if ?b then _ else _) _ => destruct b
    | |- sim _ _ (match ?x with _ => _ end) (match ?x with _ => _ end) _ => destruct x
    end ].

(** ** Reading *)
Lemma bind_assoc {A B C} (f : Mo A) (k : A -> Mo B) (j : B -> Mo C) s : bind f (fun a => bind (k a) j) s = bind (bind f k) j s.
Proof. unfold bind. destruct (f s) as [a s1 t1| |]; auto. destruct (k a s1) as [b s2 t2| |]; auto. destruct (j b s2); auto. now rewrite app_assoc. Qed.
Lemma getc_bind {A} (k : context -> Mo A) s : bind getc k s = k (s_ctx s) s.
Proof. unfold bind, getc. cbn [app]. destruct (k (s_ctx s) s); reflexivity. Qed.
Lemma ret_bind {A B} (a : A) (k : A -> Mo B) s : bind (ret a) k s = k a s.
Proof. unfold bind, ret. cbn [app]. destruct (k a s); reflexivity. Qed.
Lemma bind_ext {A B} (f : Mo A) (k j : A -> Mo B) s : (forall a s1, k a s1 = j a s1) -> bind f k s = bind f j s.
Proof. intro H. unfold bind. destruct (f s) as [a s1 t1| |]; auto. now rewrite H. Qed.
Lemma sim_exact_loop h fuel : forall a b c d s, sim h h (c_recvExact_loop G fuel a b c d) (recvExact_loop G fuel a b c d) s.
Proof.
  induction fuel as [|fuel IH]; intros; cbn [c_recvExact_loop recvExact_loop]; [sims|]. destruct (0 <? b); [|sims].
  apply sim_recv. intros r s1 t1 E. sims; apply IH.
Qed.
Lemma sim_exact h k s : sim h h (c_recvExact G k) (recvExact G k) s.
Proof.
  unfold c_recvExact. eapply sim_ext; [apply bind_assoc|]. sims. apply sim_exact_loop.
Qed.
Lemma sim_discard h a b s : sim h h (c_discardPacket G a b) (discardPacket G a b) s.
Proof.
  assert (L : forall fuel a b c d e s, sim h h (c_discard_loop G fuel a b c d e) (discard_loop G fuel a b c d e) s).
  { induction fuel as [|fuel IH]; intros; cbn [c_discard_loop discard_loop]; [sims|]. sims; [apply sim_exact|apply IH]. }
  unfold c_discardPacket, discardPacket. sims. apply L.
Qed.
Lemma sim_discardStored h a b c s : sim h h (c_discardStoredPacket G a b c) (discardStoredPacket G a b c) s.
Proof.
  assert (L : forall fuel a b c s, sim h h (c_discardStored_loop G fuel a b c) (discardStored_loop G fuel a b c) s).
  { induction fuel as [|fuel IH]; intros; cbn [c_discardStored_loop discardStored_loop]; [sims|]. sims; [apply sim_exact|apply IH]. }
  unfold c_discardStoredPacket, discardStoredPacket. eapply sim_ext; [apply bind_assoc|]. sims. apply L.
Qed.
Lemma sim_packet h a b s : sim h h (c_receivePacket G a b) (receivePacket G a b) s.
Proof. unfold c_receivePacket, receivePacket. sims; [apply sim_discard|apply sim_exact]. Qed.

(** ** Handling *)
Lemma sim_ops d l : forall s, sim false d (c_ops G l) (run_ops G l) s.
Proof. induction l as [|o l IH]; intros s; cbn [c_ops run_ops]; [apply sim_ret|]. unfold c_op. sims. apply IH. Qed.
Lemma sim_callback d ty data id pub res s : sim false d (c_callback G ty data id pub res) (callback G ty data id pub res) s.
Proof.
  unfold c_callback, callback. unfold callback.
  apply (sim_ext _ _ _ _ (bind (emit (ECb ty data id pub res) ;; let* e := gete in
    (fun s => Ret tt (mkSt (s_ctx s) (env_cbs (s_env s) (tl (e_cbs (s_env s))))) []) ;; ret (match e_cbs e with [] => [] | l :: _ => l end)) (run_ops G))).
  - unfold bind, emit, gete, ret. cbn [app s_env]. destruct (run_ops _ _ _); reflexivity.
  - sims. apply sim_ops.
Qed.
Lemma sim_acks d id ps s : sim false d (c_sendPublishAcks G id ps) (sendPublishAcks G id ps) s.
Proof. unfold c_sendPublishAcks, sendPublishAcks. sims. Qed.
Lemma sim_publish d ty rem data s : sim false d (c_handleIncomingPublish G ty rem data) (handleIncomingPublish G ty rem data) s.
Proof. unfold c_handleIncomingPublish, handleIncomingPublish. sims; auto using sim_callback, sim_acks. Qed.
Lemma sim_pubacks d ty rem data s : sim false d (c_handlePublishAcks G ty rem data) (handlePublishAcks G ty rem data) s.
Proof. unfold c_handlePublishAcks, handlePublishAcks. sims; auto using sim_callback, sim_acks. Qed.
Lemma sim_ack d ty rem data mk s : sim false d (c_handleIncomingAck G ty rem data mk) (handleIncomingAck G ty rem data mk) s.
Proof. unfold c_handleIncomingAck, handleIncomingAck. sims; auto using sim_callback, sim_pubacks. Qed.
(** ** The pass *)
Lemma sim_keepAlive d s : sim false d (c_handleKeepAlive G) (handleKeepAlive G) s.
Proof.
  unfold c_handleKeepAlive, handleKeepAlive. apply sim_bind; [apply sim_visit|]. intros now s1 t1 _. clear.
  apply (sim_ext _ _ _ _ (let* keep := (let* c := getc in ret (x_keep c)) in
    let* waiting := (let* c := getc in ret (x_waiting c)) in
    if waiting : bool then
      let* pingTime := (let* c := getc in ret (x_pingTime c)) in
      ret (if g_pingto G <? elapsed now pingTime then KeepAliveTimeout else Success)
    else
      let* lastTx := (let* c := getc in ret (x_lastTx c)) in
      let txTimeout := u32 (1000 * keep) in
      let txTimeout := if g_tx G <? txTimeout then g_tx G else txTimeout in
      if negb (txTimeout =? 0) && (txTimeout <=? elapsed now lastTx) then run_op G OPing
      else
        let* lastRx := (let* c := getc in ret (x_lastRx c)) in
        let timeElapsed := elapsed now lastRx in
        if negb (timeElapsed =? 0) && (g_rx G <=? timeElapsed) then run_op G OPing else ret Success)).
  - cbn [run_op]. unfold bind, getc, ret. cbn [app]. cbv zeta beta. destruct (x_waiting (s_ctx s1)); [reflexivity|].
    destruct (_ && (_ <=? elapsed now (x_lastTx (s_ctx s1)))); [destruct (ping G s1); reflexivity|].
    destruct (_ && _); [destruct (ping G s1); reflexivity|reflexivity].
  - cbv zeta. unfold c_op. sims.
Qed.
Lemma sim_iteration mk s : sim false false (c_receiveSingleIteration G mk) (receiveSingleIteration G mk) s.
Proof.
  unfold c_receiveSingleIteration, receiveSingleIteration. apply sim_bind; [apply sim_visit|]. intros c s1 t1 E. mgo E.
  set (off := x_index (s_ctx s)). set (k := (zlen (x_buf (s_ctx s)) - off) mod g_M G).
  apply sim_bind; [apply sim_visit|]. intros r s1 t1 E.
  assert (Ei : x_index (s_ctx s1) = off).
  { apply recv_into_inv in E. destruct E as (_ & _ & _ & [(_ & _ & _ & ->)|(bs & _ & _ & _ & _ & _ & ->)]); reflexivity. }
  apply sim_bind.
  { destruct (r <? 0); [apply sim_bind; [apply sim_broke|]; intros; apply sim_ret|]. rewrite <- Ei.
    apply (sim_ext _ _ _ _ (let* c := getc in
       if (r =? 0) && (x_index c =? 0) then ret (NoDataAvailable, 0, 0, 0)
       else
         modc (fun c => set_index c ((x_index c + r) mod g_M G)) ;;
         let* c := getc in
         let* (st, h) := lift (processIncomingPacketTypeAndLength (x_buf c) (x_index c)) in
         ret (match h with Some (t, rl, hl) => (st, t, rl, hl) | None => (st, 0, 0, 0) end))).
    - rewrite getc_bind. reflexivity.
    - sims. }
  intros (((st, type), rem), hdr) s2 t2 _. apply sim_bind; [sims; apply sim_keepAlive|]. intros st2 s3 t3 _.
  apply sim_bind; [apply sim_visit|]. intros c s4 t4 _.
  apply sim_bind; [sims; apply (sim_discardStored false)|]. intros st3 s5 t5 _.
  apply sim_bind; [|intros; apply sim_ret].
  destruct (status_beq st3 Success); [|apply sim_ret].
  eapply (sim_ext _ _ _ _ (let* data := (let* c := getc in
         let data := skipn (Z.to_nat hdr) (x_buf c) in
         emit (EPkt type (firstn (Z.to_nat rem) data)) ;;
         ret data) in
       let* st := (if Z.land type 240 =? PKT_PUBLISH then handleIncomingPublish G type rem data
                   else handleIncomingAck G type rem data mk) in
       shift_buffer G (rem + hdr) ;;
       (if status_beq st Success
        then let* now := getTime in modc (fun c => set_lastRx c now) else ret tt) ;;
       ret st)).
  - rewrite <- bind_assoc. rewrite !getc_bind. cbv zeta. rewrite <- bind_assoc. apply bind_ext. intros [] s6. now rewrite ret_bind.
  - sims; auto using sim_publish, sim_ack.
Qed.
Lemma sim_process s : sim false false (c_processLoop G) (processLoop G) s.
Proof. unfold c_processLoop, processLoop. sims. apply sim_iteration. Qed.

(** ** MQTT_Connect *)
Definition region (ci : coninfo) (will : option pubinfo) (remainingLength timeoutMs : Z) : Mo (status * option bool) :=
  let* c := getc in
  let st := match x_status c with
            | NotConnected => Success | Connected => StConnected
            | DisconnectPending => StDisconnectPending end in
  let* st := (if status_beq st Success then sendConnectWithoutCopy G ci will remainingLength
              else ret st) in
  let* (st, sp) := (if status_beq st Success then receiveConnack G timeoutMs (c_clean ci)
                    else ret (st, None)) in
  let* st := (if status_beq st Success && match sp with Some true => false | _ => true end
              then handleCleanSession else ret st) in
  (if status_beq st Success
   then modc (fun c => set_keep (set_status c Connected) (c_keepalive ci) 0 false)
   else ret tt) ;;
  ret (st, sp).
Lemma connect_region ci will tmo : connect G ci will tmo =
  let '(st, size) := getConnectPacketSize ci will in
  let* (st, sp) := match st, size with Success, Some (rl, _) => region ci will rl tmo | _, _ => ret (st, None) end in
  let* st := (if status_beq st Success && match sp with Some true => true | _ => false end
              then handleUncleanSessionResumption G else ret st) in
  (if status_beq st Success || status_beq st StConnected || status_beq st StDisconnectPending
   then ret tt else modc transport_broke) ;;
  ret (st, sp).
Proof. reflexivity. Qed.
Lemma sim_connack a b s : sim true true (c_receiveConnack G a b) (receiveConnack G a b) s.
Proof. unfold c_receiveConnack, receiveConnack. sims. apply sim_packet. Qed.
Lemma sim_region ci will rl tmo s : sim true true (c_connect_region G ci will rl tmo) (region ci will rl tmo) s.
Proof. unfold c_connect_region, region. sims. apply sim_connack. Qed.
Lemma sim_resume d s : sim false d (c_handleUncleanSessionResumption G) (handleUncleanSessionResumption G) s.
Proof.
  assert (L1 : forall fuel a b s, sim false d (c_pubrel_loop G fuel a b) (pubrel_loop G fuel a b) s).
  { induction fuel as [|fuel IH]; intros; cbn [c_pubrel_loop pubrel_loop]; sims; auto using sim_acks. }
  assert (L2 : forall fuel a s, sim false d (c_publish_loop G fuel a) (publish_loop G fuel a) s).
  { induction fuel as [|fuel IH]; intros; cbn [c_publish_loop publish_loop]; sims; auto. }
  unfold c_handleUncleanSessionResumption, handleUncleanSessionResumption. sims; auto.
Qed.
Lemma sim_connect ci will tmo s : sim false true (c_connect G ci will tmo) (connect G ci will tmo) s.
Proof.
  rewrite connect_region. unfold c_connect. sims; try (apply sim_locked, sim_region); try apply sim_resume; apply sim_broke.
Qed.
Lemma sim_call c s : sim false (call_conn c) (c_run_call G c) (run_call G c) s.
Proof.
  destruct c; cbn [c_run_call run_call call_conn].
  - unfold c_op. sims.
  - sims. apply sim_connect.
  - apply sim_process.
  - apply sim_iteration.
Qed.
Lemma sim_weak h d {A} (f : Mc A) f0 s : sim h d f f0 s -> sim h true f f0 s.
Proof.
  intros H w H1 H2. specialize (H w H1 H2). destruct (f w s) as [[[a|] w'] s1 t1| |]; tauto.
Qed.
Lemma sim_calls l : forall s, sim false (existsb call_conn l) (c_run_calls G l) (run_calls G l) s.
Proof.
  induction l as [|c l IH]; intro s; cbn [c_run_calls run_calls existsb]; [apply sim_ret|].
  assert (W : forall A (f : Mc A) f0 s a b, sim false a f f0 s -> (a = true -> b = true) -> sim false b f f0 s).
  { intros A f f0 s0 a b H K. destruct b; [eapply sim_weak; eauto|]. destruct a; auto. discriminate (K eq_refl). }
  apply sim_bind; [eapply W; [apply sim_call|intros ->; reflexivity]|]. intros st s1 t1 _.
  apply sim_bind; [eapply W; [apply IH|intros ->; apply orb_true_r]|]. intros; apply sim_ret.
Qed.
End CP5.
