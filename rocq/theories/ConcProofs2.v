(** What the handlers of the loop thread do to the incoming publishes while other
    threads use the client. *)
From Verif Require Import Base StateModel StateSpec StateHarness StateProofs StateProofs2 SerModel WireSpec SerHarness SerProofs SerProofs2 SerProofs3 SerProofs4 SerProofs5
  CoreModel CoreHarness CoreSpec CoreProofs CoreProofs2 CoreProofs3 CoreProofs4 CoreProofs5 CoreProofs6 CoreProofs7 CoreProofs8 CoreProofs9 CoreProofs10 CoreProofs11 CoreProofs12 CoreProofs13 CoreProofs14 CoreProofs15 CoreProofs16 CoreProofs17 CoreProofs18 CoreProofs19 CoreProofs20 CoreProofs21 CoreProofs22 CoreFinal2 ConcModel ConcHarness ConcProofs.

Section CP.
Variable G : cfg.
Variables n m : nat.
Hypothesis HM : 4294967296 <= g_M G.
Hypothesis HV : 3 <= g_maxvec G.
Notation good := (good n m).


(** the acknowledgement a handled packet asks for is on the wire *)
Definition answered (ty : Z) (body : list Z) (t : list ev) : Prop :=
  forall kind id, asks_reply ty body kind id -> exists a b, outs t = a ++ ack_packet kind id ++ b.
Definition hpost (ty : Z) (body : list Z) (s : st) (res : status) (s' : st) (t : list ev) : Prop :=
  Path false s s' t /\ good s' /\ (forall id, once id s s' (EPkt ty body :: t)) /\ (final res = Success -> answered ty body t).

Lemma once_pkt id ty body s s' t : once id s s' t -> once id s s' (EPkt ty body :: t).
Proof.
  intros (A & B). split.
  - intro K. destruct (A K) as (A1 & A2). split.
    + intros e q [<-|He]; [discriminate|auto].
    + destruct A2 as [A2|(A2 & A3)]; [now left|]. right. split; [now right|exact A3].
  - intros t1 e t2 E He. destruct t1 as [|a t1]; cbn [app] in E; injection E as <- E; [discriminate|].
    destruct (B _ _ _ E He) as (B1 & B2 & B3). split; [apply calm_cons; auto|auto].
Qed.
Lemma kept_once id s s' t : kept None s s' t -> once id s s' t.
Proof. intros (_ & C & K). apply once_calm; auto. intro H. destruct (K id H) as [Q|(Q & _)]; [auto|discriminate]. Qed.
Lemma deliver_once id s s' i q u e v : delivery e = Some (i, q) -> calm_t u -> calm_t v -> ~ held i (incoming s) ->
  (forall j, held j (incoming s) -> held j (incoming s')) -> (q = Q2 -> held i (incoming s')) -> once id s s' (u ++ e :: v).
Proof.
  intros He Cu Cv Hni Hk Hi. split.
  - intro Hh. assert (Hne : id <> i) by (intros ->; contradiction). split; [|auto]. intros x y Hx. apply in_app_iff in Hx.
    destruct Hx as [Hx|[<-|Hx]]; [rewrite (Cu x Hx); discriminate|congruence|rewrite (Cv x Hx); discriminate].
  - intros t1 x t2 E Hx. destruct (calm_split u v t1 x t2 id Q2 Cu Cv e E Hx) as (-> & -> & ->). split; auto. split; auto.
    assert (i = id /\ q = Q2) as (<- & ->) by (split; congruence). auto.
Qed.
Lemma held_in_flight id l : held id l -> in_flight l id = true.
Proof. intros (f & Hf & E & _). apply in_flight_iff. unfold ids. rewrite <- E. now apply in_map. Qed.

Lemma handlePublish_steps ty rem data s : good s -> is_byte ty -> ty / 16 = 3 -> 0 <= rem <= zlen data -> rem < g_M G ->
  bytes_ok (firstn (Z.to_nat rem) data) ->
  steps (c_handleIncomingPublish G ty rem data) s (hpost ty (firstn (Z.to_nat rem) data) s).
Proof.
  intros Hg Hb H3 Hr HrM Hd. unfold c_handleIncomingPublish.
  rewrite (deser_api _ _ _ _ HM Hb H3 Hr HrM Hd). set (body := firstn (Z.to_nat rem) data) in *.
  assert (Refl : forall st, final st <> Success -> hpost ty body s st s []).
  { intros st Hst. split; [constructor|]. split; auto. split; [|contradiction]. intro id. apply once_pkt, kept_once, kept_refl. }
  destruct (pdec ty body) as [msg|] eqn:Ep.
  2: { eapply (steps_bind _ _ _ _ (fun p s' t => s' = s /\ t = [] /\ (BadResponse, None) = p)).
    { apply steps_atomic; [apply safe_lift; discriminate|]. intros a s' t H. apply lift_inv in H. destruct H as (H & -> & ->). repeat split. congruence. }
    cbv beta. intros p s0 t0 (-> & -> & <-). apply steps_ret. apply Refl. discriminate. }
  eapply (steps_bind _ _ _ _ (fun p s' t => s' = s /\ t = [] /\ (Success, Some (dpub_of msg)) = p)).
  { apply steps_atomic; [apply safe_lift; discriminate|]. intros a s' t H. apply lift_inv in H. destruct H as (H & -> & ->). repeat split. congruence. }
  cbv beta. intros p s0 t0 (-> & -> & <-). cbn [app].
  destruct (decode_body _ _ _ Hb H3 Hd Ep) as (Hmean & Hdp).
  destruct (dpub_of msg) as (pub, pid). cbn [fst snd] in Hdp. pose proof Hdp as (Dq & _ & _ & _ & _ & _ & _ & Dp). rewrite Dq.
  pose proof Hmean as (_ & _ & _ & _ & _ & Hid).
  eapply (steps_bind _ _ _ _ (fun c s' t => s' = s /\ t = [] /\ c = s_ctx s)).
  { apply steps_atomic; [safe1|]. intros a s' t H. apply getc_inv in H. destruct H as (-> & -> & ->). auto. }
  cbv beta. intros c s0 t0 (-> & -> & ->). cbn [app].
  pose proof (in_shape n m _ (proj1 Hg)) as Hsh.
  destruct (qos_beq (pm_qos msg) Q0) eqn:Eq.
  - assert (Eq0 : pm_qos msg = Q0) by (destruct (pm_qos msg); congruence || discriminate). rewrite Eq0 in *. subst pid. cbn [negb]. rewrite andb_false_r.
    assert (Hno : forall t, answered ty body t).
    { intros t kind id Ha. exfalso. inversion Ha; subst;
        try (match goal with Hm : publish_means ty _ ?x |- _ => rewrite (publish_means_unique _ _ _ _ Hm Hmean) in *; congruence end); discriminate. }
    eapply (steps_bind _ _ _ _ (fun p s' t => others s s' t /\ good s' /\ p = (Success, Some PublishDone))).
    { apply (steps_locked G n m HM HV); auto. intros s1 t1 Ho Hg1. split; [apply safe_on_recs; discriminate|]. intros a s2 t2 H.
      apply on_recs_inv in H. destruct H as (c & E & -> & ->). cbn [updateStatePublishApi] in E.
      assert (a = (Success, Some PublishDone) /\ c = x_recs (s_ctx s1)) as (-> & ->) by (split; congruence).
      rewrite app_nil_r. replace (mkSt (set_recs (s_ctx s1) (x_recs (s_ctx s1))) (s_env s1)) with s1 by (destruct s1 as [[] ?]; reflexivity). auto. }
    cbv beta. intros p s1 t1 (Ho & Hg1 & ->). cbn [status_beq].
    eapply (steps_bind _ _ _ _ _ (callback_steps G n m HM HV _ _ _ _ _ s1 Hg1)). cbv beta.
    intros _ s2 t2 (P2 & Hg2 & I2 & u & v & -> & Fu & Fv).
    eapply steps_weaken; [apply (acks_steps G n m HM HV); [exact Hg2|left; unfold u16_ok; lia]|].
    cbv beta. intros st s3 t3 (K3 & Hg3 & _). cbn [ackToSend] in K3.
    split; [eapply path_app; [apply Ho|]; eapply path_app; [exact P2|apply K3]|]. split; auto. split; auto. intro id. apply once_pkt.
    apply kept_once. eapply kept_trans; [apply kept_others; exact Ho|]. eapply kept_trans; [|exact K3]. apply kept_same; auto.
    apply calm_app. split; [now apply op_calm|]. apply calm_cons; [cbn [delivery]; now rewrite Dq|now apply op_calm].
  - assert (Hq : pm_qos msg <> Q0) by (destruct (pm_qos msg); discriminate). specialize (Hid Hq).
    assert (pid = Some (pm_id msg)) as -> by (destruct (pm_qos msg); congruence). cbn [negb]. rewrite andb_true_r.
    destruct (inRecs (x_recs (s_ctx s))) as [arrs|] eqn:Ei; [|apply steps_ret, Refl; discriminate].
    assert (Hm0 : m <> 0%nat) by (intro K; apply Hsh in K; discriminate).
    set (nx := match pm_qos msg with Q1 => PubAckSend | _ => PubRecSend end).
    set (k := match pm_qos msg with Q1 => Puback | _ => Pubrec end).
    assert (Hack : ackToSend nx = Some (ack_first (ack_of k), k)) by (unfold nx, k; destruct (pm_qos msg); reflexivity).
    assert (Hu : u16_ok (pm_id msg)) by (unfold u16_ok; lia).
    assert (Hans : forall t, (exists a b, outs t = a ++ ack_packet (ack_of k) (pm_id msg) ++ b) -> answered ty body t).
    { intros t Ht kind id Ha. unfold k in Ht. destruct Ha as [m1 A1 A2|m1 A1 A2|id A1 A2 A3|id A1 A2 A3]; [..|rewrite A1 in H3; discriminate|rewrite A1 in H3; discriminate];
        rewrite (publish_means_unique _ _ _ _ A1 Hmean) in *; rewrite A2 in Ht; exact Ht. }
    eapply (steps_bind _ _ _ _ (fun p s' t => Path false s s' t /\ good s' /\ calm_t t /\
      ((p = (StateCollision, None) \/ p = (NoMemory, None)) /\ incoming s' = incoming s \/
       p = (Success, Some nx) /\ in_flight (incoming s) (pm_id msg) = false /\ incoming s' = incoming s ++ [F (pm_id msg) (pm_qos msg) nx]))).
    { apply (steps_locked G n m HM HV); auto. intros s1 t1 Ho Hg1. 
      assert (Hsh1 : inRecs (x_recs (s_ctx s1)) <> None) by (intro K; apply (in_shape n m _ (proj1 Hg1)) in K; contradiction).
      split; [apply safe_on_recs; eapply published_safe; [apply Hg1|auto]|]. intros [a b] s2 t2 H.
      assert (P : Path false s1 s2 t2) by (eapply paths_published; [|exact H]; auto).
      apply on_recs_inv in H. destruct H as (c & E & -> & ->). rewrite app_nil_r.
      assert (Pa : Path false s (mkSt (set_recs (s_ctx s1) c) (s_env s1)) t1) by (rewrite <- (app_nil_r t1); eapply path_app; [apply Ho|exact P]).
      split; [exact Pa|]. split; [eapply good_path; eauto|]. split; [destruct Ho as (_ & _ & F1); now apply op_calm|].
      assert (Ein : incoming s1 = incoming s) by (destruct Ho as (_ & K & _); unfold incoming; now rewrite K).
      destruct (received_eq n m (x_recs (s_ctx s1)) (pm_id msg) (pm_qos msg) (proj1 Hg1) Hq Hm0) as (c' & E' & R' & V'). rewrite E' in E.
      assert (c = c') by congruence. subst c'.
      assert (ES : spec_step (view n m (x_recs (s_ctx s1))) (Published (pm_id msg) OpReceive (pm_qos msg)) =
        let '(st, l) := spec_add m (incoming s1) (pm_id msg) (pm_qos msg) nx in
        ((st, if status_beq st Success then Some nx else None), mkSession n (outgoing s1) m l)).
      { cbn [spec_step]. replace (pm_id msg =? 0) with false by lia. unfold nx. destruct (pm_qos msg); [congruence|reflexivity..]. }
      rewrite ES in *. unfold spec_add in *. rewrite Ein in *.
      destruct (in_flight (incoming s) (pm_id msg)) eqn:Ef; [|destruct (length (incoming s) <? m)%nat eqn:El]; cbn [fst snd status_beq] in E, V'.
      - left. split; [left; congruence|]. unfold view, incoming in *. cbn [s_ctx set_recs x_recs]. congruence.
      - right. split; [congruence|]. split; auto. unfold view, incoming in *. cbn [s_ctx set_recs x_recs]. congruence.
      - left. split; [right; congruence|]. unfold view, incoming in *. cbn [s_ctx set_recs x_recs]. congruence. }
    cbv beta. intros [a b] s1 t1 (P1 & Hg1 & C1 & H).
    destruct H as [([E|E] & I1)|(E & Hf & I1)]; injection E as -> ->; cbn [status_beq].
    + eapply (steps_bind _ _ _ _ (fun _ s' t => s' = s1 /\ t = [])); [apply steps_ret; auto|]. cbv beta. intros _ s2 t2 (-> & ->). cbn [app].
      replace (calculateStatePublish OpReceive (pm_qos msg)) with nx by (unfold nx; destruct (pm_qos msg); congruence || reflexivity).
      eapply steps_weaken; [apply (acks_steps G n m HM HV); auto|]. cbv beta. intros st s3 t3 (K3 & Hg3 & Ha). rewrite Hack in *.
      assert (K3' : kept None s1 s3 t3) by (unfold k in K3; destruct (pm_qos msg); exact K3). clear K3.
      assert (Ka : kept None s s3 (t1 ++ t3)) by (eapply kept_trans; [apply kept_same; eauto|exact K3']).
      split; [apply Ka|]. split; auto. split; [intro; now apply once_pkt, kept_once|]. intro Hs. apply Hans.
      destruct (Ha Hs Hu _ _ eq_refl) as (x & y & Ex). exists (outs t1 ++ x), y. rewrite outs_app, Ex, <- app_assoc. reflexivity.
    + apply steps_ret. rewrite app_nil_r. split; auto. split; auto. split; [|discriminate]. intro. apply once_pkt, kept_once. now apply kept_same.
    + eapply (steps_bind _ _ _ _ _ (callback_steps G n m HM HV _ _ _ _ _ s1 Hg1)). cbv beta.
      intros _ s2 t2 (P2 & Hg2 & I2 & u & v & -> & Fu & Fv).
      eapply steps_weaken; [apply (acks_steps G n m HM HV); auto|]. cbv beta. intros st s3 t3 (K3 & Hg3 & Ha). rewrite Hack in *.
      assert (K3' : kept None s2 s3 t3) by (unfold k in K3; destruct (pm_qos msg); exact K3). clear K3. destruct K3' as (P3 & C3 & K3).
      assert (Hk : forall j, held j (incoming s2) -> held j (incoming s3)) by (intros j Hj; destruct (K3 j Hj) as [Q|(Q & _)]; [auto|discriminate]).
      split; [eapply path_app; [exact P1|]; eapply path_app; eauto|]. split; auto. split.
      * intro id. apply once_pkt. replace (t1 ++ (u ++ ECb ty body (pm_id msg) (Some pub) Success :: v) ++ t3) with ((t1 ++ u) ++ ECb ty body (pm_id msg) (Some pub) Success :: (v ++ t3)) by (rewrite <- !app_assoc; reflexivity).
        apply (deliver_once id s s3 (pm_id msg) (pm_qos msg)).
        -- cbn [delivery]. rewrite Dq. destruct (pm_qos msg); [congruence|reflexivity..].
        -- apply calm_app. split; auto. now apply op_calm.
        -- apply calm_app. split; auto. now apply op_calm.
        -- intro K. apply held_in_flight in K. congruence.
        -- intros j (f & Hj & E). apply Hk. rewrite I2, I1. exists f. split; auto. apply in_or_app. now left.
        -- intros Eq2. apply Hk. rewrite I2, I1. exists (F (pm_id msg) (pm_qos msg) nx). split; [apply in_or_app; right; now left|]. split; [reflexivity|exact Eq2].
      * intro Hs. apply Hans. destruct (Ha Hs Hu _ _ eq_refl) as (x & y & Ex). eexists (outs t1 ++ outs (u ++ _ :: v) ++ x), y. rewrite !outs_app, Ex, <- !app_assoc. reflexivity.
Qed.

Lemma means_type ty body msg : publish_means ty body msg -> ty / 16 = 3.
Proof.
  intros (_ & -> & _). unfold publish_first. destruct (pm_dup msg), (pm_qos msg), (pm_retain msg); reflexivity.
Qed.
Lemma kept_done id id0 body s s' t : kept (Some id0) s s' t -> body = be16 id0 -> once id s s' (EPkt 98 body :: t).
Proof.
  intros (P & C & K) ->. apply once_calm; [apply calm_cons; auto|]. intro H. destruct (K id H) as [Q|(Q & a & b & E)]; [now left|].
  assert (id0 = id) as -> by congruence. right. split; [now left|]. exists a, b. exact E.
Qed.
Lemma steps_lift {A} (r : A) s : steps (atomic (lift (Ok r))) s (fun p s' t => s' = s /\ t = [] /\ p = r).
Proof.
  apply steps_atomic; [apply safe_lift; discriminate|]. intros a s' t H. apply lift_inv in H. destruct H as (H & -> & ->). repeat split. congruence.
Qed.
Lemma steps_getc s : steps (atomic getc) s (fun p s' t => s' = s /\ t = [] /\ p = s_ctx s).
Proof.
  apply steps_atomic; [safe1|]. intros a s' t H. apply getc_inv in H. destruct H as (-> & -> & ->). auto.
Qed.
Lemma steps_same {A} (a : A) s : steps (cret a) s (fun p s' t => s' = s /\ t = [] /\ p = a).
Proof. apply steps_ret. auto. Qed.
Lemma hpost_refl ty body s st : good s -> final st <> Success -> hpost ty body s st s [].
Proof. intros Hg Hst. split; [constructor|]. split; auto. split; [|contradiction]. intro id. apply once_pkt, kept_once, kept_refl. Qed.

Lemma handleAcks_steps k rem data s : good s -> 0 <= rem <= zlen data -> bytes_ok (firstn (Z.to_nat rem) data) ->
  steps (c_handlePublishAcks G (ack_first (ack_of k)) rem data) s (hpost (ack_first (ack_of k)) (firstn (Z.to_nat rem) data) s).
Proof.
  intros Hg Hr Hd. unfold c_handlePublishAcks. set (body := firstn (Z.to_nat rem) data) in *.
  eapply (steps_bind _ _ _ _ (fun p s' t => s' = s /\ t = [] /\ p = k)).
  { replace (getAckFromPacketType (ack_first (ack_of k))) with (Ok k) by (destruct k; reflexivity). apply steps_lift. }
  cbv beta. intros ? s0 t0 (-> & -> & ->). cbn [app].
  destruct (ack_decode (ack_of k) rem data Hr Hd) as [(id & Hid & Eb & E)|(Hno & o & E)]; [fold body in Eb|fold body in Hno]; rewrite E.
  2: { eapply (steps_bind _ _ _ _ _ (steps_lift _ s)). cbv beta. intros ? s0 t0 (-> & -> & ->). cbn [app status_beq].
       eapply (steps_bind _ _ _ _ _ (steps_same _ s)). cbv beta. intros ? s0 t0 (-> & -> & ->). cbn [app].
       eapply (steps_bind _ _ _ _ _ (steps_getc s)). cbv beta. intros ? s0 t0 (-> & -> & ->). cbn [app].
       rewrite ?andb_false_r. cbn [status_beq andb]. rewrite ?andb_false_r. cbn [andb].
       eapply (steps_bind _ _ _ _ _ (steps_same _ s)). cbv beta. intros ? s0 t0 (-> & -> & ->). cbn [app].
       apply steps_ret. apply hpost_refl; [auto|discriminate]. }
  eapply (steps_bind _ _ _ _ _ (steps_lift _ s)). cbv beta. intros ? s0 t0 (-> & -> & ->). cbn [app status_beq].
  eapply (steps_bind _ _ _ _ (fun p s' t => kept None s s' t /\ good s' /\ (final (fst p) = Success -> exists ps, fst p = Success /\ snd p = Some ps /\
     ackToSend ps = match reply_to k with Some k' => Some (ack_first (ack_of k'), k') | None => None end))).
  { apply (steps_locked G n m HM HV); auto. intros s1 t1 Ho Hg1. split; [apply safe_on_recs; eapply acked_safe; apply Hg1|].
    intros [a b] s2 t2 H. pose proof H as H'. apply acked_kept with (n := n) (m := m) in H'; auto. destruct H' as (P & Hg2 & -> & K).
    split; [eapply kept_trans; [apply kept_others; exact Ho|]; split; [exact P|]; split; [apply calm_nil|]|].
    - intros i Hi. destruct (K i Hi) as [Q|(_ & _ & Q)]; [auto|discriminate].
    - split; auto. apply on_recs_inv in H. destruct H as (c & E' & _ & _).
      destruct (acked_eq n m (x_recs (s_ctx s1)) id k OpReceive (proj1 Hg1)) as (c' & E1 & R' & V').
      rewrite E1 in E'. cbn [fst snd]. intro Hok.
      assert (Ha : a = fst (fst (spec_step (view n m (x_recs (s_ctx s1))) (Acked id k OpReceive)))) by congruence.
      assert (a = Success) as Ha1. { pose proof (acked_status (view n m (x_recs (s_ctx s1))) id k OpReceive). rewrite <- Ha in H. destruct a; discriminate || congruence || reflexivity. }
      destruct (ack_next n m (x_recs (s_ctx s1)) id k _ eq_refl) as (ps & Eps & Ea).
      { congruence. }
      exists ps. split; auto. split; auto. rewrite <- Eps. congruence. }
  cbv beta. intros [a b] s1 t1 (K1 & Hg1 & Hns). cbn [fst snd] in Hns.
  eapply (steps_bind _ _ _ _ _ (steps_getc s1)). cbv beta. intros ? s0 t0 (-> & -> & ->). cbn [app].
  eapply (steps_bind _ _ _ _ (fun _ s' t => kept None s1 s' t /\ good s')).
  { destruct (_ && _); [|apply steps_ret; split; [apply kept_refl|auto]]. apply (steps_visit G n m HM HV); auto.
    intros s2 t2 Ho Hg2. unfold clear_publish. split; [safe1|]. intros [] s3 t3 H. apply emit_inv in H. destruct H as (-> & ->).
    split; auto. eapply kept_trans; [apply kept_others; exact Ho|]. apply kept_same; auto; [apply path_one, a_local; repeat split|].
    apply calm_cons; [reflexivity|apply calm_nil]. }
  cbv beta. intros _ s2 t2 (K2 & Hg2). cbn [app].
  assert (K12 : kept None s s2 (t1 ++ t2)) by (eapply kept_trans; eauto).
  destruct (status_beq a Success) eqn:Ea.
  2: { apply steps_ret. rewrite app_nil_r. split; [apply K12|]. split; auto. split; [intro; now apply once_pkt, kept_once|]. intro K. destruct (Hns K) as (ps & -> & _). discriminate. }
  assert (a = Success) as -> by (destruct a; discriminate || reflexivity). destruct (Hns eq_refl) as (ps & _ & -> & Eps).
  eapply (steps_bind _ _ _ _ _ (callback_steps G n m HM HV _ _ _ _ _ s2 Hg2)). cbv beta.
  intros _ s3 t3 (P3 & Hg3 & I3 & u & v & -> & Fu & Fv).
  assert (K13 : kept None s s3 (t1 ++ t2 ++ (u ++ ECb (ack_first (ack_of k)) body id None Success :: v))).
  { rewrite app_assoc. eapply kept_trans; [exact K12|]. apply kept_same; auto. apply calm_app. split; [now apply op_calm|].
    apply calm_cons; [reflexivity|now apply op_calm]. }
  assert (Hu : u16_ok id) by (unfold u16_ok; lia).
  eapply steps_weaken; [apply (acks_steps G n m HM HV); auto|]. cbv beta. intros st s4 t4 (K4 & Hg4 & Ha). rewrite Eps in *.
  rewrite !app_assoc in *. set (T := ((t1 ++ t2) ++ u) ++ _) in *. fold T.
  assert (Kx : exists x, kept x s s4 (T ++ t4) /\ (x = None \/ x = Some id /\ k = Pubrel)).
  { eexists. split; [eapply kept_trans; [exact K13|exact K4]|]. destruct k; cbn [reply_to]; auto. }
  destruct Kx as (x & Kx & Hx). split; [apply Kx|]. split; auto. split.
  - intro i. destruct Hx as [-> |(-> & ->)]; [now apply once_pkt, kept_once|]. eapply kept_done; eauto.
  - intros Hs kind i Har. assert (Hid' : forall j, 1 <= j <= 65535 -> body = be16 j -> j = id).
    { intros j Hj Ej. apply be16_inj; unfold u16_ok; try lia. congruence. }
    assert (Hk : exists k', reply_to k = Some k' /\ ack_of k' = kind /\ i = id).
    { destruct Har as [m1 A1 A2|m1 A1 A2|j A1 A2 A3|j A1 A2 A3].
      - apply means_type in A1. destruct k; discriminate A1.
      - apply means_type in A1. destruct k; discriminate A1.
      - exists Pubrel. destruct k; try discriminate A1. repeat split. auto.
      - exists Pubcomp. destruct k; try discriminate A1. repeat split. auto. }
    destruct Hk as (k' & Er & Ek & ->). rewrite Er in Ha. destruct (Ha Hs Hu _ _ eq_refl) as (p & q & Ex). rewrite Ek in Ex.
    exists (outs T ++ p), q. rewrite outs_app, Ex, <- app_assoc. reflexivity.
Qed.

Lemma handleAck_steps ty rem data mk s : good s -> 0 <= rem <= zlen data -> bytes_ok (firstn (Z.to_nat rem) data) -> is_byte ty -> ty / 16 <> 3 ->
  steps (c_handleIncomingAck G ty rem data mk) s (hpost ty (firstn (Z.to_nat rem) data) s).
Proof.
  intros Hg Hr Hd Hb Hty. unfold c_handleIncomingAck.
  destruct ((ty =? PKT_PUBACK) || (ty =? PKT_PUBREC) || (ty =? PKT_PUBREL) || (ty =? PKT_PUBCOMP)) eqn:Ea.
  { assert (exists k, ty = ack_first (ack_of k)) as (k & Ek).
    { assert (K : ty = PKT_PUBACK \/ ty = PKT_PUBREC \/ ty = PKT_PUBREL \/ ty = PKT_PUBCOMP) by lia.
      destruct K as [->|[->|[->| ->]]]; [exists Puback|exists Pubrec|exists Pubrel|exists Pubcomp]; reflexivity. }
    rewrite Ek. now apply handleAcks_steps. }
  set (body := firstn (Z.to_nat rem) data) in *.
  assert (Hno : forall t, answered ty body t).
  { intros t kind i Har. exfalso. destruct Har as [m1 A1 A2|m1 A1 A2|j A1 A2 A3|j A1 A2 A3]; [now apply means_type in A1|now apply means_type in A1|subst ty; discriminate Ea..]. }
  eapply (steps_bind _ _ _ _ (fun p s' t => kept None s s' t /\ good s')).
  { destruct (ty =? PKT_PINGRESP) eqn:Ep.
    - apply Z.eqb_eq in Ep. rewrite Ep, pingresp_decode. eapply (steps_bind _ _ _ _ _ (steps_lift _ s)). cbv beta. intros ((a, b), c) s0 t0 (-> & -> & _). cbn [app].
      eapply (steps_bind _ _ _ _ (fun p s' t => kept None s s' t /\ good s')).
      + destruct (_ && _); [|apply steps_ret; split; [apply kept_refl|auto]]. apply (steps_visit G n m HM HV); auto. intros s1 t1 Ho Hg1.
        split; [safe1|]. intros [] s2 t2 H. apply modc_inv in H. destruct H as (-> & ->). split; [|exact Hg1].
        eapply kept_trans; [apply kept_others; exact Ho|]. apply kept_same; [apply path_one, a_local; repeat split|apply calm_nil|reflexivity].
      + cbv beta. intros _ s1 t1 (K1 & K2). apply steps_ret. now rewrite app_nil_r.
    - destruct ((ty =? PKT_SUBACK) || (ty =? PKT_UNSUBACK)) eqn:Es; [|apply steps_ret; split; [apply kept_refl|auto]].
      assert (exists st o, deserializeAck (mkPkt ty rem (Some data)) = Ok (st, o, None)) as (st & o & Ed).
      { apply orb_true_iff in Es. destruct Es as [Es|Es]; apply Z.eqb_eq in Es; subst ty.
        - destruct (suback_decode rem data Hr Hd) as (id & -> & _). eauto.
        - change PKT_UNSUBACK with (ack_first KUnsuback). destruct (ack_decode KUnsuback rem data Hr Hd) as [(id & _ & _ & E)|(_ & o & E)]; eauto. }
      rewrite Ed. eapply (steps_bind _ _ _ _ _ (steps_lift _ s)). cbv beta. intros ((a, b), c) s0 t0 (-> & -> & _). cbn [app].
      apply steps_ret. split; [apply kept_refl|auto]. }
  cbv beta. intros ((a, id), inv) s1 t1 (K1 & Hg1). destruct inv.
  - eapply (steps_bind _ _ _ _ _ (callback_steps G n m HM HV _ _ _ _ _ s1 Hg1)). cbv beta.
    intros _ s2 t2 (P2 & Hg2 & I2 & u & v & -> & Fu & Fv). apply steps_ret. rewrite app_nil_r.
    assert (K2 : kept None s s2 (t1 ++ u ++ ECb ty body id None a :: v)).
    { eapply kept_trans; [exact K1|]. apply kept_same; auto. apply calm_app. split; [now apply op_calm|]. apply calm_cons; [reflexivity|now apply op_calm]. }
    split; [apply K2|]. split; auto. split; auto. intro. now apply once_pkt, kept_once.
  - apply steps_ret. rewrite app_nil_r. split; [apply K1|]. split; auto. split; auto. intro. now apply once_pkt, kept_once.
Qed.
Definition c_dispatch (ty rem : Z) (data : list Z) (mk : bool) : Mc status :=
  if Z.land ty 240 =? PKT_PUBLISH then c_handleIncomingPublish G ty rem data else c_handleIncomingAck G ty rem data mk.
Lemma dispatch_steps ty rem data mk s : good s -> is_byte ty -> 0 <= rem <= zlen data -> rem < g_M G -> bytes_ok (firstn (Z.to_nat rem) data) ->
  steps (c_dispatch ty rem data mk) s (hpost ty (firstn (Z.to_nat rem) data) s).
Proof.
  intros Hg Hb Hr HrM Hd. unfold c_dispatch.
  assert (Hp : (Z.land ty 240 =? PKT_PUBLISH) = (ty / 16 =? 3)) by (rewrite land240 by exact Hb; reflexivity).
  rewrite Hp. destruct (ty / 16 =? 3) eqn:E3; [apply handlePublish_steps|apply handleAck_steps]; auto; lia.
Qed.
End CP.
