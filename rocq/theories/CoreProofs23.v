(** Keep alive: when PINGREQ is sent, when the loop times out, and the clock
    readings the decision is based on. *)
From Verif Require Import Base StateModel StateSpec StateHarness StateProofs StateProofs2 SerModel WireSpec SerHarness
  CoreModel CoreSpec CoreHarness CoreProofs CoreProofs2 CoreProofs3 CoreProofs6 CoreProofs12 CoreProofs16 CoreProofs19 CoreProofs20 CoreProofs21 CoreProofs22.

Section Idle.
Variable G : cfg.
Variables n m : nat.

Lemma acked_noto v id k op : fst (fst (spec_step v (Acked id k op))) <> KeepAliveTimeout.
Proof.
  cbn [spec_step]. destruct (id =? 0); [discriminate|]. destruct (concerns_sent k op).
  - destruct (lookup _ id) as [f|]; [|discriminate]. destruct (sender_table _ _ _ _); discriminate.
  - destruct (lookup _ id) as [f|]; [|discriminate]. destruct (receiver_table _ _ _ _); discriminate.
Qed.
Lemma replied_noto k id s res s' t : replied n m k id s res s' t -> res <> KeepAliveTimeout.
Proof.
  intros [(_ & -> & _)|(_ & _ & _ & _ & _ & [(_ & -> & _)|(_ & _ & -> & _)])]; [destruct (x_status (s_ctx s)); discriminate|discriminate|apply acked_noto].
Qed.
Lemma handled_noto mk ty body s res s' t : packet_handled G n m mk ty body s res s' t -> res <> KeepAliveTimeout.
Proof.
  intros []; try discriminate.
  - destruct H0; try discriminate; eapply replied_noto; eauto.
  - destruct H0; try discriminate; [apply acked_noto|]. match goal with K : match reply_to _ with _ => _ end |- _ => destruct (reply_to k); [eapply replied_noto; exact K|destruct K as (-> & _); discriminate] end.
Qed.
Lemma next_noto mk s res s' t : next_handled G n m mk s res s' t -> res <> KeepAliveTimeout.
Proof.
  intros []; try discriminate; [|eapply handled_noto; eauto]. destruct (_ && _); discriminate.
Qed.
Lemma next_begins mk s res s' t : next_handled G n m mk s res s' t -> begins t.
Proof. intros []; try (left; reflexivity); right; eexists _, _; (split; [reflexivity|exact I]). Qed.

Lemma receive_no_timeout s st s' t : Begun G n m s -> receiveLoop G s = Ret st s' t -> st <> KeepAliveTimeout.
Proof.
  intros HB H. apply (receive_outcome G n m) in H; [|exact HB]. destruct H as [|bs s1 k s2 t2 res s' t3 H1 H1' H2 H3 H4 H5 H6]; [discriminate|].
  cbn [andb] in H5. destruct H5 as (-> & _). destruct H6 as [(K & _)|(_ & K)]; [congruence|]. eapply next_noto; eauto.
Qed.
Lemma loop_timeout s st s' t : loop_handled G n m true s st s' t ->
  (st = KeepAliveTimeout <->
   t = [EIn []] /\ x_waiting (s_ctx s) = true /\
   exists x l, e_times (s_env s) = x :: l /\ g_pingto G < since (x mod 4294967296) (x_pingTime (s_ctx s))).
Proof.
  intro H. destruct H as [s1 H1 H2 H3 H4|bs s1 k s2 t2 res s' t3 H1 H1' H2 H3 H4 H5 H6].
  - split; [discriminate|]. intros (K & _). discriminate.
  - destruct H1 as (b & i & inp & rv & ts & ->). cbn [s_ctx s_env e_times set_index set_buf env_times env_recv] in *. subst ts.
    cbn [andb] in H5. destruct (zlen bs =? 0) eqn:Ez.
    + assert (bs = []) as -> by (destruct bs; [reflexivity|unfold zlen in Ez; cbn [length] in Ez; lia]).
      destruct H5 as (now & s3 & (x & l & Hx & -> & ->) & H5). cbn [s_ctx s_env e_times set_index set_buf env_times env_recv x_waiting x_pingTime] in *.
      destruct (x_waiting (s_ctx s)) eqn:Ew.
      * destruct H5 as (-> & -> & ->). cbn [app]. destruct (g_pingto G <? since (x mod 4294967296) (x_pingTime (s_ctx s))) eqn:Et.
        -- destruct H6 as [(_ & -> & _ & ->)|(K & _)]; [|discriminate]. split; [|reflexivity]. intros _. split; [reflexivity|]. split; [reflexivity|].
           exists x, l. split; [exact Hx|lia].
        -- destruct H6 as [(K & _)|(_ & K)]; [congruence|]. split; [intro Q; exfalso; revert Q; eapply next_noto; eauto|].
           intros (_ & _ & x' & l' & Hx' & Q). assert (x' = x) by congruence. subst x'. lia.
      * split; [|intros (_ & K & _); discriminate]. intros ->. exfalso.
        destruct H6 as [(K & K' & _ & _)|(_ & K)]; [|revert K; intro K; apply next_noto in K; congruence].
        subst k. destruct (ping_due _ _ _); [|destruct H5 as (K' & _); discriminate].
        destruct H5 as [(_ & E & _)|(_ & _ & _ & _ & _ & _ & [(_ & E & _)|(_ & _ & E & _)])]; try discriminate.
        destruct (x_status _); discriminate.
    + destruct H5 as (-> & -> & ->). destruct H6 as [(K & _)|(_ & K)]; [congruence|]. apply next_noto in K. split; [congruence|].
      intros (Q & _). exfalso. assert (bs = []) by congruence. subst bs. discriminate.
Qed.
Lemma process_timeout s st s' t : Begun G n m s -> processLoop G s = Ret st s' t ->
  (st = KeepAliveTimeout <->
   t = [EIn []] /\ x_waiting (s_ctx s) = true /\
   exists x l, e_times (s_env s) = x :: l /\ g_pingto G < since (x mod 4294967296) (x_pingTime (s_ctx s))).
Proof. intros HB H. apply (process_outcome G n m) in H; [|exact HB]. apply loop_timeout in H. exact H. Qed.

(** the pings of one pass *)
Lemma process_ping s st s' bs u : Begun G n m s -> processLoop G s = Ret st s' (EIn bs :: u) ->
  bs <> [] /\ begins u \/
  bs = [] /\ exists x l t2 t3, e_times (s_env s) = x :: l /\ u = t2 ++ t3 /\ send_only t2 /\ begins t3 /\
    if negb (x_waiting (s_ctx s)) && ping_due G (s_ctx s) (x mod 4294967296)
    then match x_status (s_ctx s) with
         | Connected => st = SendFailed /\ t3 = [] /\ (exists j, (j < 2)%nat /\ outs t2 = firstn j pingreq_packet) \/
                        outs t2 = pingreq_packet /\ errs t2 = false
         | c => st = not_connected_result c /\ u = []
         end
    else t2 = [].
Proof.
  intros HB H. apply (process_outcome G n m) in H; [|exact HB]. 
  remember (EIn bs :: u) as t eqn:Et. destruct H as [s1 H1 H2 H3 H4|bs' s1 k s2 t2 res s' t3 H1 H1' H2 H3 H4 H5 H6]; [discriminate|].
  assert (bs' = bs) by congruence. assert (u = t2 ++ t3) by congruence. subst bs' u. clear Et.
  destruct H1 as (b & i & inp & rv & ts & ->). cbn [s_ctx s_env e_times set_ctl set_index set_buf env_times env_recv] in *. subst ts.
  assert (B3 : begins t3) by (destruct H6 as [(_ & _ & _ & ->)|(_ & K)]; [now left|eapply next_begins; eauto]).
  cbn [andb] in H5. destruct (zlen bs =? 0) eqn:Ez.
  - assert (bs = []) as -> by (destruct bs; [reflexivity|unfold zlen in Ez; cbn [length] in Ez; lia]).
    right. split; [reflexivity|].
    destruct H5 as (now & s3 & (x & l & Hx & -> & ->) & H5). exists x, l, t2, t3.
    cbn [s_ctx s_env e_times set_ctl set_index set_buf env_times env_recv x_waiting x_pingTime] in *.
    split; [exact Hx|]. split; [reflexivity|].
    assert (Ed : ping_due G (set_index (set_buf (set_ctl (s_ctx s) false) b) i) (x mod 4294967296) = ping_due G (s_ctx s) (x mod 4294967296)) by reflexivity.
    rewrite Ed in H5. clear Ed.
    destruct (x_waiting (s_ctx s)) eqn:Ew; cbn [negb andb].
    + destruct H5 as (_ & _ & ->). split; [reflexivity|]. auto.
    + destruct (ping_due _ _ _); [|destruct H5 as (_ & _ & ->); split; [reflexivity|auto]].
      destruct H5 as [(E1 & E2 & _ & ->)|(E0 & Es & _ & _ & _ & _ & H5)]; cbn [s_ctx set_ctl set_index set_buf x_status] in *.
      * split; [reflexivity|]. split; [exact B3|]. destruct H6 as [(_ & -> & _ & ->)|(K & _)]; [|exfalso; subst k; destruct (x_status (s_ctx s)); discriminate].
        destruct (x_status (s_ctx s)); auto. congruence.
      * rewrite E0. split; [exact Es|]. split; [exact B3|]. destruct H5 as [(Hj & -> & _)|(K1 & K2 & _)].
        -- left. destruct H6 as [(_ & -> & _ & ->)|(K & _)]; [auto|discriminate].
        -- right. auto.
  - left. destruct H5 as (_ & _ & ->). split; [intros ->; discriminate|exact B3].
Qed.
(** an idle pass that does not time out: the PINGREQ still outstanding is not too old *)
Lemma process_patient s st s' u : Begun G n m s -> processLoop G s = Ret st s' (EIn [] :: u) -> st <> KeepAliveTimeout -> x_waiting (s_ctx s) = true ->
  exists x l, e_times (s_env s) = x :: l /\ since (x mod 4294967296) (x_pingTime (s_ctx s)) <= g_pingto G.
Proof.
  intros HB H Hst Hw. apply (process_outcome G n m) in H; [|exact HB].
  remember (EIn [] :: u) as t eqn:Et. destruct H as [s1 H1 H2 H3 H4|bs' s1 k s2 t2 res s' t3 H1 H1' H2 H3 H4 H5 H6]; [discriminate|].
  assert (bs' = []) by congruence. subst bs'.
  destruct H1 as (b & i & inp & rv & ts & ->). cbn [s_ctx s_env e_times set_ctl set_index set_buf env_times env_recv] in *. subst ts.
  change (zlen [] =? 0) with true in H5. cbn [andb] in H5. destruct H5 as (now & s3 & (x & l & Hx & -> & ->) & H5). exists x, l. split; [exact Hx|].
  cbn [s_ctx s_env e_times set_ctl set_index set_buf env_times env_recv x_waiting x_pingTime] in *. rewrite Hw in H5. destruct H5 as (-> & _).
  destruct (g_pingto G <? since (x mod 4294967296) (x_pingTime (s_ctx s))) eqn:E; [|lia].
  destruct H6 as [(_ & -> & _)|(K & _)]; [contradiction|discriminate].
Qed.
End Idle.

(** ** The time of the last transmission *)
Definition tx_frame (s s' : st) (t : list ev) : Prop :=
  exists used, e_times (s_env s) = used ++ e_times (s_env s') /\
    (outs t = [] -> x_lastTx (s_ctx s') = x_lastTx (s_ctx s)) /\
    (outs t <> [] -> exists x, In x used /\ x_lastTx (s_ctx s') = x mod 4294967296).
Section Tx.
Variable G : cfg.
Notation K := (keeps tx_frame).
Lemma tx_refl s : tx_frame s s [].
Proof. exists []. split; [reflexivity|]. split; [reflexivity|]. intro H. now contradiction H. Qed.
Lemma tx_trans a b c t u : tx_frame a b t -> tx_frame b c u -> tx_frame a c (t ++ u).
Proof.
  intros (u1 & E1 & A1 & B1) (u2 & E2 & A2 & B2). exists (u1 ++ u2). split; [rewrite E1, E2; apply app_assoc|]. rewrite outs_app. split.
  - intro H. apply app_eq_nil in H. destruct H as (H1 & H2). rewrite A2, A1; auto.
  - intro H. destruct (outs u) as [|y l] eqn:Eu.
    + rewrite app_nil_r in H. destruct (B1 H) as (x & Hx & Ex). exists x. split; [apply in_app_iff; auto|]. rewrite A2; auto.
    + destruct B2 as (x & Hx & Ex); [discriminate|]. exists x. split; [apply in_app_iff; auto|exact Ex].
Qed.
Lemma tx_same s s' t : x_lastTx (s_ctx s') = x_lastTx (s_ctx s) -> (exists used, e_times (s_env s) = used ++ e_times (s_env s')) -> outs t = [] -> tx_frame s s' t.
Proof. intros H (u & Hu) Ht. exists u. split; [exact Hu|]. split; [auto|congruence]. Qed.
Lemma t_any {A} (mo : Mo A) : (forall s a s' t, mo s = Ret a s' t -> x_lastTx (s_ctx s') = x_lastTx (s_ctx s) /\ (exists used, e_times (s_env s) = used ++ e_times (s_env s')) /\ outs t = []) -> K mo.
Proof. intros H s a s' t E. apply H in E. destruct E as (E1 & E2 & E3). now apply tx_same. Qed.
Lemma t_bind {A B} (mo : Mo A) (k : A -> Mo B) : K mo -> (forall a, K (k a)) -> K (bind mo k).
Proof. apply k_bind. apply tx_trans. Qed.
Lemma t_on_recs {A} (f : recs -> Base.R (A * recs)) : K (on_recs f).
Proof. apply t_any. intros s a s' t H. apply on_recs_inv in H. destruct H as (c & _ & -> & ->). split; [reflexivity|]. split; [exists []; reflexivity|reflexivity]. Qed.
Lemma t_modc f : (forall c, x_lastTx (f c) = x_lastTx c) -> K (modc f).
Proof. intro Hf. apply t_any. intros s [] s' t H. apply modc_inv in H. destruct H as (-> & ->). split; [apply Hf|]. split; [exists []; reflexivity|reflexivity]. Qed.
Lemma t_emit e : outs [e] = [] -> K (emit e).
Proof. intro He. apply t_any. intros s [] s' t H. apply emit_inv in H. destruct H as (-> & ->). split; [reflexivity|]. split; [exists []; reflexivity|exact He]. Qed.
Lemma t_getTime : K getTime.
Proof.
  apply t_any. intros s a s' t H. apply getTime_inv in H. destruct H as (x & r & E & _ & -> & ->). split; [reflexivity|]. split; [exists [x]; exact E|reflexivity].
Qed.
Lemma t_trecv k : K (trecv k).
Proof.
  apply t_any. intros s a s' t H. unfold trecv in H. destruct (e_recvs _); [discriminate|].
  destruct (z <? 0); injection H as _ <- <-; (split; [reflexivity|]; split; [exists []; reflexivity|reflexivity]).
Qed.
Lemma t_retrieve id : K (retrieve_publish id).
Proof. apply t_any. intros s a s' t H. unfold retrieve_publish in H. injection H as _ <- <-. split; [reflexivity|]. split; [exists []; reflexivity|reflexivity]. Qed.
Lemma t_store id vs : K (store_publish id vs).
Proof. apply t_any. intros s a s' t H. unfold store_publish in H. cbv zeta in H. injection H as _ <- <-. split; [reflexivity|]. split; [exists []; reflexivity|reflexivity]. Qed.
(** a world reached without reading the clock *)
Definition unclocked (w w' : pull_world) : Prop :=
  e_times (s_env (fst (fst w'))) = e_times (s_env (fst (fst w))) /\ x_lastTx (s_ctx (fst (fst w'))) = x_lastTx (s_ctx (fst (fst w))) /\
  outs (snd (fst w')) = outs (snd (fst w)).
Lemma pull_unclocked w r b w' : pull_recv w = (r, b, w') -> unclocked w w'.
Proof.
  destruct w as ((s, t), o). unfold pull_recv. destruct (trecv 1 s) as [(r0, bs) s' t'| |] eqn:E; intro H; injection H as _ _ <-; unfold unclocked; cbn [fst snd]; auto.
  unfold trecv in E. destruct (e_recvs _); [discriminate|]. rewrite outs_app.
  destruct (z <? 0); injection E as _ _ <- <-; cbn [s_env s_ctx]; (split; [reflexivity|]); (split; [reflexivity|]); apply app_nil_r.
Qed.
Lemma unclocked_trans a b c : unclocked a b -> unclocked b c -> unclocked a c.
Proof. unfold unclocked. intros (A1 & A2 & A3) (B1 & B2 & B3). split; [|split]; congruence. Qed.
Lemma length_unclocked fuel : forall w a b c r k w', getRemainingLength_loop pull_recv fuel w a b c = Ok (r, k, w') -> unclocked w w'.
Proof.
  induction fuel as [|fuel IH]; intros w a b c r k w' H; cbn [getRemainingLength_loop] in H; [discriminate|].
  destruct (2097152 <? b); [injection H as _ _ <-; unfold unclocked; auto|].
  destruct (pull_recv w) as ((x, y), w1) eqn:E. apply pull_unclocked in E.
  destruct (x =? 1); [|injection H as _ _ <-; exact E]. cbv zeta in H.
  destruct (_ =? REMAINING_LENGTH_INVALID); [injection H as _ _ <-; exact E|].
  destruct (negb _); [|injection H as _ _ <-; exact E]. eapply unclocked_trans; eauto.
Qed.
Lemma t_header : K getIncomingHeader.
Proof.
  apply t_any. intros s a s' t H. unfold getIncomingHeader in H.
  destruct (getIncomingPacketTypeAndLength pull_recv (s, [], false)) as [(r, ((s1, t1), o))|] eqn:E; [|discriminate].
  destruct o; [discriminate|]. assert (s1 = s') by congruence. assert (t1 = t) by congruence. subst s1 t1. clear H.
  assert (Q : unclocked (s, [], false) (s', t, false)).
  { unfold getIncomingPacketTypeAndLength in E. destruct (pull_recv (s, [], false)) as ((x, y), w1) eqn:E1. apply pull_unclocked in E1.
    destruct (x =? 1).
    - destruct (incomingPacketValid y); [|assert (w1 = (s', t, false)) by congruence; subst; exact E1].
      unfold getRemainingLength in E. destruct (getRemainingLength_loop pull_recv 5 w1 0 1 0) as [((rl, k), w2)|] eqn:E2; cbn [rbind] in E; [|discriminate].
      apply length_unclocked in E2. assert (w2 = (s', t, false)) as ->; [|eapply unclocked_trans; eauto].
      destruct (_ && _); cbn [rbind] in E; destruct (_ =? _); congruence.
    - destruct (x =? 0); assert (w1 = (s', t, false)) by congruence; subst; exact E1. }
  destruct Q as (Q1 & Q2 & Q3). cbn [fst snd] in *. split; [exact Q2|]. split; [exists []; symmetry; exact Q1|exact Q3].
Qed.
Lemma firstn_neq {A} k (l : list A) : (0 < k)%nat -> l <> [] -> firstn k l <> [].
Proof. intros Hk Hl. destruct k; [lia|]. destruct l; [congruence|discriminate]. Qed.
(** one round of a sending loop *)
Lemma t_round o b sent : K (let* sr := tsend o in after_send b sent sr).
Proof.
  intros s a s' t H. apply bind_inv in H. destruct H as (sr & s1 & t1 & t2 & H1 & H2 & ->).
  apply after_send_inv in H2. destruct H2 as (-> & H2). rewrite app_nil_r.
  apply tsend_inv in H1. destruct H1 as (k & rest & E & -> & H1). cbn [s_ctx s_env] in *.
  destruct H1 as [(Hk & -> & ->)|(Hk & Er & ->)].
  - destruct H2 as [(Q & _)|[(_ & _ & ->)|(Q & _)]]; [lia| |lia]. apply tx_same; [|exists []; reflexivity|reflexivity].
    cbn [s_ctx]. unfold transport_broke. destruct (cstatus_beq _ _); reflexivity.
  - destruct H2 as [(Q & _ & x & r & Ex & ->)|[(Q & _)|(Q & _ & ->)]].
    + exists [x]. split; [exact Ex|]. cbn [outs flat_map s_ctx]. rewrite app_nil_r. split; [|intros _; exists x; split; [now left|reflexivity]].
      intro F. exfalso. revert F. apply firstn_neq; [lia|]. intros ->. unfold zlen in Er. cbn in Er. lia.
    + pose proof (zlen_nonneg o). lia.
    + rewrite Q. apply tx_same; [reflexivity|exists []; reflexivity|reflexivity].
Qed.
Lemma bind_assoc_ret {A B C} (m0 : Mo A) (k : A -> Mo B) (k2 : B -> Mo C) s a s' t : bind m0 (fun x => bind (k x) k2) s = Ret a s' t -> bind (bind m0 k) k2 s = Ret a s' t.
Proof.
  intro H. apply bind_inv in H. destruct H as (x & s1 & t1 & t2 & H1 & H & ->). apply bind_inv in H. destruct H as (y & s2 & t3 & t4 & H2 & H & ->).
  unfold bind. rewrite H1, H2, H. now rewrite app_assoc.
Qed.
Lemma t_sendb fuel : forall r b st0 sent, K (sendb_loop G fuel r b st0 sent).
Proof.
  induction fuel as [|fuel IH]; intros r b st0 sent s a s' t H; cbn [sendb_loop] in H; [discriminate|].
  destruct (_ && _); [|apply ret_inv in H; destruct H as (_ & -> & ->); apply tx_refl].
  apply bind_inv in H. destruct H as (sr & s1 & t1 & t2 & H1 & H & ->). apply bind_inv in H. destruct H as (x & s2 & t3 & t4 & H2 & H & ->).
  assert (Q : tx_frame s s2 (t1 ++ t3)).
  { eapply (t_round r b sent). change (after_send b sent sr s1 = Ret x s2 t3) in H2. unfold bind. rewrite H1, H2. reflexivity. }
  clear H1 H2. rewrite app_assoc. eapply tx_trans; [exact Q|]. revert H. apply t_bind; [apply t_getTime|]. intro now.
  destruct (_ <=? _); [apply k_ret, tx_refl|apply IH].
Qed.
Lemma t_sendv fuel : forall r b st0 sent, K (sendv_loop G fuel r b st0 sent).
Proof.
  induction fuel as [|fuel IH]; intros r b st0 sent s a s' t H; cbn [sendv_loop] in H; [discriminate|].
  destruct (_ && _); [|apply ret_inv in H; destruct H as (_ & -> & ->); apply tx_refl].
  destruct r as [|v r]; [discriminate|].
  apply bind_inv in H. destruct H as (sr & s1 & t1 & t2 & H1 & H & ->). apply bind_inv in H. destruct H as (x & s2 & t3 & t4 & H2 & H & ->).
  assert (Q : tx_frame s s2 (t1 ++ t3)).
  { eapply (t_round _ b sent). change (after_send b sent sr s1 = Ret x s2 t3) in H2. unfold bind. rewrite H1, H2. reflexivity. }
  clear H1 H2. rewrite app_assoc. eapply tx_trans; [exact Q|]. revert H. apply t_bind; [apply t_getTime|]. intro now.
  destruct (_ <? _); [apply k_ret, tx_refl|apply IH].
Qed.
Lemma t_sendBuffer bs : K (sendBuffer G bs).
Proof. unfold sendBuffer. apply t_bind; [apply t_getTime|intro]. apply t_bind; [apply k_gete, tx_refl|intro]. apply t_sendb. Qed.
Lemma t_sendMessageVector vs : K (sendMessageVector G vs).
Proof. unfold sendMessageVector. apply t_bind; [apply t_getTime|intro]. apply t_bind; [apply k_gete, tx_refl|intro]. apply t_sendv. Qed.
Opaque sendBuffer sendMessageVector getIncomingHeader ping recvExact.
Ltac tp := repeat first
  [ assumption
  | apply k_ret, tx_refl | apply k_lift, tx_refl | apply k_massert, tx_refl | apply k_getc, tx_refl | apply k_gete, tx_refl
  | apply t_getTime | apply t_trecv | apply k_undef | apply k_stuck | apply t_on_recs | apply t_sendBuffer | apply t_sendMessageVector | apply t_header | apply t_retrieve | apply t_store
  | apply t_modc; intro; repeat match goal with |- context [if ?b then _ else _] => destruct b end; reflexivity
  | apply t_emit; reflexivity
  | apply t_bind; [|intros ?]
  | match goal with
    | |- keeps _ (if ?b then _ else _) => destruct b
    | |- keeps _ (match ?x with _ => _ end) => destruct x
    end ].
Transparent ping.
Lemma t_ping : K (ping G).
Proof. unfold ping. tp. Qed.
Opaque ping.
Lemma t_op o : K (run_op G o).
Proof.
  assert (L1 : forall fuel l vs, K (sub_send_loop G fuel l vs)).
  { induction fuel as [|fuel IH]; intros; cbn [sub_send_loop]; [apply k_stuck|]. tp; auto. }
  assert (L2 : forall fuel l vs, K (unsub_send_loop G fuel l vs)).
  { induction fuel as [|fuel IH]; intros; cbn [unsub_send_loop]; [apply k_stuck|]. tp; auto. }
  destruct o; cbn [run_op].
  - unfold publish, sendPublishWithoutCopy. tp.
  - unfold subscribe, validateSubUnsub, sendSubscribeWithoutCopy. tp; auto.
  - unfold unsubscribe, validateSubUnsub, sendUnsubscribeWithoutCopy. tp; auto.
  - apply t_ping.
  - unfold disconnect. tp.
  - unfold getPacketId. tp.
  - unfold cancel. tp.
  - unfold checkConnectStatus. tp.
Qed.
Lemma t_ops l : K (run_ops G l).
Proof. induction l as [|o l IH]; cbn [run_ops]; [apply k_ret, tx_refl|]. apply t_bind; [apply t_op|]. intros _. exact IH. Qed.
Lemma t_broke : K (modc transport_broke).
Proof. apply t_modc. intro c. unfold transport_broke. destruct (cstatus_beq _ _); reflexivity. Qed.
Lemma t_acks id ps : K (sendPublishAcks G id ps).
Proof. unfold sendPublishAcks. tp. Qed.
Lemma t_callback a b c d e : K (callback G a b c d e).
Proof.
  unfold callback. apply t_bind; [apply t_emit; reflexivity|intros _]. apply t_bind; [tp|intros ?]. apply t_bind; [|intros _; apply t_ops].
  apply t_any. intros s x s' t H. injection H as _ <- <-. split; [reflexivity|]. split; [exists []; reflexivity|reflexivity].
Qed.
Opaque sendPublishAcks callback.
Lemma t_exact_loop fuel : forall a b c d, K (recvExact_loop G fuel a b c d).
Proof. induction fuel as [|fuel IH]; intros; cbn [recvExact_loop]; [tp|]. unfold recv_into. tp; auto using t_broke. Qed.
Transparent recvExact.
Lemma t_exact k : K (recvExact G k).
Proof. unfold recvExact. tp. apply t_exact_loop. Qed.
Opaque recvExact.
Lemma t_discard a b c : K (discardStoredPacket G a b c).
Proof.
  assert (L : forall fuel a b c, K (discardStored_loop G fuel a b c)).
  { induction fuel as [|fuel IH]; intros; cbn [discardStored_loop]; [tp|]. tp; auto using t_exact. }
  unfold discardStoredPacket. tp. apply L.
Qed.
Lemma t_discard2 a b : K (discardPacket G a b).
Proof.
  assert (L : forall fuel a b c d e, K (discard_loop G fuel a b c d e)).
  { induction fuel as [|fuel IH]; intros; cbn [discard_loop]; [tp|]. tp; auto using t_exact. }
  unfold discardPacket. tp. apply L.
Qed.
Opaque discardStoredPacket discardPacket.
Lemma t_iteration mk : K (receiveSingleIteration G mk).
Proof.
  unfold receiveSingleIteration, recv_into, handleKeepAlive, handleIncomingPublish, handleIncomingAck, handlePublishAcks, clear_publish, shift_buffer.
  tp; auto using t_broke, t_discard, t_acks, t_callback, t_ping.
Qed.
Lemma t_connect ci will tmo : K (connect G ci will tmo).
Proof.
  assert (L1 : forall fuel a b c, K (connack_loop G fuel a b c)).
  { induction fuel as [|fuel IH]; intros; cbn [connack_loop]; tp. apply IH. }
  assert (L2 : forall fuel a b, K (pubrel_loop G fuel a b)).
  { induction fuel as [|fuel IH]; intros; cbn [pubrel_loop]; tp; auto using t_acks. }
  assert (L3 : forall fuel a, K (publish_loop G fuel a)).
  { induction fuel as [|fuel IH]; intros; cbn [publish_loop]; tp; auto. }
  assert (L4 : forall fuel a, K (clear_loop fuel a)).
  { induction fuel as [|fuel IH]; intros; cbn [clear_loop]; unfold clear_publish; tp; auto. }
  unfold connect, sendConnectWithoutCopy, receiveConnack, receivePacket, handleCleanSession, handleUncleanSessionResumption.
  tp; auto using t_broke, t_exact, t_discard2.
Qed.
Lemma t_call c : K (run_call G c).
Proof.
  destruct c; cbn [run_call]; [apply t_op|apply t_bind; [apply t_connect|intros (?, ?); tp]|unfold processLoop|unfold receiveLoop].
  - apply t_bind; [tp|intros _; apply t_iteration].
  - apply t_iteration.
Qed.
Lemma t_calls l : K (run_calls G l).
Proof. induction l as [|c l IH]; cbn [run_calls]; [tp|]. apply t_bind; [apply t_call|]. intros ?. apply t_bind; [exact IH|intros ?; tp]. Qed.
End Tx.
