(** Receive loops, MQTT_Connect and whole histories never run into undefined behaviour. *)
From Verif Require Import Base StateModel StateSpec StateHarness StateProofs StateProofs2 SerModel WireSpec SerHarness SerProofs SerProofs2 SerProofs3 SerProofs4 SerProofs5
  CoreModel CoreHarness CoreSpec CoreProofs CoreProofs2 CoreProofs3 CoreProofs4 CoreProofs5 CoreProofs6 CoreProofs7 CoreProofs8 CoreProofs9 CoreProofs10 CoreProofs11 CoreProofs12 CoreProofs13 CoreProofs14 CoreProofs15 CoreProofs16 CoreProofs17.

Section Safe.
Variable G : cfg.
Variables n m : nat.
Hypothesis HM : 4294967296 <= g_M G.
Hypothesis HV : 3 <= g_maxvec G.
Notation good := (good n m).

Lemma dispatch_safe type rem data mk s : good s -> is_byte type -> 0 <= rem <= zlen data -> rem < g_M G ->
  bytes_ok (firstn (Z.to_nat rem) data) -> safe (dispatch G type rem data mk) s.
Proof.
  intros Hg Hb Hr HrM Hd. unfold dispatch. destruct (_ =? PKT_PUBLISH) eqn:E.
  - eapply handlePublish_safe; eauto. now apply type_publish.
  - eapply handleAck_safe; eauto.
Qed.
Lemma good_arrived bs s s1 : arrived bs s s1 -> good s -> good s1.
Proof.
  intros (_ & (rv & a & E & _) & Ec & _) (H1 & H2 & H3). unfold CoreProofs17.good, cbs_ok, cbs_sound in *. rewrite Ec, E. auto.
Qed.

Lemma iteration_safe mk s : rx_all G s -> good s -> safe (receiveSingleIteration G mk) s.
Proof.
  intros (Hr & Hby) Hg. unfold receiveSingleIteration. apply safe_bind; [safe1|]. intros c s0 t0 H0. mgo H0.
  pose proof Hr as (R0 & R1 & R2 & R3 & R4).
  apply safe_bind; [apply recv_into_safe; rewrite ?Z.mod_small; lia|]. intros r s1 t1 H1.
  apply recv_into_inv in H1. destruct H1 as (_ & _ & Hroom & [(Hx & -> & (rv & Ee & a & Ea) & Ec)|(bs & Hx & Hn & -> & Ei & (rv & Ee & a & Ea) & Ec)]).
  { replace (r <? 0) with true by lia. replace (r =? 0) with false by lia. cbn [andb].
    repeat first [safe1 | apply safe_bind; [|intros]]. all: match goal with H : _ = Ret _ _ _ |- _ => idtac end.
    all: unfold bind, modc, ret in *; repeat match goal with H : Ret _ _ _ = Ret _ _ _ |- _ => inversion H; clear H; subst end;
      repeat match goal with H : context [match ?x with _ => _ end] |- _ => destruct x end; try discriminate; safe1. }
  rewrite (Z.mod_small (_ - _)) in * by lia. subst r. pose proof (CoreProofs.zlen_nonneg bs).
  replace (zlen bs <? 0) with false by lia.
  set (s2 := mkSt (set_index (s_ctx s1) (x_index (s_ctx s) + zlen bs)) (s_env s1)).
  assert (A : arrived bs s s2).
  { unfold arrived, s2. cbn [s_env s_ctx]. rewrite Ec. repeat split; eauto; lia. }
  destruct (arrived_pend _ _ _ _ Hr A) as (Hr2 & Ep). pose proof (good_arrived _ _ _ A Hg) as Hg2.
  assert (Hb2 : bytes_ok (x_buf (s_ctx s2))).
  { destruct A as (A1 & _ & -> & A4). cbn [x_buf set_index set_buf]. apply store_at_bytes; auto. rewrite A1 in R4. apply Forall_app in R4. apply R4. }
  (* the header *)
  assert (K : forall h s3 t3, (if (zlen bs =? 0) && (x_index (s_ctx s) =? 0) then ret (NoDataAvailable, 0, 0, 0)
     else modc (fun c => set_index c ((x_index c + zlen bs) mod g_M G)) ;;
       let* c := getc in let* (st, h) := lift (processIncomingPacketTypeAndLength (x_buf c) (x_index c)) in
       ret (match h with Some (t, rl, hl) => (st, t, rl, hl) | None => (st, 0, 0, 0) end)) s1 = Ret h s3 t3 ->
     exists hs type rem hdr, h = (hs, type, rem, hdr) /\ s3 = s2 /\ got_header (s_ctx s2) hs type rem hdr).
  { intros h s3 t3 H1. destruct ((zlen bs =? 0) && (x_index (s_ctx s) =? 0)) eqn:E0.
    - assert (bs = []) as -> by (destruct bs; auto; unfold zlen in *; cbn in *; lia).
      mgo H1. eexists _, _, _, _. split; [reflexivity|]. split.
      + unfold s2. rewrite store_at_nil, set_buf_id in Ec by lia. change (zlen []) with 0. rewrite Z.add_0_r, <- Ec.
        destruct s1 as [[] ?]; reflexivity.
      + unfold got_header. cbn [status_beq]. apply hdr_nodata_iff. rewrite Ep.
        unfold pend. assert (x_index (s_ctx s) = 0) as -> by lia. reflexivity.
    - apply bind_inv in H1. destruct H1 as (u & s4 & t5 & t6 & H1 & H2 & ->). apply modc_inv in H1. destruct H1 as (-> & ->).
      replace (mkSt (set_index (s_ctx s1) ((x_index (s_ctx s1) + zlen bs) mod g_M G)) (s_env s1)) with s2 in H2.
      2: { unfold s2. f_equal. f_equal. replace (x_index (s_ctx s1)) with (x_index (s_ctx s)) by (rewrite Ec; reflexivity). symmetry. apply Z.mod_small. lia. }
      clearbody s2. mgo H2.
      rewrite pitl_eq in L; [|apply Hr2|apply Hr2]. fold (pend (s_ctx s2)) in L.
      destruct (hdr_kinds (pend (s_ctx s2))) as [(ty & rl & hl & E)|[E|[E|E]]]; [apply Hr2|..];
        rewrite E in L; injection L as <- <-; eexists _, _, _, _; (split; [reflexivity|]; split; [reflexivity|]); exact E. }
  apply safe_bind.
  { destruct ((zlen bs =? 0) && (x_index (s_ctx s) =? 0)); [safe1|]. apply safe_bind; [safe1|]. intros u s4 t4 H1. apply modc_inv in H1. destruct H1 as (-> & ->).
    replace (mkSt (set_index (s_ctx s1) ((x_index (s_ctx s1) + zlen bs) mod g_M G)) (s_env s1)) with s2.
    2: { unfold s2. f_equal. f_equal. replace (x_index (s_ctx s1)) with (x_index (s_ctx s)) by (rewrite Ec; reflexivity). symmetry. apply Z.mod_small. lia. }
    apply safe_bind; [safe1|]. intros c s4 t4 H1. apply getc_inv in H1. destruct H1 as (-> & -> & _).
    rewrite pitl_eq; [|apply Hr2|apply Hr2]. apply safe_bind; [apply safe_lift; discriminate|]. intros (?, ?) ? ? ?. safe1. }
  intros h s3 t3 H1. apply K in H1. clear K. destruct H1 as (hs & type & rem & hdr & -> & -> & Hh).
  apply safe_bind. { destruct (_ && mk); [|safe1]. apply safe_bind; [apply keepAlive_safe|]. intros; safe1. }
  intros st1 s3 t5 H1.
  assert (Hs3 : Path false s2 s3 t5 /\ (st1 = Success -> hs = Success)).
  { destruct ((zlen bs =? 0) && mk).
    - apply bind_inv in H1. destruct H1 as (k & s4 & t9 & t10 & H1 & H2 & ->). mgo H2. rewrite app_nil_r. split; [eapply keepAlive_path; eauto|].
      destruct k; cbn [status_beq]; auto; discriminate.
    - mgo H1. split; [constructor|auto]. }
  destruct Hs3 as (P3 & Hhs). clear H1. pose proof (good_path _ _ _ _ _ P3 Hg2) as Hg3. apply path_same_rx in P3. destruct P3 as (Hs3 & _).
  pose proof (same_rx_ok _ _ _ Hs3 Hr2) as Hr3.
  assert (Hb3 : bytes_ok (x_buf (s_ctx s3))) by (destruct Hs3 as (-> & _); exact Hb2).
  assert (Hh3 : got_header (s_ctx s3) hs type rem hdr).
  { unfold got_header, pend in *. destruct Hs3 as (-> & -> & _). exact Hh. }
  apply safe_bind; [safe1|]. intros c s4 t4 H1. mgo H1.
  destruct (status_beq st1 Success) eqn:E1.
  2: { cbn [negb]. apply safe_bind; [safe1|]. intros st2 s4 t4 H1. mgo H1. rewrite E1. apply safe_bind; [safe1|]. intros; safe1. }
  assert (hs = Success) as -> by (apply Hhs; destruct st1; discriminate || reflexivity). cbn [negb]. clear E1 Hhs.
  destruct (got_header_range _ _ _ _ _ _ Hr3 Hh3 eq_refl) as (G1 & G2 & G3 & G4 & hb & rest & _ & (Hf & _ & _) & _). destruct Hf as (Hf & _).
  destruct (zlen (x_buf (s_ctx s3)) <? rem + hdr) eqn:El.
  { apply safe_bind; [apply discardStoredPacket_safe; try apply Hr3; lia|]. intros st2 s4 t6 H1.
    apply discardStoredPacket_spec in H1; [|lia|apply Hr3].
    assert (Eb : status_beq st2 Success = false) by (destruct H1 as (_ & b & e & x & y & _ & _ & _ & _ & [(-> & _)|(-> & _)]); reflexivity).
    rewrite Eb. apply safe_bind; [safe1|]. intros; safe1. }
  destruct (x_index (s_ctx s3) <? rem + hdr) eqn:Ei2.
  { apply safe_bind; [safe1|]. intros st2 s4 t6 H1. mgo H1. cbn [status_beq]. apply safe_bind; [safe1|]. intros; safe1. }
  apply safe_bind; [safe1|]. intros st2 s4 t6 H1. mgo H1. cbn [status_beq]. apply safe_bind; [|intros; safe1].
  apply safe_bind; [safe1|]. intros c s4 t6 H1. mgo H1. apply safe_bind; [safe1|]. intros u s4 t6 H1. mgo H1.
  change (safe (let* st := dispatch G type rem (skipn (Z.to_nat hdr) (x_buf (s_ctx s3))) mk in
       shift_buffer G (rem + hdr) ;;
       (if status_beq st Success then let* now := getTime in modc (fun c => set_lastRx c now) else ret tt) ;; ret st) s3).
  assert (Ld : zlen (skipn (Z.to_nat hdr) (x_buf (s_ctx s3))) = zlen (x_buf (s_ctx s3)) - hdr).
  { destruct Hr3 as (_ & ? & _). unfold zlen in *. rewrite skipn_length. lia. }
  destruct Hr3 as (V0 & V1 & V2 & V3 & V4).
  apply safe_bind.
  { apply dispatch_safe; auto; try lia. unfold bytes_ok in *. rewrite Forall_forall in *. intros x Hx'. apply Hb3.
    rewrite <- (firstn_skipn (Z.to_nat hdr) (x_buf (s_ctx s3))). apply in_app_iff. right.
    rewrite <- (firstn_skipn (Z.to_nat rem) (skipn _ _)). apply in_app_iff. auto. }
  intros st2 s4 t6 H1. assert (P4 : same_rx s3 s4) by (eapply path_same_rx, dispatch_path; [apply Hg3|exact H1]).
  apply safe_bind.
  { apply shift_safe; [eapply same_rx_ok; eauto; unfold rx_ok; auto 10|]. destruct P4 as (_ & -> & _). lia. }
  intros. apply safe_bind; [|intros; safe1]. destruct (status_beq st2 Success); [|safe1]. apply safe_bind; [safe1|]. intros; safe1.
Qed.

(** ** MQTT_Connect *)
Lemma pull_loop_safe fuel : forall w a mm k, 2097152 < mm * 128 ^ (Z.of_nat fuel - 1) -> (0 < fuel)%nat -> 0 < mm ->
  getRemainingLength_loop pull_recv fuel w a mm k <> Ub.
Proof.
  induction fuel as [|fuel IH]; intros w a mm k H Hf Hm; [lia|]. cbn [getRemainingLength_loop].
  destruct (2097152 <? mm) eqn:E; [discriminate|]. destruct (pull_recv w) as ((r, b), w'). destruct (r =? 1); [|discriminate].
  destruct (_ =? REMAINING_LENGTH_INVALID); [discriminate|]. destruct (negb _); [|discriminate].
  destruct fuel as [|fuel]; [cbn in H; lia|]. apply IH; [|lia|lia].
  replace (Z.of_nat (S (S fuel)) - 1) with (Z.succ (Z.of_nat (S fuel) - 1)) in H by lia. rewrite Z.pow_succ_r in H by lia. lia.
Qed.
Lemma header_safe s : safe getIncomingHeader s.
Proof.
  unfold safe, getIncomingHeader, getIncomingPacketTypeAndLength. destruct (pull_recv (s, [], false)) as ((r, b), w).
  repeat (match goal with |- context [if ?x then _ else _] => destruct x end; try (destruct w as ((?, ?), []); discriminate)).
  all: unfold getRemainingLength; pose proof (pull_loop_safe 5 w 0 1 0 ltac:(reflexivity) ltac:(lia) ltac:(lia)) as K;
    destruct (getRemainingLength_loop pull_recv 5 w 0 1 0) as [((rl, k), ((s1, t1), o))|]; [|contradiction]; cbn [rbind];
    repeat (match goal with |- context [if ?x then _ else _] => destruct x end; cbn [rbind]; try discriminate).
Qed.
Lemma connack_loop_safe fuel : forall tmo entry lc s, safe (connack_loop G fuel tmo entry lc) s.
Proof.
  induction fuel as [|fuel IH]; intros; cbn [connack_loop]; [safe1|]. apply safe_bind; [apply header_safe|]. intros (st, h) s1 t1 H1.
  apply safe_bind. { destruct (0 <? tmo); [|safe1]. apply safe_bind; [safe1|]. intros; safe1. }
  intros (stop, lc') s2 t2 H2. destruct (_ && _); [apply IH|safe1].
Qed.
Lemma receiveConnack_safe tmo clean s : rx_all G s -> safe (receiveConnack G tmo clean) s.
Proof.
  intros (Hr & Hb). unfold receiveConnack. apply safe_bind; [safe1|]. intros entry s1 t1 H1. apply getTime_inv in H1.
  destruct H1 as (x & r0 & E1 & _ & -> & ->). apply safe_bind; [safe1|]. intros e s1 t1 H1. mgo H1.
  apply safe_bind; [apply connack_loop_safe|]. intros (st, h) s1 t1 H1. apply connack_loop_spec in H1; [|apply Hr].
  destruct H1 as (bs & F & K). destruct K as [(-> & ty & rl & -> & Hh)|(Hne & -> & _ & K)].
  2: { destruct st; safe1. }
  apply safe_bind; [safe1|]. intros now s2 t2 H1. apply getTime_inv in H1. destruct H1 as (y & r1 & E2 & _ & -> & ->).
  assert (Hrl : 0 <= rl <= 268435455) by (destruct Hh as (_ & ? & _); unfold max_remaining in *; lia).
  apply safe_bind. { destruct (ty =? PKT_CONNACK); [apply receivePacket_safe; lia|safe1]. }
  intros st2 s3 t3 H1. destruct (status_beq st2 Success) eqn:E3; [|safe1]. destruct (ty =? PKT_CONNACK) eqn:Ety; [|mgo H1; discriminate].
  assert (ty = 32) by (unfold PKT_CONNACK in Ety; lia). subst ty.
  apply receivePacket_spec in H1; [|lia]. destruct H1 as [(-> & body & (S1 & S2 & S3 & S4 & S5 & S6) & Hl & Hl2)|([->| ->] & _)]; try discriminate.
  cbn [s_ctx s_env] in *. destruct F as (Q1 & Q2 & Q3 & Q4 & Q5). cbn [s_ctx s_env] in *.
  apply safe_bind; [safe1|]. intros c s4 t4 H1. apply getc_inv in H1. destruct H1 as (-> & -> & _). rewrite S6, Q5. cbn [set_buf x_buf].
  set (b := store_at (x_buf (s_ctx s)) 0 body) in *. rewrite Q5 in *.
  assert (Hb2 : firstn (Z.to_nat rl) b = body).
  { subst b. replace (Z.to_nat rl) with (length body) by (unfold zlen in Hl; lia). apply store_at_0. lia. }
  assert (Lb : zlen b = zlen (x_buf (s_ctx s))) by (apply store_at_len; lia).
  assert (Bb : bytes_ok body).
  { destruct Hr as (_ & _ & _ & _ & Hb'). cbn [env_times e_in] in Q3. rewrite Q3 in Hb'. cbn [env_times e_in] in S3. rewrite S3 in Hb'.
    apply Forall_app in Hb'. destruct Hb' as (_ & Hb'). apply Forall_app in Hb'. apply Hb'. }
  destruct (connack_decode rl b) as (sp1 & Ed & Esp); [lia|rewrite Hb2; auto|].
  change PKT_CONNACK with 32 in Ed. rewrite Ed. apply safe_bind; [apply safe_lift; discriminate|]. intros ((?, ?), ?) ? ? ?. safe1.
Qed.
Lemma pubrel_loop_safe fuel : forall pid cur s, Reach n m (x_recs (s_ctx s)) -> safe (pubrel_loop G fuel pid cur) s.
Proof.
  induction fuel as [|fuel IH]; intros pid cur s Hr; cbn [pubrel_loop]; [safe1|]. destruct (pid =? 0); [safe1|].
  apply safe_bind; [eapply acks_safe; eauto|]. intros st s1 t1 H1. destruct (negb _); [safe1|].
  apply safe_bind; [safe1|]. intros c s2 t2 H2. mgo H2. destruct (pubrelToResend _ _). apply IH.
  eapply path_reach; [|exact Hr]. eapply (acks_path G false); eauto.
Qed.
Lemma publish_loop_safe fuel : forall cur s, safe (publish_loop G fuel cur) s.
Proof.
  induction fuel as [|fuel IH]; intros cur s; cbn [publish_loop]; [safe1|]. apply safe_bind; [safe1|]. intros c s1 t1 H1. mgo H1.
  destruct (publishToResend _ _). destruct (_ =? 0); [safe1|]. apply safe_bind; [discriminate|]. intros [bs|] s1 t1 H1; [|safe1].
  apply safe_bind; [apply sendBuffer_safe|]. intros k s2 t2 H2. destruct (negb _); [safe1|apply IH].
Qed.
Lemma clear_loop_safe fuel : forall cur s, safe (clear_loop fuel cur) s.
Proof.
  induction fuel as [|fuel IH]; intros cur s; cbn [clear_loop]; [safe1|]. apply safe_bind; [safe1|]. intros c s1 t1 H1. mgo H1.
  destruct (publishToResend _ _). destruct (_ =? 0); [safe1|]. apply safe_bind; [unfold clear_publish; safe1|]. intros; apply IH.
Qed.
Lemma resume_safe s : Reach n m (x_recs (s_ctx s)) -> safe (handleUncleanSessionResumption G) s.
Proof.
  intro Hr. unfold handleUncleanSessionResumption. apply safe_bind; [safe1|]. intros c s1 t1 H1. mgo H1. destruct (pubrelToResend _ _).
  apply safe_bind; [now apply pubrel_loop_safe|]. intros st s1 t1 H1. destruct (_ && _); [apply publish_loop_safe|safe1].
Qed.
Lemma clean_safe s : safe handleCleanSession s.
Proof.
  unfold handleCleanSession. apply safe_bind; [safe1|]. intros. apply safe_bind; [safe1|]. intros. apply safe_bind.
  { destruct (x_retr _); [apply clear_loop_safe|safe1]. } intros. apply safe_bind; [safe1|]. intros; safe1.
Qed.
Lemma connect_safe ci will tmo s : con_sound ci will -> rx_all G s -> Reach n m (x_recs (s_ctx s)) -> safe (connect G ci will tmo) s.
Proof.
  intros Hs Hrx Hr. unfold connect.
  assert (Hz : getConnectPacketSize ci will = (BadParameter, None) \/
    exists rl total, getConnectPacketSize ci will = (Success, Some (rl, total)) /\ c_id ci <> None /\ c_idlen ci <> 0).
  { unfold getConnectPacketSize. destruct (_ || _) eqn:E; auto. destruct (match will with Some _ => _ | None => _ end); auto. right.
    apply orb_false_iff in E. destruct E. eexists _, _. split; [reflexivity|]. split; [destruct (c_id ci); congruence|lia]. }
  destruct Hz as [Ez|(rl & total & Ez & Hid & Hl)]; rewrite Ez.
  { apply safe_bind; [safe1|]. intros (st, sp) s1 t1 H1. apply ret_inv in H1. destruct H1 as (E & -> & _).
    assert (st = BadParameter /\ sp = None) as (-> & ->) by (split; congruence). cbn [status_beq andb orb].
    apply safe_bind; [safe1|]. intros ? ? ? H1. mgo H1. cbn [status_beq orb]. apply safe_bind; [safe1|]. intros; safe1. }
  apply safe_bind.
  - apply safe_bind; [safe1|]. intros c s1 t1 H1. mgo H1.
    apply safe_bind.
    { destruct (status_beq _ Success); [|safe1]. unfold sendConnectWithoutCopy. destruct (match will with Some _ => _ | None => _ end) eqn:Ew; [safe1|].
      destruct (con_sound_means ci will Hs Hid) as (cm & Hm). { destruct will as [w|]; auto. destruct (p_topic w); congruence. }
      assert (Hne : cm_id cm <> []).
      { destruct Hm as (_ & _ & _ & Hi & _). apply holds_len in Hi. intro E. rewrite E in Hi. unfold zlen in Hi. cbn in Hi. lia. }
      rewrite (connect_size_ok _ _ _ Hm Hne) in Ez. destruct (will_fits cm) eqn:Ef; [|discriminate].
      assert (rl = zlen (connect_body cm)) as -> by congruence.
      destruct (connect_vectors_ok _ _ _ Hm Ef) as (vs & -> & _). apply safe_bind; [apply safe_lift; discriminate|]. intros v s1 t1 H1. mgo H1.
      apply safe_bind; [apply sendMessageVector_safe|]. intros; safe1. }
    intros st1 s1 t1 H1. apply safe_bind.
    { destruct (status_beq st1 Success) eqn:E1; [|safe1]. apply receiveConnack_safe.
      destruct (status_beq match x_status (s_ctx s) with _ => _ end Success); [|mgo H1; auto].
      unfold sendConnectWithoutCopy in H1. destruct (match will with Some _ => _ | None => _ end) in H1; [mgo H1; auto|].
      apply bind_inv in H1. destruct H1 as (vs & s0 & t0 & tf & H1 & H3 & ->). apply lift_inv in H1. destruct H1 as (Ev & -> & ->).
      apply bind_inv in H3. destruct H3 as (r & s2 & t2 & tg & H1 & H3 & ->). apply ret_inv in H3. destruct H3 as (-> & -> & ->).
      apply sendMessageVector_spec, sent_ok_sentb, sentb_same_rx in H1. eapply same_rx_all; [apply H1|exact Hrx]. }
    intros (st2, sp) s2 t2 H2. apply safe_bind.
    { destruct (_ && _); [apply clean_safe|safe1]. }
    intros st3 s3 t3 H3. apply safe_bind; [destruct (status_beq st3 Success); safe1|]. intros; safe1.
  - intros (st, sp) s1 t1 H1.
    assert (Hr1 : status_beq st Success && match sp with Some true => true | _ => false end = true -> Reach n m (x_recs (s_ctx s1))).
    { intro E. assert (st = Success /\ sp = Some true) as (-> & ->) by (destruct st, sp as [[]|]; discriminate || auto). clear E.
      apply bind_inv in H1. destruct H1 as (c & sb & tc & td & H1 & H2 & ->). apply getc_inv in H1. destruct H1 as (-> & -> & ->).
      apply bind_inv in H2. destruct H2 as (st1 & s2 & t1 & te & H1 & H2 & ->).
      apply bind_inv in H2. destruct H2 as ((st2, sp2) & s3 & t3 & th & H3 & H2 & ->).
      apply bind_inv in H2. destruct H2 as (st4 & s4 & t4 & ti & H4 & H2 & ->).
      apply bind_inv in H2. destruct H2 as (u & s5 & t5 & tj & H5 & H2 & ->). apply ret_inv in H2. destruct H2 as (E2 & -> & ->).
      assert (st4 = Success /\ sp2 = Some true) as (-> & ->) by (split; congruence). clear E2. cbn [status_beq] in H5. apply modc_inv in H5. destruct H5 as (-> & _).
      rewrite andb_false_r in H4. apply ret_inv in H4. destruct H4 as (_ & -> & _). cbn [s_ctx set_keep set_status x_recs].
      destruct (status_beq st1 Success) eqn:E1; [|mgo H3; discriminate].
      destruct (x_status (s_ctx s)) eqn:Hst; cbn [status_beq] in H1; try (mgo H1; discriminate).
      unfold sendConnectWithoutCopy in H1. destruct (match will with Some _ => _ | None => _ end) in H1; [mgo H1; discriminate|].
      apply bind_inv in H1. destruct H1 as (vs & s0 & t0 & tf & H1 & H5 & ->). apply lift_inv in H1. destruct H1 as (Ev & -> & ->).
      apply bind_inv in H5. destruct H5 as (r & s4 & t2 & tg & H1 & H5 & ->). apply ret_inv in H5. destruct H5 as (-> & -> & ->).
      apply sendMessageVector_spec, sent_ok_sentb in H1. destruct (sentb_nc _ _ _ _ _ Hst H1) as (l & El).
      apply receiveConnack_spec in H3.
      - destruct H3 as (bs & b & _ & _ & _ & _ & _ & _ & E3 & _). rewrite E3, El. exact Hr.
      - apply sentb_same_rx in H1. destruct H1 as ((_ & _ & -> & _) & _). apply Hrx.
      - rewrite El. exact Hst. }
    apply safe_bind.
    { destruct (_ && _); [|safe1]. apply resume_safe. auto. }
    intros. apply safe_bind; [|intros; safe1]. destruct (_ || _); safe1.
Qed.

(** ** Histories *)
Lemma run_call_safe c s : call_sound c -> rx_all G s -> good s -> safe (run_call G c) s.
Proof.
  intros Hc Hrx Hg. destruct c as [o|ci will tmo| |]; cbn [run_call call_sound] in *.
  - eapply run_op_safe; eauto. apply Hg.
  - apply safe_bind; [apply connect_safe; auto; apply Hg|]. intros (?, ?) ? ? ?. safe1.
  - unfold processLoop. apply safe_bind; [safe1|]. intros u s1 t1 H1. mgo H1. apply iteration_safe.
    + eapply same_rx_all; [|exact Hrx]. repeat split.
    + exact Hg.
  - now apply iteration_safe.
Qed.
Lemma run_calls_safe l : forall s, Forall call_sound l -> rx_all G s -> good s -> safe (run_calls G l) s.
Proof.
  induction l as [|c l IH]; intros s Hl Hrx Hg; cbn [run_calls]; [safe1|]. inversion Hl; subst.
  apply safe_bind; [now apply run_call_safe|]. intros st s1 t1 H3. apply safe_bind; [|intros; safe1].
  destruct Hg as (G1 & G2 & G3). pose proof (call_x G n m c s st s1 t1 Hrx G1 G2 H3) as X.
  apply IH; auto; [eapply xpath_rx; eauto|]. split; [eapply xpath_reach; eauto|]. split; [eapply xpath_cbs; eauto|eapply xpath_sound; eauto].
Qed.
(** from a fresh client, through any history *)
Lemma opened_safe s l : opened G n m s -> cbs_sound (s_env s) -> Forall call_sound l -> run_calls G l s <> Undef.
Proof.
  intros Ho Hs Hl. apply opened_inv in Ho. destruct Ho as (Q1 & Q2 & Q3). apply run_calls_safe; auto.
  split; [exact Q2|]. split; auto.
Qed.
End Safe.
