(** The client used from several threads is the abstract client: connecting. *)
From Verif Require Import Base StateModel StateSpec StateHarness StateProofs StateProofs2 SerModel WireSpec SerHarness SerProofs SerProofs2 SerProofs3 SerProofs4 SerProofs5
  CoreModel CoreHarness CoreSpec CoreProofs CoreProofs2 CoreProofs3 CoreProofs4 CoreProofs5 CoreProofs6 CoreProofs7 CoreProofs8 CoreProofs9 CoreProofs10 CoreProofs11 CoreProofs12 CoreProofs13 CoreProofs14 CoreProofs15 CoreProofs16 CoreProofs17 CoreProofs18 CoreProofs19 CoreProofs20 CoreProofs21 CoreProofs22 CoreFinal2 ConcModel ConcHarness ConcProofs ConcProofs2 ConcProofs3 ConcProofs4 ConcProofs5 ConcProofs6 Machine MachProofs MachProofs2 MachProofs3.

Section MP4.
Context {cc : may_start}.
Variable G : cfg.
Variables n m : nat.
Variables rt cn : bool.
Hypothesis HM : 4294967296 <= g_M G.
Hypothesis HV : 3 <= g_maxvec G.
Hypothesis HB : g_big G = false.
Notation good := (good n m).
Notation fits := (op_fits (g_M G) cn).
Notation mstep := (mstep rt cn).
Notation ms := (ms n m).
Notation does := (does n m rt cn).
Notation Inv := (Inv G n m rt cn).
Notation logs := (logs G n m rt cn).
Notation act := (act G n m rt cn).
Local Notation "'let^' x ':=' m 'in' k" := (cbind m (fun x => k))
  (at level 200, x pattern, m at level 100, k at level 200).
Local Notation "m ;^ k" := (cbind m (fun _ => k)) (at level 190, right associativity).
Let lb := @logs_bind cc G n m rt cn.
Let lv := @logs_visit cc G n m rt cn HM HB.


(** ** No error in a successful wait for the CONNACK *)
Lemma pull_calm s t ov r b s' t' ov' : pull_recv (s, t, ov) = (r, b, (s', t', ov')) -> 0 <= r -> errs t' = errs t.
Proof.
  unfold pull_recv. destruct (trecv 1 s) as [(r', bs) s1 t1| |] eqn:E; intros H Hr; [|exfalso; assert (r = -1) by congruence; lia..].
  assert (r = r' /\ t' = t ++ t1) as (-> & ->) by (split; congruence). apply trecv_inv in E. destruct E as (x & rest & E1 & [(Hx & E2 & -> & ->)|(Hx & k & Ek & E2 & -> & ->)]).
  - assert (r' = x) by congruence. lia.
  - rewrite errs_app. cbn. now rewrite orb_false_r.
Qed.
Lemma pull_loop_calm fuel : forall s t ov a mu nb rl n' s' t' ov', getRemainingLength_loop pull_recv fuel (s, t, ov) a mu nb = Ok (rl, n', (s', t', ov')) ->
  rl <> REMAINING_LENGTH_INVALID -> errs t' = errs t.
Proof.
  induction fuel as [|fuel IH]; intros s t ov a mu nb rl n' s' t' ov' H Hn; cbn [getRemainingLength_loop] in H; [discriminate|].
  destruct (2097152 <? mu); [congruence|]. destruct (pull_recv (s, t, ov)) as ((r, b), ((s1, t1), ov1)) eqn:E.
  destruct (r =? 1) eqn:Er; [|congruence]. apply pull_calm in E; [|lia].
  destruct (_ =? REMAINING_LENGTH_INVALID); [congruence|]. destruct (negb _); [apply IH in H; auto; congruence|congruence].
Qed.
Lemma header_calm s st h s' t : getIncomingHeader s = Ret (st, h) s' t -> st = Success \/ st = NoDataAvailable -> errs t = false.
Proof.
  unfold getIncomingHeader. intros H Hs.
  destruct (getIncomingPacketTypeAndLength pull_recv (s, [], false)) as [(r, ((s1, t1), ov))|] eqn:E; [|discriminate].
  destruct ov; [discriminate|]. assert (r = (st, h) /\ s1 = s' /\ t1 = t) as (-> & -> & ->) by (repeat split; congruence). clear H.
  unfold getIncomingPacketTypeAndLength in E. destruct (pull_recv (s, [], false)) as ((r, b), ((s1, t1), ov1)) eqn:Ep. destruct (r =? 1) eqn:Er.
  - destruct (incomingPacketValid b); [|exfalso; destruct Hs; congruence]. unfold getRemainingLength in E.
    destruct (getRemainingLength_loop pull_recv 5 (s1, t1, ov1) 0 1 0) as [((rl, k), ((s2, t2), ov2))|] eqn:El; [|discriminate]. cbn [rbind] in E.
    apply pull_calm in Ep; [|lia].
    destruct (Z.eq_dec rl REMAINING_LENGTH_INVALID) as [->|Hrl].
    { exfalso. rewrite Z.eqb_refl in E. cbn [negb andb rbind] in E. rewrite Z.eqb_refl in E. destruct Hs; congruence. }
    apply pull_loop_calm in El; auto. destruct (negb _ && negb _); cbn [rbind] in E; destruct (_ =? REMAINING_LENGTH_INVALID) in E; try (exfalso; destruct Hs; congruence);
      assert (t2 = t) by congruence; subst t2; rewrite El, Ep; reflexivity.
  - destruct (r =? 0) eqn:E0; [|exfalso; destruct Hs; congruence]. assert (t1 = t) by congruence. subst t1. apply pull_calm in Ep; [exact Ep|lia].
Qed.
Lemma connack_loop_calm fuel : forall tmo entry lc s h s' t, connack_loop G fuel tmo entry lc s = Ret (Success, h) s' t -> errs t = false.
Proof.
  induction fuel as [|fuel IH]; intros tmo entry lc s h s' t H; cbn [connack_loop] in H; [discriminate|].
  apply bind_inv in H. destruct H as ((st1, h1) & s1 & t1 & t2 & H1 & H & ->).
  apply bind_inv in H. destruct H as ((stop, lc') & s2 & t3 & t4 & H2 & H & ->).
  assert (t3 = []) as ->.
  { destruct (0 <? tmo); [|mgo H2; reflexivity]. apply bind_inv in H2. destruct H2 as (now & s3 & t5 & t6 & H2 & H3 & ->). apply getTime_inv in H2.
    destruct H2 as (x & rest & _ & _ & _ & ->). mgo H3. reflexivity. }
  cbn [app]. rewrite errs_app. destruct (status_beq st1 NoDataAvailable && negb stop) eqn:E.
  - apply andb_true_iff in E. destruct E as (E & _). apply status_beq_eq in E. rewrite (header_calm _ _ _ _ _ H1) by auto. now apply IH in H.
  - mgo H. rewrite orb_false_r. apply (header_calm _ _ _ _ _ H1). left. congruence.
Qed.
Lemma receiveConnack_calm tmo clean s sp s' t : bytes_ok (e_in (s_env s)) -> receiveConnack G tmo clean s = Ret (Success, sp) s' t -> errs t = false.
Proof.
  intros Hb H. unfold receiveConnack in H.
  apply bind_inv in H. destruct H as (entry & s0 & t0 & t1 & H1 & H & ->). apply getTime_inv in H1. destruct H1 as (x & r0 & E1 & _ & -> & ->). cbn [app].
  apply bind_inv in H. destruct H as (e & s1 & t0 & t2 & H1 & H & ->). mgo H1. cbn [app].
  apply bind_inv in H. destruct H as ((st1, h) & s1 & t3 & t4 & H1 & H & ->). pose proof H1 as H0. apply connack_loop_spec in H1; [|exact Hb]. destruct H1 as (bs & F & K).
  destruct K as [(-> & ty & rl & -> & Hh)|(Hne & -> & _ & K)]; [|exfalso; destruct K as [->|[->| ->]]; discriminate].
  apply connack_loop_calm in H0. rewrite errs_app, H0. cbn [orb].
  apply bind_inv in H. destruct H as (now & s2 & t5 & t6 & H1 & H & ->). apply getTime_inv in H1. destruct H1 as (y & r1 & E2 & _ & -> & ->). cbn [app].
  apply bind_inv in H. destruct H as (st2 & s3 & t7 & t8 & H1 & H & ->). destruct (ty =? PKT_CONNACK).
  2: { mgo H1. discriminate. }
  assert (Hrl : 0 <= rl <= 268435455) by (destruct Hh as (_ & ? & _); unfold max_remaining in *; lia). apply receivePacket_spec in H1; [|lia].
  destruct H1 as [(-> & body & (_ & _ & _ & _ & R5 & _) & _)|([->| ->] & _)]; [|discriminate..].
  cbn [status_beq] in H. apply bind_inv in H. destruct H as (c & s4 & t9 & t10 & H1 & H & ->). mgo H1. cbn [app].
  apply bind_inv in H. destruct H as (q & s5 & t11 & t12 & H1 & H & ->). apply lift_inv in H1. destruct H1 as (_ & -> & ->). destruct q as ((q1, q2), q3). mgo H. now rewrite errs_app, R5.
Qed.

(** ** The part under the mutex *)
Lemma region_calm ci will rl tmo s sp s' t : Reach n m (x_recs (s_ctx s)) -> bytes_ok (e_in (s_env s)) ->
  region G ci will rl tmo s = Ret (Success, sp) s' t -> errs t = false.
Proof.
  intros Hre Hb H. unfold region in H. apply bind_inv in H. destruct H as (c & sb & tc & td & H1 & H2 & ->). apply getc_inv in H1. destruct H1 as (-> & -> & ->). cbn [app].
  apply bind_inv in H2. destruct H2 as (st1 & s1 & t1 & te & H1 & H2 & ->).
  destruct (status_beq st1 Success) eqn:E1.
  2: { exfalso. apply bind_inv in H2. destruct H2 as ((st2, sp2) & s2 & t2 & tf & H3 & H2 & ->). apply ret_inv in H3. destruct H3 as (E3 & -> & ->). assert (st2 = st1) by congruence. subst st2. rewrite E1 in H2. cbn [andb] in H2.
    apply bind_inv in H2. destruct H2 as (st3 & s3 & t3 & tg & H3 & H2 & ->). apply ret_inv in H3. destruct H3 as (-> & -> & ->). rewrite E1 in H2. mgo H2. assert (st1 = Success) by congruence. subst st1. discriminate. }
  apply status_beq_eq in E1. subst st1. destruct (x_status (s_ctx s)) eqn:Hs; cbn [status_beq] in H1; [|mgo H1; discriminate..].
  unfold sendConnectWithoutCopy in H1. destruct (match will with Some wl => _ | None => _ end) in H1; [mgo H1; discriminate|].
  apply bind_inv in H1. destruct H1 as (vs & s0 & t0 & tf & H1 & H3 & ->). apply lift_inv in H1. destruct H1 as (Ev & -> & ->).
  apply bind_inv in H3. destruct H3 as (r & s2 & t2 & tg & H1 & H3 & ->). apply ret_inv in H3. destruct H3 as (Er & -> & ->).
  apply sendMessageVector_spec, sent_ok_sentb in H1. destruct (r =? zlen (concat vs)); cbn [negb] in Er; [|discriminate].
  destruct (sentb_outs _ _ _ _ H1) as (_ & He). destruct (sentb_nc _ _ _ _ _ Hs H1) as (lt & Ec).
  assert (Hb2 : bytes_ok (e_in (s_env s2))) by (destruct H1 as (_ & _ & _ & _ & _ & (x1 & x2 & ->) & _); exact Hb).
  cbn [app]. rewrite app_nil_r, errs_app, He. cbn [orb].
  apply bind_inv in H2. destruct H2 as ((st2, sp2) & s3 & t3 & th & H3 & H2 & ->).
  apply bind_inv in H2. destruct H2 as (st3 & s4 & t4 & ti & H4 & H2 & ->).
  destruct (status_beq st2 Success) eqn:E2.
  2: { exfalso. cbn [andb] in H4. apply ret_inv in H4. destruct H4 as (-> & -> & ->). rewrite E2 in H2. mgo H2. assert (st2 = Success) by congruence. subst st2. discriminate. }
  apply status_beq_eq in E2. subst st2. rewrite errs_app, (receiveConnack_calm _ _ _ _ _ _ Hb2 H3). cbn [orb andb] in *.
  assert (Hs2 : x_status (s_ctx s2) = NotConnected) by (rewrite Ec; exact Hs).
  apply receiveConnack_spec in H3; auto. destruct H3 as (bs & b & _ & _ & _ & _ & _ & _ & Ec3 & _).
  assert (T : t4 = [] \/ exists l, t4 = map EClear l).
  { destruct (match sp2 with Some true => false | _ => true end); [|left; mgo H4; reflexivity].
    destruct (reach_walks _ _ _ Hre) as (W & _). apply (clean_spec (pubq (tracked (outRecs (x_recs (s_ctx s)))))) in H4; [|rewrite Ec3, Ec; exact W].
    destruct H4 as (_ & _ & ->). destruct (x_retr _); eauto. }
  assert (ti = []) as -> by (destruct (status_beq st3 Success); mgo H2; reflexivity).
  rewrite app_nil_r. destruct T as [->|(l & ->)]; [reflexivity|]. clear. induction l; auto.
Qed.
Lemma region_null ci w rl tmo s st sp s' t : x_status (s_ctx s) = NotConnected -> p_topic w = None -> region G ci (Some w) rl tmo s = Ret (st, sp) s' t ->
  st = BadParameter /\ s' = s /\ t = [].
Proof.
  intros Hs Hw H. unfold region, sendConnectWithoutCopy, bind, getc, ret in H. rewrite Hs, Hw in H. cbn [status_beq andb app] in H. repeat split; congruence.
Qed.
Lemma connect_pkt ci will rl total vs : con_sound ci will -> getConnectPacketSize ci will = (Success, Some (rl, total)) ->
  match will with Some w => p_topic w <> None | None => True end -> connect_vectors ci will rl = Ok vs ->
  exists cm, concat vs = connect_packet cm /\ pkt_ok (KConnect cm) /\ cm_clean cm = c_clean ci.
Proof.
  intros Hs Hz Hw Hv.
  assert (Hid : c_id ci <> None). { intro E. unfold getConnectPacketSize in Hz. rewrite E, orb_true_r in Hz. discriminate. }
  destruct (con_sound_means _ _ Hs Hid Hw) as (cm & Hm).
  assert (Hne : cm_id cm <> []).
  { intro Ei. unfold getConnectPacketSize in Hz. destruct Hm as (_ & _ & _ & Hi & _). apply holds_len in Hi. rewrite Ei in Hi.
    change (zlen []) with 0 in Hi. replace (c_idlen ci =? 0) with true in Hz by lia. discriminate. }
  pose proof Hz as Hz'. rewrite (connect_size_ok _ _ _ Hm Hne) in Hz'. destruct (will_fits cm) eqn:Ew; [|discriminate].
  assert (rl = zlen (connect_body cm)) by congruence. subst rl.
  destruct (connect_vectors_ok _ _ _ Hm Ew) as (vs' & Ev' & Ec). assert (vs' = vs) by congruence. subst vs'. exists cm. split; [exact Ec|].
  split; [|symmetry; apply Hm].
  destruct Hs as (S1 & S2 & S3 & S4 & S5 & S6 & S7 & S8). unfold u16_ok in *.
  assert (B : zlen (connect_body cm) <= max_remaining).
  { apply (connect_size_max ci will _ total) in Hz; try lia. destruct will as [w|]; auto. destruct S8 as ((P1 & P2 & P3 & P4) & _). unfold u16_ok in *. lia. }
  destruct Hm as (M1 & M2 & M3 & M4 & M5 & M6 & M7 & M8). cbn [pkt_ok]. unfold u16_ok.
  split; [lia|]. split; [apply holds_len in M4; unfold str_ok; lia|].
  split; [unfold holds_opt, opt_ok, str_ok in *; destruct (cm_user cm); auto; destruct M6 as (M6 & ?); apply holds_len in M6; lia|].
  split; [unfold holds_opt, opt_ok, str_ok in *; destruct (cm_pass cm); auto; destruct M7 as (M7 & ?); apply holds_len in M7; lia|].
  split; [|exact B]. unfold will_fits in Ew. destruct will as [w|], (cm_will cm) as [wm|]; try contradiction; auto.
  destruct M8 as (_ & _ & M8 & M9 & _). apply holds_len in M8. unfold str_ok. lia.
Qed.
Lemma view_reset c : view n m (resetRecs c) = snd (spec_step (view n m c) NewSession).
Proof.
  assert (K : forall o, tracked (set_arr o (repeat empty_rec (length (arr o)))) = []).
  { intro o. unfold tracked. rewrite arr_set_arr by (now rewrite repeat_length). generalize (length (arr o)). intro k. unfold abs. induction k; auto. }
  unfold view, resetRecs. cbn [outRecs inRecs spec_step snd cap_out cap_in]. now rewrite !K.
Qed.
(** only reading *)
Lemma wait_reads cl t : recv_only t -> errs t = false -> forall c se i bs, exists l, Says t l /\ Run rt cn (mkM c se i (Wait cl bs)) l (mkM c se i (Wait cl (bs ++ ins t))) /\ Forall (fun x => starts x = false) l.
Proof.
  unfold recv_only. induction t as [|e t IH]; intros H He c se i bs.
  - exists []. cbn. rewrite app_nil_r. repeat constructor.
  - cbn [forallb] in H. apply andb_true_iff in H. destruct H as (H1 & H2). unfold errs in He. cbn [existsb] in He. apply orb_false_iff in He. destruct He as (E1 & E2).
    destruct e; try discriminate. destruct (IH H2 E2 c se i (bs ++ bs0)) as (l & S & R & U). exists (Did (EIn bs0) :: l). split; [now apply says_did|]. split; [|now constructor].
    change (Did (EIn bs0) :: l) with ([Did (EIn bs0)] ++ l). eapply run_step; [apply s_wait_read|].
    change (ins (EIn bs0 :: t)) with (bs0 ++ ins t). rewrite app_assoc. exact R.
Qed.
Lemma failed_reads t : recv_only t -> forall c se i, exists l, Says t l /\ Run rt cn (mkM c se i Failed) l (mkM c se i Failed) /\ Forall (fun x => starts x = false) l.
Proof.
  unfold recv_only. induction t as [|e t IH]; intros H c se i.
  - exists []. repeat constructor.
  - cbn [forallb] in H. apply andb_true_iff in H. destruct H as (H1 & H2). destruct (IH H2 c se i) as (l & S & R & U). exists (Did e :: l).
    split; [apply says_did; auto; destruct e; discriminate || reflexivity|]. split; [|now constructor]. change (Did e :: l) with ([Did e] ++ l).
    destruct e; try discriminate; (eapply run_step; [|exact R]); [apply s_failed_read|apply s_failed_error].
Qed.
Lemma clears_say l : Says (map EClear l) (map (fun id => Did (EClear id)) l).
Proof. induction l; cbn [map]; [constructor|]. now apply says_did. Qed.

Definition after_region (st : status) (sp : option bool) : job :=
  match st with
  | Success => match sp with Some true => Resume | _ => Idle end
  | StConnected | StDisconnectPending => Idle
  | _ => Failed
  end.
Lemma region_does ci will rl total tmo s st sp s' t : (x_status (s_ctx s) = NotConnected -> cc = true) -> Inv s -> rx_all G s -> con_sound ci will -> getConnectPacketSize ci will = (Success, Some (rl, total)) ->
  region G ci will rl tmo s = Ret (st, sp) s' t -> does s Idle s' (after_region st sp) t.
Proof.
  intros Hcc HI Hr Hs Hz H. pose proof HI as ((Hre & _) & Hrt & _). pose proof H as H0. apply (region_spec G n m) in H; auto; [|apply Hr].
  assert (Refuse : forall u, does u Idle u Failed []) by (intro u; apply does_quiet, s_refused).
  destruct H as [[(Es & -> & -> & -> & ->)|(Es & -> & -> & -> & ->)]|(Es & H)]; [apply does_refl..|].
  assert (Hw : match will with Some w => p_topic w <> None | None => True end \/ st = BadParameter /\ s' = s /\ t = []).
  { destruct will as [w|]; auto. destruct (p_topic w) eqn:E; [left; discriminate|right]. eapply region_null; eauto. }
  destruct Hw as [Hw|(-> & -> & ->)]; [|apply Refuse].
  destruct H as [(-> & -> & -> & ->)|(vs & ok & s1 & t1 & Hv & H1 & H)]; [apply Refuse|].
  destruct (connect_pkt _ _ _ _ _ Hs Hz Hw Hv) as (cm & Ec & Hok & Hcl). rewrite Ec in H1. change (connect_packet cm) with (bytes (KConnect cm)) in H1.
  pose proof (sentb_recs _ _ _ _ _ H1) as E1. pose proof (sentb_next _ _ _ _ _ H1) as E2. destruct (sentb_nc _ _ _ _ _ Es H1) as (lt & Ecx).
  assert (Es1 : x_status (s_ctx s1) = NotConnected) by (rewrite Ecx; exact Es).
  assert (D1 : does s Idle s1 (if ok then Wait (c_clean ci) [] else Failed) t1).
  { destruct (sentb_says _ _ _ _ _ H1) as (l & S1 & S2). rewrite Es, Es1 in S2. eapply does_step; [exact S1|unfold unstarted; rewrite (Hcc Es); discriminate|]. unfold MachProofs.ms.
    rewrite (session_same n m _ _ E1), E2, Es, Es1, <- Hcl. now apply s_connect with (m := cm). }
  destruct H as [(-> & -> & -> & -> & ->)|(-> & st2 & s2 & t2 & Hw2 & H)]; [exact D1|].
  pose proof Hw2 as (bs & b & Q1 & Q2 & Q3 & Q4 & Q5 & Q6 & Q7 & K).
  assert (M12 : forall j, ms s2 j = ms s1 j).
  { intro j. unfold MachProofs.ms. rewrite (session_same n m s1 s2) by (rewrite Q7; reflexivity). rewrite Q7. reflexivity. }
  destruct H as [(Hne & -> & -> & ->)|[(-> & -> & -> & -> & ->)|(-> & -> & -> & -> & ->)]].
  - eapply does_trans; [exact D1|]. destruct (failed_reads _ Q2 (x_status (s_ctx s1)) (session_of n m s1) (x_nextId (s_ctx s1))) as (l & S & R & U).
    assert (Ef : after_region st2 sp = Failed) by (destruct K as [(-> & _)|[(-> & _)|[->|[->| ->]]]]; auto; contradiction). rewrite Ef.
    exists l. split; auto. split; [|intros _; exact U]. change l with ([] ++ l). rewrite M12. eapply run_step; [apply s_wait_end|exact R].
  - destruct K as [(_ & p & E & Ep & _)|[(? & _)|[?|[?| ?]]]]; try discriminate. assert (p = false) by congruence. subst p. rewrite E in Q1.
    assert (He : errs t2 = false). { apply region_calm in H0; auto; [|apply Hr]. rewrite !errs_app in H0. apply orb_false_iff in H0. destruct H0 as (_ & H0). apply orb_false_iff in H0. apply H0. }
    destruct (wait_reads (c_clean ci) _ Q2 He (x_status (s_ctx s1)) (session_of n m s1) (x_nextId (s_ctx s1)) []) as (l & S & R & U). cbn [app] in R. rewrite Q1 in R.
    eapply does_trans; [exact D1|]. eapply (does_trans n m rt cn _ _ s2 (Wait (c_clean ci) [32; 2; 0; 0])).
    { exists l. split; auto. split; [|intros _; exact U]. rewrite M12. exact R. }
    cbn [after_region]. eapply does_step with (l := if rt then map (fun id => Did (EClear id)) (unacked (sent (session_of n m s2))) else []).
    { rewrite Hrt. destruct rt; [|constructor]. replace (unacked (sent (session_of n m s2))) with (pubq (tracked (outRecs (x_recs (s_ctx s))))); [apply clears_say|].
      unfold session_of, outgoing. cbn [sent]. rewrite Q7. cbn [set_buf x_recs]. rewrite E1. reflexivity. }
    { intros _. destruct rt; [|constructor]. generalize (unacked (sent (session_of n m s2))). intro q. induction q; constructor; auto. }
    assert (Ev : session_of n m (mkSt (connected (cleaned (s_ctx s2)) (c_keepalive ci)) (s_env s2)) = snd (spec_step (session_of n m s2) NewSession)).
    { exact (view_reset (x_recs (s_ctx s2))). }
    unfold MachProofs.ms. rewrite Ev. apply (s_new_session rt cn).
  - destruct K as [(_ & p & E & Ep & Hp)|[(? & _)|[?|[?| ?]]]]; try discriminate. assert (p = true) by congruence. subst p. rewrite E in Q1.
    assert (He : errs t2 = false). { apply region_calm in H0; auto; [|apply Hr]. rewrite !errs_app in H0. apply orb_false_iff in H0. apply H0. }
    destruct (wait_reads (c_clean ci) _ Q2 He (x_status (s_ctx s1)) (session_of n m s1) (x_nextId (s_ctx s1)) []) as (l & S & R & U). cbn [app] in R. rewrite Q1 in R.
    eapply does_trans; [exact D1|]. rewrite <- (app_nil_r t2). eapply (does_trans n m rt cn _ _ s2 (Wait (c_clean ci) [32; 2; 1; 0])).
    { exists l. split; auto. split; [|intros _; exact U]. rewrite M12. exact R. }
    assert (Ec0 : c_clean ci = false) by (destruct (c_clean ci); auto; specialize (Hp eq_refl); discriminate). rewrite Ec0. cbn [after_region].
    apply does_quiet. unfold MachProofs.ms. apply (s_old_session rt cn).
Qed.
End MP4.
