(** Final lemmas about termination, and the clocks under which it fails. *)
From Verif Require Import Base StateModel StateSpec StateHarness StateProofs SerModel CoreModel CoreHarness CoreProofs CoreTime CoreProofs25.

Lemma calls_bounded : forall G D K last s l, clock_suits G D -> 0 <= K -> largest < g_M G ->
  1 <= zlen (x_buf (s_ctx s)) < g_M G -> 0 <= x_index (s_ctx s) <= zlen (x_buf (s_ctx s)) ->
  ticking D last (e_times (s_env s)) -> Forall (fun o => ops_msgs o <= K) (e_cbs (s_env s)) -> Forall (call_suits D) l ->
  let N := zlen (arr (outRecs (x_recs (s_ctx s)))) in
  let msgs := calls_sum (call_msgs N K) l in
  let reads := calls_sum (call_recvs G) l in
  msgs * msg_sends G <= zlen (e_sends (s_env s)) -> reads <= zlen (e_recvs (s_env s)) ->
  calls_sum (call_times G N K) l <= zlen (e_times (s_env s)) ->
  match run_calls G l s with
  | Ret rs s' t => sendn t <= msgs * msg_sends G /\ recvn t <= reads
  | Undef => True
  | Stuck => False
  end.
Proof.
  intros G D K last s l HC HK HM HB HX HT HO HL N msgs reads H1 H2 H3.
  assert (HI : Inv D (zlen (x_buf (s_ctx s))) N K last s).
  { split; [exact HT|]. split; [exact HO|]. split; [reflexivity|]. split; [reflexivity|lia]. }
  pose proof (Bd_calls G D (zlen (x_buf (s_ctx s))) N K HC ltac:(lia) ltac:(lia) HK l ltac:(unfold N, zlen; lia) HL last s HI H1 H2 H3) as HA.
  destruct (run_calls G l s) as [rs s' t| |]; auto. destruct HA as (_ & _ & (_ & _ & U3 & U4 & _)). split; assumption.
Qed.

(** ** A clock that stands still *)
Lemma frozen_sendb G fuel : forall rest b x sent s n m, 0 < g_sendto G -> 0 <= sent < b ->
  e_sends (s_env s) = repeat 0 n -> e_times (s_env s) = repeat x m ->
  sendb_loop G fuel rest b (u32 x) sent s = Stuck.
Proof.
  induction fuel as [|fuel IH]; intros rest b x sent s n m HG Hs E1 E2; [reflexivity|]. cbn [sendb_loop].
  replace ((sent <? b) && (0 <=? sent)) with true by (symmetry; apply andb_true_intro; lia).
  unfold bind at 1. unfold tsend. rewrite E1. destruct n as [|n]; [reflexivity|]. cbn [repeat]. replace (0 <? 0) with false by lia.
  replace (Z.min 0 (zlen rest)) with 0 by (unfold zlen; lia). cbv iota beta.
  unfold bind at 1. cbn [Z.ltb Z.compare ret]. unfold bind at 1. unfold getTime. cbn [s_env env_sends e_times]. rewrite E2.
  destruct m as [|m]; [reflexivity|]. cbn [repeat].
  unfold elapsed. rewrite Z.sub_diag. change (u32 0) with 0. replace (g_sendto G <=? 0) with false by lia.
  rewrite (IH _ _ _ _ _ n m); auto.
Qed.
Lemma frozen_ping : forall G s n m x, 0 < g_sendto G -> x_status (s_ctx s) = Connected ->
  e_sends (s_env s) = repeat 0 n -> e_times (s_env s) = repeat x m -> run_call G (COp OPing) s = Stuck.
Proof.
  intros G s n m x HG HS E1 E2. cbn [run_call run_op]. unfold ping.
  unfold bind at 1. unfold lift at 1. change (serializePingreq (Some (repeat 0 2))) with (Ok (Success, Some [192; 0])). cbv iota beta.
  cbn [status_beq]. unfold bind at 1. unfold getc. unfold must_be_connected. rewrite HS. cbn [status_beq].
  unfold bind at 1. unfold sendBuffer at 1. unfold bind at 1. unfold getTime. rewrite E2. destruct m as [|m]; [reflexivity|]. cbn [repeat].
  unfold bind at 1. unfold gete. rewrite (frozen_sendb G _ _ _ x 0 _ n m); auto. cbn. lia.
Qed.

(** ** A server that says nothing *)
Lemma silent_header s n r s' t : e_recvs (s_env s) = repeat 0 n -> getIncomingHeader s = Ret r s' t ->
  r = (NoDataAvailable, None) /\ t = [EIn []] /\ exists m, e_recvs (s_env s') = repeat 0 m.
Proof.
  intros E H. unfold getIncomingHeader, getIncomingPacketTypeAndLength, pull_recv, trecv in H. rewrite E in H. destruct n as [|n]; cbn [repeat] in H.
  - change (-1 =? 1) with false in H. change (-1 =? 0) with false in H. cbv iota in H. discriminate.
  - change (0 <? 0) with false in H. change (Z.to_nat (Z.min 0 1)) with 0%nat in H. cbn [firstn] in H. change (zlen []) with 0 in H.
    change (0 =? 1) with false in H. change (0 =? 0) with true in H. cbv iota in H. injection H as <- <- <-. split; [reflexivity|]. split; [reflexivity|]. now exists n.
Qed.
Lemma silent_connack G fuel : forall t0 lc s n r s' t, 0 <= lc <= g_retry G -> g_retry G <= 65535 -> e_recvs (s_env s) = repeat 0 n ->
  connack_loop G fuel 0 t0 lc s = Ret r s' t -> r = (NoDataAvailable, None) /\ recvn t = g_retry G - lc + 1 /\ sendn t = 0 /\ ins t = [].
Proof.
  induction fuel as [|fuel IH]; intros t0 lc s n r s' t Hl Hg E H; cbn [connack_loop] in H; [discriminate|].
  apply bind_inv in H. destruct H as (a & s1 & t1 & t2 & H1 & H & ->). apply (silent_header s n) in H1; [|exact E]. destruct H1 as (-> & -> & (m & E')).
  cbv iota beta in H. apply bind_inv in H. destruct H as (a & s2 & t3 & t4 & H1 & H & ->). change (0 <? 0) with false in H1. cbv iota in H1.
  apply ret_inv in H1. destruct H1 as (-> & -> & ->). cbv iota beta in H. cbn [status_beq andb] in H. cbn [app].
  change (EIn [] :: ?x) with ([EIn []] ++ x). rewrite recvn_app, sendn_app. change (recvn [EIn []]) with 1. change (sendn [EIn []]) with 0. change (ins ([EIn []] ++ t4)) with (ins t4).
  destruct (g_retry G <=? lc) eqn:El; cbn [negb] in H.
  - apply ret_inv in H. destruct H as (-> & -> & ->). split; [reflexivity|]. cbn. split; [lia|auto].
  - apply (IH _ _ _ m) in H; auto; [|unfold u16; rewrite Z.mod_small; lia]. destruct H as (-> & H2 & H3 & H4). split; [reflexivity|].
    unfold u16 in H2. rewrite Z.mod_small in H2 by lia. split; [lia|]. split; [lia|exact H4].
Qed.
Lemma send_only_recvn t : send_only t -> recvn t = 0 /\ ins t = [].
Proof.
  unfold send_only. induction t as [|e t IH]; [split; reflexivity|]. cbn [forallb]. intro H. apply andb_prop in H. destruct H as (He & Ht). apply IH in Ht. destruct Ht as (IH1 & IH2).
  change (e :: t) with ([e] ++ t). rewrite recvn_app, IH1. unfold ins in *. rewrite flat_map_app, IH2. destruct e; try discriminate He; split; reflexivity.
Qed.
Lemma silent_connect : forall G ci will s n st sp s' t, 0 <= g_retry G <= 65535 -> e_recvs (s_env s) = repeat 0 n ->
  connect G ci will 0 s = Ret (st, sp) s' t ->
  st <> Success /\ sp = None /\ ins t = [] /\ recvn t = if status_beq st NoDataAvailable then g_retry G + 1 else 0.
Proof.
  intros G ci will s n st sp s' t HG E H. unfold connect in H. destruct (getConnectPacketSize ci will) as (st0, size) eqn:Ez.
  assert (Hz : st0 = Success \/ st0 = BadParameter).
  { unfold getConnectPacketSize in Ez. repeat match type of Ez with (if ?b then _ else _) = _ => destruct b end; try (right; congruence); left; congruence. }
  apply bind_inv in H. destruct H as ((st1, sp1) & s1 & t1 & t2 & H1 & H & ->).
  assert (P : st1 <> Success /\ sp1 = None /\ ins t1 = [] /\ recvn t1 = if status_beq st1 NoDataAvailable then g_retry G + 1 else 0).
  { destruct Hz as [->| ->]; [|apply ret_inv in H1; destruct H1 as (EE & -> & ->); assert (st1 = BadParameter /\ sp1 = None) as (-> & ->) by (split; congruence); repeat split; discriminate].
    destruct size as [(rl, sz)|]; [|exfalso; unfold getConnectPacketSize in Ez; repeat match type of Ez with (if ?b then _ else _) = _ => destruct b end; discriminate].
    apply bind_inv in H1. destruct H1 as (c & s2 & u1 & u2 & G1 & H1 & ->). apply getc_inv in G1. destruct G1 as (-> & -> & ->).
    apply bind_inv in H1. destruct H1 as (st2 & s3 & u3 & u4 & G2 & H1 & ->).
    assert (P2 : (st2 = Success \/ st2 = SendFailed \/ st2 = BadParameter \/ st2 = StConnected \/ st2 = StDisconnectPending) /\ recvn u3 = 0 /\ ins u3 = [] /\ e_recvs (s_env s3) = repeat 0 n).
    { destruct (status_beq _ Success) in G2; [|apply ret_inv in G2; destruct G2 as (-> & -> & ->); split; [destruct (x_status _); auto 6|auto]].
      unfold sendConnectWithoutCopy in G2. destruct (match will with Some _ => _ | None => _ end) in G2; [apply ret_inv in G2; destruct G2 as (-> & -> & ->); auto 8|].
      apply bind_inv in G2. destruct G2 as (vs & s4 & u5 & u6 & G3 & G2 & ->). apply lift_inv in G3. destruct G3 as (_ & -> & ->).
      apply bind_inv in G2. destruct G2 as (r & s5 & u7 & u8 & G3 & G2 & ->). apply sendMessageVector_spec in G3.
      destruct G3 as (k & l & _ & _ & Q3 & (ta & tb & Q4) & _). apply ret_inv in G2. destruct G2 as (-> & -> & ->).
      cbn [app]. rewrite app_nil_r. apply send_only_recvn in Q3. split; [destruct (negb _); auto|]. split; [tauto|]. split; [tauto|]. rewrite Q4. exact E. }
    destruct P2 as (P2 & P3 & P4 & P5).
    apply bind_inv in H1. destruct H1 as ((st3, sp3) & s4 & u5 & u6 & G3 & H1 & ->). cbv iota beta in H1.
    assert (P6 : st3 <> Success /\ sp3 = None /\ ins u5 = [] /\ recvn u5 = if status_beq st3 NoDataAvailable then g_retry G + 1 else 0).
    { destruct (status_beq st2 Success) eqn:E2; [|apply ret_inv in G3; destruct G3 as (EE & -> & ->); assert (st3 = st2 /\ sp3 = None) as (-> & ->) by (split; congruence);
        destruct P2 as [->|[->|[->|[->| ->]]]]; try discriminate E2; repeat split; discriminate].
      unfold receiveConnack in G3. apply bind_inv in G3. destruct G3 as (t0 & s5 & u7 & u8 & G4 & G3 & ->). apply getTime_inv in G4. destruct G4 as (x & rest & _ & -> & -> & ->).
      apply bind_inv in G3. destruct G3 as (e & s6 & u9 & u10 & G4 & G3 & ->). apply gete_inv in G4. destruct G4 as (-> & -> & ->).
      apply bind_inv in G3. destruct G3 as (h & s7 & u11 & u12 & G4 & G3 & ->). apply (silent_connack G _ _ _ _ n) in G4; [|lia|lia|exact P5].
      destruct G4 as (-> & R1 & R2 & R3). cbv iota beta in G3. apply ret_inv in G3. destruct G3 as (EE & -> & ->).
      assert (st3 = NoDataAvailable /\ sp3 = None) as (-> & ->) by (split; congruence). cbn [app]. rewrite app_nil_r. cbn [status_beq]. split; [discriminate|]. split; [reflexivity|]. split; [exact R3|lia]. }
    destruct P6 as (P6 & -> & P7 & P8). assert (E3 : status_beq st3 Success = false) by (destruct st3; try reflexivity; congruence).
    rewrite E3 in H1. cbn [andb] in H1. apply bind_inv in H1. destruct H1 as (st4 & s5 & u7 & u8 & G4 & H1 & ->). apply ret_inv in G4. destruct G4 as (-> & -> & ->).
    rewrite E3 in H1. apply bind_inv in H1. destruct H1 as (w & s6 & u9 & u10 & G4 & H1 & ->). apply ret_inv in G4. destruct G4 as (-> & -> & ->).
    apply ret_inv in H1. destruct H1 as (EE & -> & ->). assert (st1 = st3 /\ sp1 = None) as (-> & ->) by (split; congruence).
    cbn [app]. rewrite app_nil_r, recvn_app. unfold ins in *. rewrite flat_map_app, P4, P7, P8, P3. auto. }
  destruct P as (P1 & -> & P3 & P4). cbv iota beta in H.
  apply bind_inv in H. destruct H as (st2 & s2 & t3 & t4 & H2 & H & ->). rewrite andb_false_r in H2. apply ret_inv in H2. destruct H2 as (-> & -> & ->).
  apply bind_inv in H. destruct H as (u & s3 & t5 & t6 & H2 & H & ->). apply ret_inv in H. destruct H as (EE & -> & ->).
  assert (st = st1 /\ sp = None) as (-> & ->) by (split; congruence).
  assert (t5 = []) as -> by (destruct (_ || _ || _); [apply ret_inv in H2; tauto|apply modc_inv in H2; tauto]).
  rewrite !app_nil_r. auto.
Qed.

(** a clock with a reading per millisecond *)
Definition readings (n : nat) : list Z := map Z.of_nat (seq 1 n).
Lemma ticking_seq D k : forall n, 1 <= D -> ticking D (Z.of_nat n) (map Z.of_nat (seq (S n) k)).
Proof. induction k as [|k IH]; intros n HD; cbn [seq map ticking]; [exact I|]. split; [lia|]. now apply IH. Qed.
Lemma zlen_readings n : zlen (readings n) = Z.of_nat n.
Proof. unfold readings, zlen. now rewrite map_length, seq_length. Qed.
Lemma zlen_zeros n : zlen (repeat 0 n) = Z.of_nat n.
Proof. unfold zlen. now rewrite repeat_length. Qed.
