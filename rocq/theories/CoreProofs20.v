(** What one call of MQTT_ProcessLoop or MQTT_ReceiveLoop does. *)
From Verif Require Import Base StateModel StateSpec StateHarness StateProofs StateProofs2 SerModel WireSpec SerHarness SerProofs SerProofs3 SerProofs4 SerProofs5
  CoreModel CoreSpec CoreHarness CoreProofs CoreProofs2 CoreProofs3 CoreProofs5 CoreProofs6 CoreProofs7 CoreProofs8 CoreProofs9 CoreProofs10
  CoreProofs13 CoreProofs14 CoreProofs16 CoreProofs17 CoreProofs19.

Section Loops.
Variable G : cfg.
Variables n m : nat.

Lemma broke_broken c e : mkSt (transport_broke c) e = broken (mkSt c e).
Proof. unfold broken, transport_broke. cbn [s_ctx s_env]. destruct c as [? ? ? ? []]; reflexivity. Qed.
Lemma only_rx_intro s c e b i inp rv ts :
  c = set_index (set_buf (s_ctx s) b) i -> e = env_times (env_recv (s_env s) inp rv) ts -> only_rx s (mkSt c e).
Proof. intros -> ->. now exists b, i, inp, rv, ts. Qed.
Lemma env_recv_times e i r : env_recv e i r = env_times (env_recv e i r) (e_times e).
Proof. reflexivity. Qed.
Lemma env_same e : e = env_times (env_recv e (e_in e) (e_recvs e)) (e_times e).
Proof. destruct e; reflexivity. Qed.
Lemma ctx_same c : c = set_index (set_buf c (x_buf c)) (x_index c).
Proof. destruct c; reflexivity. Qed.
Lemma emptied_eq c b : emptied (set_buf c b) = set_index (set_buf c (repeat 0 (length b))) 0.
Proof. reflexivity. Qed.
Lemma shifted_eq c n0 : exists b i, shifted c n0 = set_index (set_buf c b) i.
Proof. do 2 eexists. unfold shifted. symmetry. reflexivity. Qed.
Lemma arrived_only bs s s1 : arrived bs s s1 -> only_rx s s1.
Proof.
  intros (_ & (rv & a & E & _) & E' & _). destruct s1 as [c e]. cbn [s_ctx s_env] in *. rewrite env_recv_times in E.
  eapply only_rx_intro; eassumption.
Qed.

Lemma ping_pinged s st s' t : ping G s = Ret st s' t -> pinged s st s' t.
Proof.
  intro H. apply ping_spec in H. destruct H as [(Hc & -> & -> & ->)|(Hc & ok & s1 & Hs & H)].
  - left. rewrite must_be_result by exact Hc. auto.
  - right. split; [exact Hc|]. split; [eapply sent_only_send; eauto|]. pose proof (sentb_recs _ _ _ _ _ Hs) as Er.
    pose proof Hs as Hx. apply sentb_exact in Hx. destruct Hx as (j & J1 & J2 & J3 & J4 & J5 & J6). rewrite Hc in J6.
    split; [exact J3|]. pose proof (sentb_only_tx _ _ _ _ _ Hs) as Ht. destruct H as [(-> & -> & ->)|(-> & -> & ->)].
    + split. { exists s1, (x_pingTime (s_ctx s1)), (x_waiting (s_ctx s1)). split; [exact Ht|]. destruct s1 as [[] ?]; reflexivity. }
      split; [exact J6|]. split; [exact Er|]. left. split.
      { exists j. split; [|exact J2]. destruct (Nat.eq_dec j 2) as [->|]; [|cbn in J1; lia]. destruct J4 as (_ & J4). discriminate (J4 eq_refl). }
      split; [reflexivity|]. destruct Hs as (_ & l & _ & _ & _ & _ & _ & _ & [(_ & ->)|(_ & _ & ->)]); [split; reflexivity|].
      unfold transport_broke. destruct (cstatus_beq _ _); split; reflexivity.
    + split. { exists s1, (x_lastTx (s_ctx s1)), true. auto. }
      split; [exact J6|]. split; [exact Er|]. right. assert (j = 2%nat) by (apply J4; reflexivity). subst j. split; [exact J2|].
      split; [destruct (errs t); [specialize (J5 eq_refl); discriminate|reflexivity]|]. repeat split.
Qed.
Lemma keepAlive_kept s k s' t : handleKeepAlive G s = Ret k s' t -> kept_alive G s k s' t.
Proof.
  intro H. unfold handleKeepAlive in H. apply bind_inv in H. destruct H as (now & s1 & t1 & t2 & H1 & H & ->).
  unfold getTime in H1. destruct (e_times (s_env s)) as [|x l] eqn:Et; [discriminate|].
  assert (now = u32 x) by congruence. assert (s1 = mkSt (s_ctx s) (env_times (s_env s) l)) by congruence. assert (t1 = []) by congruence.
  subst now s1 t1. clear H1. set (s1 := mkSt (s_ctx s) (env_times (s_env s) l)) in *. cbn [app].
  exists (u32 x), s1. split; [exists x, l; auto|].
  apply bind_inv in H. destruct H as (c & s2 & t1 & t3 & H1 & H & ->). apply getc_inv in H1. destruct H1 as (-> & -> & ->). cbn [app].
  change (s_ctx s1) with (s_ctx s) in *. destruct (x_waiting (s_ctx s)).
  { apply ret_inv in H. destruct H as (-> & -> & ->). auto. }
  unfold ping_due. cbv zeta in *. fold (since (u32 x) (x_lastTx (s_ctx s))) in *. change elapsed with since in H.
  assert (Em : (if g_tx G <? u32 (1000 * x_keep (s_ctx s)) then g_tx G else u32 (1000 * x_keep (s_ctx s))) =
     Z.min (1000 * x_keep (s_ctx s) mod 4294967296) (g_tx G)).
  { change (u32 (1000 * x_keep (s_ctx s))) with (1000 * x_keep (s_ctx s) mod 4294967296). generalize (1000 * x_keep (s_ctx s) mod 4294967296). intro w. destruct (g_tx G <? w) eqn:E; lia. }
  rewrite Em in H. set (w := Z.min _ _) in *. set (b1 := negb (w =? 0) && (w <=? since (u32 x) (x_lastTx (s_ctx s)))) in *.
  set (b2 := negb (since (u32 x) (x_lastRx (s_ctx s)) =? 0) && (g_rx G <=? since (u32 x) (x_lastRx (s_ctx s)))) in *.
  destruct b1; [now apply ping_pinged|]. destruct b2; [now apply ping_pinged|]. apply ret_inv in H. exact H.
Qed.

Lemma acked_status v id k op : fst (fst (spec_step v (Acked id k op))) <> NoDataAvailable.
Proof.
  cbn [spec_step]. destruct (id =? 0); [discriminate|]. destruct (concerns_sent k op).
  - destruct (lookup _ id) as [f|]; [|discriminate]. destruct (sender_table _ _ _ _); discriminate.
  - destruct (lookup _ id) as [f|]; [|discriminate]. destruct (receiver_table _ _ _ _); discriminate.
Qed.
Lemma replied_status k id s res s' t : replied n m k id s res s' t -> res <> NoDataAvailable.
Proof.
  intros [(_ & -> & _)|(_ & _ & _ & _ & _ & [(_ & -> & _)|(_ & _ & -> & _)])]; [destruct (x_status (s_ctx s)); discriminate|discriminate|apply acked_status].
Qed.
Lemma handled_status mk ty body s res s' t : packet_handled G n m mk ty body s res s' t -> res <> NoDataAvailable.
Proof.
  intros [].
  - destruct H0; try discriminate; eapply replied_status; eauto.
  - destruct H0; try discriminate; [apply acked_status|]. match goal with K : match reply_to _ with _ => _ end |- _ => destruct (reply_to k); [eapply replied_status; exact K|destruct K as (-> & _); discriminate] end.
  - discriminate.
  - discriminate.
  - discriminate.
  - discriminate.
  - discriminate.
  - discriminate.
  - discriminate.
  - discriminate.
Qed.

Lemma firstn_whole {A} (h body rest : list A) i : (i = length h + length body)%nat -> firstn i (h ++ body ++ rest) = h ++ body.
Proof. intros ->. rewrite app_assoc, <- app_length, firstn_app, Nat.sub_diag, firstn_all. cbn. apply app_nil_r. Qed.
Lemma acted_next mk st s s' t : rx_ok G s -> cbs_ok false s -> Reach n m (x_recs (s_ctx s)) ->
  acted G mk st s s' t -> next_handled G n m mk s st s' t.
Proof.
  intros Hr Hd HR (hs & type & rem & hdr & Hh & H). cbv zeta in H. pose proof Hr as (R0 & R1 & R2 & R3 & R4).
  destruct H as [(Nh & -> & -> & ->)|[(-> & Hl & x & H & E)|[(-> & Hl & -> & -> & ->)|(-> & Hl & data & x & s3 & t4 & s4 & -> & H1 & H2 & -> & E & H)]]].
  - unfold got_header in Hh. replace (status_beq hs Success) with false in Hh by (destruct hs; congruence || reflexivity).
    destruct (hdr_kinds _ R3) as [(a & b & c & K)|[K|[K|K]]]; rewrite K in Hh.
    + exfalso. congruence.
    + assert (hs = NoDataAvailable) as -> by congruence. apply nh_none. now apply hdr_nodata_iff.
    + assert (hs = NeedMoreBytes) as -> by congruence. apply nh_incomplete.
      apply hdr_need_iff in K; auto. destruct K as (Hne & more & ty & rl & Hm & Hh'). split; auto.
      pose proof Hh' as (_ & Hrl & _). assert (L : zlen (repeat 0 (Z.to_nat rl)) = rl) by (unfold zlen; rewrite repeat_length; lia).
      exists (more ++ repeat 0 (Z.to_nat rl)), (pend (s_ctx s) ++ more), ty, (repeat 0 (Z.to_nat rl)).
      split; [destruct more; [contradiction|discriminate]|]. split; [rewrite L; exact Hh'|]. split; [apply app_assoc|].
      intro Z. rewrite CoreProofs.zlen_app in Z. destruct more; [contradiction|]. unfold zlen in Z. cbn [length] in Z. lia.
    + assert (hs = BadResponse) as -> by congruence. apply nh_garbage. now apply hdr_bad_iff.
  - destruct (got_header_range _ _ _ _ _ _ Hr Hh eq_refl) as (G1 & G2 & G3 & G4 & h & rest & Ep & Hhd & El).
    pose proof (pend_len _ _ Hr) as P2. rewrite Ep, CoreProofs.zlen_app in P2.
    apply discardStoredPacket_spec in H; [|lia|exact R1].
    destruct H as (_ & bs & err & s1 & t1 & (I1 & I2 & I3 & (i & ra & rb & I4) & b & I5 & _ & I6) & -> & -> & Hbl & K).
    assert (Ee : errs t1 = err).
    { destruct err; [|apply I6]. destruct I6 as ((t0 & -> & _) & _). unfold errs. rewrite existsb_app. apply orb_true_r. }
    assert (Est : st = if negb err && (zlen (rest ++ ins t1) =? rem) then Success else RecvFailed).
    { rewrite I1, CoreProofs.zlen_app. subst st. destruct K as [(-> & [->|K])|(-> & -> & K)]; [reflexivity|..].
      - replace (_ =? rem) with false by lia. rewrite andb_false_r. reflexivity.
      - replace (_ =? rem) with true by lia. reflexivity. }
    rewrite Est. set (s0 := mkSt (emptied (set_buf (s_ctx s) b)) (s_env s1)).
    apply (nh_skipped G n m mk s h rest type rem s0 err); auto; try lia.
    + rewrite I1, CoreProofs.zlen_app. lia.
    + cbn [s_env]. rewrite I1. exact I3.
    + eapply only_rx_intro; [|exact I4]. apply emptied_eq.
    + unfold s0. destruct err; destruct I6 as (_ & ->); [|reflexivity]. rewrite <- broke_broken. f_equal.
      unfold transport_broke, emptied. destruct (s_ctx s) as [? ? ? ? []]; reflexivity.
  - apply nh_incomplete. destruct (got_header_range _ _ _ _ _ _ Hr Hh eq_refl) as (G1 & G2 & G3 & G4 & h & rest & Ep & Hhd & El).
    pose proof (pend_len _ _ Hr) as P2. split.
    { intro Z. rewrite Z in P2. change (zlen []) with 0 in P2. lia. }
    set (w := rem + hdr - x_index (s_ctx s)).
    assert (Lm : zlen (repeat 0 (Z.to_nat w)) = w) by (unfold zlen; rewrite repeat_length; lia).
    assert (Lb : zlen (rest ++ repeat 0 (Z.to_nat w)) = rem).
    { rewrite Ep, CoreProofs.zlen_app in P2. rewrite CoreProofs.zlen_app, Lm. lia. }
    exists (repeat 0 (Z.to_nat w)), h, type, (rest ++ repeat 0 (Z.to_nat w)). rewrite Lb.
    split. { intro Z. rewrite Z in Lm. change (zlen []) with 0 in Lm. lia. }
    split; auto. split; [rewrite Ep; now rewrite app_assoc|]. lia.
  - destruct (got_header_range _ _ _ _ _ _ Hr Hh eq_refl) as (G1 & G2 & G3 & G4 & h & rest & Ep & Hhd & El).
    set (data := skipn (Z.to_nat hdr) (x_buf (s_ctx s))) in *.
    pose proof (pend_len _ _ Hr) as P2.
    assert (Eb : x_buf (s_ctx s) = pend (s_ctx s) ++ skipn (Z.to_nat (x_index (s_ctx s))) (x_buf (s_ctx s))) by (unfold pend; symmetry; apply firstn_skipn).
    assert (Ed : data = rest ++ skipn (Z.to_nat (x_index (s_ctx s))) (x_buf (s_ctx s))).
    { unfold data. rewrite Eb at 1. rewrite Ep at 1. rewrite <- app_assoc. replace (Z.to_nat hdr) with (length h) by (unfold zlen in El; lia).
      rewrite skipn_app, skipn_all, Nat.sub_diag. reflexivity. }
    assert (Lr : zlen h + zlen rest = x_index (s_ctx s)) by (rewrite <- P2, Ep, CoreProofs.zlen_app; reflexivity).
    set (body := firstn (Z.to_nat rem) data).
    assert (Ebody : body = firstn (Z.to_nat rem) rest).
    { unfold body. rewrite Ed, firstn_app. replace (Z.to_nat rem - length rest)%nat with 0%nat by (unfold zlen in *; lia). cbn. apply app_nil_r. }
    assert (Lbody : zlen body = rem) by (rewrite Ebody, CoreProofs.zlen_firstn; lia).
    assert (Hrest : rest = body ++ skipn (Z.to_nat rem) rest) by (rewrite Ebody; symmetry; apply firstn_skipn).
    assert (Hty : is_byte type).
    { destruct Hhd as (_ & _ & ->). rewrite Ep in R3. inversion R3. assumption. }
    assert (Hdata : 0 <= rem <= zlen data).
    { rewrite Ed, CoreProofs.zlen_app. pose proof (CoreProofs.zlen_nonneg (skipn (Z.to_nat (x_index (s_ctx s))) (x_buf (s_ctx s)))). lia. }
    assert (P : packet_handled G n m mk type body s x s3 t4).
    { apply packet_handled_ok; auto; try lia. fold body. rewrite Ep, Hrest in R3. apply Forall_app in R3. destruct R3 as (_ & R3). apply Forall_app in R3. apply R3. }
    assert (SR : same_rx s s3) by (eapply path_same_rx, dispatch_path; eauto).
    pose proof (same_rx_ok _ _ _ SR Hr) as Hr3. pose proof SR as (B1 & B2 & B3 & B4).
    apply shift_spec in H2; auto; [|lia]. destruct H2 as (-> & _).
    destruct (shifted_pend G (rem + hdr) s3 (s_env s3) Hr3) as (_ & S1 & _); [lia|reflexivity|].
    assert (Epend : pend (shifted (s_ctx s3) (rem + hdr)) = skipn (Z.to_nat rem) rest).
    { rewrite S1. unfold pend. rewrite B1, B2. fold (pend (s_ctx s)). rewrite Ep, skipn_app.
      rewrite skipn_all2 by (unfold zlen in *; lia). cbn [app]. f_equal. unfold zlen in *. lia. }
    assert (Er : st = x).
    { subst st. unfold final. apply handled_status in P. destruct x; congruence || reflexivity. }
    rewrite Er. apply (nh_packet G n m mk s h type body (skipn (Z.to_nat rem) rest) x s3); auto.
    + now rewrite Lbody.
    + rewrite Ep. now rewrite <- Hrest.
    + lia.
    + destruct (shifted_eq (s_ctx s3) (rem + hdr)) as (b & i & Es). exists b, i. destruct (status_beq x Success).
      * destruct H as (now & l & Hl' & ->). cbn [s_ctx s_env] in *. rewrite Es. exists now, l. split; [exact Hl'|reflexivity].
      * subst s'. now rewrite Es.
    + destruct (status_beq x Success); [destruct H as (now & l & _ & ->)|subst s']; exact B3.
    + destruct (status_beq x Success); [destruct H as (now & l & _ & ->)|subst s']; exact Epend.
Qed.

Lemma iteration_handled mk s st s' t : rx_ok G s -> cbs_ok false s -> Reach n m (x_recs (s_ctx s)) ->
  receiveSingleIteration G mk s = Ret st s' t -> loop_handled G n m mk s st s' t.
Proof.
  intros Hr Hd HR H. apply iteration_spec in H; auto.
  destruct H as [(-> & -> & Ec & rv & a & Ee & _)|(bs & s1 & k & s2 & t2 & t3 & A & -> & Hk & H)].
  { destruct s' as [c' e']. cbn [s_ctx s_env] in *. subst c' e'. rewrite broke_broken.
    apply lh_error; [|reflexivity..].
    eapply only_rx_intro; [apply ctx_same|apply env_recv_times]. }
  destruct (arrived_pend _ _ _ _ Hr A) as (Hr1 & Ep). pose proof (arrived_cbs false _ _ _ A Hd) as Hd1.
  pose proof (arrived_framed _ _ _ _ Hr A) as (Fz & _).
  assert (HR1 : Reach n m (x_recs (s_ctx s1))) by (destruct A as (_ & _ & -> & _); exact HR).
  assert (P : Path false s1 s2 t2).
  { destruct ((zlen bs =? 0) && mk); [eapply keepAlive_path; eauto|]. destruct Hk as (_ & -> & ->). constructor. }
  pose proof (path_cbs _ _ _ _ P Hd1) as Hd2. pose proof (path_reach _ _ _ _ _ _ P HR1) as HR2.
  apply path_same_rx in P. destruct P as (P & _). pose proof (same_rx_ok _ _ _ P Hr1) as Hr2.
  rewrite andb_comm in Hk.
  apply (lh_read G n m mk s bs s1 k s2 t2); auto.
  - now apply arrived_only in A.
  - destruct A as (_ & (rv & a & E & _) & _). rewrite E. reflexivity.
  - apply A.
  - destruct (mk && (zlen bs =? 0)); [now apply keepAlive_kept|exact Hk].
  - destruct H as [(Nk & -> & -> & ->)|(-> & H)]; [left|right; split; [reflexivity|now apply acted_next]].
    split; [exact Nk|]. split; [|auto].
    destruct (mk && (zlen bs =? 0)); [|destruct Hk; congruence].
    apply keepAlive_kinds in Hk. destruct Hk as [->|[->|[->|[->| ->]]]]; reflexivity || congruence.
Qed.
End Loops.
