(** The CONNECT vectors, dropping of packets, and reading the header of a CONNACK. *)
From Verif Require Import Base StateModel SerModel WireSpec SerHarness SerProofs SerProofs2 SerProofs3 SerProofs4 SerProofs5
  CoreModel CoreHarness CoreProofs CoreProofs2 CoreProofs3 CoreProofs4 CoreProofs5.

Lemma u32_id x : 0 <= x < 4294967296 -> u32 x = x.
Proof. intros. unfold u32. now apply Z.mod_small. Qed.

(** ** The vectors of MQTT_Connect *)
Lemma con_hdr c will m : con_means c will m -> will_fits m = true ->
  exists h n, serializeConnectFixedHeader (repeat 0 15, 0%nat) c will (zlen (connect_body m)) = Ok (h, n) /\
    firstn n h = 16 :: varlen (zlen (connect_body m)) ++ mstr [77; 81; 84; 84] ++ [4] ++ [connect_flags m] ++ be16 (cm_keepalive m).
Proof.
  intros Hm Hwf. destruct (con_lens _ _ _ Hm) as (L1 & L2 & L3 & L4 & L5 & L6 & L7 & L8 & L9).
  specialize (L8 Hwf). pose proof (connectFlags_eq _ _ _ Hm) as Hfl.
  destruct Hm as (Hc & Hk & Hkr & Hid & Hidl & Hu & Hp & Hw).
  pose proof (zlen_connect_body m) as HB. set (B := zlen (connect_body m)) in *.
  assert (0 <= B) by (subst B; apply CoreProofs.zlen_nonneg).
  assert (HB2 : B <= 2097151) by lia.
  assert (HeB : remainingLengthEncodedSize B <= 3).
  { clear - HB2. encsz. }
  pose proof (encsize_bounds B) as HeB'.
  unfold serializeConnectFixedHeader. rewrite wr_nil.
  assert (H7 : zlen (repeat 0 15) = 15) by reflexivity. unfold max_remaining in *.
  rewrite put_wrz by (autorewrite with zl; lia). cbn [rbind].
  rewrite encode_wr by (unfold max_remaining; try split; autorewrite with zl; lia). cbn [rbind].
  rewrite (encodeString_wr _ _ _ _ [77;81;84;84]);
    [|left; exists [77;81;84;84]; repeat split; cbn; lia|lia|autorewrite with zl; lia]. cbn [rbind].
  rewrite put_wrz by (autorewrite with zl; lia). cbn [rbind].
  rewrite put_wrz by (autorewrite with zl; lia). cbn [rbind].
  rewrite Hfl, Hk. rewrite be16_eq by lia. rewrite put_wrz by (autorewrite with zl; lia). cbn [rbind app].
  unfold wr. eexists _, _. split; [reflexivity|].
  rewrite firstn_app, Nat.sub_diag, firstn_all. cbn [firstn]. rewrite app_nil_r. rewrite <- !app_assoc. reflexivity.
Qed.

Lemma connect_vectors_ok c will m : con_means c will m -> will_fits m = true ->
  exists vs, connect_vectors c will (zlen (connect_body m)) = Ok vs /\ concat vs = connect_packet m.
Proof.
  intros Hm Hwf. destruct (con_hdr _ _ _ Hm Hwf) as (h & n & Eh & Hh).
  destruct (con_lens _ _ _ Hm) as (L1 & L2 & L3 & L4 & L5 & L6 & L7 & L8 & L9).
  specialize (L8 Hwf).
  pose proof Hm as (Hc & Hk & Hkr & Hid & Hidl & Hu & Hp & Hw).
  unfold connect_vectors. rewrite Eh. cbn [rbind].
  pose proof (holds_len _ _ _ Hid) as HidL. pose proof (CoreProofs.zlen_nonneg (cm_id m)).
  destruct (encodedString_ok (c_id c) (c_idlen c) (cm_id m)) as (ei & -> & Ei & _); [now left|lia|]. cbn [rbind].
  set (w := match will with Some wl => _ | None => _ end).
  assert (Ew : exists x, w = Ok x /\ concat x = match cm_will m with Some w => mstr (wm_topic w) ++ mstr (wm_payload w) | None => [] end).
  { subst w. unfold will_fits in Hwf. destruct will as [w|], (cm_will m) as [wm|]; try contradiction.
    - destruct Hw as (Hq & Hr & Ht & Htl & Hpl). pose proof (holds_len _ _ _ Ht) as K1. pose proof (holds0_len _ _ _ Hpl) as K2.
      pose proof (CoreProofs.zlen_nonneg (wm_topic wm)). pose proof (CoreProofs.zlen_nonneg (wm_payload wm)).
      destruct (encodedString_ok (p_topic w) (p_topiclen w) (wm_topic wm)) as (et & -> & Et & _); [now left|lia|]. cbn [rbind].
      rewrite u16_id by lia.
      destruct (encodedString_ok (p_payload w) (p_paylen w) (wm_payload wm)) as (ey & -> & Ey & _); [assumption|lia|]. cbn [rbind].
      eexists; split; [reflexivity|]. rewrite concat_app, Et, Ey. reflexivity.
    - eexists; split; reflexivity. }
  destruct Ew as (xw & -> & Exw). cbn [rbind].
  set (u := match c_user c with None => _ | Some _ => _ end).
  assert (Eu : exists x, u = Ok x /\ concat x = match cm_user m with Some u => mstr u | None => [] end).
  { subst u. unfold holds_opt in Hu. destruct (cm_user m) as [x|].
    - destruct Hu as [Hu Hl]. pose proof (holds_len _ _ _ Hu) as K. pose proof (CoreProofs.zlen_nonneg x).
      pose proof Hu as (y & Ey & _).
      destruct (encodedString_ok (c_user c) (c_userlen c) x) as (e & -> & Ee & _); [now left|lia|]. rewrite Ey. eauto.
    - rewrite Hu. eexists; split; reflexivity. }
  destruct Eu as (xu & -> & Exu). cbn [rbind].
  set (u := match c_pass c with None => _ | Some _ => _ end).
  assert (Eu : exists x, u = Ok x /\ concat x = match cm_pass m with Some u => mstr u | None => [] end).
  { subst u. unfold holds_opt in Hp. destruct (cm_pass m) as [x|].
    - destruct Hp as [Hp Hl]. pose proof (holds_len _ _ _ Hp) as K. pose proof (CoreProofs.zlen_nonneg x).
      pose proof Hp as (y & Ey & _).
      destruct (encodedString_ok (c_pass c) (c_passlen c) x) as (e & -> & Ee & _); [now left|lia|]. rewrite Ey. eauto.
    - rewrite Hp. eexists; split; reflexivity. }
  destruct Eu as (xp & -> & Exp). cbn [rbind].
  eexists; split; [reflexivity|]. rewrite !concat_app, Ei, Exw, Exu, Exp. cbn [concat]. rewrite app_nil_r, Hh.
  unfold connect_packet, packet. generalize (varlen (zlen (connect_body m))). intro v.
  unfold connect_body. cbn [app]. rewrite <- !app_assoc. cbn [app]. rewrite <- ?app_assoc. reflexivity.
Qed.

(** ** Bytes that are received and thrown away *)
(** The bytes [bs] arrived; of the client state only the contents of the buffer (and,
    after an error, the connection status) changed. *)
Definition soaked (bs : list Z) (err : bool) (s s' : st) (t : list ev) : Prop :=
  ins t = bs /\ recv_only t /\ e_in (s_env s) = bs ++ e_in (s_env s') /\ env_recvd s s' /\
  exists b, zlen b = zlen (x_buf (s_ctx s)) /\ (bytes_ok (x_buf (s_ctx s)) -> bytes_ok bs -> bytes_ok b) /\
  (if err then (exists t0, t = t0 ++ [EInErr] /\ errs t0 = false) /\ s_ctx s' = transport_broke (set_buf (s_ctx s) b)
   else errs t = false /\ s_ctx s' = set_buf (s_ctx s) b).

Lemma soaked_nil s : soaked [] false s s [].
Proof.
  repeat split; auto; [apply env_recvd_refl|]. exists (x_buf (s_ctx s)). rewrite set_buf_id. auto.
Qed.
Lemma store_at_bytes buf off bs : bytes_ok buf -> bytes_ok bs -> bytes_ok (store_at buf off bs).
Proof.
  unfold bytes_ok, store_at. rewrite !Forall_forall. intros H1 H2 x Hx. rewrite !in_app_iff in Hx. destruct Hx as [Hx|[Hx|Hx]]; auto.
  - apply H1. rewrite <- (firstn_skipn (Z.to_nat off) buf). apply in_app_iff. auto.
  - apply H1. rewrite <- (firstn_skipn (Z.to_nat off + length bs) buf). apply in_app_iff. auto.
Qed.
Lemma recvd_soaked bs err s s' t : zlen bs <= zlen (x_buf (s_ctx s)) -> recvd 0 bs err s s' t -> soaked bs err s s' t.
Proof.
  intros Hl (Q1 & Q2 & Q3 & Q4 & Q5). repeat split; auto. exists (store_at (x_buf (s_ctx s)) 0 bs).
  split; [apply store_at_len; lia|]. split; [intros; now apply store_at_bytes|]. exact Q5.
Qed.
Lemma soaked_time bs err s s' t x : soaked bs err s s' t ->
  soaked bs err s (mkSt (s_ctx s') (env_times (s_env s') x)) t.
Proof.
  intros (Q1 & Q2 & Q3 & Q4 & Q5). repeat split; auto.
  eapply env_recvd_trans; [exact Q4|]. exists (e_in (s_env s')), (e_recvs (s_env s')), x. destruct (s_env s'); reflexivity.
Qed.
Lemma soaked_app a b err s s1 s2 t1 t2 : soaked a false s s1 t1 -> soaked b err s1 s2 t2 -> soaked (a ++ b) err s s2 (t1 ++ t2).
Proof.
  intros (Q1 & Q2 & Q3 & Q4 & b1 & Q5 & Q8 & Q6 & Q7) (R1 & R2 & R3 & R4 & b2 & R5 & R8 & R6).
  split; [rewrite ins_app; congruence|]. split; [apply recv_only_app; auto|].
  split; [rewrite Q3, R3; apply app_assoc|]. split; [eapply env_recvd_trans; eauto|].
  exists b2. rewrite Q7 in R5, R6, R8. cbn [set_buf x_buf] in R5, R8. split; [congruence|].
  split. { intros B1 B2. apply Forall_app in B2. destruct B2 as (B2 & B3). auto. }
  destruct err.
  - destruct R6 as ((t0 & -> & R6) & ->). split; [|reflexivity]. exists (t1 ++ t0). rewrite app_assoc, errs_app, Q6. auto.
  - destruct R6 as (R6 & ->). rewrite errs_app, Q6. auto.
Qed.
Lemma soaked_len bs err s s' t : soaked bs err s s' t -> zlen (x_buf (s_ctx s')) = zlen (x_buf (s_ctx s)).
Proof.
  intros (_ & _ & _ & _ & b & Hb & _ & H). destruct err; destruct H as (_ & ->);
    [unfold transport_broke; destruct (cstatus_beq _ _)|]; cbn; exact Hb.
Qed.

Section Drop.
Variable G : cfg.

Lemma discardStored_loop_spec fuel : forall btr rem total s r s' t,
  0 <= total -> rem < 4294967296 -> 0 <= btr ->
  discardStored_loop G fuel btr rem total s = Ret r s' t ->
  exists bs err, soaked bs err s s' t /\ zlen bs <= Z.max 0 (rem - total) /\ total <= r <= Z.max total rem /\
    (r = rem -> err = false /\ zlen bs = rem - total) /\ (total <= rem -> r <> rem -> err = true \/ zlen bs < rem - total).
Proof.
  induction fuel as [|fuel IH]; intros btr rem total s r s' t Ht Hr Hb H; cbn [discardStored_loop] in H; [mgo H|].
  destruct (total <? rem) eqn:E.
  2: { mgo H. exists [], false. split; [apply soaked_nil|]. change (zlen []) with 0. repeat split; lia. }
  set (b := if rem - total <? btr then rem - total else btr) in *.
  assert (Hbb : 0 <= b <= rem - total /\ b <= btr) by (subst b; destruct (rem - total <? btr) eqn:?; lia).
  apply bind_inv in H. destruct H as (x & s1 & t1 & t2 & H1 & H & ->).
  apply recvExact_spec in H1. destruct H1 as (bs & err & Q & Q1 & Q2 & Q3).
  apply recvd_soaked in Q; [|lia]. destruct (x =? b) eqn:Ex; cbn [negb] in H.
  - destruct err; [lia|]. assert (x = zlen bs) by lia. rewrite u32_id in H by lia. apply IH in H; try lia.
    destruct H as (bs2 & err2 & R & R1 & R2 & R3 & R4). exists (bs ++ bs2), err2.
    split; [eapply soaked_app; eauto|]. rewrite CoreProofs.zlen_app. repeat split; try lia.
    + now apply R3.
    + intros _ Hn. destruct R4; auto; lia.
  - mgo H. rewrite app_nil_r. exists bs, err. split; auto. repeat split; try lia. intros _ _. destruct err; [auto|right; lia].
Qed.
Lemma discard_loop_spec fuel : forall btr rem total tmo entry s r s' t,
  0 <= total -> rem < 4294967296 -> 0 <= btr ->
  discard_loop G fuel btr rem total tmo entry s = Ret r s' t ->
  exists bs err, soaked bs err s s' t /\ zlen bs <= Z.max 0 (rem - total) /\ total <= r <= Z.max total rem /\
    (r = rem -> err = false /\ zlen bs = rem - total).
Proof.
  induction fuel as [|fuel IH]; intros btr rem total tmo entry s r s' t Ht Hr Hb H; cbn [discard_loop] in H; [mgo H|].
  destruct (total <? rem) eqn:E.
  2: { mgo H. exists [], false. split; [apply soaked_nil|]. change (zlen []) with 0. repeat split; lia. }
  set (b := if rem - total <? btr then rem - total else btr) in *.
  assert (Hbb : 0 <= b <= rem - total /\ b <= btr) by (subst b; destruct (rem - total <? btr) eqn:?; lia).
  apply bind_inv in H. destruct H as (x & s1 & t1 & t2 & H1 & H & ->).
  apply recvExact_spec in H1. destruct H1 as (bs & err & Q & Q1 & Q2 & Q3).
  apply recvd_soaked in Q; [|lia]. destruct (x =? b) eqn:Ex; cbn [negb] in H.
  - destruct err; [lia|]. assert (x = zlen bs) by lia. rewrite u32_id in H by lia.
    apply bind_inv in H. destruct H as (y & s2 & t3 & t4 & H2 & H & ->). mgo H2. apply (soaked_time _ _ _ _ _ xr) in Q.
    cbn [app]. destruct (tmo <=? _).
    + mgo H. rewrite app_nil_r. exists bs, false. split; [exact Q|]. repeat split; lia.
    + apply IH in H; try lia.
      destruct H as (bs2 & err2 & R & R1 & R2 & R3). exists (bs ++ bs2), err2.
      split; [eapply soaked_app; eauto|]. rewrite CoreProofs.zlen_app. repeat split; try lia. now apply R3.
  - mgo H. rewrite app_nil_r. exists bs, err. split; auto. repeat split; try lia.
Qed.

(** MQTT_ProcessLoop meets a packet larger than the buffer *)
Definition emptied (c : context) : context := set_index (set_buf c (repeat 0 (length (x_buf c)))) 0.
Lemma discardStoredPacket_spec type rem hdr s st s' t :
  rem + hdr < 4294967296 <= g_M G -> 0 <= x_index (s_ctx s) <= zlen (x_buf (s_ctx s)) ->
  discardStoredPacket G type rem hdr s = Ret st s' t ->
  zlen (x_buf (s_ctx s)) < rem + hdr /\
  exists bs err s1 t1, soaked bs err s s1 t1 /\ t = EDrop type rem :: t1 /\
    s' = mkSt (emptied (s_ctx s1)) (s_env s1) /\
    zlen bs <= rem + hdr - x_index (s_ctx s) /\
    (st = RecvFailed /\ (err = true \/ zlen bs < rem + hdr - x_index (s_ctx s)) \/
     st = NoDataAvailable /\ err = false /\ zlen bs = rem + hdr - x_index (s_ctx s)).
Proof.
  intros HM Hi H. unfold discardStoredPacket in H. mgo H. split; [lia|].
  rewrite Z.mod_small in * by lia.
  match goal with HS : discardStored_loop _ _ _ _ _ _ = Ret ?x _ _ |- _ => rename HS into HD; rename x into r end.
  pose proof (CoreProofs.zlen_nonneg (x_buf (s_ctx s))). apply discardStored_loop_spec in HD; try lia.
  destruct HD as (bs & err & Q & Q1 & Q2 & Q3 & Q4). exists bs, err. eexists _, _.
  split; [exact Q|]. cbn [app]. rewrite app_nil_r. split; [reflexivity|]. split; [reflexivity|]. split; [lia|].
  match goal with |- context [?x =? ?y] => destruct (x =? y) eqn:E end; [right|left; split; [reflexivity|]; rewrite Z.sub_0_r in Q4; apply Q4; lia]. split; [reflexivity|]. apply Z.eqb_eq, Q3 in E. split; [apply E|lia].
Qed.

Lemma discardStored_loop_safe fuel : forall btr rem total s, btr <= zlen (x_buf (s_ctx s)) -> 0 <= btr ->
  0 <= total -> rem < 4294967296 ->
  safe (discardStored_loop G fuel btr rem total) s.
Proof.
  induction fuel as [|fuel IH]; intros btr rem total s Hb Hb0 Ht Hr; cbn [discardStored_loop]; [safe1|].
  destruct (total <? rem) eqn:E; [|safe1].
  set (b := if rem - total <? btr then rem - total else btr) in *.
  assert (Hbb : 0 <= b <= rem - total /\ b <= btr) by (subst b; destruct (rem - total <? btr) eqn:?; lia).
  apply safe_bind; [apply recvExact_safe; lia|]. intros x s1 t1 H1.
  apply recvExact_spec in H1. destruct H1 as (bs & err & Q & Q1 & Q2 & Q3).
  apply recvd_soaked in Q; [|lia]. pose proof (soaked_len _ _ _ _ _ Q). destruct (x =? b) eqn:Ex; cbn [negb]; [|safe1].
  apply IH; try lia. unfold u32. lia.
Qed.
Lemma discard_loop_safe fuel : forall btr rem total tmo entry s, btr <= zlen (x_buf (s_ctx s)) -> 0 <= btr ->
  0 <= total -> rem < 4294967296 ->
  safe (discard_loop G fuel btr rem total tmo entry) s.
Proof.
  induction fuel as [|fuel IH]; intros btr rem total tmo entry s Hb Hb0 Ht Hr; cbn [discard_loop]; [safe1|].
  destruct (total <? rem) eqn:E; [|safe1].
  set (b := if rem - total <? btr then rem - total else btr) in *.
  assert (Hbb : 0 <= b <= rem - total /\ b <= btr) by (subst b; destruct (rem - total <? btr) eqn:?; lia).
  apply safe_bind; [apply recvExact_safe; lia|]. intros x s1 t1 H1.
  apply recvExact_spec in H1. destruct H1 as (bs & err & Q & Q1 & Q2 & Q3).
  apply recvd_soaked in Q; [|lia]. pose proof (soaked_len _ _ _ _ _ Q). destruct (x =? b) eqn:Ex; cbn [negb]; [|safe1].
  apply safe_bind; [safe1|]. intros y s2 t2 H2. mgo H2. destruct (tmo <=? _); [safe1|].
  apply IH; cbn [s_ctx]; try lia. unfold u32. lia.
Qed.
Lemma discardStoredPacket_safe type rem hdr s :
  rem + hdr < 4294967296 <= g_M G -> 0 <= x_index (s_ctx s) <= zlen (x_buf (s_ctx s)) -> zlen (x_buf (s_ctx s)) < rem + hdr ->
  safe (discardStoredPacket G type rem hdr) s.
Proof.
  intros HM Hi Hl. unfold discardStoredPacket. apply safe_bind; [safe1|]. intros u s1 t1 H1. mgo H1.
  apply safe_bind; [safe1|]. intros c s2 t2 H2. mgo H2.
  apply safe_bind; [apply safe_massert; lia|]. intros ? s3 t3 H3. mgo H3.
  apply safe_bind; [safe1|]. intros e s4 t4 H4. mgo H4.
  pose proof (CoreProofs.zlen_nonneg (x_buf (s_ctx s))).
  apply safe_bind; [apply discardStored_loop_safe; rewrite ?Z.mod_small; lia|]. intros. apply safe_bind; [safe1|]. intros. safe1.
Qed.

(** the body of a CONNACK *)
Lemma receivePacket_spec rem tmo s st s' t : 0 <= rem < 4294967296 ->
  receivePacket G rem tmo s = Ret st s' t ->
  st = Success /\ (exists bs, recvd 0 bs false s s' t /\ zlen bs = rem /\ rem <= zlen (x_buf (s_ctx s))) \/
  (st = RecvFailed \/ st = NoDataAvailable) /\ exists bs err, soaked bs err s s' t.
Proof.
  intros Hr H. unfold receivePacket in H. apply bind_inv in H. destruct H as (c & s1 & t1 & t2 & H1 & H & ->). mgo H1.
  destruct (zlen (x_buf (s_ctx s)) <? rem) eqn:E.
  - right. unfold discardPacket in H. mgo H.
    match goal with HS : discard_loop _ _ _ _ _ _ _ _ = Ret ?x _ _ |- _ => rename HS into HD; rename x into r end.
    apply discard_loop_spec in HD; try lia; [|apply CoreProofs.zlen_nonneg].
    destruct HD as (bs & err & Q & Q1 & Q2 & Q3). split; [destruct (r =? rem); auto|].
    exists bs, err. cbn [app]. rewrite app_nil_r.
    destruct Q as (A1 & A2 & A3 & A4 & A5). repeat split; auto.
  - apply bind_inv in H. destruct H as (r & s2 & t3 & t4 & H1 & H & ->). mgo H.
    apply recvExact_spec in H1. destruct H1 as (bs & err & Q & Q1 & Q2 & Q3). cbn [app]. rewrite app_nil_r.
    destruct (r =? rem) eqn:Er.
    + left. split; auto. destruct err; [lia|]. exists bs. repeat split; try apply Q; lia.
    + right. split; auto. exists bs, err. apply recvd_soaked; auto. lia.
Qed.
Lemma receivePacket_safe rem tmo s : 0 <= rem < 4294967296 -> safe (receivePacket G rem tmo) s.
Proof.
  intros Hr. unfold receivePacket. apply safe_bind; [safe1|]. intros c s1 t1 H1. mgo H1.
  destruct (zlen (x_buf (s_ctx s)) <? rem) eqn:E.
  - unfold discardPacket. apply safe_bind; [safe1|]. intros c s1 t1 H1. mgo H1.
    apply safe_bind; [safe1|]. intros ? s1 t1 H1. mgo H1. apply safe_bind; [safe1|]. intros ? s1 t1 H1. mgo H1.
    pose proof (CoreProofs.zlen_nonneg (x_buf (s_ctx s))).
    apply safe_bind; [apply discard_loop_safe; cbn [s_ctx]; lia|]. intros. safe1.
  - apply safe_bind; [apply recvExact_safe; lia|]. intros. safe1.
Qed.
End Drop.

(** ** The header of a CONNACK, byte by byte *)
(** [e] is the last (unsuccessful) answer of the transport, if there was one *)
Definition fetched (bs : list Z) (s s' : st) (t : list ev) : Prop :=
  ins t = bs /\ recv_only t /\ e_in (s_env s) = bs ++ e_in (s_env s') /\ env_recvd s s' /\ s_ctx s' = s_ctx s.
Lemma fetched_cons b bs s s1 s2 t1 t2 : fetched [b] s s1 t1 -> fetched bs s1 s2 t2 -> fetched (b :: bs) s s2 (t1 ++ t2).
Proof.
  intros (Q1 & Q2 & Q3 & Q4 & Q5) (R1 & R2 & R3 & R4 & R5).
  split; [rewrite ins_app, Q1, R1; reflexivity|]. split; [apply recv_only_app; auto|].
  split; [rewrite Q3, R3; reflexivity|]. split; [eapply env_recvd_trans; eauto|]. congruence.
Qed.
Lemma pull_recv_spec s t ov r b s' t' : pull_recv (s, t, ov) = (r, b, (s', t', false)) ->
  ov = false /\ exists tn, t' = t ++ tn /\
    (r = 1 /\ fetched [b] s s' tn \/ r <= 0 /\ fetched [] s s' tn).
Proof.
  unfold pull_recv. destruct (trecv 1 s) as [(r', bs) s1 t1| |] eqn:E; try discriminate.
  intro H. assert (K : r = r' /\ b = nth 0 bs 0 /\ s' = s1 /\ t' = t ++ t1 /\ ov = false) by (repeat split; congruence).
  destruct K as (-> & -> & -> & -> & ->). split; auto. exists t1. split; auto.
  apply trecv_inv in E. destruct E as (x & rest & E1 & [(Hx & E2 & -> & ->)|(Hx & k & Ek & E2 & -> & ->)]).
  - assert (r' = x) by congruence. subst r'. right. split; [lia|]. repeat split; auto.
    exists (e_in (s_env s)), rest, (e_times (s_env s)). destruct (s_env s); reflexivity.
  - assert (Hk : Z.of_nat k <= 1) by lia.
    assert (Er : r' = zlen (firstn k (e_in (s_env s))) /\ bs = firstn k (e_in (s_env s))) by (split; congruence).
    destruct Er as (-> & ->).
    assert (F : forall b0, b0 = firstn k (e_in (s_env s)) ->
       fetched b0 s (mkSt (s_ctx s) (env_recv (s_env s) (skipn k (e_in (s_env s))) rest)) [EIn (firstn k (e_in (s_env s)))]).
    { intros b0 ->. split; [cbn; apply app_nil_r|]. split; [reflexivity|]. split; [symmetry; apply firstn_skipn|].
      split; [|reflexivity]. exists (skipn k (e_in (s_env s))), rest, (e_times (s_env s)). destruct (s_env s); reflexivity. }
    destruct (firstn k (e_in (s_env s))) as [|y l] eqn:El.
    + right. split; [cbn; lia|]. now apply F.
    + assert (length (firstn k (e_in (s_env s))) <= 1)%nat by (rewrite firstn_length; lia).
      rewrite El in H0. cbn [length] in H0. destruct l; [|cbn in H0; lia]. left. split; [reflexivity|]. now apply F.
Qed.

Ltac ok3 H := match type of H with Ok (?a, ?b, ?c) = Ok (?x, ?y, ?z) =>
  let E1 := fresh in let E2 := fresh in
  assert (E1 : a = x) by congruence; assert (E2 : b = y) by congruence; rewrite <- ?E1, <- ?E2; reflexivity end.
Lemma pull_loop_spec fuel : forall s t ov a m n rl n' s' t',
  getRemainingLength_loop pull_recv fuel (s, t, ov) a m n = Ok (rl, n', (s', t', false)) ->
  ov = false /\ exists bs e tn, e <= 0 /\ t' = t ++ tn /\ fetched bs s s' tn /\
    getRemainingLength_loop recv1_stream fuel (bs, e) a m n = Ok (rl, n', ([], e)).
Proof.
  induction fuel as [|fuel IH]; intros s t ov a m n rl n' s' t' H; cbn [getRemainingLength_loop] in H; [discriminate|].
  assert (Z0 : forall s, fetched [] s s []) by (intro x; repeat split; auto; apply env_recvd_refl).
  destruct (2097152 <? m) eqn:Em.
  { assert (K : rl = REMAINING_LENGTH_INVALID /\ n' = n /\ s' = s /\ t' = t /\ ov = false) by (repeat split; congruence).
    destruct K as (-> & -> & -> & -> & ->). split; auto. exists [], 0, []. rewrite app_nil_r.
    repeat split; auto; [lia|apply env_recvd_refl|]. cbn [getRemainingLength_loop]. now rewrite Em. }
  destruct (pull_recv (s, t, ov)) as ((r, b), ((s1, t1), ov1)) eqn:E.
  assert (Hov : ov1 = false).
  { destruct (r =? 1).
    - destruct (_ =? REMAINING_LENGTH_INVALID); [congruence|]. destruct (negb _); [|congruence]. apply IH in H. apply H.
    - congruence. }
  subst ov1. apply pull_recv_spec in E. destruct E as (-> & tn & -> & Hr). split; auto.
  destruct Hr as [(-> & F)|(Hr & F)].
  - cbn [Z.eqb Pos.eqb] in H. destruct (_ =? REMAINING_LENGTH_INVALID) eqn:Ei.
    + exists [b], 0, tn. assert (s' = s1 /\ t' = t ++ tn) as (-> & ->) by (split; congruence).
      repeat split; auto; try apply F; [lia|]. cbn [getRemainingLength_loop]. rewrite Em. cbn [recv1_stream Z.eqb Pos.eqb]. rewrite Ei. ok3 H.
    + destruct (negb (Z.land b 128 =? 0)) eqn:Eb.
      * apply IH in H. destruct H as (_ & bs & e & tn2 & He & -> & F2 & K). exists (b :: bs), e, (tn ++ tn2).
        split; auto. split; [now rewrite app_assoc|]. split; [eapply fetched_cons; eauto|].
        cbn [getRemainingLength_loop]. rewrite Em. cbn [recv1_stream Z.eqb Pos.eqb]. rewrite Ei, Eb. exact K.
      * exists [b], 0, tn. assert (s' = s1 /\ t' = t ++ tn) as (-> & ->) by (split; congruence).
        repeat split; auto; try apply F; [lia|]. cbn [getRemainingLength_loop]. rewrite Em. cbn [recv1_stream Z.eqb Pos.eqb]. rewrite Ei, Eb. ok3 H.
  - replace (r =? 1) with false in H by lia. exists [], r, tn. assert (s' = s1 /\ t' = t ++ tn) as (-> & ->) by (split; congruence).
    repeat split; auto; try apply F. cbn [getRemainingLength_loop]. rewrite Em. cbn [recv1_stream]. replace (r =? 1) with false by lia. ok3 H.
Qed.

Lemma getIncomingHeader_spec s st h s' t : getIncomingHeader s = Ret (st, h) s' t ->
  exists bs e, e <= 0 /\ fetched bs s s' t /\
    getIncomingPacketTypeAndLength recv1_stream (bs, e) = Ok (st, h, ([], e)).
Proof.
  unfold getIncomingHeader. intro H.
  destruct (getIncomingPacketTypeAndLength pull_recv (s, [], false)) as [(r, ((s1, t1), ov))|] eqn:E; [|discriminate].
  destruct ov; [discriminate|]. assert (r = (st, h) /\ s1 = s' /\ t1 = t) as (-> & -> & ->) by (repeat split; congruence).
  clear H. unfold getIncomingPacketTypeAndLength in E.
  destruct (pull_recv (s, [], false)) as ((r, b), ((s1, t1), ov1)) eqn:Ep.
  destruct (r =? 1) eqn:Er.
  - destruct (incomingPacketValid b) eqn:Ev.
    + unfold getRemainingLength in E.
      destruct (getRemainingLength_loop pull_recv 5 (s1, t1, ov1) 0 1 0) as [((rl, n), ((s2, t2), ov2))|] eqn:El; [|discriminate].
      cbn [rbind] in E.
      assert (K : ov2 = false /\ s2 = s' /\ t2 = t).
      { destruct (negb _ && negb _); cbn [rbind] in E; destruct (_ =? REMAINING_LENGTH_INVALID) in E; repeat split; congruence. }
      destruct K as (-> & -> & ->). apply pull_loop_spec in El. destruct El as (-> & bs & e & tn & He & -> & F & K).
      apply pull_recv_spec in Ep. destruct Ep as (_ & tn1 & -> & [(-> & F1)|(? & _)]); [|lia].
      exists (b :: bs), e. split; auto. split; [eapply fetched_cons; eauto|].
      unfold getIncomingPacketTypeAndLength. cbn [recv1_stream Z.eqb Pos.eqb]. rewrite Ev. unfold getRemainingLength. rewrite K. cbn [rbind].
      destruct (negb _ && negb _); cbn [rbind] in E |- *; destruct (_ =? REMAINING_LENGTH_INVALID) in E |- *; ok3 E.
    + assert (ov1 = false /\ s1 = s' /\ t1 = t) as (-> & -> & ->) by (repeat split; congruence).
      apply pull_recv_spec in Ep. destruct Ep as (_ & tn1 & -> & [(-> & F1)|(? & _)]); [|lia].
      exists [b], 0. split; [lia|]. split; [exact F1|]. unfold getIncomingPacketTypeAndLength. cbn [recv1_stream Z.eqb Pos.eqb]. rewrite Ev. ok3 E.
  - assert (ov1 = false /\ s1 = s' /\ t1 = t) as (-> & -> & ->) by (destruct (r =? 0); repeat split; congruence).
    apply pull_recv_spec in Ep. destruct Ep as (_ & tn1 & -> & [(-> & F1)|(Hr & F1)]); [discriminate|].
    exists [], r. split; auto. split; [exact F1|]. unfold getIncomingPacketTypeAndLength. cbn [recv1_stream]. rewrite Er.
    destruct (r =? 0); ok3 E.
Qed.

(** What a header read means: nothing there, an error, a well-formed header, or not. *)
Lemma header_read s st h s' t : bytes_ok (e_in (s_env s)) -> getIncomingHeader s = Ret (st, h) s' t ->
  exists bs, fetched bs s s' t /\
    (st = Success /\ (exists ty rl, h = Some (ty, rl) /\ header bs ty rl) \/
     st <> Success /\ h = None /\ (st = NoDataAvailable -> bs = []) /\
       (st = BadResponse \/ st = RecvFailed \/ st = NoDataAvailable)).
Proof.
  intros Hb H. apply getIncomingHeader_spec in H. destruct H as (bs & e & He & F & K). exists bs. split; auto.
  assert (Hbs : bytes_ok bs).
  { destruct F as (_ & _ & E & _). rewrite E in Hb. apply Forall_app in Hb. apply Hb. }
  destruct (pull_agrees bs e Hbs He) as (x & Ex). rewrite K in Ex. assert (Inj : forall A (a b : A), Ok a = Ok b -> a = b) by congruence.
  apply Inj in Ex.
  destruct (hdr_kinds bs Hbs) as [(ty & rl & hl & Kh)|[Kh|[Kh|Kh]]]; rewrite Kh in Ex.
  - left. split; [congruence|]. exists ty, rl. split; [congruence|].
    apply hdr_success_iff in Kh; auto. destruct Kh as (hh & rest & Ebs & Hh & Hl).
    assert (Er : skipn (Z.to_nat hl) bs = []) by congruence.
    subst bs. rewrite Hl in Er. unfold zlen in Er. rewrite Nat2Z.id, skipn_app_exact in Er by reflexivity. subst rest.
    now rewrite app_nil_r.
  - right. destruct (e =? 0); repeat split; try congruence; try (intros; apply hdr_nodata_iff; exact Kh); [right; right|right; left]; congruence.
  - right. repeat split; try congruence. left. congruence.
  - right. repeat split; try congruence. left. congruence.
Qed.
