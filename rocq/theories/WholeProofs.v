(** A call that does not report MQTTSendFailed has sent whole packets (C117). *)
From Verif Require Import Base StateModel StateSpec StateHarness StateProofs StateProofs2 SerModel WireSpec SerHarness SerProofs SerProofs2 SerProofs3 SerProofs4 SerProofs5
  CoreModel CoreHarness CoreSpec CoreProofs CoreProofs2 CoreProofs3 CoreProofs4 CoreProofs5 CoreProofs6 CoreProofs7 CoreProofs8 CoreProofs9 CoreProofs10 CoreProofs11 CoreProofs12 CoreProofs13
  CoreProofs14 CoreProofs15 CoreProofs16 CoreProofs22 CoreFinal DrainProofs.

(** [b] is a packet that the call [c] may send; [t]: what happened meanwhile *)
Definition packet_of (M : Z) (c : call) (t : list ev) (b : list Z) : Prop :=
  match c with
  | COp o => op_packet M o b
  | CConnect ci will _ => (exists cm, con_means ci will cm /\ b = connect_packet cm) \/ (exists id, b = pubrel id) \/ (exists id, In (ERetrieve id (Some b)) t)
  | CProcess => b = pingreq_packet \/ exists k id, b = ack_packet k id
  | CReceive => exists k id, b = ack_packet k id
  end.
(** the arguments of the call describe a packet, or it sends none *)
Definition describes (M : Z) (c : call) : Prop :=
  match c with
  | COp (OGetId | OCancel _ | OCheck) => True
  | COp o => exists b, op_packet M o b
  | CConnect ci will _ => exists cm, con_means ci will cm
  | _ => True
  end.
(** the bytes sent are some packets of the call, each of them complete *)
Definition whole_packets (P : list Z -> Prop) (t : list ev) : Prop := exists bss, outs t = concat bss /\ Forall P bss.

Lemma whole_none (P : list Z -> Prop) t : outs t = [] -> whole_packets P t.
Proof. intro H. exists []. auto. Qed.
Lemma whole_one (P : list Z -> Prop) t b : outs t = b -> P b -> whole_packets P t.
Proof. intros H Hb. exists [b]. cbn. rewrite app_nil_r. auto. Qed.
Lemma whole_app P a b : whole_packets P a -> whole_packets P b -> whole_packets P (a ++ b).
Proof. intros (x & E1 & F1) (y & E2 & F2). exists (x ++ y). rewrite outs_app, concat_app, E1, E2. split; auto. now apply Forall_app. Qed.
Lemma whole_mono (P Q : list Z -> Prop) t : (forall b, P b -> Q b) -> whole_packets P t -> whole_packets Q t.
Proof. intros K (x & E & F). exists x. split; auto. eapply Forall_impl; eauto. Qed.
Lemma in_retrieved t id r : In (id, r) (retrieved t) -> In (ERetrieve id r) t.
Proof. unfold retrieved. intro H. apply in_flat_map in H. destruct H as (e & He & H). destruct e; cbn in H; try contradiction. destruct H as [H|[]]. now injection H as -> ->. Qed.

Section Whole.
Variable G : cfg.
Lemma publish_whole p id m s st s' t : pub_means p id m -> publish G p id s = Ret st s' t -> st <> SendFailed ->
  outs t = [] \/ outs t = publish_packet m.
Proof.
  intros Hm H N. apply publish_spec in H.
  destruct H as [(-> & -> & Hr & _)|(Hc & Hv & rl & ps & h & hs & rst & r1 & K1 & K2 & K3 & K4)]; [now left|].
  destruct (publish_prepared _ _ _ _ _ _ _ Hm K1 K2) as (Hne & Hmax & -> & -> & (vs & Ev & Ec) & _).
  cbv zeta in K4.
  destruct K4 as [(Hn & -> & -> & ->)|(-> & vd & ok & e & te & S1 & S2 & S3)]; [now left|].
  pose proof (store_outs _ _ _ _ _ _ _ _ S1) as So.
  destruct S3 as [(-> & -> & -> & ->)|(-> & vs' & sok & t1 & s1 & S3 & S4 & -> & S5)]; [now left|].
  assert (vs' = vs) by congruence. subst vs'. rewrite Ec in S4.
  destruct S5 as [(_ & -> & _)|(-> & _)]; [contradiction|]. right. apply sentb_true in S4. now rewrite outs_app, So, S4.
Qed.
Lemma sentst_whole bs ok s s' t : sentb bs s ok s' t -> sendst ok <> SendFailed -> outs t = bs.
Proof. destruct ok; [intros H _; now apply sentb_true in H|intros _ H; now destruct H]. Qed.
Lemma op_whole o bs s st s' t : 4294967296 <= g_M G -> g_big G = false -> op_packet (g_M G) o bs ->
  run_op G o s = Ret st s' t -> st <> SendFailed -> outs t = [] \/ outs t = bs.
Proof.
  intros HM Hb Ho H N. destruct Ho; cbn [run_op] in H.
  - eapply publish_whole; eauto.
  - eapply subscribe_spec in H; eauto. destruct (_ || _); [destruct H as (_ & _ & ->); now left|].
    destruct (x_status (s_ctx s)); [destruct H as (_ & _ & ->); now left..|]. destruct H as (ok & Hs & ->). right. eapply sentst_whole; eauto.
  - eapply unsubscribe_spec in H; eauto. destruct (_ || _); [destruct H as (_ & _ & ->); now left|].
    destruct (x_status (s_ctx s)); [destruct H as (_ & _ & ->); now left..|]. destruct H as (ok & Hs & ->). right. eapply sentst_whole; eauto.
  - apply ping_spec in H. destruct H as [(_ & _ & _ & ->)|(_ & ok & s1 & Hs & H)]; [now left|]. right.
    destruct H as [(-> & -> & ->)|(-> & -> & ->)]; [congruence|]. now apply sentb_true in Hs.
  - apply disconnect_spec in H. destruct H as [(_ & _ & _ & ->)|(_ & ok & Hs & ->)]; [now left|]. right. eapply sentst_whole; eauto.
Qed.

Lemma connect_whole n m ci will cm tmo s st sp s' t : con_means ci will cm -> Begun G n m s -> connect G ci will tmo s = Ret (st, sp) s' t -> st <> SendFailed ->
  whole_packets (packet_of (g_M G) (CConnect ci will tmo) t) t.
Proof.
  intros Hm HB H N. pose proof (begun_reach _ _ _ _ HB) as HR. pose proof (begun_bytes _ _ _ _ HB) as Hb.
  destruct (connect_spec G n m ci will tmo s st sp s' t HR Hb H) as [(_ & _ & _ & _ & ->)|(rl & total & Ez & K)]; [now apply whole_none|].
  destruct K as [[(_ & _ & _ & _ & ->)|(_ & _ & _ & _ & ->)]|(Hs & K)]; [now apply whole_none..|].
  destruct K as [(_ & _ & _ & ->)|(vs & ok & s1 & t1 & Ev & S1 & K)]; [now apply whole_none|].
  assert (Hne : cm_id cm <> []).
  { intro E. unfold getConnectPacketSize in Ez. destruct Hm as (_ & _ & _ & Hid & _). apply holds_len in Hid. rewrite E in Hid.
    change (zlen []) with 0 in Hid. replace (c_idlen ci =? 0) with true in Ez by lia. discriminate. }
  rewrite (connect_size_ok _ _ _ Hm Hne) in Ez. destruct (will_fits cm) eqn:Ew; [|discriminate].
  assert (rl = zlen (connect_body cm)) by congruence. subst rl.
  destruct (connect_vectors_ok _ _ _ Hm Ew) as (vs' & Ev' & Ec). assert (vs' = vs) by congruence. subst vs'. rewrite Ec in S1.
  pose proof (sentb_recs _ _ _ _ _ S1) as Er.
  destruct K as [(_ & -> & _)|(-> & st2 & s2 & t2 & Wt & K)]; [contradiction|].
  apply sentb_true in S1. destruct Wt as (bs & b & _ & Rc & _ & _ & _ & _ & Cx & _). assert (O2 : outs t2 = []) by (now apply recv_outs).
  assert (W : forall t', whole_packets (packet_of (g_M G) (CConnect ci will tmo) t') (t1 ++ t2)).
  { intro t'. apply whole_one with (connect_packet cm); [rewrite outs_app, S1, O2; apply app_nil_r|]. left. eauto. }
  destruct K as [(_ & _ & _ & ->)|[(_ & _ & _ & _ & ->)|(_ & _ & _ & s3 & t3 & Hr & -> & _)]]; [apply W| |].
  - rewrite app_assoc. apply whole_app; [apply W|]. apply whole_none. destruct (x_retr (s_ctx s)); [|reflexivity]. generalize (pubq (tracked (outRecs (x_recs (s_ctx s))))). now induction l.
  - rewrite app_assoc. apply whole_app; [apply W|]. eapply resume_spec in Hr; [|cbn [s_ctx]; unfold connected; cbn; rewrite Cx; cbn; rewrite Er; exact HR|reflexivity].
    destruct Hr as (_ & _ & done & got & Rt & K).
    assert (E : exists rels, outs t3 = flat_map pubrel rels ++ flat_map snd done).
    { destruct K as [(-> & _)|(_ & K)]; [contradiction|]. destruct K as [(_ & _ & _ & _ & _ & ->)|(_ & id & rest & _ & [(_ & _ & ->)|(-> & _)])]; [eauto..|contradiction]. }
    destruct E as (rels & E). exists (map pubrel rels ++ map snd done). rewrite E, concat_app, <- !flat_map_concat_map. split; [reflexivity|].
    apply Forall_app. split; apply Forall_forall; intros x Hx; apply in_map_iff in Hx.
    + destruct Hx as (id & <- & _). right. left. eauto.
    + destruct Hx as ((id, y) & <- & Hx). right. right. exists id. apply in_or_app. right. apply in_retrieved. rewrite Rt. apply in_or_app. left. apply in_map_iff. now exists (id, y).
Qed.

Lemma replied_whole n m k id s res s' t : replied n m k id s res s' t -> res <> SendFailed -> outs t = [] \/ outs t = ack_packet (ack_of k) id.
Proof. intros [(_ & _ & _ & ->)|(_ & _ & _ & _ & _ & [(_ & -> & _)|(-> & _)])] N; [now left|contradiction|now right]. Qed.
Lemma pinged_whole s res s' t : pinged s res s' t -> res <> SendFailed -> outs t = [] \/ outs t = pingreq_packet.
Proof. intros [(_ & _ & _ & ->)|(_ & _ & _ & _ & _ & _ & [(_ & -> & _)|(-> & _)])] N; [now left|contradiction|now right]. Qed.
Definition an_ack (b : list Z) : Prop := exists k id, b = ack_packet k id.
Lemma reply_whole n m k id s res s' t : replied n m k id s res s' t -> res <> SendFailed -> whole_packets an_ack t.
Proof. intros H N. destruct (replied_whole _ _ _ _ _ _ _ _ H N) as [E|E]; [now apply whole_none|]. eapply whole_one; [exact E|]. unfold an_ack. eauto. Qed.
Lemma quiet_cb e s s' t : still_quiet s -> (match e with EOut _ => False | _ => True end) -> app_call G e s s' t -> outs t = [] /\ still_quiet s'.
Proof. intros Q He H. apply quiet_call in H; auto. destruct H as (-> & ->). split; [destruct e; auto; contradiction|now apply popped_quiet]. Qed.
Lemma packet_whole n m mk ty body s r s3 t : still_quiet s -> packet_handled G n m mk ty body s r s3 t -> r <> SendFailed -> whole_packets an_ack t.
Proof.
  intros Q H N.
  destruct H as [res s' t Hty H|k res s' t Hty H|r id s' t Hty _ _ H| |id s' t Hty _ _ H| |Hmk Hty _|s' t _ Hty _ H| |];
    try (apply whole_none; reflexivity); try (apply whole_none; exact (proj1 (quiet_cb (ECb _ _ _ _ _) _ _ _ Q I H))).
  - destruct H as [|msg d s' t _ _ _ H| |msg s0 res s' t _ _ _ _ (rr & ->) Se H|msg d s0 s1 t1 res s' t _ _ _ _ _ _ (rr & ->) O1 _ Hc H|];
      try (apply whole_none; reflexivity); try (apply whole_none; exact (proj1 (quiet_cb (ECb _ _ _ _ _) _ _ _ Q I H))).
    + eapply reply_whole; eauto.
    + apply whole_app; [|eapply reply_whole; eauto]. apply whole_none. exact (proj1 (quiet_cb (ECb _ _ _ _ _) (mkSt (set_recs (s_ctx s) rr) (s_env s)) _ _ Q I Hc)).
  - destruct H as [|id s' Hid Hb r Hr _ _|id s0 s1 t1 res s' t Hid Hb r Hr (rr & E0) Se Hc H]; try (apply whole_none; reflexivity). subst s0.
    apply whole_app; [apply whole_none; destruct k; auto; destruct (x_retr _); auto|].
    apply whole_app; [apply whole_none; exact (proj1 (quiet_cb (ECb _ _ _ _ _) (mkSt (set_recs (s_ctx s) rr) (s_env s)) _ _ Q I Hc))|].
    destruct (reply_to k); [eapply reply_whole; eauto|]. destruct H as (_ & _ & ->). now apply whole_none.
Qed.
Lemma loop_whole n m mk s res s' t : still_quiet s -> loop_handled G n m mk s res s' t -> res <> SendFailed ->
  whole_packets (fun b => mk = true /\ b = pingreq_packet \/ an_ack b) t.
Proof.
  intros Q H N. destruct H as [s1|bs s1 k s2 t2 res s' t3 H1 H1' H2 H3 H4 H5 H6]; [now apply whole_none|].
  apply (whole_app _ [EIn bs]); [now apply whole_none|].
  assert (K : still_quiet s2 /\ (k = Success \/ k <> SendFailed)).
  { split; [|destruct H6 as [(_ & -> & _)|(-> & _)]; auto]. destruct H1 as (b & i & inp & rv & ts & ->). destruct (mk && (zlen bs =? 0)).
    - destruct H5 as (now & s1 & (x & l & _ & _ & ->) & H5). cbn [s_ctx set_index set_buf x_waiting] in H5. destruct (x_waiting (s_ctx s)); [destruct H5 as (_ & -> & _); exact Q|]. destruct (ping_due _ _ _); [|destruct H5 as (_ & -> & _); exact Q].
      destruct H5 as [(_ & _ & -> & _)|(_ & _ & _ & (sx & p & w & (c1 & c2 & c3 & c4 & c5 & c6 & ->) & ->) & _)]; exact Q.
    - destruct H5 as (_ & -> & _). exact Q. }
  destruct K as (Q2 & Nk). apply whole_app.
  - destruct (mk && (zlen bs =? 0)) eqn:Em; [|destruct H5 as (_ & _ & ->); now apply whole_none]. apply andb_true_iff in Em. destruct Em as (-> & _).
    destruct H5 as (now & sx & _ & H5). destruct (x_waiting (s_ctx s1)); [destruct H5 as (_ & _ & ->); now apply whole_none|]. destruct (ping_due _ _ _); [|destruct H5 as (_ & _ & ->); now apply whole_none].
    apply pinged_whole in H5; [|destruct Nk as [->|Nk]; [discriminate|exact Nk]]. destruct H5 as [E|E]; [now apply whole_none|]. eapply whole_one; [exact E|now left].
  - destruct H6 as [(_ & _ & _ & ->)|(_ & H6)]; [now apply whole_none|].
    destruct H6 as [| | |h part ty rem sx err s' t Hh Hp Hl Hr He _ _ _ _ _|h ty body rest r s3 s' t Hh Hp Hl Hk _ _ _]; try (apply whole_none; reflexivity).
    + apply whole_none. cbn. now apply recv_outs.
    + apply (whole_app _ [EPkt ty body]); [now apply whole_none|]. eapply whole_mono; [|eapply packet_whole; eauto]. cbn. auto.
Qed.

Lemma call_whole n m c s st s' t : 4294967296 <= g_M G -> g_big G = false -> Begun G n m s -> still_quiet s -> describes (g_M G) c ->
  run_call G c s = Ret st s' t -> st <> SendFailed -> whole_packets (packet_of (g_M G) c t) t.
Proof.
  intros HM Hb HB Q D H N. destruct c as [o|ci will tmo| |].
  - cbn [run_call packet_of] in *.
    assert (E : (exists b, op_packet (g_M G) o b) \/ outs t = []).
    { destruct o; auto; right; cbn [run_op] in H; [unfold getPacketId in H|unfold cancel in H|unfold checkConnectStatus in H]; mgo H; try (destruct (outRecs _); unfold on_recs in H; mgo H); try (destruct (removeStateRecord _ _) as [(?, ?)|]; [injection H as <- <- <-|discriminate]); reflexivity. }
    destruct E as [(b & Hp)|E]; [|now apply whole_none]. destruct (op_whole o b s st s' t HM Hb Hp H N) as [E|E]; [now apply whole_none|now apply whole_one with b].
  - destruct D as (cm & Hm). cbn [run_call] in H. apply bind_inv in H. destruct H as ((st1, sp) & s1 & t1 & t2 & H & H2 & ->). apply ret_inv in H2. destruct H2 as (-> & -> & ->). rewrite app_nil_r.
    eapply connect_whole; eauto.
  - cbn [run_call] in H. apply (process_outcome G n m) in H; [|exact HB]. eapply whole_mono; [|exact (loop_whole n m true (mkSt (set_ctl (s_ctx s) false) (s_env s)) _ _ _ Q H N)]. cbn. intros b [(_ & ->)|K]; auto.
  - cbn [run_call] in H. apply (receive_outcome G n m) in H; [|exact HB]. eapply whole_mono; [|exact (loop_whole n m false _ _ _ _ Q H N)]. cbn. intros b [(K & _)|K]; [discriminate|exact K].
Qed.
Lemma xpath_still d k s s' t : XPath G d k s s' t -> still_quiet s -> still_quiet s'.
Proof.
  induction 1 as [|s1 s2 s3 t1 t2 A H IH]; auto. intro K. apply IH. clear - A K.
  destruct A as [s s' t A|s s' t err b i A1 A2 A3 A4 A5|s e A|s A|s bs ok s' t A1 A2 A3|s s' t b A1 A2 A3 A4 A5 A6 A7|s ka A1 A2]; auto.
  - destruct A as [s s' t (E1 & E2 & E3 & E4 & E5) (F1 & F2 & F3) Hs|s o r c H1 H2|s bs ok s' t H1 H2|s ty data id pub result|s ok s' t -> Hn H].
    + unfold still_quiet in *. now rewrite F3.
    + exact K.
    + destruct H2 as (_ & _ & _ & _ & _ & (x & y & E) & _). unfold still_quiet. rewrite E. exact K.
    + exact (popped_quiet _ K).
    + destruct H as (_ & _ & _ & _ & _ & (x & y & E) & _). unfold still_quiet. rewrite E. exact K.
  - destruct A2 as (x & y & z & E). unfold still_quiet. rewrite E. exact K.
  - destruct A3 as (_ & _ & _ & _ & _ & (x & y & E) & _). unfold still_quiet. rewrite E. exact K.
  - destruct A4 as (x & y & z & E). unfold still_quiet. rewrite E. exact K.
Qed.
Lemma call_still n m c s st s' t : Begun G n m s -> still_quiet s -> run_call G c s = Ret st s' t -> still_quiet s'.
Proof. intros HB Q H. destruct (begun_inv G n m s HB) as (R1 & R2 & R3). eapply call_x in H; eauto. eapply xpath_still; eauto. Qed.
Lemma calls_whole n m l : 4294967296 <= g_M G -> g_big G = false -> forall s rs s' t, Begun G n m s -> still_quiet s -> Forall (describes (g_M G)) l ->
  run_calls G l s = Ret rs s' t -> ~ In SendFailed rs -> whole_packets (fun b => exists c, In c l /\ packet_of (g_M G) c t b) t.
Proof.
  intros HM Hb. induction l as [|c l IH]; intros s rs s' t HB Q D H N; cbn [run_calls] in H; [mgo H; now apply whole_none|].
  apply bind_inv in H. destruct H as (x & s1 & t1 & t2 & H1 & H & ->). apply bind_inv in H. destruct H as (xs & s2 & t3 & t4 & H2 & H & ->). apply ret_inv in H. destruct H as (-> & -> & ->).
  rewrite app_nil_r. inversion D as [|? ? D1 D2]; subst.
  assert (Mono : forall c a b u, packet_of (g_M G) c a u -> (forall e, In e a -> In e b) -> packet_of (g_M G) c b u).
  { intros c' a b u K L. destruct c'; auto. destruct K as [K|[K|(id & K)]]; [left; exact K|right; left; exact K|right; right; eauto]. }
  apply whole_app.
  - eapply whole_mono; [|eapply (call_whole n m c); eauto; intros ->; apply N; now left]. intros b K. exists c. split; [now left|]. eapply Mono; [exact K|]. intros; apply in_or_app; auto.
  - eapply whole_mono; [|eapply IH; [eapply begun_call; eauto|eapply call_still; eauto|exact D2|exact H2|intro K; apply N; now right]].
    intros b (c' & Hi & K). exists c'. split; [now right|]. eapply Mono; [exact K|]. intros; apply in_or_app; auto.
Qed.

(** ** MQTTSendFailed: one packet was cut *)
(** some complete packets and then a packet that is not *)
Definition cut_packet (P : list Z -> Prop) (t : list ev) : Prop :=
  exists bss b k, outs t = concat bss ++ firstn k b /\ (k < length b)%nat /\ Forall P bss /\ P b.
Lemma cut_one (P : list Z -> Prop) t b k : outs t = firstn k b -> (k < length b)%nat -> P b -> cut_packet P t.
Proof. intros H1 H2 H3. exists [], b, k. auto. Qed.
Lemma cut_app P a b : whole_packets P a -> cut_packet P b -> cut_packet P (a ++ b).
Proof. intros (x & E1 & F1) (y & z & k & E2 & L & F2 & Pz). exists (x ++ y), z, k. rewrite outs_app, concat_app, E1, E2, app_assoc. split; auto. split; auto. split; auto. now apply Forall_app. Qed.
Lemma cut_after P a b : outs a = [] -> cut_packet P b -> cut_packet P (a ++ b).
Proof. intro H. apply cut_app. now apply whole_none. Qed.
Lemma cut_mono (P Q : list Z -> Prop) t : (forall b, P b -> Q b) -> cut_packet P t -> cut_packet Q t.
Proof. intros K (x & y & k & E & L & F1 & F2). exists x, y, k. split; auto. split; auto. split; auto. eapply Forall_impl; eauto. Qed.
Lemma acked_notfail v id k op : fst (fst (spec_step v (Acked id k op))) <> SendFailed.
Proof.
  cbn [spec_step]. destruct (id =? 0); [discriminate|]. destruct (concerns_sent k op).
  - destruct (lookup _ _); [|discriminate]. destruct (sender_table _ _ _ _); discriminate.
  - destruct (lookup _ _); [|discriminate]. destruct (receiver_table _ _ _ _); discriminate.
Qed.
Lemma op_cut o bs s s' t : 4294967296 <= g_M G -> g_big G = false -> op_packet (g_M G) o bs ->
  run_op G o s = Ret SendFailed s' t -> exists k, outs t = firstn k bs /\ (k < length bs)%nat.
Proof. intros HM Hb Hp H. destruct (op_wire G o bs s SendFailed s' t HM Hb Hp H) as (k & _ & E & _ & _ & K & _). eauto. Qed.
Lemma remove_notfail r id r' : removeStateRecord r id <> Ok (SendFailed, r').
Proof.
  unfold removeStateRecord. destruct (outRecs r) as [l|]; [|discriminate]. destruct (findInRecord l id) as [[(i, x)|]|]; cbn [rbind]; try discriminate.
  destruct (pstate_beq _ _); [discriminate|]. destruct (_ && _); [discriminate|]. destruct (updateRecord _ _ _ _); cbn [rbind]; discriminate.
Qed.

Lemma connect_cut n m ci will cm tmo s sp s' t : con_means ci will cm -> Begun G n m s -> connect G ci will tmo s = Ret (SendFailed, sp) s' t ->
  cut_packet (packet_of (g_M G) (CConnect ci will tmo) t) t.
Proof.
  intros Hm HB H. pose proof (begun_reach _ _ _ _ HB) as HR. pose proof (begun_bytes _ _ _ _ HB) as Hb.
  destruct (connect_spec G n m ci will tmo s SendFailed sp s' t HR Hb H) as [(_ & X & _)|(rl & total & Ez & K)]; [discriminate|].
  destruct K as [[(_ & X & _)|(_ & X & _)]|(Hs & K)]; [discriminate..|].
  destruct K as [(X & _)|(vs & ok & s1 & t1 & Ev & S1 & K)]; [discriminate|].
  assert (Hne : cm_id cm <> []).
  { intro E. unfold getConnectPacketSize in Ez. destruct Hm as (_ & _ & _ & Hid & _). apply holds_len in Hid. rewrite E in Hid.
    change (zlen []) with 0 in Hid. replace (c_idlen ci =? 0) with true in Ez by lia. discriminate. }
  rewrite (connect_size_ok _ _ _ Hm Hne) in Ez. destruct (will_fits cm) eqn:Ew; [|discriminate].
  assert (rl = zlen (connect_body cm)) by congruence. subst rl.
  destruct (connect_vectors_ok _ _ _ Hm Ew) as (vs' & Ev' & Ec). assert (vs' = vs) by congruence. subst vs'. rewrite Ec in S1.
  pose proof (sentb_recs _ _ _ _ _ S1) as Er.
  assert (Pc : forall t', packet_of (g_M G) (CConnect ci will tmo) t' (connect_packet cm)) by (intro; left; eauto).
  destruct K as [(-> & _ & _ & _ & ->)|(-> & st2 & s2 & t2 & Wt & K)].
  { apply sentb_fail in S1. destruct S1 as (k & Lk & E & _). eapply cut_one; eauto. }
  apply sentb_true in S1. destruct Wt as (bs & b & _ & Rc & _ & _ & _ & _ & Cx & Wr). assert (O2 : outs t2 = []) by (now apply recv_outs).
  destruct K as [(_ & <- & _ & _)|[(_ & _ & X & _)|(_ & _ & _ & s3 & t3 & Hr & -> & _)]]; [|discriminate|].
  { destruct Wr as [(X & _)|[(X & _)|[X|[X|X]]]]; discriminate. }
  rewrite app_assoc. apply cut_app. { apply whole_one with (connect_packet cm); [rewrite outs_app, S1, O2; apply app_nil_r|apply Pc]. }
  eapply resume_spec in Hr; [|cbn [s_ctx]; unfold connected; cbn; rewrite Cx; cbn; rewrite Er; exact HR|reflexivity].
  destruct Hr as (_ & _ & done & got & Rt & K).
  assert (Pr : forall rels, Forall (packet_of (g_M G) (CConnect ci will tmo) ((t1 ++ t2) ++ t3)) (map pubrel rels)).
  { intro rels. apply Forall_forall. intros x Hx. apply in_map_iff in Hx. destruct Hx as (id & <- & _). right. left. eauto. }
  assert (Pd : forall id y, In (id, Some y) (retrieved t3) -> packet_of (g_M G) (CConnect ci will tmo) ((t1 ++ t2) ++ t3) y).
  { intros id y Hy. right. right. exists id. apply in_or_app. right. now apply in_retrieved. }
  destruct K as [(_ & _ & _ & rels & id & rest & k & _ & Lk & E & _)|(_ & [(X & _)|(_ & id & rest & _ & [(X & _)|(_ & bs' & k & -> & Lk & E)])])]; [|discriminate..|].
  - exists (map pubrel rels), (pubrel id), k. rewrite <- flat_map_concat_map. split; [exact E|]. split; [exact Lk|]. split; [apply Pr|]. right. left. eauto.
  - exists (map pubrel (relq (tracked (outRecs (x_recs (s_ctx (mkSt (connected (s_ctx s2) (c_keepalive ci)) (s_env s2))))))) ++ map snd done), bs', k.
    rewrite concat_app, <- !flat_map_concat_map, <- app_assoc. split; [exact E|]. split; [exact Lk|]. split.
    + apply Forall_app. split; [apply Pr|]. apply Forall_forall. intros x Hx. apply in_map_iff in Hx. destruct Hx as ((i, y) & <- & Hx). apply Pd with i. rewrite Rt. apply in_or_app. left. apply in_map_iff. now exists (i, y).
    + apply Pd with id. rewrite Rt. apply in_or_app. right. now left.
Qed.

Lemma ack_len k id : length (ack_packet k id) = 4%nat.
Proof. reflexivity. Qed.
Lemma reply_cut n m k id s s' t : replied n m k id s SendFailed s' t -> cut_packet an_ack t.
Proof.
  intros [(_ & X & _)|(_ & _ & _ & _ & _ & [((j & Lj & E) & _)|(_ & _ & X & _)])].
  - destruct (x_status (s_ctx s)); discriminate.
  - eapply cut_one; [exact E|exact Lj|]. unfold an_ack. eauto.
  - symmetry in X. now apply acked_notfail in X.
Qed.
Lemma packet_cut n m mk ty body s s3 t : still_quiet s -> packet_handled G n m mk ty body s SendFailed s3 t -> cut_packet an_ack t.
Proof.
  intros Q H. remember SendFailed as r eqn:Er.
  destruct H as [res s' t Hty H|k res s' t Hty H|r id s' t Hty _ _ H| |id s' t Hty _ _ H| |Hmk Hty _|s' t _ Hty _ H| |]; try discriminate.
  - destruct H as [|msg d s' t _ _ _ H| |msg s0 res s' t _ _ _ _ (rr & ->) Se H|msg d s0 s1 t1 res s' t _ _ _ _ _ _ (rr & ->) O1 _ Hc H|]; try discriminate; subst res.
    + eapply reply_cut; exact H.
    + apply cut_after; [|eapply reply_cut; exact H]. exact (proj1 (quiet_cb (ECb _ _ _ _ _) (mkSt (set_recs (s_ctx s) rr) (s_env s)) _ _ Q I Hc)).
  - destruct H as [|id s' Hid Hb r Hr _ _|id s0 s1 t1 res s' t Hid Hb r Hr (rr & E0) Se Hc H]; try discriminate; [now apply acked_notfail in Er|]. subst s0 res.
    apply cut_after; [destruct k; auto; destruct (x_retr _); auto|].
    apply cut_after; [exact (proj1 (quiet_cb (ECb _ _ _ _ _) (mkSt (set_recs (s_ctx s) rr) (s_env s)) _ _ Q I Hc))|].
    destruct (reply_to k); [eapply reply_cut; exact H|]. destruct H as (X & _). discriminate.
Qed.
Lemma loop_cut n m mk s s' t : still_quiet s -> loop_handled G n m mk s SendFailed s' t -> cut_packet (fun b => mk = true /\ b = pingreq_packet \/ an_ack b) t.
Proof.
  intros Q H. remember SendFailed as res eqn:Er. destruct H as [s1|bs s1 k s2 t2 res s' t3 H1 H1' H2 H3 H4 H5 H6]; [discriminate|]. subst res.
  apply (cut_after _ [EIn bs]); [reflexivity|].
  assert (Q2 : still_quiet s2).
  { destruct H1 as (b & i & inp & rv & ts & ->). destruct (mk && (zlen bs =? 0)).
    - destruct H5 as (now & s1 & (x & l & _ & _ & ->) & H5). cbn [s_ctx set_index set_buf x_waiting] in H5. destruct (x_waiting (s_ctx s)); [destruct H5 as (_ & -> & _); exact Q|]. destruct (ping_due _ _ _); [|destruct H5 as (_ & -> & _); exact Q].
      destruct H5 as [(_ & _ & -> & _)|(_ & _ & _ & (sx & p & w & (c1 & c2 & c3 & c4 & c5 & c6 & ->) & ->) & _)]; exact Q.
    - destruct H5 as (_ & -> & _). exact Q. }
  destruct H6 as [(_ & <- & _ & ->)|(-> & H6)].
  - rewrite app_nil_r. destruct (mk && (zlen bs =? 0)) eqn:Em; [|destruct H5 as (X & _); discriminate]. apply andb_true_iff in Em. destruct Em as (-> & _).
    destruct H5 as (now & sx & _ & H5). destruct (x_waiting (s_ctx s1)); [destruct H5 as (X & _); destruct (_ <? _); discriminate|]. destruct (ping_due _ _ _); [|destruct H5 as (X & _); discriminate].
    destruct H5 as [(_ & X & _)|(_ & _ & _ & _ & _ & _ & [((j & Lj & E) & _)|(_ & _ & X & _)])]; [destruct (x_status (s_ctx sx)); discriminate| |discriminate].
    eapply cut_one; [exact E|exact Lj|now left].
  - apply cut_app.
    + destruct (mk && (zlen bs =? 0)) eqn:Em; [|destruct H5 as (_ & _ & ->); now apply whole_none]. apply andb_true_iff in Em. destruct Em as (-> & _).
      destruct H5 as (now & sx & _ & H5). destruct (x_waiting (s_ctx s1)); [destruct H5 as (_ & _ & ->); now apply whole_none|]. destruct (ping_due _ _ _); [|destruct H5 as (_ & _ & ->); now apply whole_none].
      apply pinged_whole in H5; [|discriminate]. destruct H5 as [E|E]; [now apply whole_none|]. eapply whole_one; [exact E|now left].
    + remember SendFailed as res eqn:Er.
      destruct H6 as [| | |h part ty rem sx err s' t Hh Hp Hl Hr He _ _ _ _ _|h ty body rest r s3 s' t Hh Hp Hl Hk _ _ _]; try discriminate.
      * destruct (negb err && _); discriminate.
      * subst r. apply (cut_after _ [EPkt ty body]); [reflexivity|]. eapply cut_mono; [|eapply packet_cut; [exact Q2|exact Hk]]. cbn. auto.
Qed.
Lemma call_cut n m c s s' t : 4294967296 <= g_M G -> g_big G = false -> Begun G n m s -> still_quiet s -> describes (g_M G) c ->
  run_call G c s = Ret SendFailed s' t -> cut_packet (packet_of (g_M G) c t) t.
Proof.
  intros HM Hb HB Q D H. destruct c as [o|ci will tmo| |].
  - cbn [run_call packet_of] in *.
    assert (E : exists b, op_packet (g_M G) o b).
    { destruct o; auto; exfalso; cbn [run_op] in H; [unfold getPacketId in H|unfold cancel in H|unfold checkConnectStatus in H]; mgo H; try discriminate.
      - destruct (outRecs _); unfold on_recs in H; mgo H; try discriminate. destruct (removeStateRecord _ _) as [(a, b)|] eqn:E; [|discriminate]. injection H as -> _ _. now apply remove_notfail in E.
      - destruct (x_status _); discriminate. }
    destruct E as (b & Hp). destruct (op_cut o b s s' t HM Hb Hp H) as (k & E & L). eapply cut_one; eauto.
  - destruct D as (cm & Hm). cbn [run_call] in H. apply bind_inv in H. destruct H as ((st1, sp) & s1 & t1 & t2 & H & H2 & ->). apply ret_inv in H2. destruct H2 as (<- & -> & ->). rewrite app_nil_r.
    eapply connect_cut; eauto.
  - cbn [run_call] in H. apply (process_outcome G n m) in H; [|exact HB]. eapply cut_mono; [|exact (loop_cut n m true (mkSt (set_ctl (s_ctx s) false) (s_env s)) _ _ Q H)]. cbn. intros b [(_ & ->)|K]; auto.
  - cbn [run_call] in H. apply (receive_outcome G n m) in H; [|exact HB]. eapply cut_mono; [|exact (loop_cut n m false _ _ _ Q H)]. cbn. intros b [(K & _)|K]; [discriminate|exact K].
Qed.
End Whole.
