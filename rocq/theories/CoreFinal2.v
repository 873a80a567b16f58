(** The statements about whole calls of the loop and about histories. *)
From Verif Require Import Base StateModel StateSpec StateHarness StateProofs StateProofs2 SerModel WireSpec SerHarness SerProofs SerProofs4
  CoreModel CoreSpec CoreHarness CoreProofs CoreProofs2 CoreProofs3 CoreProofs7 CoreProofs8 CoreProofs9 CoreProofs10 CoreProofs12 CoreProofs13 CoreProofs16
  CoreProofs19 CoreProofs20 CoreProofs21 CoreProofs22.

Section Final2.
Variable G : cfg.
Variables n m : nat.

(** ** Packet ids *)
Lemma begun_nextId s : Begun G n m s -> 1 <= x_nextId (s_ctx s) <= 65535.
Proof.
  intros (s0 & l & rs & t & (buf & retr & e & _ & _ & _ & _ & _ & ->) & H). apply (i_calls G l) in H. destruct H as (_ & H); [cbn; lia|exact H].
Qed.
Lemma ids_given l s rs s' t : Begun G n m s -> run_calls G l s = Ret rs s' t ->
  (forall x, In x (given t) -> 1 <= x <= 65535) /\
  (forall i j, (i < j < length (given t))%nat -> Z.of_nat j - Z.of_nat i < 65535 -> nth i (given t) 0 <> nth j (given t) 0) /\
  (forall i, (S i < length (given t))%nat -> nth (S i) (given t) 0 = next_id (nth i (given t) 0)).
Proof.
  intros HB H. pose proof (begun_nextId _ HB) as Hx. apply (i_calls G l) in H. destruct (H Hx) as (K & _). clear H.
  split; [eapply counted_range; eauto|]. split; [intros i j Hij Hd; eapply counted_distinct; eauto; lia|].
  clear - K. revert K. generalize (x_nextId (s_ctx s)) as a. generalize (x_nextId (s_ctx s')) as b. intros b a.
  generalize (given t) as l. intro l. revert a. induction l as [|x l IH]; intros a H i Hi; cbn [length] in Hi; [lia|]. cbn [counted] in H. destruct H as (-> & H).
  destruct i as [|i]; [|cbn [nth]; eapply IH; eauto; lia]. destruct l as [|y l]; [cbn [length] in Hi; lia|]. cbn [counted] in H. destruct H as (-> & _). reflexivity.
Qed.
Lemma getId_gives s a s' t : getPacketId s = Ret a s' t -> given t = [a] /\ outs t = [] /\ s_env s' = s_env s.
Proof.
  intro H. unfold getPacketId, bind, getc, modc, emit, ret in H. cbn [s_ctx s_env app] in H.
  assert (a = x_nextId (s_ctx s)) by congruence. assert (t = [EId (x_nextId (s_ctx s))]) by congruence. subst.
  split; [reflexivity|]. split; [reflexivity|]. injection H as <-. reflexivity.
Qed.

(** ** Chunking *)
Lemma header_neq h ty rl : header h ty rl -> h <> [].
Proof. intros H ->. apply header_len in H. unfold zlen in H. cbn in H. lia. Qed.
Lemma whole_packet B h ty body rest : header h ty (zlen body) -> ~ no_packet B (h ++ body ++ rest).
Proof.
  intros H [E|[(_ & more & h' & ty' & body' & Hm & H' & E & _)|(_ & K & _)]].
  - apply header_neq in H. destruct h; [congruence|discriminate].
  - rewrite <- !app_assoc in E. destruct (header_det _ _ _ _ _ _ _ _ H H' E) as (<- & <- & El & E').
    apply (f_equal (@length Z)) in E'. rewrite !app_length in E'. unfold zlen in El. destruct more; [congruence|]. cbn [length] in E'. lia.
  - eapply K; eauto.
Qed.
Lemma frames_ended B l1 b1 : Frames B l1 b1 -> forall l2 b2 r1 r2, Frames B l2 b2 -> b1 ++ r1 = b2 ++ r2 ->
  no_packet B r1 -> no_packet B r2 -> l1 = l2 /\ r1 = r2.
Proof.
  induction 1 as [|h ty body l bytes H1 H2 H IH|h ty body l bytes H1 H2 H IH]; intros l2 b2 r1 r2 K E E1 E2.
  - destruct K as [|h ty body l bytes K1 K2 K|h ty body l bytes K1 K2 K]; [auto|exfalso; cbn [app] in E; subst r1; rewrite <- !app_assoc in E1; eapply whole_packet; eauto..].
  - destruct K as [|h' ty' body' l' bytes' K1 K2 K|h' ty' body' l' bytes' K1 K2 K].
    { exfalso. cbn [app] in E. subst r2. rewrite <- !app_assoc in E2. eapply whole_packet; [exact H1|exact E2]. }
    all: rewrite <- !app_assoc in E; destruct (header_det _ _ _ _ _ _ _ _ H1 K1 E) as (<- & <- & El & E');
      apply app_eq_len in E'; try (unfold zlen in El; lia); destruct E' as (<- & E').
    + destruct (IH _ _ _ _ K E' E1 E2) as (<- & <-). auto.
    + lia.
  - destruct K as [|h' ty' body' l' bytes' K1 K2 K|h' ty' body' l' bytes' K1 K2 K].
    { exfalso. cbn [app] in E. subst r2. rewrite <- !app_assoc in E2. eapply whole_packet; [exact H1|exact E2]. }
    all: rewrite <- !app_assoc in E; destruct (header_det _ _ _ _ _ _ _ _ H1 K1 E) as (<- & <- & El & E');
      apply app_eq_len in E'; try (unfold zlen in El; lia); destruct E' as (<- & E').
    + lia.
    + destruct (IH _ _ _ _ K E' E1 E2) as (<- & <-). auto.
Qed.
Lemma begun_framed l s rs s' t : Begun G n m s -> forallb plain l = true -> run_calls G l s = Ret rs s' t -> ~ In RecvFailed rs ->
  zlen (x_buf (s_ctx s')) = zlen (x_buf (s_ctx s)) /\ e_in (s_env s) = ins t ++ e_in (s_env s') /\
  exists bytes, Frames (zlen (x_buf (s_ctx s))) (items t) bytes /\ pend (s_ctx s) ++ ins t = bytes ++ pend (s_ctx s').
Proof.
  intros HB Hp H Hn. apply begun_inv in HB. destruct HB as ((Hr & _) & _ & Hd).
  eapply calls_framed in H; eauto; [destruct H as (A & _ & B); auto|].
  apply forallb_forall. intros x Hx. destruct x; try reflexivity. contradiction.
Qed.
(** ** A pass in which nothing is handled leaves no packet behind *)
Lemma idle_ended mk s st s' t : Begun G n m s -> run_call G (if mk : bool then CProcess else CReceive) s = Ret st s' t ->
  items t = [] -> st = Success \/ st = NeedMoreBytes \/ st = BadResponse -> no_packet (zlen (x_buf (s_ctx s'))) (pend (s_ctx s')).
Proof.
  intros HB H Hi Hs. apply begun_inv in HB. destruct HB as ((Hr & _) & _ & Hd).
  assert (K : exists s1, rx_ok G s1 /\ cbs_ok false s1 /\ receiveSingleIteration G mk s1 = Ret st s' t).
  { destruct mk; cbn [run_call] in H; [rewrite process_eq in H; exists (mkSt (set_ctl (s_ctx s) false) (s_env s))|exists s]; auto. }
  destruct K as (s1 & Hr1 & Hd1 & H1). apply iteration_leftover in H1; auto; [|intros ->; destruct Hs as [Hs|[Hs|Hs]]; discriminate].
  unfold no_packet. destruct H1 as [(_ & K)|[(_ & K)|[(_ & K)|(_ & _ & K)]]]; auto.
  exfalso. destruct K as [K|[K|[K|K]]], Hs as [Q|[Q|Q]]; congruence.
Qed.

(** ** Skipping *)
Lemma send_no_drop t ty rem : send_only t -> ~ In (EDrop ty rem) t.
Proof. unfold send_only. rewrite forallb_forall. intros H K. apply H in K. discriminate. Qed.
Lemma recv_no_drop t ty rem : recv_only t -> ~ In (EDrop ty rem) t.
Proof. unfold recv_only. rewrite forallb_forall. intros H K. apply H in K. discriminate. Qed.
(** what may happen while a packet is handled *)
Definition late (e : ev) : bool := match e with EPkt _ _ | EDrop _ _ | EIn _ | EInErr | ERetrieve _ _ => false | _ => true end.
Lemma op_late t : forallb op_ev t = true -> forallb late t = true.
Proof. rewrite !forallb_forall. intros H e He. specialize (H e He). destruct e; discriminate || reflexivity. Qed.
Lemma send_late t : send_only t -> forallb late t = true.
Proof. unfold send_only. rewrite !forallb_forall. intros H e He. specialize (H e He). destruct e; discriminate || reflexivity. Qed.
Lemma app_late e s s' t : app_call G e s s' t -> late e = true -> forallb late t = true.
Proof. intros H He. apply app_frame in H. destruct H as (_ & t' & -> & F). cbn [forallb]. rewrite He. now apply op_late. Qed.
Lemma replied_late k id0 s res s' t : replied n m k id0 s res s' t -> forallb late t = true.
Proof. intros [(_ & _ & -> & ->)|(_ & Hs & _)]; [reflexivity|now apply send_late]. Qed.
Lemma handled_late mk ty body s res s' t : packet_handled G n m mk ty body s res s' t -> forallb late t = true.
Proof.
  intro H. destruct H; try reflexivity; try (eapply app_late; eauto; reflexivity).
  - destruct H0; try reflexivity; try (eapply app_late; eauto; reflexivity); [eapply replied_late; eauto|].
    rewrite forallb_app. apply andb_true_iff. split; [eapply app_late; eauto; reflexivity|eapply replied_late; eauto].
  - destruct H0; try reflexivity. rewrite !forallb_app. apply andb_true_iff. split; [|apply andb_true_iff; split].
    + destruct k; try reflexivity; destruct (x_retr (s_ctx s)); reflexivity.
    + eapply app_late; [eauto|reflexivity].
    + destruct (reply_to k); [eapply replied_late; eauto|]. destruct H6 as (_ & _ & ->). reflexivity.
Qed.
Lemma late_not t e : forallb late t = true -> late e = false -> ~ In e t.
Proof. rewrite forallb_forall. intros H E K. apply H in K. congruence. Qed.
Lemma send_ins t : send_only t -> ins t = [].
Proof.
  unfold send_only. induction t as [|x u IH]; [reflexivity|]. cbn [forallb]. rewrite andb_true_iff. intros (A & B). unfold ins in *. cbn [flat_map].
  rewrite IH by exact B. destruct x; discriminate || reflexivity.
Qed.
Lemma kept_success s s' t : kept_alive G s Success s' t ->
  pend (s_ctx s') = pend (s_ctx s) /\ x_buf (s_ctx s') = x_buf (s_ctx s) /\ e_in (s_env s') = e_in (s_env s) /\ errs t = false.
Proof.
  intros (now & s1 & (x & l & _ & _ & ->) & H). destruct (x_waiting (s_ctx s)); [destruct H as (_ & -> & ->); auto|].
  destruct (ping_due _ _ _); [|destruct H as (_ & -> & ->); auto].
  destruct H as [(_ & _ & -> & ->)|(_ & _ & _ & (s2 & p & w & (a & b & c & d & ts & sn & ->) & ->) & _ & _ & [(_ & H & _)|(_ & E & _)])]; [auto|discriminate|].
  split; [reflexivity|]. split; [reflexivity|]. split; [reflexivity|exact E].
Qed.
Lemma errs_cons_in bs t : errs (EIn bs :: t) = errs t. Proof. reflexivity. Qed.
Lemma errs_cons_drop a b t : errs (EDrop a b :: t) = errs t. Proof. reflexivity. Qed.
Lemma ins_cons_in bs t : ins (EIn bs :: t) = bs ++ ins t. Proof. reflexivity. Qed.
Lemma ins_cons_drop a b t : ins (EDrop a b :: t) = ins t. Proof. reflexivity. Qed.
Lemma loop_skipped mk s st s' t ty rem : loop_handled G n m mk s st s' t -> In (EDrop ty rem) t ->
  exists h part, header h ty rem /\ pend (s_ctx s) ++ ins t = h ++ part /\ zlen (x_buf (s_ctx s)) < zlen h + rem /\ zlen part <= rem /\
    pend (s_ctx s') = [] /\ e_in (s_env s) = ins t ++ e_in (s_env s') /\
    (forall e, In e t -> match e with EPkt _ _ | ECb _ _ _ _ _ => False | _ => True end) /\
    st = (if negb (errs t) && (zlen part =? rem) then Success else RecvFailed).
Proof.
  intros H Hi. destruct H as [s1 H1 H2 H3 H4|bs s1 k s2 t2 res s' t3 H1 H1' H2 H3 H4 H5 H6].
  - destruct Hi as [Hi|[]]; discriminate.
  - assert (K2 : send_only t2).
    { destruct (mk && _); [apply kept_recs in H5; apply H5|]. destruct H5 as (_ & _ & ->). reflexivity. }
    destruct Hi as [Hi|Hi]; [discriminate|]. apply in_app_iff in Hi.
    destruct Hi as [Hi|Hi]; [exfalso; revert Hi; now apply send_no_drop|].
    destruct H6 as [(_ & _ & -> & ->)|(-> & H6)]; [destruct Hi|].
    assert (Q : pend (s_ctx s2) = pend (s_ctx s1) /\ x_buf (s_ctx s2) = x_buf (s_ctx s1) /\ e_in (s_env s2) = e_in (s_env s1) /\ errs t2 = false).
    { destruct (mk && _); [now apply kept_success|]. destruct H5 as (_ & -> & ->); auto. }
    destruct Q as (Q1 & Q2 & Q3 & Q4).
    destruct H6 as [E|E|E|h part ty' rem' s3 err s' t A1 A2 A3 A4 A5 A6 A7 A8 A9 A10|h ty' body rest r s3 s' t A1 A2 A3 A4 A5 A6 A7]; try (destruct Hi; fail).
    + assert (ty' = ty /\ rem' = rem) as (-> & ->).
      { destruct Hi as [Hi|Hi]; [split; congruence|]. exfalso. revert Hi. now apply recv_no_drop. }
      exists h, (part ++ ins t). split; [exact A1|]. rewrite ins_cons_in, ins_app, (send_ins _ K2), ins_cons_drop. cbn [app].
      split; [rewrite app_assoc, <- H3, <- Q1, A2, <- app_assoc; reflexivity|]. split; [rewrite Q2 in A3; lia|]. split; [exact A6|].
      split; [exact A10|]. split; [rewrite H2, <- Q3, A7; now rewrite app_assoc|].
      split.
      * intros e [<-|He]; [exact I|]. apply in_app_iff in He. destruct He as [He|[<-|He]]; [|exact I|].
        -- unfold send_only in K2. rewrite forallb_forall in K2. apply K2 in He. destruct e; discriminate || exact I.
        -- unfold recv_only in A4. rewrite forallb_forall in A4. apply A4 in He. destruct e; discriminate || exact I.
      * rewrite errs_cons_in, errs_app, Q4, errs_cons_drop, A5. reflexivity.
    + destruct Hi as [Hi|Hi]; [discriminate|]. exfalso. revert Hi. eapply late_not; [eapply handled_late; eauto|reflexivity].
Qed.
Lemma call_loop mk s st s' t : Begun G n m s -> run_call G (if mk : bool then CProcess else CReceive) s = Ret st s' t ->
  loop_handled G n m mk (if mk then mkSt (set_ctl (s_ctx s) false) (s_env s) else s) st s' t.
Proof. intros HB H. destruct mk; [now apply process_outcome|now apply receive_outcome]. Qed.
Lemma begun_skipped mk s st s' t ty rem : Begun G n m s -> run_call G (if mk : bool then CProcess else CReceive) s = Ret st s' t -> In (EDrop ty rem) t ->
  exists h part, header h ty rem /\ pend (s_ctx s) ++ ins t = h ++ part /\ zlen (x_buf (s_ctx s)) < zlen h + rem /\ zlen part <= rem /\
    pend (s_ctx s') = [] /\ e_in (s_env s) = ins t ++ e_in (s_env s') /\
    (forall e, In e t -> match e with EPkt _ _ | ECb _ _ _ _ _ => False | _ => True end) /\
    st = (if negb (errs t) && (zlen part =? rem) then Success else RecvFailed).
Proof. intros HB H Hi. apply call_loop in H; auto. destruct mk; eapply loop_skipped in H; eauto. Qed.

(** ** Replies *)
(** the acknowledgement a packet asks for *)
Lemma loop_packet mk s st s' t ty body : loop_handled G n m mk s st s' t -> In (EPkt ty body) t ->
  exists u v s2 s3, t = u ++ EPkt ty body :: v /\ forallb unseen u = true /\ packet_handled G n m mk ty body s2 st s3 v /\ x_recs (s_ctx s2) = x_recs (s_ctx s) /\ stamped st s3 s' /\ e_cbs (s_env s2) = e_cbs (s_env s).
Proof.
  intros H Hi. destruct H as [s1 H1 H2 H3 H4|bs s1 k s2 t2 res s' t3 H1 H1' H2 H3 H4 H5 H6].
  - destruct Hi as [Hi|[]]; discriminate.
  - assert (K2 : send_only t2 /\ x_recs (s_ctx s2) = x_recs (s_ctx s1)).
    { destruct (mk && _); [apply kept_recs in H5; split; apply H5|]. destruct H5 as (_ & -> & ->). split; reflexivity. }
    destruct K2 as (K2 & Er). assert (Ec1 : e_cbs (s_env s1) = e_cbs (s_env s)) by (destruct H1 as (b & i & p & r & ts & ->); reflexivity). apply only_rx_recs in H1. apply send_unseen in K2.
    assert (N : forall l, forallb unseen l = true -> ~ In (EPkt ty body) l).
    { intros l Hl Hin. rewrite forallb_forall in Hl. apply Hl in Hin. discriminate. }
    destruct Hi as [Hi|Hi]; [discriminate|]. apply in_app_iff in Hi.
    destruct Hi as [Hi|Hi]; [exfalso; revert Hi; now apply N|].
    destruct H6 as [(_ & _ & -> & ->)|(-> & H6)]; [destruct Hi|].
    destruct H6 as [E|E|E|h part ty' rem' s3 err s' t A1 A2 A3 A4 A5 A6 A7 A8 A9 A10|h ty' body' rest r s3 s' t A1 A2 A3 A4 A5 A6 A7]; try (destruct Hi; fail).
    + exfalso. revert Hi. apply N. cbn [forallb unseen andb]. now apply recv_unseen.
    + assert (E : EPkt ty' body' = EPkt ty body).
      { destruct Hi as [Hi|Hi]; [exact Hi|]. exfalso. revert Hi. eapply late_not; [eapply handled_late; eauto|reflexivity]. }
      assert (ty' = ty /\ body' = body) as (-> & ->) by (split; congruence).
      exists (EIn bs :: t2), t, s2, s3. split; [reflexivity|]. split; [cbn [forallb unseen andb]; exact K2|]. split; [exact A4|]. split; [congruence|]. split; [exact A5|].
      transitivity (e_cbs (s_env s1)); [|exact Ec1].
      destruct (mk && _); [|destruct H5 as (_ & -> & _); reflexivity].
      destruct H5 as (now & s4 & (x & l & _ & _ & ->) & H5). destruct (x_waiting (s_ctx s1)); [destruct H5 as (_ & -> & _); reflexivity|].
      destruct (ping_due _ _ _); [|destruct H5 as (_ & -> & _); reflexivity].
      destruct H5 as [(_ & _ & -> & _)|(_ & _ & _ & (s5 & p & w & (a & b & c & d & e & f & ->) & ->) & _)]; reflexivity.
Qed.
Lemma replied_success k id0 s s' t : replied n m k id0 s Success s' t -> outs t = ack_packet (ack_of k) id0.
Proof.
  intros [(H & E & _)|(_ & _ & _ & _ & _ & [(_ & E & _)|(H & _)])]; [|discriminate|exact H].
  destruct (x_status (s_ctx s)); try discriminate.
Qed.
Lemma publish_first_16 msg : publish_first msg / 16 = 3.
Proof. unfold publish_first. destruct (pm_dup msg), (pm_qos msg), (pm_retain msg); reflexivity. Qed.
Lemma ack_first_16 k : ack_first k / 16 <> 3.
Proof. destruct k; discriminate. Qed.
Lemma be16_inj a b : 0 <= a -> 0 <= b -> be16 a = be16 b -> a = b.
Proof. unfold be16. intros Ha Hb E. assert (a / 256 = b / 256) by congruence. assert (a mod 256 = b mod 256) by congruence. lia. Qed.
Lemma publish_means_unique ty body a b : publish_means ty body a -> publish_means ty body b -> a = b.
Proof.
  intros (_ & F1 & B1 & L1 & Z1 & N1) (_ & F2 & B2 & L2 & Z2 & N2). destruct a as [d q r tp i p], b as [d' q' r' tp' i' p']. cbn [pm_dup pm_qos pm_retain pm_topic pm_id pm_payload] in *.
  assert (d = d' /\ q = q' /\ r = r') as (-> & -> & ->).
  { subst ty. unfold publish_first in F2. cbn [pm_dup pm_qos pm_retain] in F2. destruct d, d', q, q', r, r'; cbn in F2; try discriminate; auto. }
  subst body. unfold publish_body, publish_head in B2. cbn [pm_qos pm_topic pm_id pm_payload] in B2. unfold mstr in B2. rewrite <- !app_assoc in B2.
  apply app_eq_len in B2; [|reflexivity]. destruct B2 as (E1 & E2). apply be16_inj in E1; try (unfold zlen; lia).
  apply app_eq_len in E2; [|unfold zlen in E1; lia]. destruct E2 as (-> & E2).
  destruct q'; [rewrite (Z1 eq_refl), (Z2 eq_refl); cbn [app] in E2; congruence|..];
    (apply app_eq_len in E2; [|reflexivity]; destruct E2 as (E2 & ->); apply be16_inj in E2; [congruence|destruct N1; [discriminate|lia]|destruct N2; [discriminate|lia]]).
Qed.
Lemma publish_reply mk ty body s s' t msg kind : packet_handled G n m mk ty body s Success s' t -> publish_means ty body msg -> pm_qos msg <> Q0 ->
  kind = ack_of (match pm_qos msg with Q1 => Puback | _ => Pubrec end) -> exists a, outs t = a ++ ack_packet kind (pm_id msg).
Proof.
  intros H Hm Hq ->. assert (H3 : ty / 16 = 3) by (destruct Hm as (_ & -> & _); apply publish_first_16).
  assert (Hp : publish_handled G n m ty body s Success s' t).
  { inversion H; subst; auto; exfalso; try discriminate; try contradiction; revert H3; apply ack_first_16. }
  inversion Hp as [|msg' d s1 t1 A1 A2 A3 A4| |msg' s0 res s1 t1 A1 A2 A3 A4 A5 A6 A7|msg' d s0 s1 t1 res s2 t2 A1 A2 A3 A4 A5 A6 A7 A8 A9 A10 A11|]; subst; try discriminate.
  - rewrite (publish_means_unique _ _ _ _ Hm A1) in Hq. congruence.
  - rewrite (publish_means_unique _ _ _ _ Hm A1). apply replied_success in A7. now exists [].
  - rewrite (publish_means_unique _ _ _ _ Hm A1). apply replied_success in A11.
    exists (outs t1). now rewrite outs_app, A11.
Qed.
Lemma ack_reply mk ty body s s' t k k' id : packet_handled G n m mk ty body s Success s' t -> ty = ack_first (ack_of k) -> reply_to k = Some k' ->
  1 <= id <= 65535 -> body = be16 id -> exists a, outs t = a ++ ack_packet (ack_of k') id.
Proof.
  intros H Ht Hk Hid Hb.
  assert (Ha : ack_handled G n m k body s Success s' t).
  { inversion H as [r s1 t1 A B|k0 r s1 t1 A B| | | | | | | |]; subst; try (destruct k; discriminate).
    assert (k0 = k) by (destruct k0, k; discriminate || reflexivity). now subst. }
  inversion Ha as [|id' s1 A1 A2 r A3 A4 A5|id' s0 s1 t1 res s2 t2 A1 A2 r A3 A4 A5 A6 A7]; subst; [congruence|].
  rewrite Hk in A7. apply replied_success in A7. assert (id' = id).
  { apply be16_inj; auto; lia. }
  subst id'. exists (outs (match k with Puback | Pubrec => if x_retr (s_ctx s) then [EClear id] else [] | _ => [] end) ++ outs t1).
  rewrite !outs_app, A7. apply app_assoc.
Qed.
Lemma begun_replies mk s s' t ty body : Begun G n m s -> run_call G (if mk : bool then CProcess else CReceive) s = Ret Success s' t -> In (EPkt ty body) t ->
  forall kind id, asks_reply ty body kind id -> exists a, outs t = a ++ ack_packet kind id.
Proof.
  intros HB H Hi kind id Ha. apply call_loop in H; auto. eapply loop_packet in H; eauto. destruct H as (u & v & s2 & s3 & -> & _ & H & _).
  assert (K : exists a, outs v = a ++ ack_packet kind id).
  { destruct Ha as [msg H1 H2|msg H1 H2|id H1 H2 H3|id H1 H2 H3].
    1,2: eapply publish_reply; [exact H|exact H1|congruence|]; now rewrite H2.
    - eapply (ack_reply _ _ _ _ _ _ Pubrec Pubrel); eauto.
    - eapply (ack_reply _ _ _ _ _ _ Pubrel Pubcomp); eauto. }
  destruct K as (a & E). exists (outs u ++ a). rewrite outs_app. change (outs (EPkt ty body :: v)) with (outs v). rewrite E. apply app_assoc.
Qed.
(** ** No reply to anything else *)
Lemma app_quiet e s s' t : app_call G e s s' t -> Forall (fun l => l = []) (e_cbs (s_env s)) -> outs [e] = [] -> outs t = [].
Proof.
  intros (t' & -> & H) Hc He. unfold next_ops in H. destruct Hc as [|l r -> Hc].
  - cbn [run_ops] in H. apply ret_inv in H. destruct H as (_ & _ & ->). exact He.
  - cbn [run_ops] in H. apply ret_inv in H. destruct H as (_ & _ & ->). exact He.
Qed.
Lemma packet_no_reply mk ty body s res s' t : packet_handled G n m mk ty body s res s' t -> Forall (fun l => l = []) (e_cbs (s_env s)) ->
  (forall kind id, ~ asks_reply ty body kind id) -> outs t = [].
Proof.
  intros H Hc Hn. assert (Q : forall e s0 s1 u, recs_only s s0 -> app_call G e s0 s1 u -> outs [e] = [] -> outs u = []).
  { intros e s0 s1 u (r & ->) Ha He. eapply app_quiet; eauto. }
  assert (Q0 : forall msg, publish_means ty body msg -> pm_qos msg <> Q0 -> False).
  { intros msg Hm Hq. destruct (pm_qos msg) eqn:E; [congruence| |]; [apply (Hn KPuback (pm_id msg))|apply (Hn KPubrec (pm_id msg))]; [eapply ar_qos1|eapply ar_qos2]; eauto. }
  destruct H; try reflexivity; try (eapply app_quiet; eauto; reflexivity).
  - destruct H0; try reflexivity; try (eapply app_quiet; eauto; reflexivity); exfalso; eauto.
  - destruct H0; try reflexivity. rewrite !outs_app.
    assert (E : reply_to k = None).
    { destruct k; try reflexivity; exfalso; [apply (Hn KPubrel id), ar_pubrec|apply (Hn KPubcomp id), ar_pubrel]; auto. }
    match goal with Hd : match reply_to k with Some _ => _ | None => _ end |- _ => rewrite E in Hd; destruct Hd as (_ & _ & ->) end.
    match goal with Hr : recs_only s _, Ha : app_call _ _ _ _ _ |- _ => rewrite (Q _ _ _ _ Hr Ha eq_refl) end.
    destruct k; try reflexivity; destruct (x_retr (s_ctx s)); reflexivity.
Qed.
Lemma begun_no_reply mk s st s' u ty body v : Begun G n m s -> run_call G (if mk : bool then CProcess else CReceive) s = Ret st s' (u ++ EPkt ty body :: v) ->
  Forall (fun l => l = []) (e_cbs (s_env s)) -> (forall kind id, ~ asks_reply ty body kind id) -> outs v = [].
Proof.
  intros HB H Hc Hn. apply call_loop in H; auto. 
  eapply loop_packet in H; [|apply in_or_app; right; left; reflexivity]. destruct H as (u' & v' & s2 & s3 & E & Hu & H & _ & _ & Ec).
  assert (Ec' : e_cbs (s_env s2) = e_cbs (s_env s)) by (rewrite Ec; destruct mk; reflexivity).
  assert (Hv : forallb late v' = true) by (eapply handled_late; eauto).
  assert (v = v').
  { clear - E Hu Hv. revert u' E Hu. induction u as [|a u IH]; intros u' E Hu; destruct u' as [|b u']; cbn [app] in E.
    - congruence.
    - cbn [forallb] in Hu. assert (b = EPkt ty body) by congruence. subst b. discriminate.
    - exfalso. assert (v' = u ++ EPkt ty body :: v) as -> by congruence. rewrite forallb_app in Hv. cbn [forallb late andb] in Hv. rewrite andb_false_r in Hv. discriminate.
    - cbn [forallb] in Hu. apply andb_true_iff in Hu. destruct Hu as (_ & Hu). apply (IH u'); [congruence|exact Hu]. }
  subst v'. eapply packet_no_reply; eauto. now rewrite Ec'.
Qed.

End Final2.

(** ** Two clients on the same stream *)
Lemma same_stream G n m G' n' m' l1 l2 s1 s2 rs1 rs2 s1' s2' t1 t2 : Begun G n m s1 -> Begun G' n' m' s2 ->
  zlen (x_buf (s_ctx s1)) = zlen (x_buf (s_ctx s2)) -> pend (s_ctx s1) ++ e_in (s_env s1) = pend (s_ctx s2) ++ e_in (s_env s2) ->
  forallb plain l1 = true -> forallb plain l2 = true -> ~ In RecvFailed rs1 -> ~ In RecvFailed rs2 ->
  run_calls G l1 s1 = Ret rs1 s1' t1 -> run_calls G' l2 s2 = Ret rs2 s2' t2 ->
  ((exists more, items t2 = items t1 ++ more) \/ (exists more, items t1 = items t2 ++ more)) /\
  (e_in (s_env s1') = [] -> e_in (s_env s2') = [] ->
   no_packet (zlen (x_buf (s_ctx s1'))) (pend (s_ctx s1')) -> no_packet (zlen (x_buf (s_ctx s2'))) (pend (s_ctx s2')) ->
   items t1 = items t2 /\ pend (s_ctx s1') = pend (s_ctx s2')).
Proof.
  intros B1 B2 Ez Ei P1 P2 N1 N2 H1 H2.
  eapply begun_framed in H1; eauto. destruct H1 as (Z1 & I1 & b1 & F1 & E1).
  eapply begun_framed in H2; eauto. destruct H2 as (Z2 & I2 & b2 & F2 & E2).
  assert (EE : b1 ++ (pend (s_ctx s1') ++ e_in (s_env s1')) = b2 ++ (pend (s_ctx s2') ++ e_in (s_env s2'))).
  { rewrite !app_assoc, <- E1, <- E2, <- !app_assoc, <- I1, <- I2. exact Ei. }
  rewrite <- Ez in F2. split.
  - destruct (frames_prefix _ _ _ F1 _ _ _ _ F2 EE) as [H|H]; auto.
  - intros J1 J2 K1 K2. rewrite J1, J2, !app_nil_r in EE. rewrite Z1 in K1. rewrite Z2, <- Ez in K2. eapply frames_ended; eauto.
Qed.
