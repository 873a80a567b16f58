(** Histories of the client, seen through the machine of Machine.v. *)
From Verif Require Import Base StateModel StateSpec StateHarness SerModel WireSpec SerHarness CoreModel CoreHarness CoreSpec CoreProofs22 ConcModel ConcHarness ConcProofs7
  Machine MachSpec MachProofs MachProofs5 MachFacts MachFacts2.

(** ** The store comes before the send *)
Definition Q7 (rt : bool) (l : list tok) (x : tok) : Prop :=
  match carries x with
  | Some (KPublish m) => rt = true -> pm_qos m <> Q0 -> exists l0 v, l = l0 ++ [Did (EStore (pm_id m) v true)] /\ concat v = publish_packet (with_dup m)
  | _ => True
  end.
Lemma sends_each7 rt p c ok l1 c' l : sends p c ok l1 c' -> (forall x, carries x = Some p -> Q7 rt l x) -> each (Q7 rt) l -> each (Q7 rt) (l ++ l1).
Proof. intro H. apply sends_tok in H. destruct H as (x & -> & E & _). intros K A. apply each_snoc; auto. Qed.
Lemma P7_keeps rt cn l a l1 b : each (Q7 rt) l -> mstep rt cn a l1 b -> each (Q7 rt) (l ++ l1).
Proof.
  intros H S. destruct S; rewrite ?app_nil_r; auto; try (apply each_snoc; [assumption|exact I]);
    try (eapply sends_each7; eauto; intros x Ex; unfold Q7; rewrite Ex; exact I || (intros; congruence)).
  - assert (K : each (Q7 rt) (l ++ l0)) by (unfold kept_copy in H3; destruct rt; [destruct H3 as (v & _ & ->); apply each_snoc; [assumption|exact I]|destruct H3 as (_ & ->); now rewrite app_nil_r]).
    rewrite app_assoc. destruct ok; [|destruct H4 as (_ & -> & _); now rewrite app_nil_r]. eapply sends_each7; eauto. intros x Ex. unfold Q7. rewrite Ex. intros Hr _.
    unfold kept_copy in H3. rewrite Hr in H3. destruct H3 as (v & Hv & ->). eauto.
  - apply each_app; auto. intros l0 x Hx. destruct rt; [|contradiction]. apply in_map_iff in Hx. destruct Hx as (id & <- & _). exact I.
Qed.

(** only a client that stores publishes fetches them *)
Definition Q8 (rt : bool) (l : list tok) (x : tok) : Prop := match x with Did (ERetrieve _ _) => rt = true | _ => True end.
Definition J8 (rt : bool) (j : job) : Prop := match j with Fetch _ => rt = true | _ => True end.
Definition P8 (rt : bool) (l : list tok) (a : mstate) : Prop := each (Q8 rt) l /\ J8 rt (m_job a).
Lemma sends_each8 rt p c ok l1 c' l : sends p c ok l1 c' -> each (Q8 rt) l -> each (Q8 rt) (l ++ l1).
Proof. intro H. apply sends_tok in H. destruct H as (x & -> & E & _). intros A. apply each_snoc; auto. destruct x; try discriminate; exact I. Qed.
Lemma P8_keeps rt cn l a l1 b : P8 rt l a -> P5 l a -> mstep rt cn a l1 b -> P8 rt (l ++ l1) b.
Proof.
  intros (H & HJ) (_ & H5) S. destruct S; cbn [m_job] in *; unfold P8; cbn [m_job]; rewrite ?app_nil_r; auto;
    try (split; [apply each_snoc; [assumption|exact I]|exact I || assumption]); try (split; [eapply sends_each8; eauto; fail|exact I || assumption]).
  - split; [|assumption]. assert (K : each (Q8 rt) (l ++ l0)) by (unfold kept_copy in H3; destruct rt; [destruct H3 as (v & _ & ->); apply each_snoc; [assumption|exact I]|destruct H3 as (_ & ->); now rewrite app_nil_r]).
    rewrite app_assoc. destruct ok; [|destruct H4 as (_ & -> & _); now rewrite app_nil_r]. eapply sends_each8; eauto.
  - split; auto. destruct k; try exact I; destruct rt; exact I.
  - destruct H5 as (e & j' & -> & _). split; [apply each_snoc; [assumption|exact I]|exact I].
  - destruct H5 as (Hc & _ & Hn). split; [apply each_snoc; [assumption|destruct e; try contradiction; exact I]|destruct j; try contradiction; exact I].
  - split; [eapply sends_each8; eauto|]. cbn [J5] in H5. destruct H5 as [->| ->]; destruct ok; exact I.
  - split; auto. destruct j; exact I.
  - split; auto. cbn [J5] in H5. destruct H5 as [->| ->]; destruct (status_beq _ _); exact I.
  - split; [eapply sends_each8; eauto|]. destruct ok; exact I.
  - split; [|exact I]. apply each_app; auto. intros l0 x Hx. destruct rt; [|contradiction]. apply in_map_iff in Hx. destruct Hx as (id & <- & _). exact I.
  - split; [apply each_snoc; auto|]. destruct r; exact I.
  - split; [eapply sends_each8; eauto|]. destruct ok; exact I.
Qed.

Lemma machine_facts rt cn n m l b : Run rt cn (mkM NotConnected (fresh_session n m) 1 Idle) l b ->
  each Q1 l /\ each Q5 l /\ counted 1 (tgiven l) (m_next b) /\ each Q6 l /\ each Q2' l /\ (rt = true -> tidyl l -> each Q3 l) /\ each (Q7 rt) l /\ each (Q8 rt) l.
Proof.
  intro R. set (P := fun l a => P1 l a /\ P5 l a /\ P4 l a /\ P6 l a /\ P2 l a /\ P3 rt l a /\ each (Q7 rt) l /\ P8 rt l a).
  assert (K : P ([] ++ l) b).
  { apply (run_keeps rt cn P) with (a := mkM NotConnected (fresh_session n m) 1 Idle); auto.
    - intros l0 a l1 b0 (A1 & A2 & A3 & A4 & A5 & A6 & A7 & A8) S. pose proof (proj1 A1) as Hk.
      split; [eapply P1_keeps; eauto|]. split; [eapply P5_keeps; eauto|]. split; [eapply P4_keeps; eauto|]. split; [eapply P6_keeps; eauto|].
      split; [eapply P2_keeps; eauto|]. split; [eapply P3_keeps; eauto|]. split; [eapply P7_keeps; eauto|eapply P8_keeps; eauto].
    - split; [split; [|split; [apply each_nil|exact I]]; split; [split; constructor|]; split; [unfold id_ok; cbn; lia|exact I]|].
      split; [split; [apply each_nil|exact I]|]. split; [reflexivity|]. split; [split; [apply each_nil|split; exact I]|].
      split; [split; [apply each_nil|split; [split|exact I]]|].
      + intros id (f & F & _). destruct F.
      + intros id F. destruct F.
      + split; [|split; [apply each_nil|split; [apply each_nil|exact I]]]. intros _ _. split; [apply each_nil|]. split; [|exact I]. intros id F. destruct F. }
  destruct K as ((_ & A1 & _) & (A2 & _) & A3 & (A4 & _) & (A5 & _) & A6 & A7 & (A8 & _)). split; auto. split; auto. split; auto. split; auto. split; auto. split; auto. intros Hr T. now destruct (A6 Hr T).
Qed.

(** ** From packets and events to events *)
Lemma says_split t l : Says t l -> forall a e c, t = a ++ e :: c -> is_send e = false -> exists l1 l2, l = l1 ++ Did e :: l2 /\ Says a l1 /\ Says c l2.
Proof.
  assert (B : forall b t a e c, send_only b -> is_send e = false -> b ++ t = a ++ e :: c -> exists a', a = b ++ a' /\ t = a' ++ e :: c).
  { induction b as [|x b IH]; intros t0 a e c Hb He E; [exists a; auto|]. destruct a as [|y a]; cbn in E.
    - assert (x = e) by congruence. subst x. unfold send_only in Hb. cbn in Hb. rewrite He in Hb. discriminate.
    - assert (x = y) by congruence. subst y. unfold send_only in Hb. cbn in Hb. apply andb_true_iff in Hb. destruct (IH t0 a e c) as (a' & -> & ->); [apply Hb|auto|congruence|]. exists a'. auto. }
  induction 1; intros a e0 c E He.
  - destruct a; discriminate.
  - destruct (B _ _ _ _ _ H He E) as (a' & -> & ->). destruct (IHSays _ _ _ eq_refl He) as (l1 & l2 & -> & S1 & S2). exists (Sent p :: l1), l2. split; auto. split; auto. now apply says_sent.
  - destruct (B _ _ _ _ _ H He E) as (a' & -> & ->). destruct (IHSays _ _ _ eq_refl He) as (l1 & l2 & -> & S1 & S2). exists (Cut p false :: l1), l2. split; auto. split; auto. now apply (says_cut p k).
  - assert (Hb : send_only (b ++ [EOutErr])) by (unfold send_only in *; rewrite forallb_app, H; reflexivity). replace (b ++ EOutErr :: t) with ((b ++ [EOutErr]) ++ t) in E by (rewrite <- app_assoc; reflexivity).
    destruct (B _ _ _ _ _ Hb He E) as (a' & -> & ->). destruct (IHSays _ _ _ eq_refl He) as (l1 & l2 & -> & S1 & S2). exists (Cut p true :: l1), l2. split; auto. split; auto. rewrite <- app_assoc. now apply (says_err p k).
  - destruct a as [|y a]; cbn in E.
    + assert (e = e0) by congruence. assert (t = c) by congruence. subst. exists [], l. split; auto. split; auto. constructor.
    + assert (e = y) by congruence. assert (t = a ++ e0 :: c) by congruence. subst. destruct (IHSays _ _ _ eq_refl He) as (l1 & l2 & -> & S1 & S2). exists (Did y :: l1), l2. split; auto. split; auto. now apply says_did.
Qed.
Lemma says_back t l : Says t l -> forall l1 l2, l = l1 ++ l2 -> exists a c, t = a ++ c /\ Says a l1 /\ Says c l2.
Proof.
  induction 1; intros l1 l2 E.
  - destruct l1, l2; try discriminate. exists [], []. split; auto. split; constructor.
  - destruct l1 as [|y l1]; cbn in E; [exists [], (b ++ t); split; auto; split; [constructor|subst l2; now apply says_sent]|].
    assert (y = Sent p) by congruence. assert (l = l1 ++ l2) by congruence. subst. destruct (IHSays _ _ eq_refl) as (a & c & -> & S1 & S2). exists (b ++ a), c. rewrite <- app_assoc. split; auto. split; auto. now apply says_sent.
  - destruct l1 as [|y l1]; cbn in E; [exists [], (b ++ t); split; auto; split; [constructor|subst l2; now apply (says_cut p k)]|].
    assert (y = Cut p false) by congruence. assert (l = l1 ++ l2) by congruence. subst. destruct (IHSays _ _ eq_refl) as (a & c & -> & S1 & S2). exists (b ++ a), c. rewrite <- app_assoc. split; auto. split; auto. now apply (says_cut p k).
  - destruct l1 as [|y l1]; cbn in E; [exists [], (b ++ EOutErr :: t); split; auto; split; [constructor|subst l2; now apply (says_err p k)]|].
    assert (y = Cut p true) by congruence. assert (l = l1 ++ l2) by congruence. subst. destruct (IHSays _ _ eq_refl) as (a & c & -> & S1 & S2). exists (b ++ EOutErr :: a), c. rewrite <- app_assoc. split; auto. split; auto. now apply (says_err p k).
  - destruct l1 as [|y l1]; cbn in E; [exists [], (e :: t); split; auto; split; [constructor|subst l2; now apply says_did]|].
    assert (y = Did e) by congruence. assert (l = l1 ++ l2) by congruence. subst. destruct (IHSays _ _ eq_refl) as (a & c & -> & S1 & S2). exists (e :: a), c. split; auto. split; auto. now apply says_did.
Qed.
Lemma says_head t e l : Says t (Did e :: l) -> exists t', t = e :: t' /\ is_send e = false /\ Says t' l.
Proof. intro H. inversion H; subst. eauto. Qed.
Lemma says_in t l e : Says t l -> is_send e = false -> In e t <-> In (Did e) l.
Proof.
  intros H He. split; intro K.
  - apply in_split in K. destruct K as (a & c & ->). destruct (says_split _ _ H _ _ _ eq_refl He) as (l1 & l2 & -> & _). apply in_app_iff. right. now left.
  - apply in_split in K. destruct K as (l1 & l2 & ->). destruct (says_back _ _ H _ _ eq_refl) as (a & c & -> & _ & S). apply says_head in S. destruct S as (c' & -> & _). apply in_app_iff. right. now left.
Qed.
Lemma says_given t l : Says t l -> given t = tgiven l.
Proof.
  assert (B : forall b t, send_only b -> given (b ++ t) = given t).
  { induction b as [|x b IH]; intros t0 Hb; auto. unfold send_only in Hb. cbn in Hb. apply andb_true_iff in Hb. destruct x; try (destruct Hb; discriminate); apply IH, Hb. }
  induction 1; auto; try (rewrite B; auto; fail). destruct e; try discriminate; cbn; unfold given, tgiven in *; now rewrite ?IHSays.
Qed.
(** [since] over events *)
Lemma says_since t l e (Y : tok -> Prop) (Z : ev -> Prop) : Says t l -> (forall e, is_send e = true -> Z e) -> (forall e, Y (Did e) -> Z e) ->
  since (eq (Did e)) Y l -> since (eq e) Z t.
Proof.
  intros H K1 K2 (a & x & b & -> & <- & Hb). destruct (says_back _ _ H _ _ eq_refl) as (ta & tc & -> & S1 & S2). apply says_head in S2. destruct S2 as (tb & -> & He & S2).
  exists ta, e, tb. split; auto. split; auto. apply Forall_forall. intros e' He'. destruct (is_send e') eqn:E; auto. apply K2. apply (says_in _ _ _ S2 E) in He'. rewrite Forall_forall in Hb. auto.
Qed.
Lemma says_tidy t l : Says t l -> tidy t -> tidyl l.
Proof.
  intros H T a ty id b c E Hb Hx. destruct (says_back _ _ H _ _ E) as (ta & tc & -> & S1 & S2). apply says_head in S2. destruct S2 as (tb & -> & _ & S2).
  destruct (says_back _ _ S2 b _ eq_refl) as (tb1 & tc & -> & S3 & S4). apply says_head in S4. destruct S4 as (tc' & -> & _ & _).
  apply (T ta ty id tb1 tc'); auto.
  - apply Forall_forall. intros e He C. assert (Hs : is_send e = false) by (destruct e; try contradiction; reflexivity). apply (says_in _ _ _ S3 Hs) in He. rewrite Forall_forall in Hb. exact (Hb _ He C).
  - apply Exists_exists in Hx. destruct Hx as (x & Hx & v & ok & ->). apply Exists_exists. exists (EStore id v ok). split; [|exists v, ok; reflexivity]. apply (says_in _ _ _ S3); auto.
Qed.

(** ** Histories *)
Definition completed (G : cfg) (n m : nat) (l : list call) (w : world) (s s' : st) (t : list ev) : Prop :=
  legal G n m l w s /\ g_big G = false /\ all_fit G true l w s /\ exists rs w', c_run_calls G l w s = Ret (Some rs, w') s' t.
Section Hist.
Variables (G : cfg) (n m : nat) (l : list call) (w : world) (s s' : st) (t : list ev).
Hypothesis E : completed G n m l w s s' t.
Lemma completed_run : exists k, Says t k /\ Run (x_retr (s_ctx s)) true (mkM NotConnected (fresh_session n m) 1 Idle) k
    (mkM (x_status (s_ctx s')) (session_of n m s') (x_nextId (s_ctx s')) Idle).
Proof. destruct E as (H1 & H2 & H3 & rs & w' & H4). eapply refinement; eauto. Qed.
Lemma completed_sends : exists k, Says t k /\ forall k1 x k2 p, k = k1 ++ x :: k2 -> carries x = Some p ->
  pkt_ok p /\
  (forall id bs, p = KAgain id bs -> In (Did (ERetrieve id (Some bs))) k1 /\ resuming k1) /\
  (forall a id, p = KAck a id -> since (asked a id) quiet k1 \/ a = Pubrel /\ resuming k1) /\
  (forall id, p = KAck Pubrel id -> (exists m, In (Sent (KPublish m)) k1 /\ pm_id m = id /\ pm_qos m = Q2) /\
     since (eq (Did (EPkt 80 (be16 id)))) (fun x => ~ completes id x) k1) /\
  (forall m, p = KPublish m -> x_retr (s_ctx s) = true -> pm_qos m <> Q0 ->
     exists k0 v, k1 = k0 ++ [Did (EStore (pm_id m) v true)] /\ concat v = publish_packet (with_dup m)) /\
  match p with
  | KPublish _ | KSubscribe _ _ | KUnsubscribe _ _ | KPing | KAck _ _ => online (fun x => ~ broken x) k1
  | KDisconnect => online (fun _ => True) k1
  | KConnect _ | KAgain _ _ => True
  end.
Proof.
  destruct completed_run as (k & S & R). exists k. split; auto. intros k1 x k2 p Ek Ex. destruct (machine_facts _ _ _ _ _ _ R) as (F1 & _ & _ & F6 & F2 & _ & F7 & _).
  specialize (F1 _ _ _ Ek). specialize (F2 _ _ _ Ek). specialize (F6 _ _ _ Ek). specialize (F7 _ _ _ Ek).
  assert (L : legit k1 p) by (destruct x; try discriminate; cbn in Ex, F1; congruence). clear F1. destruct L as (L1 & L2). unfold Q2', Q6, Q7 in *. rewrite Ex in F2, F6, F7.
  split; auto. split; [intros id bs ->; cbn in L2; split; apply L2|]. split; [intros a id ->; exact L2|]. split; [intros id ->; exact F2|]. split; [intros m0 ->; exact F7|]. destruct p; auto.
Qed.
Lemma completed_spells : exists k, spells t k /\
  (forall k1 x k2 a id, k = k1 ++ x :: k2 -> carries x = Some (KAck a id) -> since (asked a id) quiet k1 \/ a = Pubrel /\ resuming k1) /\
  (forall k1 x k2 id, k = k1 ++ x :: k2 -> carries x = Some (KAck Pubrel id) -> (exists m, In (Sent (KPublish m)) k1 /\ pm_id m = id /\ pm_qos m = Q2) /\
     since (eq (Did (EPkt 80 (be16 id)))) (fun x => ~ completes id x) k1) /\
  (forall k1 x k2 m, k = k1 ++ x :: k2 -> carries x = Some (KPublish m) -> x_retr (s_ctx s) = true -> pm_qos m <> Q0 ->
     exists k0 v, k1 = k0 ++ [Did (EStore (pm_id m) v true)] /\ concat v = publish_packet (with_dup m)) /\
  (forall k1 x k2 p, k = k1 ++ x :: k2 -> carries x = Some p -> match p with
  | KPublish _ | KSubscribe _ _ | KUnsubscribe _ _ | KPing | KAck _ _ => online (fun x => ~ broken x) k1
  | KDisconnect => online (fun _ => True) k1
  | KConnect _ | KAgain _ _ => True
  end).
Proof.
  destruct completed_sends as (k & S & H). exists k. split; [split; [exact S|]; intros k1 x k2 p Ek Ex; destruct (H _ _ _ _ Ek Ex) as (A & B & _); auto|].
  split; [intros k1 x k2 a id Ek Ex; destruct (H _ _ _ _ Ek Ex) as (_ & _ & A & _); now apply A|].
  split; [intros k1 x k2 id Ek Ex; destruct (H _ _ _ _ Ek Ex) as (_ & _ & _ & A & _); now apply A|].
  split; [intros k1 x k2 m0 Ek Ex; destruct (H _ _ _ _ Ek Ex) as (_ & _ & _ & _ & A & _); now apply A|].
  intros k1 x k2 p Ek Ex. destruct (H _ _ _ _ Ek Ex) as (_ & _ & _ & _ & _ & A). exact A.
Qed.
Lemma completed_legal : exists k, spells t k.
Proof. destruct completed_spells as (k & H & _). eauto. Qed.
Lemma completed_acks : exists k, spells t k /\
  forall k1 x k2 a id, k = k1 ++ x :: k2 -> carries x = Some (KAck a id) -> since (asked a id) quiet k1 \/ a = Pubrel /\ resuming k1.
Proof. destruct completed_spells as (k & H & A & _). eauto. Qed.
Lemma completed_pubrels : exists k, spells t k /\
  forall k1 x k2 id, k = k1 ++ x :: k2 -> carries x = Some (KAck Pubrel id) -> (exists m, In (Sent (KPublish m)) k1 /\ pm_id m = id /\ pm_qos m = Q2) /\
     since (eq (Did (EPkt 80 (be16 id)))) (fun x => ~ completes id x) k1.
Proof. destruct completed_spells as (k & H & _ & A & _). eauto. Qed.
Lemma completed_stores : x_retr (s_ctx s) = true -> exists k, spells t k /\
  forall k1 x k2 m, k = k1 ++ x :: k2 -> carries x = Some (KPublish m) -> pm_qos m <> Q0 ->
     exists k0 v, k1 = k0 ++ [Did (EStore (pm_id m) v true)] /\ concat v = publish_packet (with_dup m).
Proof. intro Hr. destruct completed_spells as (k & H & _ & _ & A & _). exists k. split; auto. intros. eapply A; eauto. Qed.
Lemma completed_online : exists k, spells t k /\
  forall k1 x k2 p, k = k1 ++ x :: k2 -> carries x = Some p -> match p with
  | KPublish _ | KSubscribe _ _ | KUnsubscribe _ _ | KPing | KAck _ _ => online (fun x => ~ broken x) k1
  | KDisconnect => online (fun _ => True) k1
  | KConnect _ | KAgain _ _ => True
  end.
Proof. destruct completed_spells as (k & H & _ & _ & _ & A). eauto. Qed.
Lemma completed_shows : forall a ty body id d r c, t = a ++ ECb ty body id d r :: c -> tells ty body id d r /\
  since (eq (EPkt ty body)) (fun e => match e with EPkt _ _ | ECb _ _ _ _ _ => False | _ => True end) a.
Proof.
  intros a ty body id d r c Et. destruct completed_run as (k & S & R). destruct (machine_facts _ _ _ _ _ _ R) as (_ & F & _).
  destruct (says_split _ _ S _ _ _ Et eq_refl) as (k1 & k2 & -> & S1 & _). destruct (F _ _ _ eq_refl) as (K1 & K2). split; auto.
  eapply says_since; [exact S1| | |exact K2].
  - intros [] ; cbn; auto; discriminate.
  - intros [] (N1 & N2); auto; [apply N1; eexists _, _; reflexivity|apply N2; eexists _, _, _, _, _; reflexivity].
Qed.
Lemma completed_ids : counted 1 (given t) (x_nextId (s_ctx s')).
Proof. destruct completed_run as (k & S & R). destruct (machine_facts _ _ _ _ _ _ R) as (_ & _ & F & _). now rewrite (says_given _ _ S). Qed.
Lemma completed_turn : forall i, (i < length (given t))%nat -> nth i (given t) 0 = Z.of_nat i mod 65535 + 1.
Proof. intros i Hi. rewrite (counted_nth _ _ _ _ completed_ids); auto; lia. Qed.
Lemma completed_retrieves : tidy t -> forall a id r c, t = a ++ ERetrieve id r :: c ->
  exists v ok, copy_of id v /\ since (eq (EStore id v ok)) (fun e => e <> EClear id) a.
Proof.
  intros T a id r c Et. destruct completed_run as (k & S & R). destruct (machine_facts _ _ _ _ _ _ R) as (F1 & _ & _ & _ & _ & F & _ & F8).
  destruct (says_split _ _ S _ _ _ Et eq_refl) as (k1 & k2 & Ek & S1 & _).
  assert (Hr : x_retr (s_ctx s) = true).
  { exact (F8 _ _ _ Ek). }
  destruct (F Hr (says_tidy _ _ S T) _ _ _ Ek) as (v & ok & K1 & K2). exists v, ok. split; auto. eapply says_since; [exact S1| | |exact K2].
  - intros [] ; cbn; auto; try discriminate.
  - intros e N C. apply N. now rewrite C.
Qed.
End Hist.
(** without other threads *)
Definition nest (G : cfg) : cfg := mkCfg (g_M G) (g_big G) (g_writev G) (g_maxvec G) (g_retry G) (g_pingto G) (g_tx G) (g_rx G) (g_poll G) (g_sendto G) true.
Lemma nest_same G l s : run_calls (nest G) l s = run_calls G l s.
Proof. destruct G. reflexivity. Qed.
Lemma refinement_seq G n m cn l s rs s' t : opened G n m s -> 3 <= g_maxvec G -> cbs_sound (s_env s) -> Forall call_sound l ->
  g_big G = false -> all_fit G cn l (mkW false []) s -> run_calls G l s = Ret rs s' t ->
  exists k, Says t k /\ Run (x_retr (s_ctx s)) cn (mkM NotConnected (fresh_session n m) 1 Idle) k
    (mkM (x_status (s_ctx s')) (session_of n m s') (x_nextId (s_ctx s')) Idle).
Proof.
  intros H1 H2 H3 H4 H5 H6 E. destruct (alone_nest (nest G) l (mkW false []) s eq_refl eq_refl (Forall_nil _)) as (w' & E2).
  unfold bind in E2. rewrite nest_same, E in E2. apply (refinement (nest G) n m cn l (mkW false []) s rs w'); auto.
  - split; [destruct G; exact H1|]. split; [exact H2|]. split; [exact H3|]. split; [exact H4|]. split; [reflexivity|constructor].
  - rewrite E2. cbn. now rewrite app_nil_r.
Qed.
