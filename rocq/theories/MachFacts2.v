(** What the machine of Machine.v does with publishes it sends: proofs. *)
From Verif Require Import Base StateModel StateSpec StateHarness SerModel WireSpec SerHarness CoreModel CoreHarness Machine MachSpec MachProofs MachFacts.

Definition from (se : session) (id : Z) (x : pstate) : Prop := exists f, In f (sent se) /\ f_id f = id /\ f_st f = x.
Lemma set_in l id x f : In f (spec_set l id x) -> In f l \/ f_id f = id /\ f_st f = x.
Proof.
  unfold spec_set. intro H. apply in_map_iff in H. destruct H as (g & <- & Hg). destruct (f_id g =? id) eqn:E; auto. right. cbn. split; auto. lia.
Qed.
Lemma drop_in l id f : In f (spec_drop l id) -> In f l /\ f_id f <> id.
Proof. unfold spec_drop. intro H. apply filter_In in H. destruct H as (H & K). split; auto. lia. Qed.
Lemma lookup_in l id f : lookup l id = Some f -> In f l /\ f_id f = id.
Proof. unfold lookup. intro H. apply find_some in H. destruct H. split; auto. lia. Qed.
Lemma sent_step se o f : In f (sent (snd (spec_step se o))) ->
  In f (sent se) \/
  (f_st f = PublishSend /\ exists q, o = Reserve (f_id f) q /\ ok_of (spec_step se o) = Success) \/
  (from se (f_id f) PublishSend /\ exists q, o = Published (f_id f) OpSend q /\ (f_st f = PubAckPending \/ f_st f = PubRecPending /\ q = Q2)) \/
  (f_st f = PubRelSend /\ o = Acked (f_id f) Pubrec OpReceive /\ from se (f_id f) PubRecPending) \/
  (f_st f = PubCompPending /\ o = Acked (f_id f) Pubrel OpSend /\ from se (f_id f) PubRelSend).
Proof.
  destruct o as [id q|id op q|id k op|id|].
  - unfold ok_of. cbn [spec_step]. destruct (qos_beq q Q0); [now left|]. destruct (id =? 0); [now left|]. unfold spec_add. destruct (in_flight (sent se) id); [now left|].
    destruct (_ <? _)%nat; [|now left]. cbn. intro H. apply in_app_iff in H. destruct H as [H|[<-|[]]]; [now left|]. right. left. split; auto. exists q. auto.
  - destruct q; [destruct op; now left|..]; (destruct op; [|cbn [spec_step]; destruct (id =? 0); [now left|]; destruct (spec_add _ _ _ _ _); now left]).
    all: cbn [spec_step]; (destruct (id =? 0); [now left|]); (destruct (lookup (sent se) id) as [g|] eqn:E; [|now left]);
      (destruct (negb _); [now left|]); apply lookup_in in E; destruct E as (E1 & E2); (destruct (f_st g) eqn:Es; try (now left)); cbn; intro H; apply set_in in H; (destruct H as [H|(H1 & H2)]; [now left|]);
      right; right; left; (split; [exists g; repeat split; congruence|]); eexists; (split; [now rewrite H1|]); auto.
  - cbn [spec_step]. destruct (id =? 0); [now left|]. destruct (concerns_sent k op) eqn:Ec.
    2:{ destruct (lookup (StateSpec.recvd se) id) as [g|]; [|now left]. destruct (apply_action _ _ _) as [[a b] c]. now left. }
    destruct (lookup (sent se) id) as [g|] eqn:E; [|now left]. apply lookup_in in E. destruct E as (E1 & E2).
    destruct (f_qos g); destruct (f_st g) eqn:Es; destruct k, op; try discriminate Ec; cbn; try (now left);
      try (intro H; apply drop_in in H; now left).
    + intro H. apply set_in in H. destruct H as [H|(H1 & H2)]; [now left|]. right. right. right. right. split; auto. split; [congruence|]. exists g. repeat split; auto; congruence.
    + intro H. apply in_app_iff in H. destruct H as [H|[<-|[]]]; [apply drop_in in H; now left|]. right. right. right. left. cbn. split; auto. split; [congruence|]. exists g. auto.
  - cbn [spec_step]. destruct (lookup _ _); [|now left]. cbn. intro H. apply drop_in in H. now left.
  - cbn. contradiction.
Qed.
(** an acknowledgement that came takes the publish one step further *)
Lemma acked_gone se id k f : (k = Puback \/ k = Pubcomp) -> ok_of (spec_step se (Acked id k OpReceive)) = Success -> In f (sent (snd (spec_step se (Acked id k OpReceive)))) -> f_id f <> id.
Proof.
  unfold ok_of. cbn [spec_step]. intros Hk. destruct (id =? 0); [discriminate|]. replace (concerns_sent k OpReceive) with true by (destruct Hk as [->| ->]; reflexivity).
  destruct (lookup (sent se) id) as [g|] eqn:E; [|discriminate]. apply lookup_in in E. destruct E as (E1 & E2).
  destruct Hk as [->| ->]; destruct (f_qos g), (f_st g); cbn; try discriminate; intros _ H; apply drop_in in H; rewrite E2 in H; apply H.
Qed.
Lemma acked_half se id f : ok_of (spec_step se (Acked id Pubrec OpReceive)) = Success -> In f (sent (snd (spec_step se (Acked id Pubrec OpReceive)))) -> f_id f = id -> f_st f = PubRelSend.
Proof.
  unfold ok_of. cbn [spec_step]. destruct (id =? 0); [discriminate|]. cbn [concerns_sent].
  destruct (lookup (sent se) id) as [g|] eqn:E; [|discriminate]. apply lookup_in in E. destruct E as (E1 & E2).
  destruct (f_qos g), (f_st g); cbn; try discriminate; intros _ H Ef; apply in_app_iff in H; destruct H as [H|[<-|[]]]; auto; apply drop_in in H; destruct H; congruence.
Qed.
Lemma acked_rec se id : ok_of (spec_step se (Acked id Pubrec OpReceive)) = Success -> from se id PubRecPending.
Proof.
  unfold ok_of. cbn [spec_step]. destruct (id =? 0); [discriminate|]. cbn [concerns_sent].
  destruct (lookup (sent se) id) as [g|] eqn:E; [|discriminate]. apply lookup_in in E. destruct E as (E1 & E2).
  destruct (f_qos g), (f_st g) eqn:Es; cbn; try discriminate. intros _. exists g. auto.
Qed.
Lemma unacked_in l id : In id (unacked l) <-> exists f, In f l /\ f_id f = id /\ (f_st f = PublishSend \/ f_st f = PubAckPending \/ f_st f = PubRecPending).
Proof.
  unfold unacked, ids. rewrite in_map_iff. split.
  - intros (f & E & H). apply filter_In in H. destruct H as (H & K). exists f. split; auto. split; auto. destruct (f_st f); try discriminate; auto.
  - intros (f & H & E & K). exists f. split; auto. apply filter_In. split; auto. destruct K as [->|[->| ->]]; reflexivity.
Qed.
Lemma half_in l id : In id (half_done l) <-> exists f, In f l /\ f_id f = id /\ (f_st f = PubRelSend \/ f_st f = PubCompPending).
Proof.
  unfold half_done, ids. rewrite in_map_iff. split.
  - intros (f & E & H). apply filter_In in H. destruct H as (H & K). exists f. split; auto. split; auto. destruct (f_st f); try discriminate; auto.
  - intros (f & H & E & K). exists f. split; auto. apply filter_In. split; auto. destruct K as [->| ->]; reflexivity.
Qed.
(** what is not acknowledged was not acknowledged before, or was reserved *)
Lemma unacked_step se o id : In id (unacked (sent (snd (spec_step se o)))) -> In id (unacked (sent se)) \/ exists q, o = Reserve id q /\ ok_of (spec_step se o) = Success.
Proof.
  rewrite !unacked_in. intros (f & H & E & K). destruct (sent_step _ _ _ H) as [H1|[(H1 & q & -> & H2)|[((g & G1 & G2 & G3) & q & _)|[(H1 & _)|(H1 & _)]]]].
  - left. eauto.
  - right. rewrite E in *. eauto.
  - left. exists g. split; auto. split; [congruence|]. auto.
  - exfalso. rewrite H1 in K. intuition discriminate.
  - exfalso. rewrite H1 in K. intuition discriminate.
Qed.
(** what awaits PUBCOMP did so before, or the PUBREC came *)
Lemma half_step se o id : In id (half_done (sent (snd (spec_step se o)))) -> In id (half_done (sent se)) \/ o = Acked id Pubrec OpReceive.
Proof.
  rewrite !half_in. intros (f & H & E & K). destruct (sent_step _ _ _ H) as [H1|[(H1 & q & -> & H2)|[((g & G1 & G2 & G3) & q & Eo & Hs)|[(H1 & H2 & _)|(H1 & H2 & g & G1 & G2 & G3)]]]].
  - left. eauto.
  - exfalso. rewrite H1 in K. intuition discriminate.
  - exfalso. destruct Hs as [Hs|(Hs & _)]; rewrite Hs in K; intuition discriminate.
  - right. congruence.
  - left. exists g. split; auto. split; [congruence|]. auto.
Qed.
Lemma be16_inj a b : id_ok a -> id_ok b -> be16 a = be16 b -> a = b.
Proof. unfold id_ok, be16. intros Ha Hb E. assert (E1 : a / 256 = b / 256) by congruence. assert (E2 : a mod 256 = b mod 256) by congruence.
  pose proof (Z.div_mod a 256). pose proof (Z.div_mod b 256). lia. Qed.

Lemma publish_first_range m : 48 <= publish_first m <= 63.
Proof. unfold publish_first. destruct (pm_dup m), (pm_qos m), (pm_retain m); vm_compute; split; congruence. Qed.
Lemma publish_not_done ty body m i d id : publish_means ty body m -> ~ completes id (Did (ECb ty body i d Success)).
Proof. intros (_ & -> & _) (u & v & w & E). assert (X : publish_first m = 112) by congruence. pose proof (publish_first_range m). lia. Qed.

Section MF2.
Variables rt cn : bool.
Notation mstep := (mstep rt cn).
Notation Run := (Run rt cn).

(** ** PUBREL *)
Definition sent2 (id : Z) (l : list tok) : Prop := exists m, In (Sent (KPublish m)) l /\ pm_id m = id /\ pm_qos m = Q2.
Definition confirmed (id : Z) (l : list tok) : Prop := sent2 id l /\ since (eq (Did (EPkt 80 (be16 id)))) (fun x => ~ completes id x) l.
Definition S2 (l : list tok) (se : session) : Prop :=
  (forall id, from se id PubRecPending -> sent2 id l) /\ (forall id, In id (half_done (sent se)) -> confirmed id l).
Definition J2 (l : list tok) (se : session) (j : job) : Prop :=
  match j with
  | Clear _ (Show e j) | Show e j => (forall id, id_ok id -> completes id (Did e) -> ~ In id (half_done (sent se)) /\ j = Idle) /\
      match j with Owe Pubrel id _ => confirmed id l | _ => True end
  | Owe Pubrel id _ => confirmed id l
  | _ => True
  end.
Definition Q2' (l : list tok) (x : tok) : Prop := match carries x with Some (KAck Pubrel id) => confirmed id l | _ => True end.
Definition P2 (l : list tok) (a : mstate) : Prop := each Q2' l /\ S2 l (m_ses a) /\ J2 l (m_ses a) (m_job a).
Lemma sent2_app id l l1 : sent2 id l -> sent2 id (l ++ l1).
Proof. intros (m & H & K). exists m. split; auto. apply in_app_iff. auto. Qed.
Definition plain (x : tok) : Prop := forall id, ~ completes id x.
Lemma confirmed_app id l l1 : Forall plain l1 -> confirmed id l -> confirmed id (l ++ l1).
Proof. intros H (K1 & K2). split; [now apply sent2_app|]. apply since_app; auto. eapply Forall_impl; [|exact H]. auto. Qed.
Lemma S2_app l l1 se : Forall plain l1 -> S2 l se -> S2 (l ++ l1) se.
Proof. intros H (K1 & K2). split; intros id Hi; [apply sent2_app; auto|apply confirmed_app; auto]. Qed.
Lemma J2_app l l1 se j : Forall plain l1 -> J2 l se j -> J2 (l ++ l1) se j.
Proof.
  intro H. assert (K : forall j, match j with Owe Pubrel id _ => confirmed id l | _ => True end -> match j with Owe Pubrel id _ => confirmed id (l ++ l1) | _ => True end).
  { intros []; auto. destruct k; auto. now apply confirmed_app. }
  destruct j; cbn [J2]; auto.
  - destruct j; auto. intros (A & B). split; [exact A|exact (K j B)].
  - intros (A & B). split; [exact A|exact (K j B)].
  - destruct k; auto. now apply confirmed_app.
Qed.
Lemma plain_carry x p : carries x = Some p -> plain x.
Proof. intros H id (u & v & w & ->). discriminate. Qed.
Lemma plain_did e : match e with ECb _ _ _ _ _ => False | _ => True end -> plain (Did e).
Proof. intros H id (u & v & w & E). assert (e = ECb 112 (be16 id) u v w) by congruence. subst e. contradiction. Qed.
Lemma sends_plain p c ok l c' : sends p c ok l c' -> Forall plain l.
Proof. intro H. apply sends_tok in H. destruct H as (x & -> & E & _). constructor; [eapply plain_carry; eauto|constructor]. Qed.
(** the operations that do not bring a PUBREC *)
Lemma S2_op l se o : match o with Acked _ Pubrec OpReceive => False | Published id OpSend Q2 => sent2 id l | _ => True end -> S2 l se -> S2 l (snd (spec_step se o)).
Proof.
  intros Ho (K1 & K2). split; intros id Hi.
  - destruct Hi as (f & H & E & K). destruct (sent_step _ _ _ H) as [H1|[(H1 & _)|[(_ & q & Eo & Hs)|[(H1 & _)|(H1 & _)]]]]; try congruence.
    + apply K1. exists f. auto.
    + destruct Hs as [Hs|(_ & ->)]; [congruence|]. rewrite E in Eo. subst o. exact Ho.
  - destruct (half_step _ _ _ Hi) as [H| ->]; auto. contradiction.
Qed.
Lemma J2_op l se o j : match o with Acked _ Pubrec OpReceive => False | _ => True end -> J2 l se j -> J2 l (snd (spec_step se o)) j.
Proof.
  intros Ho. assert (K : forall e (j' : job), (forall id, id_ok id -> completes id (Did e) -> ~ In id (half_done (sent se)) /\ j' = Idle) ->
    forall id, id_ok id -> completes id (Did e) -> ~ In id (half_done (sent (snd (spec_step se o)))) /\ j' = Idle).
  { intros e j' H id H1 H2. destruct (H id H1 H2) as (A & B). split; auto. intro C. destruct (half_step _ _ _ C) as [D| ->]; auto. }
  destruct j; cbn [J2]; auto; [destruct j; auto|]; intros (A & B); (split; [apply K; auto|auto]).
Qed.
Lemma each_app Q l l1 : each Q l -> (forall l x, In x l1 -> Q l x) -> each Q (l ++ l1).
Proof. intros H K. revert l H K. induction l1 as [|x l1 IH]; intros l H K; [now rewrite app_nil_r|]. replace (l ++ x :: l1) with ((l ++ [x]) ++ l1) by (rewrite <- app_assoc; reflexivity).
  apply IH; [apply each_snoc; auto; apply K; now left|intros; apply K; now right]. Qed.
Lemma Q2_carry l x p : carries x = Some p -> match p with KAck Pubrel id => confirmed id l | _ => True end -> Q2' l x.
Proof. unfold Q2'. intros ->. destruct p; auto. Qed.
Lemma sends_each2 p c ok l1 c' l : sends p c ok l1 c' -> match p with KAck Pubrel id => confirmed id l | _ => True end -> each Q2' l -> each Q2' (l ++ l1).
Proof. intros H K. apply sends_tok in H. destruct H as (x & -> & E & _). intro A. apply each_snoc; auto. eapply Q2_carry; eauto. Qed.
Lemma Q2_did l e : Q2' l (Did e).
Proof. exact I. Qed.
(** steps that send something and leave the session *)
Lemma P2_sends p c ok l1 c' l se i i' j c1 c2 : sends p c ok l1 c' -> match p with KAck Pubrel id => confirmed id l | _ => True end -> P2 l (mkM c1 se i j) -> P2 (l ++ l1) (mkM c2 se i' j).
Proof.
  intros H K (A1 & A2 & A3). split; [eapply sends_each2; eauto|]. pose proof (sends_plain _ _ _ _ _ H). split; [now apply S2_app|now apply J2_app].
Qed.
Lemma P2_quiet l c1 c2 se i i' j j' : P2 l (mkM c1 se i j) -> J2 l se j' -> P2 l (mkM c2 se i' j').
Proof. intros (A1 & A2 & A3) K. split; auto. Qed.
Lemma P2_did l c1 c2 se i i' j j' e : P2 l (mkM c1 se i j) -> J2 l se j' -> match e with ECb _ _ _ _ _ => False | _ => True end -> P2 (l ++ [Did e]) (mkM c2 se i' j').
Proof. intros (A1 & A2 & A3) K H. split; [apply each_snoc; auto; exact I|]. assert (Forall plain [Did e]) by (constructor; [now apply plain_did|auto]). split; [now apply S2_app|now apply J2_app]. Qed.
Lemma J2_clear l se id e j : J2 l se (Clear id (Show e j)) = J2 l se (Show e j).
Proof. reflexivity. Qed.
Lemma J2_told l se e j : is_cb e -> (forall id, ~ completes id (Did e)) -> match j with Owe Pubrel id _ => confirmed id l | _ => True end -> J2 l se (Show e j).
Proof. intros H K L. cbn. split; auto. intros id _ C. destruct (K id C). Qed.
Lemma ok_dec id : id_ok id \/ ~ id_ok id.
Proof. unfold id_ok. lia. Qed.
Lemma classic_cb e id : completes id (Did e) \/ ~ completes id (Did e).
Proof.
  destruct e as [b| |b| |? ?|? ?|ty d ? ? ?|? ? ?|? ?|?|?]; try (right; intros (u & v & w & E); discriminate). destruct (Z.eq_dec ty 112) as [->|N]; [|right; intros (u & v & w & E); congruence].
  destruct (list_eq_dec Z.eq_dec d (be16 id)) as [->|N]; [left; eexists _, _, _; reflexivity|right; intros (u & v & w & E); congruence].
Qed.
Lemma P2_keeps l a l1 b : P2 l a -> P5 l a -> mok a -> mstep a l1 b -> P2 (l ++ l1) b.
Proof.
  intros HP (_ & H5) Hk S. pose proof HP as (HQ & HS & HJ). destruct S; cbn [m_job m_ses m_next m_conn] in *;
    try (eapply P2_sends; eauto; exact I); try (apply (P2_did _ c c se i _ _ _ _ HP); [exact I || exact HJ|exact I]); try (rewrite app_nil_r; apply (P2_quiet _ _ _ _ _ _ _ _ HP); exact I || exact HJ).
  - (* publish *)
    assert (K1 : P2 (l ++ l0) (mkM Connected (snd r) i j)).
    { assert (K : P2 l (mkM Connected (snd r) i j)) by (split; auto; split; [apply S2_op; auto; exact I|apply J2_op; auto; exact I]).
      unfold kept_copy in H2. destruct rt; [destruct H2 as (v & _ & ->); apply (P2_did _ Connected Connected _ i _ _ _ _ K); [apply K|exact I]|destruct H2 as (_ & ->); rewrite app_nil_r; exact K]. }
    rewrite app_assoc. destruct ok; [|destruct H3 as (-> & -> & ->); rewrite app_nil_r; exact K1].
    pose proof (P2_sends _ _ _ _ _ _ _ i i j Connected c' H3 I K1) as (L1 & L2 & L3). cbn [m_ses m_job] in *. destruct ok1; [|split; auto].
    split; auto. split; cbn [m_ses m_job]; [apply S2_op; auto|apply J2_op; auto; exact I].
    destruct (pm_qos m) eqn:Eq; auto. exists m. split; auto. apply sends_tok in H3. destruct H3 as (x & -> & _ & Hx). destruct Hx as [(-> & _)|[(_ & F & _)|(_ & F & _)]]; try discriminate.
    apply in_app_iff. right. now left.
  - rewrite app_nil_r. split; auto. split; [apply S2_op; auto; exact I|apply J2_op; auto; exact I].
  - rewrite app_nil_r. apply (P2_quiet _ _ _ _ _ _ _ _ HP). apply J2_told; [exact I| |exact I]. intro. now apply publish_not_done with (m := m).
  - rewrite app_nil_r. split; auto. split; [apply S2_op; auto; exact I|]. cbn [m_job m_ses]. apply J2_told; [exact I| |].
    + intro. now apply publish_not_done with (m := m).
    + unfold answer. destruct (pm_qos m); exact I.
  - rewrite app_nil_r. apply (P2_quiet _ _ _ _ _ _ _ _ HP). cbn. unfold answer. destruct (pm_qos m); exact I.
  - rewrite app_nil_r. cbn [J5] in H5.
    assert (KC : k = Pubrec -> confirmed id l).
    { intros ->. split; [apply (proj1 HS), acked_rec; auto|]. eapply since_imp; [| |exact H5]; auto. intros x (_ & N) (u & v & w & ->). apply N. eexists _, _, _, _, _. reflexivity. }
    assert (KS : S2 l (snd r)).
    { destruct HS as (A & B). unfold r. split; intros id0 Hi.
      - destruct Hi as (f & F1 & F2 & F3). destruct (sent_step _ _ _ F1) as [H1|[(H1 & _)|[(_ & q & Eo & _)|[(H1 & _)|(H1 & _)]]]]; try congruence. apply A. exists f. auto.
      - destruct (half_step _ _ _ Hi) as [Hh|Eo]; auto. assert (k = Pubrec) by congruence. assert (id0 = id) by congruence. subst k id0. auto. }
    split; auto. split; auto. cbn [m_job m_ses].
    assert (K : J2 l (snd r) told).
    { unfold told. cbn [J2]. split.
      - intros id0 Hid0 (u & v & w & E). assert (Ek : k = Pubcomp) by (destruct k; cbn in E; try congruence; discriminate). subst k. cbn in E. assert (Eb : be16 id = be16 id0) by congruence.
        apply be16_inj in Eb; auto. subst id0. split; [|reflexivity]. intro C. apply half_in in C. destruct C as (f & F1 & F2 & _). revert F2. apply (acked_gone se id Pubcomp); auto.
      - destruct k; cbn [reply_to]; try exact I. auto. }
    destruct k; auto; destruct rt; auto.
  - rewrite app_nil_r. apply (P2_quiet _ _ _ _ _ _ _ _ HP). apply J2_told; [exact I| |exact I]. intros id0 (u & v & w & E). discriminate.
  - rewrite app_nil_r. apply (P2_quiet _ _ _ _ _ _ _ _ HP). apply J2_told; [exact I| |exact I]. intros id0 (u & v & w & E). discriminate.
  - rewrite app_nil_r. apply (P2_quiet _ _ _ _ _ _ _ _ HP). apply J2_told; [exact I| |exact I]. intros id0 (u & v & w & E). discriminate.
  - destruct H5 as (e & j' & -> & H5). apply (P2_did _ c c se i _ _ _ _ HP); [exact HJ|exact I].
  - (* show *)
    destruct H5 as (Hc & _ & Hn). destruct HJ as (HJ1 & HJ2). assert (Ec : forall id, ~ In id (half_done (sent se)) \/ ~ completes id (Did e) \/ ~ id_ok id).
    { intro id. destruct (classic_cb e id) as [C|C]; auto. destruct (ok_dec id) as [D|D]; auto. left. now apply HJ1. }
    assert (Hd : forall id, id_ok id -> In id (half_done (sent se)) -> confirmed id (l ++ [Did e])).
    { intros id Hid Hi. destruct (proj2 HS id Hi) as (K1 & K2). split; [now apply sent2_app|]. apply since_app; auto. constructor; auto. destruct (Ec id) as [N|[N|N]]; auto; contradiction. }
    split; [apply each_snoc; auto; exact I|]. split; cbn [m_ses m_job].
    + split; [intros id Hi; apply sent2_app; exact (proj1 HS id Hi)|]. intros id Hi. apply Hd; auto. destruct Hk as (Hk & _). now apply (half_ok se).
    + destruct j; try contradiction; try exact I. cbn. destruct k; auto. destruct HJ2 as (K1 & K2). split; [now apply sent2_app|]. apply since_app; auto. constructor; auto.
      intro C. destruct (HJ1 id) as (_ & N); auto; [|discriminate]. apply Hk.
  - (* owe *)
    assert (K : forall j', P2 (l ++ l0) (mkM c' se i j') \/ True) by auto. clear K. pose proof (sends_plain _ _ _ _ _ H) as Hp. cbn [J2] in HJ.
    split; [eapply sends_each2; eauto; destruct k; auto|]. split; [now apply S2_app|]. cbn [m_job]. cbn [J5] in H5. destruct H5 as [->| ->]; destruct ok; exact I.
  - rewrite app_nil_r. apply (P2_quiet _ _ _ _ _ _ _ _ HP). destruct j; exact I.
  - rewrite app_nil_r. split; auto. split; [apply S2_op; auto; destruct k; exact I|]. cbn [m_job J5] in *. destruct H5 as [->| ->]; destruct (status_beq _ _); exact I.
  - split; [eapply sends_each2; eauto; exact I|]. split; [apply S2_app; auto; eapply sends_plain; eauto|]. destruct ok; exact I.
  - assert (Hp : Forall plain (if rt then map (fun id => Did (EClear id)) (unacked (sent se)) else [])).
    { destruct rt; auto. apply Forall_forall. intros x Hx. apply in_map_iff in Hx. destruct Hx as (id & <- & _). now apply plain_did. }
    split; [|split; [|exact I]]; cbn [m_ses].
    + apply each_app; auto. intros l0 x Hx. destruct rt; [|contradiction]. apply in_map_iff in Hx. destruct Hx as (id & <- & _). exact I.
    + apply S2_op; [exact I|]. now apply S2_app.
  - rewrite app_nil_r. apply (P2_quiet _ _ _ _ _ _ _ _ HP). now apply (proj2 HS).
  - apply (P2_did _ c c se i _ _ _ _ HP); [destruct r; exact I|exact I].
  - split; [eapply sends_each2; eauto; exact I|]. split; [apply S2_app; auto; eapply sends_plain; eauto|]. destruct ok; exact I.
Qed.

(** ** Stored copies *)
Definition tstores (id : Z) (x : tok) : Prop := exists v ok, x = Did (EStore id v ok).
Definition treads (x : tok) : Prop := match x with Did e => reading e | _ => False end.
Definition tidyl (l : list tok) : Prop :=
  forall a ty id b c, l = a ++ Did (EPkt ty (be16 id)) :: b ++ Did (EClear id) :: c -> Forall (fun x => ~ treads x) b -> ~ Exists (tstores id) b.
Definition stored (id : Z) (l : list tok) : Prop := exists v ok, copy_of id v /\ since (eq (Did (EStore id v ok))) (fun x => x <> Did (EClear id)) l.
Definition S3 (l : list tok) (se : session) : Prop := forall id, In id (unacked (sent se)) -> stored id l.
Definition J3 (l : list tok) (se : session) (j : job) : Prop :=
  match j with
  | Got ty body => since (eq (Did (EPkt ty body))) (fun x => ~ treads x) l
  | Clear id _ => exists ty a b, l = a ++ Did (EPkt ty (be16 id)) :: b /\ Forall (fun x => ~ treads x) b /\ (~ In id (unacked (sent se)) \/ Exists (tstores id) b)
  | Fetch id => stored id l
  | _ => True
  end.
Definition Q3 (l : list tok) (x : tok) : Prop := match x with Did (ERetrieve id _) => stored id l | _ => True end.
Definition P3 (l : list tok) (a : mstate) : Prop := rt = true -> tidyl l -> each Q3 l /\ S3 l (m_ses a) /\ J3 l (m_ses a) (m_job a).
Definition calm (x : tok) : Prop := ~ treads x /\ forall id, x <> Did (EClear id).
Lemma tidy_pre l l1 : tidyl (l ++ l1) -> tidyl l.
Proof. intros H a ty id b c -> K. eapply (H a ty id b (c ++ l1)); auto. rewrite <- !app_assoc. cbn. rewrite <- !app_assoc. reflexivity. Qed.
Lemma stored_app id l l1 : Forall (fun x => x <> Did (EClear id)) l1 -> stored id l -> stored id (l ++ l1).
Proof. intros H (v & ok & K1 & K2). exists v, ok. split; auto. apply since_app; auto. Qed.
Lemma stored_calm id l l1 : Forall calm l1 -> stored id l -> stored id (l ++ l1).
Proof. intros H. apply stored_app. eapply Forall_impl; [|exact H]. intros x (_ & K). apply K. Qed.
Lemma S3_calm l l1 se : Forall calm l1 -> S3 l se -> S3 (l ++ l1) se.
Proof. intros H K id Hi. apply stored_calm; auto. Qed.
Lemma J3_calm l l1 se j : Forall calm l1 -> J3 l se j -> J3 (l ++ l1) se j.
Proof.
  intros H. destruct j; cbn [J3]; auto.
  - intro K. apply since_app; auto. eapply Forall_impl; [|exact H]. intros x (N & _). exact N.
  - intros (ty & a & b & -> & K2 & K3). exists ty, a, (b ++ l1). rewrite <- app_assoc. split; [reflexivity|]. split.
    + apply Forall_app. split; auto. eapply Forall_impl; [|exact H]. intros x (K & _). exact K.
    + destruct K3 as [K3|K3]; auto. right. apply Exists_app. auto.
  - now apply stored_calm.
Qed.
Lemma calm_carry x p : carries x = Some p -> calm x.
Proof. intro H. split; [destruct x; try discriminate; intros []|intros id ->; discriminate]. Qed.
Lemma calm_did e : match e with EIn _ | EPkt _ _ | EClear _ => False | _ => True end -> calm (Did e).
Proof.
  intro H. split; [destruct e; auto|intros id E; assert (e = EClear id) by congruence; subst e; contradiction].
Qed.
Lemma sends_calm p c ok l c' : sends p c ok l c' -> Forall calm l.
Proof. intro H. apply sends_tok in H. destruct H as (x & -> & E & _). constructor; [eapply calm_carry; eauto|constructor]. Qed.
Lemma sends_each3 p c ok l1 c' l : sends p c ok l1 c' -> each Q3 l -> each Q3 (l ++ l1).
Proof. intro H. apply sends_tok in H. destruct H as (x & -> & E & _). intro A. apply each_snoc; auto. destruct x; try discriminate; exact I. Qed.
(** steps that send something and leave the session *)
Lemma P3_sends p c ok l1 c' l se i i' j c1 c2 : sends p c ok l1 c' -> P3 l (mkM c1 se i j) -> P3 (l ++ l1) (mkM c2 se i' j).
Proof.
  intros H K Hr T. destruct (K Hr (tidy_pre _ _ T)) as (A1 & A2 & A3). pose proof (sends_calm _ _ _ _ _ H). split; [eapply sends_each3; eauto|]. split; [now apply S3_calm|now apply J3_calm].
Qed.
Lemma P3_quiet l c1 c2 se i i' j j' : P3 l (mkM c1 se i j) -> (S3 l se -> J3 l se j -> J3 l se j') -> P3 l (mkM c2 se i' j').
Proof. intros K L Hr T. destruct (K Hr T) as (A1 & A2 & A3). split; auto. Qed.
Lemma P3_did l c1 c2 se i i' j j' e : P3 l (mkM c1 se i j) -> (S3 l se -> J3 l se j -> J3 l se j') -> match e with EIn _ | EPkt _ _ | EClear _ | ERetrieve _ _ => False | _ => True end -> P3 (l ++ [Did e]) (mkM c2 se i' j').
Proof.
  intros K L N Hr T. destruct (K Hr (tidy_pre _ _ T)) as (A1 & A2 & A3). assert (Forall calm [Did e]) by (constructor; [apply calm_did; destruct e; auto|auto]).
  split; [apply each_snoc; auto; destruct e; try exact I; contradiction|]. split; [now apply S3_calm|]. apply J3_calm; auto.
Qed.
Lemma P3_read l c1 c2 se i i' j j' bs : P3 l (mkM c1 se i j) -> (forall l, J3 l se j') -> P3 (l ++ [Did (EIn bs)]) (mkM c2 se i' j').
Proof.
  intros K L Hr T. destruct (K Hr (tidy_pre _ _ T)) as (A1 & A2 & A3). split; [apply each_snoc; auto; exact I|]. split; [|apply L].
  intros id Hi. apply stored_app; [constructor; [discriminate|auto]|auto].
Qed.
(** operations that reserve nothing *)
Lemma S3_op l se o : match o with Reserve _ _ => False | _ => True end -> S3 l se -> S3 l (snd (spec_step se o)).
Proof. intros Ho K id Hi. destruct (unacked_step _ _ _ Hi) as [H|(q & -> & _)]; auto. contradiction. Qed.
Lemma J3_op l se o j : match o with Reserve _ _ => False | _ => True end -> J3 l se j -> J3 l (snd (spec_step se o)) j.
Proof.
  intros Ho. destruct j; cbn [J3]; auto. intros (ty & a & b & K1 & K2 & K3). exists ty, a, b. split; auto. split; auto. destruct K3 as [K3|K3]; auto. left. intro C.
  destruct (unacked_step _ _ _ C) as [H|(q & -> & _)]; auto.
Qed.
Lemma copy_dup m v : pkt_ok (KPublish m) -> pm_qos m <> Q0 -> concat v = publish_packet (with_dup m) -> copy_of (pm_id m) v.
Proof. intros H K E. exists (with_dup m). split; [exact E|]. split; [reflexivity|]. split; [reflexivity|]. split; [exact K|]. exact H. Qed.
Lemma P3_keeps l a l1 b : P3 l a -> P5 l a -> mstep a l1 b -> P3 (l ++ l1) b.
Proof.
  intros HP (_ & H5) S. destruct S; cbn [m_job m_ses m_next m_conn] in *;
    try (eapply P3_sends; eauto; fail); try (apply (P3_did _ c c se i _ _ _ _ HP); [auto; intros; exact I|exact I]); try (apply (P3_read _ c c se i _ _ _ _ HP); intros; exact I); try (rewrite app_nil_r; apply (P3_quiet _ _ _ _ _ _ _ _ HP); auto; intros; exact I).
  - (* publish *)
    intros Hr T. destruct (HP Hr (tidy_pre _ _ T)) as (A1 & A2 & A3). unfold kept_copy in H2. rewrite Hr in H2. destruct H2 as (v & Hv & ->).
    assert (Hs : stored (pm_id m) (l ++ [Did (EStore (pm_id m) v ok)])) by (exists v, ok; split; [now apply copy_dup|now apply since_new]).
    assert (Hc : Forall calm [Did (EStore (pm_id m) v ok)]) by (constructor; [now apply calm_did|auto]).
    assert (Hl : each Q3 l1 \/ True) by auto. clear Hl.
    assert (K : each Q3 (l ++ [Did (EStore (pm_id m) v ok)]) /\ S3 (l ++ [Did (EStore (pm_id m) v ok)]) (snd r) /\ J3 (l ++ [Did (EStore (pm_id m) v ok)]) (snd r) j).
    { split; [apply each_snoc; auto; exact I|]. split.
      - intros id Hi. destruct (unacked_step _ _ _ Hi) as [H2|(q & E & _)]; [apply stored_calm; auto|]. replace id with (pm_id m) by congruence. exact Hs.
      - destruct j; cbn [J3]; auto; [apply since_app; [exact A3|constructor; [intros []|auto]]| |now apply stored_calm]. destruct A3 as (ty & a0 & b0 & -> & K2 & K3). exists ty, a0, (b0 ++ [Did (EStore (pm_id m) v ok)]). rewrite <- app_assoc. split; [reflexivity|].
        split; [apply Forall_app; split; auto; constructor; auto; intros []|]. destruct K3 as [K3|K3]; [|right; apply Exists_app; auto].
        destruct (Z.eq_dec id (pm_id m)) as [->|N]; [right; apply Exists_app; right; constructor; eexists _, _; reflexivity|]. left. intro C.
        destruct (unacked_step _ _ _ C) as [D|(q & E & _)]; [auto|congruence]. }
    destruct K as (B1 & B2 & B3). rewrite app_assoc.
    assert (K : each Q3 ((l ++ [Did (EStore (pm_id m) v ok)]) ++ l1) /\ S3 ((l ++ [Did (EStore (pm_id m) v ok)]) ++ l1) (snd r) /\ J3 ((l ++ [Did (EStore (pm_id m) v ok)]) ++ l1) (snd r) j).
    { destruct ok; [|destruct H3 as (_ & -> & _); rewrite app_nil_r; auto]. pose proof (sends_calm _ _ _ _ _ H3). split; [eapply sends_each3; eauto|]. split; [now apply S3_calm|now apply J3_calm]. }
    destruct ok1; [|exact K]. destruct K as (C1 & C2 & C3). split; auto. split; [apply S3_op; auto; exact I|apply J3_op; auto; exact I].
  - rewrite app_nil_r. intros Hr T. destruct (HP Hr T) as (A1 & A2 & A3). split; auto. split; [apply S3_op; auto; exact I|apply J3_op; auto; exact I].
  - intros Hr T. destruct (HP Hr (tidy_pre _ _ T)) as (A1 & A2 & A3). split; [apply each_snoc; auto; exact I|]. split; [|now apply since_new]. intros id Hi. apply stored_app; [constructor; [discriminate|auto]|auto].
  - rewrite app_nil_r. intros Hr T. destruct (HP Hr T) as (A1 & A2 & A3). split; auto. split; [apply S3_op; auto; exact I|exact I].
  - rewrite app_nil_r. intros Hr T. destruct (HP Hr T) as (A1 & A2 & A3). split; auto. split; [apply S3_op; auto; exact I|].
    cbn [m_job m_ses]. rewrite Hr. destruct A3 as (a0 & x & b0 & El & <- & Hb).
    assert (Hn : k = Puback \/ k = Pubrec -> ~ In id (unacked (sent (snd r)))).
    { intros Hk C. apply unacked_in in C. destruct C as (f & F1 & F2 & F3). destruct Hk as [->| ->].
      - revert F2. apply (acked_gone se id Puback); auto.
      - rewrite (acked_half _ _ _ H0 F1 F2) in F3. intuition discriminate. }
    destruct k; try exact I; (eexists _, a0, b0; split; [exact El|]; split; [exact Hb|left; auto]).
  - (* clear *)
    intros Hr T. destruct (HP Hr (tidy_pre _ _ T)) as (A1 & A2 & ty & a0 & b0 & -> & K2 & K3).
    assert (K4 : ~ In id (unacked (sent se))).
    { destruct K3 as [K3|K3]; auto. exfalso. apply (T a0 ty id b0 []); auto. rewrite <- app_assoc. reflexivity. }
    split; [apply each_snoc; auto; exact I|]. split.
    + intros id' Hi. apply stored_app; auto. constructor; auto. intro E. apply K4. replace id with id' by congruence. exact Hi.
    + cbn [m_job]. cbn [J5] in H5. destruct H5 as (e & j' & -> & _). exact I.
  - (* show *)
    cbn [J5] in H5. destruct H5 as (Hc & _ & Hn). apply (P3_did _ c c se i _ _ _ _ HP); [|destruct e; try contradiction; exact I]. intros. destruct j; try contradiction; exact I.
  - intros Hr T. destruct (HP Hr (tidy_pre _ _ T)) as (A1 & A2 & A3). pose proof (sends_calm _ _ _ _ _ H). split; [eapply sends_each3; eauto|]. split; [now apply S3_calm|]. cbn [m_job J5] in *. destruct H5 as [->| ->]; destruct ok; exact I.
  - rewrite app_nil_r. apply (P3_quiet _ _ _ _ _ _ _ _ HP). intros. destruct j; exact I.
  - rewrite app_nil_r. intros Hr T. destruct (HP Hr T) as (A1 & A2 & A3). split; auto. split; [apply S3_op; auto; exact I|]. cbn [m_job J5] in *. destruct H5 as [->| ->]; destruct (status_beq _ _); exact I.
  - intros Hr T. destruct (HP Hr (tidy_pre _ _ T)) as (A1 & A2 & A3). pose proof (sends_calm _ _ _ _ _ H0). split; [eapply sends_each3; eauto|]. split; [now apply S3_calm|]. destruct ok; exact I.
  - intros Hr T. destruct (HP Hr (tidy_pre _ _ T)) as (A1 & A2 & A3). split; [|split; [|exact I]].
    + apply each_app; auto. intros l0 x Hx. rewrite Hr in Hx. apply in_map_iff in Hx. destruct Hx as (id & <- & _). exact I.
    + intros id Hi. destruct Hi.
  - rewrite app_nil_r. apply (P3_quiet _ _ _ _ _ _ _ _ HP). intros A2 _. now apply A2.
  - intros Hr T. destruct (HP Hr (tidy_pre _ _ T)) as (A1 & A2 & A3). split; [apply each_snoc; auto|]. split; [apply S3_calm; auto; constructor; [now apply calm_did|auto]|destruct r; exact I].
  - intros Hr T. destruct (HP Hr (tidy_pre _ _ T)) as (A1 & A2 & A3). pose proof (sends_calm _ _ _ _ _ H). split; [eapply sends_each3; eauto|]. split; [now apply S3_calm|]. destruct ok; exact I.
Qed.
End MF2.
