(** Publishes from the server, end to end: the client's steps. *)
From Verif Require Import Base StateModel StateSpec StateHarness SerModel WireSpec SerHarness SerProofs4 CoreModel CoreHarness Machine MachSpec MachProofs MachFacts MachFacts2 NetProofs InSpec InProofs InProofs2.

Lemma delivered_app id l l' : delivered id (l ++ l') = delivered id l ++ delivered id l'.
Proof. apply filter_app. Qed.
Lemma delivered_one id l x : hands id x = false -> delivered id (l ++ [x]) = delivered id l.
Proof. intro H. rewrite delivered_app. cbn. rewrite H. apply app_nil_r. Qed.
Lemma carry_hands id x p : carries x = Some p -> hands id x = false.
Proof. destruct x; cbn; auto. discriminate. Qed.

(** ** Tokens *)
Lemma Inv_log gs l c se j N x : (forall id, hands id x = false) -> Inv gs l c se j N -> Inv gs (l ++ [x]) c se j N.
Proof. intros H [A1 A2 A3 A4 A5 A6 A7 A8 A9 A10 A12 A11]. constructor; auto. intro id. now rewrite delivered_one. Qed.
Lemma Inv_cut gs l c se j u d b b' v a r : Inv gs l c se j (mkInet u d b v a r) -> Inv gs l c se j (mkInet u d b' v a r).
Proof. intros [A1 A2 A3 A4 A5 A6 A7 A8 A9 A10 A12 A11]. constructor; auto. Qed.
Lemma Inv_send gs l c se j x p N N' : carries x = Some p -> asks_in p = false -> ~ replies p -> kstep N x N' -> Inv gs l c se j N -> Inv gs (l ++ [x]) c se j N'.
Proof.
  intros E Hp Hr S H. apply (Inv_log _ _ _ _ _ _ x) in H; [|intro id; eapply carry_hands; eauto].
  inversion S; subst; cbn [carries] in E; try discriminate; try (assert (p = KConnect m) by congruence; subst p; discriminate).
  - assert (p0 = p) by congruence. subst p0. destruct c0; auto. destruct H as [A1 A2 A3 A4 A5 A6 A7 A8 A9 A10 A12 A11]. cbn [i_up i_down i_srv i_ans i_read] in *. constructor; cbn [i_up i_down i_srv i_ans i_read]; auto.
    + intro id. rewrite ups_app, (ups_none id [p]), app_nil_r by (constructor; auto). exact (A2 id).
    + apply after_snoc; auto. intro C. contradiction.
    + rewrite existsb_app. cbn. rewrite Hp, orb_false_r. auto.
  - eapply Inv_cut; eauto.
Qed.
Lemma Inv_did gs l c se j e N N' : match e with EIn _ | EPkt _ _ | ECb _ _ _ _ _ => False | _ => True end -> kstep N (Did e) N' -> Inv gs l c se j N -> Inv gs (l ++ [Did e]) c se j N'.
Proof. intros He S H. inversion S; subst; try contradiction. apply Inv_log; auto. intro id. destruct e; auto; contradiction. Qed.
Lemma Inv_read gs l c se j bs N N' : kstep N (Did (EIn bs)) N' -> Inv gs l c se j N -> Inv gs (l ++ [Did (EIn bs)]) c se (match j with Wait cl b => Wait cl (b ++ bs) | _ => j end) N'.
Proof.
  intros S H. apply (Inv_log _ _ _ _ _ _ (Did (EIn bs))) in H; [|auto]. inversion S; subst; [|contradiction]. destruct H as [A1 A2 A3 A4 A5 A6 A7 A8 A9 A10 A12 A11]. cbn [i_up i_down i_srv i_ans i_read] in *.
  constructor; cbn [i_up i_down i_srv i_ans i_read]; auto; try (destruct j; auto; fail).
  - destruct a; auto. subst r bs. reflexivity.
  - destruct j; auto. destruct A8 as (-> & A8). auto.
Qed.
Lemma Inv_packet l c se ty body N N' : kstep N (Did (EPkt ty body)) N' -> Inv [] l c se Idle N -> exists x, Inv [x] (l ++ [Did (EPkt ty body)]) c se (Got ty body) N'.
Proof.
  intros S H. apply (Inv_log _ _ _ _ _ _ (Did (EPkt ty body))) in H; [|auto]. remember (Did (EPkt ty body)) as t eqn:Et. destruct S; try discriminate; [|subst; assert (e = EPkt ty body) by congruence; subst e; contradiction].
  exists x. destruct H as [A1 A2 A3 A4 A5 A6 A7 A8 A9 A10 A12 A11]. cbn [i_up i_down i_srv i_ans i_read] in *. constructor; cbn [i_up i_down i_srv i_ans i_read]; auto.
  exists x. split; auto. destruct (wire x) as (t, b). cbn [fst snd] in Et. congruence.
Qed.
Lemma Inv_show l c se e j N N' : is_cb e -> (forall id, pend id j = []) -> match j with Wait _ _ | Got _ _ | Note _ _ _ => False | _ => True end -> kstep N (Did e) N' -> Inv [] l c se (Show e j) N -> Inv [] (l ++ [Did e]) c se j N'.
Proof.
  intros He Hp Hj S H. assert (N' = N) by (inversion S; subst; auto; contradiction). subst N'. destruct H as [A1 A2 A3 A4 A5 A6 A7 A8 A9 A10 A12 A11]. constructor; auto; try (destruct j; auto; contradiction).
  - intro id. specialize (A2 id). rewrite delivered_app, Hp, app_nil_r. cbn [pend owes delivered filter] in *. replace (eff id se j) with (eff id se (Show e j)) by (destruct j; try contradiction; reflexivity). exact A2.
  - intros id K. rewrite Hp in K. contradiction.
Qed.

(** ** Silent steps *)
Definition soft (j : job) : Prop := match j with Wait _ _ | Got _ _ | Note (Puback | Pubcomp) _ _ => False | _ => True end.
Lemma soft_eff id se j : soft j -> eff id se j = lookup (StateSpec.recvd se) id.
Proof. destruct j; cbn; auto. destruct k; auto; contradiction. Qed.
Lemma Inv_job gs l c c' se se' j j' N : soft j' -> (c = NotConnected -> c' = NotConnected) -> (forall id, owes id j' = [] /\ pend id j' = [] \/ owes id j' = owes id j) -> (forall id, pend id j' = pend id j) ->
  (forall id, eff id se j = eff id se' j') -> Inv gs l c se j N -> Inv [] l c' se' j' N.
Proof.
  intros Hs Hc Ho Hp He [A1 A2 A3 A4 A5 A6 A7 A8 A9 A10 A12 A11]. assert (Sd : forall id, Sub (dns id (i_down N)) (dns id (gs ++ i_down N))) by (intro id; rewrite dns_app; destruct j; try (subst gs; apply sub_refl); destruct A1 as (x & -> & _); cbn; destruct (about id x); cbn; [constructor|]; apply sub_refl).
  assert (So : forall id, Sub (owes id j') (owes id j)) by (intro id; destruct (Ho id) as [(-> & _)| ->]; [apply sub_none|apply sub_refl]).
  constructor; auto; try (destruct j' as [| | | | | |k id j0| | | |]; auto; try contradiction; destruct k; auto; contradiction).
  - intro id. rewrite Hp, <- He. eapply Ph_sub; [apply Sd|apply So|apply sub_refl|exact (A2 id)].
  - apply Forall_app in A3. apply A3.
  - intro K. destruct (A5 K) as (B1 & B2). split; auto. intro id. destruct (B2 id) as (B3 & B4). split; apply sub_empty; [pose proof (Sd id) as Q; rewrite B3 in Q; exact Q|pose proof (So id) as Q; rewrite B4 in Q; exact Q].
  - intros id K. destruct (Ho id) as [(_ & E)|E]; [contradiction|]. rewrite Hp in K. rewrite E. auto.
Qed.
(** only the records of publishes sent change *)
Lemma Inv_se gs l c c' se se' j N : (c = NotConnected -> c' = NotConnected) -> StateSpec.recvd se' = StateSpec.recvd se -> Inv gs l c se j N -> Inv gs l c' se' j N.
Proof.
  intros Hc Hr [A1 A2 A3 A4 A5 A6 A7 A8 A9 A10 A12 A11]. constructor; auto; rewrite ?Hr; auto.
  intro id. replace (eff id se' j) with (eff id se j) by (unfold eff; rewrite Hr; reflexivity). auto.
Qed.
Lemma recvd_out se o : match o with Reserve _ _ | Published _ OpSend _ | Cancel _ => True | Acked _ k op => concerns_sent k op = true | _ => False end ->
  StateSpec.recvd (snd (spec_step se o)) = StateSpec.recvd se.
Proof.
  destruct o as [id q|id op q|id k op|id|]; intro H; cbn [spec_step].
  - destruct (qos_beq q Q0); auto. destruct (id =? 0); auto. destruct (spec_add _ _ _ _ _). reflexivity.
  - destruct op; [|contradiction]. destruct q; auto; (destruct (id =? 0); auto; destruct (lookup _ _); auto; destruct (negb _); auto; destruct (f_st f); auto).
  - rewrite H. destruct (id =? 0); auto. destruct (lookup _ _); auto. destruct (apply_action _ _ _) as [[a b] d]. reflexivity.
  - destruct (lookup _ _); auto.
  - contradiction.
Qed.

(** ** A packet is handled *)
Lemma Inv_got gs l c se ty body j' N : soft j' -> (forall id, owes id j' = []) -> (forall id, pend id j' = []) -> Inv gs l c se (Got ty body) N -> Inv [] l c se j' N.
Proof.
  intros H1 H2 H3. apply Inv_job; auto. intro id. now rewrite (soft_eff id se j' H1).
Qed.
Lemma in_look se id q : id <> 0 -> q <> Q0 ->
  match lookup (StateSpec.recvd se) id with
  | Some _ => ok_of (spec_step se (Published id OpReceive q)) = StateCollision
  | None => ok_of (spec_step se (Published id OpReceive q)) = Success -> forall i, lookup (StateSpec.recvd (snd (spec_step se (Published id OpReceive q)))) i = if i =? id then Some (F id q (first_state q)) else lookup (StateSpec.recvd se) i
  end.
Proof.
  intros Hi Hq. unfold ok_of. destruct q; [contradiction|..]; cbn [spec_step]; replace (id =? 0) with false by lia; unfold spec_add; rewrite lookup_flight; (destruct (lookup (StateSpec.recvd se) id) eqn:E; [reflexivity|]; destruct (_ <? _)%nat; [|discriminate]; intros _ i; cbn [snd StateSpec.recvd first_state]; rewrite lookup_app; cbn [f_id]; destruct (i =? id) eqn:E2;
    [replace i with id by lia; rewrite E, Z.eqb_refl; reflexivity|replace (id =? i) with false by lia; destruct (lookup (StateSpec.recvd se) i); reflexivity]).
Qed.
Lemma got_pub x ty body m : wire x = (ty, body) -> dpkt_ok x -> publish_means ty body m -> pm_qos m <> Q0 -> x = DPub m.
Proof.
  intros E Ho Hm Hq. destruct x as [m0|id|t b]; cbn [wire] in E.
  - assert (E1 : ty = publish_first m0) by congruence. assert (E2 : body = publish_body m0) by congruence. subst ty body. f_equal. symmetry. now apply means_same.
  - exfalso. destruct Hm as (_ & Hm & _). pose proof (publish_first_range m). assert (ty = 98) by congruence. lia.
  - exfalso. destruct Ho as (_ & Ho). apply Hq. apply Ho. assert (t = ty) by congruence. assert (b = body) by congruence. now subst.
Qed.
Lemma got_rel x id : wire x = (98, be16 id) -> dpkt_ok x -> id_ok id -> x = DRel id.
Proof.
  intros E Ho Hi. destruct x as [m0|i|t b]; cbn [wire] in E.
  - exfalso. pose proof (publish_first_range m0). assert (publish_first m0 = 98) by congruence. lia.
  - f_equal. apply be16_inj; auto. congruence.
  - exfalso. destruct Ho as (Ho & _). congruence.
Qed.
Lemma answer_not q : q <> Q0 -> answer q = Puback \/ answer q = Pubrec.
Proof. destruct q; auto. Qed.
Lemma up1_answer id q i : q <> Q0 -> up1 id (KAck (answer q) i) = if i =? id then [answer q] else [].
Proof. destruct q; auto. Qed.
Lemma Inv_publish gs l c se ty body m d N : publish_means ty body m -> dpub_means body d (Some (pm_id m)) m -> pm_qos m <> Q0 ->
  ok_of (spec_step se (Published (pm_id m) OpReceive (pm_qos m))) = Success -> Inv gs l c se (Got ty body) N ->
  Inv [] l c (snd (spec_step se (Published (pm_id m) OpReceive (pm_qos m)))) (Show (ECb ty body (pm_id m) (Some d) Success) (Owe (answer (pm_qos m)) (pm_id m) Idle)) N.
Proof.
  intros Hm Hd Hq Hr [A1 A2 A3 A4 A5 A6 A7 A8 A9 A10 A12 A11]. destruct A1 as (x & -> & Hw). cbn [app] in *. apply Forall_inv in A3 as Ho. apply Forall_inv_tail in A3. pose proof (got_pub _ _ _ _ Hw Ho Hm Hq). subst x. cbn [wire] in Hw.
  assert (E1 : ty = publish_first m) by congruence. assert (E2 : body = publish_body m) by congruence. subst ty body.
  assert (Hi : id_ok (pm_id m)) by (apply Ho; auto). unfold id_ok in Hi. pose proof (in_look se (pm_id m) (pm_qos m) ltac:(lia) Hq) as L. destruct (lookup (StateSpec.recvd se) (pm_id m)) eqn:El; [congruence|]. specialize (L Hr).
  assert (Dq : d_qos d = pm_qos m) by apply Hd. assert (Hh : forall id, pend id (Show (ECb (publish_first m) (publish_body m) (pm_id m) (Some d) Success) (Owe (answer (pm_qos m)) (pm_id m) Idle)) = if pm_id m =? id then [Did (ECb (publish_first m) (publish_body m) (pm_id m) (Some d) Success)] else []).
  { intro id. cbn [pend hands]. rewrite Dq. destruct (pm_qos m); [contradiction|..]; cbn [qos_beq negb andb]; destruct (pm_id m =? id); reflexivity. }
  constructor; auto.
  - intro id. specialize (A2 id). rewrite Hh. cbn [owes]. rewrite up1_answer by auto. unfold eff in *. rewrite L. cbn [dns filter about] in A2. fold (dns id (i_down N)) in A2. cbn [owes pend] in A2. rewrite app_nil_r in A2. rewrite (Z.eqb_sym id). destruct (pm_id m =? id) eqn:E.
    + assert (id = pm_id m) by lia. subst id. rewrite El in A2. cbn [app]. now apply Ph_got.
    + rewrite app_nil_r. exact A2.
  - intro K. exfalso. destruct (A5 K) as (_ & B). destruct (B (pm_id m)) as (B1 & _). cbn [dns filter about] in B1. rewrite Z.eqb_refl in B1. discriminate.
  - intros id K. rewrite Hh in K. cbn [owes]. rewrite up1_answer by auto. destruct (pm_id m =? id); [|contradiction]. destruct (answer_not _ Hq) as [->| ->]; auto.
Qed.
Lemma Inv_repeated gs l c se ty body m N : publish_means ty body m -> pm_qos m <> Q0 ->
  ok_of (spec_step se (Published (pm_id m) OpReceive (pm_qos m))) = StateCollision -> Inv gs l c se (Got ty body) N ->
  Inv [] l c se (Owe (answer (pm_qos m)) (pm_id m) Idle) N.
Proof.
  intros Hm Hq Hr [A1 A2 A3 A4 A5 A6 A7 A8 A9 A10 A12 A11]. destruct A1 as (x & -> & Hw). cbn [app] in *. apply Forall_inv in A3 as Ho. apply Forall_inv_tail in A3. pose proof (got_pub _ _ _ _ Hw Ho Hm Hq). subst x. cbn [wire] in Hw.
  assert (E1 : ty = publish_first m) by congruence. assert (E2 : body = publish_body m) by congruence. subst ty body.
  assert (Hi : id_ok (pm_id m)) by (apply Ho; auto). unfold id_ok in Hi.
  assert (L : exists f, lookup (StateSpec.recvd se) (pm_id m) = Some f).
  { destruct (lookup (StateSpec.recvd se) (pm_id m)) eqn:El; eauto. exfalso. revert Hr. unfold ok_of. destruct (pm_qos m); [contradiction|..]; cbn [spec_step]; replace (pm_id m =? 0) with false by lia; unfold spec_add; rewrite lookup_flight, El; destruct (_ <? _)%nat; discriminate. }
  destruct L as (f & L). constructor; auto.
  - intro id. specialize (A2 id). cbn [owes pend]. rewrite app_nil_r, up1_answer by auto. unfold eff in *. cbn [dns filter about] in A2. fold (dns id (i_down N)) in A2. cbn [owes pend] in A2. rewrite app_nil_r in A2. destruct (pm_id m =? id) eqn:E; [|exact A2].
    assert (id = pm_id m) by lia. subst id. rewrite L in *. cbn [app]. now apply Ph_repeated.
  - intro K. exfalso. destruct (A5 K) as (_ & B). destruct (B (pm_id m)) as (B1 & _). cbn [dns filter about] in B1. rewrite Z.eqb_refl in B1. discriminate.
  - intros id K. exfalso. apply K. reflexivity.
Qed.
Lemma rel_look se id : id <> 0 -> ok_of (spec_step se (Acked id Pubrel OpReceive)) = Success ->
  exists f, lookup (StateSpec.recvd se) id = Some f /\ f_qos f = Q2 /\ forall i, lookup (StateSpec.recvd (snd (spec_step se (Acked id Pubrel OpReceive)))) i = if i =? id then Some (F id Q2 PubCompSend) else lookup (StateSpec.recvd se) i.
Proof.
  intro Hi. unfold ok_of. cbn [spec_step concerns_sent]. replace (id =? 0) with false by lia. destruct (lookup (StateSpec.recvd se) id) as [f|] eqn:E; [|discriminate]. pose proof (lookup_id _ _ _ E) as Ei. destruct f as [i0 q s]. cbn [f_id f_qos f_st] in *. subst i0.
  destruct q; cbn [receiver_table]; try discriminate; destruct s; try discriminate; intros _; cbn [apply_action snd StateSpec.recvd f_id]; (eexists; split; [reflexivity|]; split; [reflexivity|]); intro i.
  - destruct (i =? id) eqn:E2; auto. replace i with id by lia. auto.
  - rewrite lookup_set. destruct (i =? id) eqn:E2; [replace i with id by lia; rewrite E; reflexivity|]. destruct (lookup (StateSpec.recvd se) i); auto.
Qed.
Lemma Inv_released gs l c se e id N : is_cb e -> (forall i, pend i (Show e Idle) = []) -> id_ok id -> ok_of (spec_step se (Acked id Pubrel OpReceive)) = Success -> Inv gs l c se (Got 98 (be16 id)) N ->
  Inv [] l c (snd (spec_step se (Acked id Pubrel OpReceive))) (Show e (Owe Pubcomp id Idle)) N.
Proof.
  intros He Hp Hi Hr [A1 A2 A3 A4 A5 A6 A7 A8 A9 A10 A12 A11]. destruct A1 as (x & -> & Hw). cbn [app] in *. apply Forall_inv in A3 as Ho. apply Forall_inv_tail in A3. pose proof (got_rel _ _ Hw Ho Hi). subst x. unfold id_ok in Hi.
  destruct (rel_look se id ltac:(lia) Hr) as (f & L1 & L2 & L3). change (forall i, pend i (Show e (Owe Pubcomp id Idle)) = []) in Hp.
  constructor; auto.
  - intro i. specialize (A2 i). rewrite Hp. cbn [owes up1]. unfold eff in *. rewrite L3. cbn [dns filter about] in A2. fold (dns i (i_down N)) in A2. cbn [owes pend] in A2. rewrite (Z.eqb_sym i). destruct (id =? i) eqn:E; [|exact A2].
    assert (i = id) by lia. subst i. rewrite L1 in *. cbn [app]. eapply Ph_released; eauto.
  - intro K. exfalso. destruct (A5 K) as (_ & B). destruct (B id) as (B1 & _). cbn [dns filter about] in B1. rewrite Z.eqb_refl in B1. discriminate.
  - intros i K. rewrite Hp in K. contradiction.
Qed.

(** ** Acknowledgements *)
Lemma Inv_ack l se j k id x N N' : carries x = Some (KAck k id) -> k <> Pubrel -> kstep N x N' -> Inv [] l Connected se (Owe k id j) N ->
  (x = Sent (KAck k id) -> Inv [] (l ++ [x]) Connected se (Note k id j) N') /\ (x <> Sent (KAck k id) -> Inv [] (l ++ [x]) Connected se (Owe k id j) N').
Proof.
  intros E Hk S H. apply (Inv_log _ _ _ _ _ _ x) in H; [|intro i; eapply carry_hands; eauto]. split; intro Ex.
  - subst x. inversion S; subst. destruct H as [A1 A2 A3 A4 A5 A6 A7 A8 A9 A10 A12 A11]. cbn [i_up i_down i_srv i_ans i_read app] in *.
    assert (Hn : existsb asks_in u = false) by (destruct (existsb asks_in u); auto; destruct (A5 eq_refl) as (B & _); specialize (A6 B); discriminate).
    pose proof (A2 id) as Pi. cbn [owes pend] in Pi. assert (Eo : up1 id (KAck k id) = [k]) by (cbn; rewrite Z.eqb_refl; destruct k; auto; contradiction). rewrite Eo in Pi. apply (Ph_send _ _ _ _ _ _ _ _ _ (negb c)) in Pi. destruct Pi as (Pi & Pf). unfold eff in Pf. cbn [i_srv] in *.
    constructor; cbn [i_up i_down i_srv i_ans i_read]; auto.
    + intro i. cbn [owes pend]. assert (Eu : ups i (if c then u else u ++ [KAck k id]) = ups i u ++ (if negb c then up1 i (KAck k id) else [])) by (destruct c; cbn [negb]; [now rewrite app_nil_r|]; rewrite ups_app; cbn [ups flat_map]; now rewrite app_nil_r). rewrite Eu.
      destruct (Z.eq_dec i id) as [->|Ne].
      * rewrite Eo. unfold eff in *. rewrite Z.eqb_refl. destruct k; try contradiction; exact Pi.
      * specialize (A2 i). cbn [owes pend] in A2. assert (Ez : up1 i (KAck k id) = []) by (cbn; replace (id =? i) with false by lia; destruct k; auto). rewrite Ez in *. replace (if negb c then [] else []) with (@nil acktype) by (destruct c; auto). rewrite app_nil_r in A2 |- *. unfold eff in *. replace (id =? i) with false by lia. rewrite app_nil_r. destruct k; exact A2.
    + destruct c; auto. apply after_snoc; auto. intros _. apply Forall_forall. intros y Hy C. rewrite <- not_true_iff_false in Hn. apply Hn. apply existsb_exists. eauto.
    + intro K. exfalso. destruct c; [congruence|]. rewrite existsb_app in K. cbn in K. rewrite Hn in K. discriminate.
    + destruct k; auto.
      * destruct Pf as (f & L & B1 & B2). pose proof (lookup_id _ _ _ L). destruct f; cbn in *. congruence.
      * destruct Pf as (f & L & B1 & B2). pose proof (lookup_id _ _ _ L). destruct f; cbn in *. congruence.
    + intros i K. exfalso. apply K. reflexivity.
  - inversion S; subst; cbn [carries] in E; try discriminate; try congruence. eapply Inv_cut; eauto.
Qed.
Lemma note_look se k id : let se' := snd (spec_step se (Acked id k OpSend)) in
  match k with
  | Puback => lookup (StateSpec.recvd se) id = Some (F id Base.Q1 PubAckSend) -> id <> 0 -> forall i, lookup (StateSpec.recvd se') i = if i =? id then None else lookup (StateSpec.recvd se) i
  | Pubcomp => lookup (StateSpec.recvd se) id = Some (F id Q2 PubCompSend) -> id <> 0 -> forall i, lookup (StateSpec.recvd se') i = if i =? id then None else lookup (StateSpec.recvd se) i
  | Pubrec => (forall i, lookup (StateSpec.recvd se') i = lookup (StateSpec.recvd se) i) \/
      exists f, lookup (StateSpec.recvd se) id = Some f /\ f_qos f = Q2 /\ f_st f = PubRecSend /\ forall i, lookup (StateSpec.recvd se') i = if i =? id then Some (F id Q2 PubRelPending) else lookup (StateSpec.recvd se) i
  | Pubrel => StateSpec.recvd se' = StateSpec.recvd se
  end.
Proof.
  cbn zeta. destruct k; [..| |].
  - intros E Hi i. cbn [spec_step concerns_sent]. replace (id =? 0) with false by lia. rewrite E. cbn [f_qos f_st receiver_table apply_action snd StateSpec.recvd f_id]. apply lookup_drop.
  - cbn [spec_step concerns_sent]. destruct (id =? 0); [left; auto|]. destruct (lookup (StateSpec.recvd se) id) as [f|] eqn:E; [|left; auto]. pose proof (lookup_id _ _ _ E) as Ei. destruct f as [i0 q s]. cbn [f_id f_qos f_st] in *. subst i0.
    destruct q; try (left; reflexivity); destruct s; try (left; reflexivity). right. eexists. split; [reflexivity|]. split; [reflexivity|]. split; [reflexivity|]. intro i. cbn [receiver_table apply_action snd StateSpec.recvd f_id]. rewrite lookup_set. destruct (i =? id) eqn:E2; [replace i with id by lia; rewrite E; reflexivity|]. destruct (lookup (StateSpec.recvd se) i); auto.
  - apply recvd_out. reflexivity.
  - intros E Hi i. cbn [spec_step concerns_sent]. replace (id =? 0) with false by lia. rewrite E. cbn [f_qos f_st receiver_table apply_action snd StateSpec.recvd f_id]. apply lookup_drop.
Qed.
Lemma Inv_note l c se k id j j' N : id_ok id -> j' = Idle \/ j' = Resume \/ j' = Failed -> Inv [] l c se (Note k id j) N -> Inv [] l c (snd (spec_step se (Acked id k OpSend))) j' N.
Proof.
  intros Hi Hj H. unfold id_ok in Hi. pose proof (note_look se k id) as L. cbn zeta in L. pose proof (v_note _ _ _ _ _ _ H) as Hn.
  assert (Hs : soft j') by (destruct Hj as [->|[->| ->]]; exact I). assert (Ho : forall i, owes i j' = []) by (destruct Hj as [->|[->| ->]]; reflexivity). assert (Hp : forall i, pend i j' = []) by (destruct Hj as [->|[->| ->]]; reflexivity).
  assert (Q : forall se', (forall i, eff i se (Note k id j) = lookup (StateSpec.recvd se') i) -> Inv [] l c se' j' N) by (intros se' He; apply (Inv_job [] l c c se se' (Note k id j) j' N); auto; intro i; rewrite (soft_eff i se' j' Hs); auto).
  destruct k.
  - apply Q. intro i. rewrite (L Hn ltac:(lia)). cbn. rewrite Z.eqb_sym. reflexivity.
  - destruct L as [L|(f & L1 & L2 & L3 & L4)]; [apply Q; intro i; rewrite L; reflexivity|]. destruct H as [A1 A2 A3 A4 A5 A6 A7 A8 A9 A10 A12 A11]. constructor; auto; try (destruct Hj as [->|[->| ->]]; auto; fail).
    + intro i. specialize (A2 i). rewrite Ho, Hp, (soft_eff i _ j' Hs), L4. cbn [owes pend] in A2. unfold eff in A2. destruct (i =? id) eqn:E; [|exact A2]. replace i with id in * by lia. rewrite L1 in A2. eapply Ph_noted; eauto.
  - apply Q. intro i. rewrite L. reflexivity.
  - apply Q. intro i. rewrite (L Hn ltac:(lia)). cbn. rewrite Z.eqb_sym. reflexivity.
Qed.

(** ** Connecting *)
Lemma Inv_connect l se x m N N' : carries x = Some (KConnect m) -> kstep N x N' -> Inv [] l NotConnected se Idle N ->
  Inv [] (l ++ [x]) NotConnected se (match x with Sent _ => Wait (cm_clean m) [] | _ => Failed end) N'.
Proof.
  intros E S H. apply (Inv_log _ _ _ _ _ _ x) in H; [|intro i; eapply carry_hands; eauto]. assert (Sd : forall i d, Sub (dns i ([] ++ [])) (dns i d)) by (intros; apply sub_none).
  destruct H as [A1 A2 A3 A4 A5 A6 A7 A8 A9 A10 A12 A11]. inversion S; subst; cbn [carries] in E; try discriminate; try (assert (p = KConnect m) by congruence; subst p; discriminate); cbn [i_up i_down i_srv i_ans i_read] in *.
  - constructor; cbn [i_up i_down i_srv i_ans i_read]; auto.
    + intro i. rewrite ups_app. cbn [ups flat_map up1 app]. rewrite (app_nil_r (ups i u)). eapply Ph_sub; [apply Sd|apply sub_refl|apply sub_refl|exact (A2 i)].
    + constructor.
    + apply after_snoc; auto. intro C. contradiction.
    + split; auto. discriminate.
  - constructor; cbn [i_up i_down i_srv i_ans i_read]; auto.
    + intro i. eapply Ph_sub; [apply Sd|apply sub_refl|apply sub_refl|exact (A2 i)].
    + constructor.
Qed.
Lemma firstn_sp sp a b : firstn 4 [32; 2; a; b] = firstn (length [32; 2; a; b]) [32; 2; sp; 0] -> sp = a.
Proof. cbn. congruence. Qed.
Lemma Inv_session l c se cl a N : Inv [] l c se (Wait cl [32; 2; a; 0]) N -> i_ans N = Some a /\ (a = 0 -> forall id, lookup (StateSpec.recvd se) id = None).
Proof.
  intros [A1 A2 A3 A4 A5 A6 A7 A8 A9 A10 A12 A11]. destruct A8 as (E & A8). rewrite E in A7. destruct (i_ans N) as [sp|] eqn:Ea; [|discriminate]. apply firstn_sp in A7. subst sp. split; auto. intros ->. auto.
Qed.
Lemma Inv_open l c se j N : soft j -> (forall i, owes i j = []) -> (forall i, pend i j = []) -> forall cl bs se', Inv [] l c se (Wait cl bs) N -> i_ans N <> None -> (forall i, lookup (StateSpec.recvd se') i = lookup (StateSpec.recvd se) i) -> Inv [] l Connected se' j N.
Proof.
  intros Hs Ho Hp cl bs se' H Ha He. assert (K : Inv [] l c se' j N) by (apply (Inv_job [] l c c se se' (Wait cl bs) j N); auto; intro i; rewrite (soft_eff i se' j Hs), He; reflexivity). destruct K as [A1 A2 A3 A4 A5 A6 A7 A8 A9 A10 A12 A11]. constructor; auto. intro C. contradiction.
Qed.
