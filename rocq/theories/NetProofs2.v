(** Publishes end to end: the invariant. *)
From Verif Require Import Base StateModel StateSpec StateHarness SerModel WireSpec SerHarness SerProofs4 CoreModel CoreHarness Machine MachSpec MachProofs MachFacts MachFacts2 NetSpec NetProofs.

Lemma be16_ne a b (ty : Z) : id_ok a -> id_ok b -> a <> b -> (ty, be16 a) <> (ty, be16 b).
Proof. intros Ha Hb H C. apply H. apply be16_inj; auto. congruence. Qed.

(** the last copy stored *)
Definition last_copy (id : Z) (l : list tok) (v : list (list Z)) (ok : bool) : Prop :=
  since (eq (Did (EStore id v ok))) (fun x => forall v ok, x <> Did (EStore id v ok)) l.
Lemma last_copy_app id l v ok x : (forall v ok, x <> Did (EStore id v ok)) -> last_copy id l v ok -> last_copy id (l ++ [x]) v ok.
Proof. intros H K. apply since_app; auto. Qed.
Lemma last_copy_new id l v ok : last_copy id (l ++ [Did (EStore id v ok)]) v ok.
Proof. apply since_new. reflexivity. Qed.
Lemma last_unique id l v ok v' ok' : last_copy id l v ok -> last_copy id l v' ok' -> v = v' /\ ok = ok'.
Proof.
  unfold last_copy. induction l as [|x l IH] using rev_ind.
  - intros (a & y & b & E & _). destruct a; discriminate.
  - assert (C : forall v ok, since (eq (Did (EStore id v ok))) (fun x => forall v ok, x <> Did (EStore id v ok)) (l ++ [x]) ->
      x = Did (EStore id v ok) \/ (forall v ok, x <> Did (EStore id v ok)) /\ since (eq (Did (EStore id v ok))) (fun x => forall v ok, x <> Did (EStore id v ok)) l).
    { intros w o (a & y & b & E & Hy & Hb). destruct (snoc_split _ _ _ _ _ E) as [(-> & -> & _)|(b' & -> & ->)]; [left; auto|]. apply Forall_app in Hb. destruct Hb as (Hb & Hx). inversion Hx; subst.
      right. split; auto. exists a, (Did (EStore id w o)), b'. auto. }
    intros H H'. destruct (C _ _ H) as [->|(N1 & H1)]; destruct (C _ _ H') as [E|(N2 & H2)]; auto.
    + split; congruence.
    + exfalso. now apply (N2 v ok).
    + exfalso. now apply (N1 v' ok').
Qed.
Lemma published_app id l1 l2 : published id (l1 ++ l2) = published id l1 ++ published id l2.
Proof. apply flat_map_app. Qed.

Definition Djob (j : job) : list (Z * list Z) := match j with Got ty body => [(ty, body)] | _ => [] end.
Definition halfst (x : pstate) : bool := match x with PubRelSend | PubCompPending => true | _ => false end.
Definition halfw (se : session) (id : Z) : Prop := exists f, lookup (sent se) id = Some f /\ halfst (f_st f) = true.
Definition openw (se : session) (id : Z) : Prop := exists f, lookup (sent se) id = Some f /\ unack (f_st f) = true.
Fixpoint J (l : list tok) (se : session) (j : job) : Prop :=
  match j with
  | Owe Pubrel id j => halfw se id /\ J l se j
  | Note Pubrel id j => halfw se id /\ J l se j
  | Owe _ _ j | Note _ _ j | Clear _ j | Show _ j => J l se j
  | Fetch id => openw se id
  | Again id bs => exists f m, lookup (sent se) id = Some f /\ unack (f_st f) = true /\ bs = publish_packet (with_dup m) /\ pkt_ok (KPublish m) /\ pm_id m = id /\ pm_qos m = f_qos f /\ f_qos f <> Q0 /\
      (f_qos f = Q2 -> exists pre, published id l = pre ++ [undup m])
  | _ => True
  end.
Section Net.
Variable rt : bool.
(** the publish was reserved but not stored *)
Definition lost (id : Z) (l : list tok) (j : job) : Prop := rt = true /\ (exists v, last_copy id l v false) /\ match j with Again i _ => i <> id | _ => True end.
Definition copied (id : Z) (l : list tok) (q : qos) : Prop :=
  exists v ok, last_copy id l v ok /\ (ok = true -> exists m0, concat v = publish_packet (with_dup m0) /\ pkt_ok (KPublish m0) /\ pm_id m0 = id /\ pm_qos m0 = q /\ q <> Q0 /\
    (q = Q2 -> exists pre, published id l = pre ++ [undup m0])).
Record Inv (l : list tok) (c : cstatus) (se : session) (j : job) (N : net) : Prop := mkInv {
  i_nd : NoDup (ids (sent se));
  i_ph : forall id, id_ok id -> phase id (lookup (sent se) id) (lost id l j) (n_up N) (Djob j ++ n_down N) (holds_id (n_srv N) id) (published id l) (passed_on id N);
  i_cp : rt = true -> forall id f, lookup (sent se) id = Some f -> unack (f_st f) = true -> copied id l (f_qos f);
  i_job : J l se j;
  i_open : c <> NotConnected -> v_open (n_srv N) = true;
  i_new : v_open (n_srv N) = false -> sent se = [];
  i_wait : match j with Wait cl bs => c = NotConnected /\ bs = n_read N /\ (n_ans N = Some 0 -> sent se = []) /\ cl = false | _ => True end;
  i_ans : n_ans N <> None -> v_open (n_srv N) = true;
  i_read : match n_ans N with None => n_read N = [] | Some sp => firstn 4 (n_read N) = firstn (length (n_read N)) [32; 2; sp; 0] end;
  i_up : existsb opens (n_up N) = true -> n_ans N = None }.

(** ** Without the client *)
Lemma is2_id id m : is2 id m = true <-> pm_qos m = Q2 /\ pm_id m = id.
Proof. unfold is2. rewrite andb_true_iff, Z.eqb_eq. destruct (pm_qos m); cbn; intuition congruence. Qed.
Lemma reads_id p m : reads_as p m -> pm_qos m <> Q0 -> id_ok (pm_id m).
Proof. intros ((_ & H & _) & _) Hq. auto. Qed.
Lemma holds_cons o id held log j : holds_id (mkServer o (id :: held) log) j = (j =? id) || existsb (Z.eqb j) held.
Proof. reflexivity. Qed.
Lemma holds_filter o id held log j : holds_id (mkServer o (filter (fun x => negb (x =? id)) held) log) j = negb (j =? id) && existsb (Z.eqb j) held.
Proof.
  unfold holds_id. cbn [v_held]. induction held as [|x held IH]; cbn; [now rewrite andb_false_r|]. destruct (x =? id) eqn:E; cbn; rewrite IH; destruct (j =? id) eqn:E2, (j =? x) eqn:E3; cbn; auto; lia.
Qed.
Lemma sub_app_l {T} (a l l' : list T) : Sub l l' -> Sub (a ++ l) (a ++ l').
Proof. intro H. induction a; cbn; auto. now apply sub_keep. Qed.
Lemma sub_prefix {T} (a b : list T) : Sub a (a ++ b).
Proof. induction a; cbn; [apply sub_none|now apply sub_keep]. Qed.
Lemma Inv_net l c se j N N' : nstep N N' -> Inv l c se j N -> Inv l c se j N'.
Proof.
  intros S [A1 A2 A3 A4 A5 A6 A7 A8 A9 A10]. destruct S as [p u d cu v a r rep v' Hs|u1 p u2 d cu v a r Hp|u d1 x d2 cu v a r|ty body u d cu v a r H1 H2 H3]; cbn [n_up n_down n_srv n_ans n_read] in *.
  - assert (B : forall id, id_ok id -> phase id (lookup (sent se) id) (lost id l j) u (Djob j ++ d ++ rep) (holds_id v' id) (published id l) (map undup (filter (is2 id) (v_log v')))).
    { intros id Hid. specialize (A2 id Hid). cbn [n_up n_down n_srv] in A2. unfold passed_on in A2. cbn [n_srv] in A2. assert (Su : Sub u (p :: u)) by apply sub_drop, sub_refl.
      destruct Hs as [v m|v p m Hm Hq|v p m Hm Hq|v p m Hm Hq|v id' Hi|v p Hx].
      - rewrite app_nil_r. eapply phase_sub; [exact Su|apply sub_refl|exact A2].
      - rewrite app_nil_r. eapply phase_sub; [exact Su|apply sub_refl|exact A2].
      - rewrite app_assoc. apply phase_down; [intro C; discriminate|intro C; discriminate|]. cbn [v_log v_held v_open]. rewrite filter_app. cbn [filter].
        replace (is2 id m) with false by (symmetry; destruct (is2 id m) eqn:X; auto; apply is2_id in X; destruct X; congruence). rewrite app_nil_r. eapply phase_sub; [exact Su|apply sub_refl|exact A2].
      - assert (Hi : id_ok (pm_id m)) by (eapply reads_id; eauto; congruence). rewrite app_assoc. destruct (Z.eq_dec (pm_id m) id) as [E|E].
        + assert (E2 : is2 id m = true) by (apply is2_id; auto). apply (phase_serveP id _ _ p m _ _ _ _ _ Hm E2) in A2. rewrite E. destruct (holds_id v id) eqn:Eh.
          * now rewrite Eh.
          * cbn [v_log]. rewrite holds_cons, Z.eqb_refl. cbn [orb]. rewrite filter_app, map_app. cbn. rewrite E2. exact A2.
        + apply phase_down; [intro C; revert C; apply be16_ne; auto|intro C; discriminate|]. eapply phase_sub; [exact Su|apply sub_refl|].
          destruct (holds_id v (pm_id m)); [exact A2|]. rewrite holds_cons. replace (id =? pm_id m) with false by lia. cbn [orb v_log]. rewrite filter_app. cbn.
          replace (is2 id m) with false by (symmetry; destruct (is2 id m) eqn:X; auto; apply is2_id in X; destruct X; congruence). rewrite app_nil_r. exact A2.
      - rewrite app_assoc. cbn [v_log]. destruct (Z.eq_dec id' id) as [->|E].
        + apply phase_serveR in A2. rewrite holds_filter, Z.eqb_refl. exact A2.
        + apply phase_down; [intro C; discriminate|intro C; revert C; apply be16_ne; auto|]. eapply phase_sub; [exact Su|apply sub_refl|]. rewrite holds_filter. replace (id =? id') with false by lia. exact A2.
      - rewrite app_nil_r. eapply phase_sub; [exact Su|apply sub_refl|exact A2]. }
    assert (Bo : v_open v = true -> v_open v' = true) by (destruct Hs; cbn; auto; destruct (holds_id _ _); auto).
    constructor; cbn [n_up n_down n_srv n_ans n_read]; auto.
    + intros id Hid. unfold passed_on. cbn [n_srv]. specialize (B id Hid). destruct (existsb opens u); auto. eapply phase_sub; [apply sub_refl| |exact B]. apply sub_app_l, sub_prefix.
    + intro E. apply A6. destruct (v_open v); auto. now rewrite Bo in E.
    + destruct j; auto. destruct A7 as (B1 & B2 & B3 & B4). split; auto. split; auto. split; auto. destruct (opens p && negb (existsb opens u)); auto.
      intro E. apply A6. destruct (v_open v); [discriminate|reflexivity].
    + destruct (opens p && negb (existsb opens u)) eqn:E; [|auto]. intros _. apply andb_true_iff in E. destruct E as (E & _). destruct p; try discriminate. inversion Hs; subst; try contradiction; auto; cbn in *; destruct H as (_ & []).
    + destruct (opens p && negb (existsb opens u)) eqn:E; [|auto]. apply andb_true_iff in E. rewrite A10 in A9 by (cbn [existsb]; now rewrite (proj1 E)). now rewrite A9.
    + intro E. rewrite E, andb_false_r. apply A10. cbn [existsb]. rewrite E. now rewrite orb_true_r.
  - constructor; cbn [n_up n_down n_srv n_ans n_read]; auto. intros id Hid. specialize (A2 id Hid). eapply phase_sub; [apply sub_mid|apply sub_refl|exact A2].
    intro E. apply A10. rewrite existsb_app in *. cbn [existsb]. destruct (existsb opens u1); auto. cbn in *. rewrite E. now rewrite orb_true_r.
  - constructor; cbn [n_up n_down n_srv n_ans n_read]; auto. intros id Hid. specialize (A2 id Hid). eapply phase_sub; [apply sub_refl|apply sub_app_l, sub_mid|exact A2].
  - constructor; cbn [n_up n_down n_srv n_ans n_read]; auto. intros id Hid. specialize (A2 id Hid). rewrite app_assoc. apply phase_down; auto; intro C; unfold isC, isD in C; congruence.
Qed.

(** ** The client: jobs and plain packets *)
Definition not_again (j : job) : Prop := match j with Again _ _ => False | _ => True end.
Lemma lost_job id l j j' : not_again j' -> lost id l j -> lost id l j'.
Proof. intros H (A & B & _). split; auto. split; auto. destruct j'; auto. Qed.
Lemma Inv_job l c se j N c' j' : Inv l c se j N -> not_again j' -> Sub (Djob j') (Djob j) -> J l se j' -> (c' <> NotConnected -> v_open (n_srv N) = true) ->
  match j' with Wait cl bs => c' = NotConnected /\ bs = n_read N /\ (n_ans N = Some 0 -> sent se = []) /\ cl = false | _ => True end -> Inv l c' se j' N.
Proof.
  intros [A1 A2 A3 A4 A5 A6 A7 A8 A9 A10] H0 H1 H2 H3 H4. constructor; auto. intros id Hid. eapply phase_lost; [now apply lost_job|]. eapply phase_sub; [apply sub_refl| |exact (A2 id Hid)].
  revert H1. generalize (Djob j') (Djob j) (n_down N). intros a b d S. induction S; cbn; auto using sub_refl; constructor; auto.
Qed.
(** the token is neither a copy stored nor a QoS 2 publish *)
Definition plain_tok (x : tok) : Prop := (forall id v ok, x <> Did (EStore id v ok)) /\ forall id, published id [x] = [].
Lemma published_plain id l x : plain_tok x -> published id (l ++ [x]) = published id l.
Proof. intros (_ & H). rewrite published_app, H. apply app_nil_r. Qed.
Lemma lost_plain id l x j : plain_tok x -> lost id l j -> lost id (l ++ [x]) j.
Proof. intros (H & _) (H1 & (v & H2) & H3). split; auto. split; auto. exists v. apply last_copy_app; auto. Qed.
Lemma copied_plain id l x q : plain_tok x -> copied id l q -> copied id (l ++ [x]) q.
Proof. intros H (v & ok & H1 & H2). exists v, ok. split; [apply last_copy_app; auto; apply H|]. now rewrite published_plain. Qed.
Lemma J_app l x se j : (forall id, openw se id -> published id [x] = []) -> J l se j -> J (l ++ [x]) se j.
Proof.
  intros H. induction j as [| |ty body|i j IH|e j IH|k i j IH|k i j IH|cl bs| |i|i bs]; cbn [J]; auto.
  - destruct k; auto; intros (A & B); auto.
  - destruct k; auto; intros (A & B); auto.
  - intros (f & m & A1 & A2 & A3 & A4 & A5 & A6 & A7 & A8). exists f, m. rewrite published_app, H, app_nil_r by (exists f; auto). auto 9.
Qed.
Lemma J_plain l x se j : plain_tok x -> J l se j -> J (l ++ [x]) se j.
Proof. intros (_ & H). apply J_app; auto. Qed.
Lemma Inv_plain l c se j N x N' : plain_tok x -> Inv l c se j N ->
  (forall id, id_ok id -> phase id (lookup (sent se) id) (lost id l j) (n_up N) (Djob j ++ n_down N) (holds_id (n_srv N) id) (published id l) (passed_on id N) ->
     phase id (lookup (sent se) id) (lost id l j) (n_up N') (Djob j ++ n_down N') (holds_id (n_srv N) id) (published id l) (passed_on id N)) ->
  n_srv N' = n_srv N -> n_ans N' = n_ans N -> n_read N' = n_read N -> existsb opens (n_up N') = existsb opens (n_up N) -> Inv (l ++ [x]) c se j N'.
Proof.
  intros Hx [A1 A2 A3 A4 A5 A6 A7 A8 A9 A10] Hp E1 E2 E3 E4. constructor; rewrite ?E1, ?E2, ?E3, ?E4; auto.
  - intros id Hid. rewrite published_plain; auto. unfold passed_on. rewrite E1. apply (phase_lost _ _ (lost id l j)); [now apply lost_plain|]. apply Hp; auto.
  - intros Hr id f Hf Hu. apply copied_plain; eauto.
  - now apply J_plain.
Qed.
Lemma cstep_pkt N x p N' : cstep N x N' -> carries x = Some p -> opens p = false ->
  (n_up N' = n_up N \/ n_up N' = n_up N ++ [p]) /\ n_down N' = n_down N /\ n_srv N' = n_srv N /\ n_ans N' = n_ans N /\ n_read N' = n_read N.
Proof.
  intros S E Ho. destruct S; cbn in E; try discriminate; try (assert (KConnect m = p) by congruence; subst p; discriminate); assert (p0 = p) by congruence; subst p0; cbn; auto.
  split; auto. destruct c; auto.
Qed.
Definition plain_pkt (p : cpkt) : Prop := opens p = false /\ (forall id, ~ isP id p /\ ~ isR id p) /\ match p with KPublish m => pm_qos m <> Q2 | _ => True end.
Lemma plain_carries x p : carries x = Some p -> plain_pkt p -> plain_tok x.
Proof.
  intros E (_ & _ & H). split; [intros id v ok C; subst x; discriminate|]. intro id. unfold published. cbn. rewrite E. destruct p; auto.
  destruct (is2 id m) eqn:E2; auto. apply is2_id in E2. destruct E2. contradiction.
Qed.
Lemma Inv_send l c se j N x p N' : carries x = Some p -> plain_pkt p -> cstep N x N' -> Inv l c se j N -> Inv (l ++ [x]) c se j N'.
Proof.
  intros E Hp S H. pose proof (plain_carries _ _ E Hp) as Hx. destruct Hp as (Hp1 & Hp2 & _). destruct (cstep_pkt _ _ _ _ S E Hp1) as (Eu & Ed & Es & Ea & Er).
  eapply Inv_plain; eauto; rewrite ?Ed.
  - intros id Hid K. destruct Eu as [->| ->]; auto. destruct (Hp2 id). now apply phase_up.
  - destruct Eu as [->| ->]; auto. rewrite existsb_app. cbn. rewrite Hp1. now rewrite !orb_false_r.
Qed.
Lemma Inv_did l c se j N e N' : match e with EStore _ _ _ | EPkt _ _ | EIn _ => False | _ => True end -> cstep N (Did e) N' -> Inv l c se j N -> Inv (l ++ [Did e]) c se j N'.
Proof.
  intros He S H. inversion S; subst; try contradiction. eapply Inv_plain; eauto. split; [|reflexivity]. intros id v ok C. assert (e = EStore id v ok) by congruence. subst e. contradiction.
Qed.
Lemma plain_ack k id : k <> Pubrel -> plain_pkt (KAck k id).
Proof. intro H. split; auto. split; auto. intro i. split; [intros (m & (_ & []) & _)|]. unfold isR. congruence. Qed.
Lemma plain_other p : match p with KSubscribe _ _ | KUnsubscribe _ _ | KPing | KDisconnect => True | _ => False end -> plain_pkt p.
Proof. intro H. destruct p; try contradiction; (split; [reflexivity|]; split; [|exact I]; intro i; split; [intros (m & (_ & []) & _)|intro C; discriminate]). Qed.
Lemma plain_publish m : pm_qos m <> Q2 -> plain_pkt (KPublish m).
Proof. intro H. split; auto. split; auto. intro i. split; [|intro C; discriminate]. intros (m' & (_ & <-) & K). apply is2_id in K. now destruct K. Qed.

(** ** PUBREL and stored copies *)
Lemma half_phase id o lo up D h pub del : match o with Some f => halfst (f_st f) = true | None => True end -> phase id o lo up D h pub del -> phase id o lo (up ++ [KAck Pubrel id]) D h pub del.
Proof.
  intros Ho H. assert (NP : ~ isP id (KAck Pubrel id)) by (intros (m & (_ & []) & _)).
  assert (Bh : half2 id up D h pub del -> half2 id (up ++ [KAck Pubrel id]) D h pub del).
  { intros (A1 & A2 & A3 & A4 & A5). split; [apply after_snoc; auto; intro C; contradiction|]. split; auto. split; [intro E; apply none_snoc; auto|auto]. }
  assert (Bf : free2 id up D h pub del -> free2 id (up ++ [KAck Pubrel id]) D h pub del).
  { intros (A1 & A2 & A3 & A4). split; auto. split; [apply none_snoc; auto|auto]. }
  phases o; auto; discriminate.
Qed.
Lemma Inv_pubrel l c se j N x id N' : carries x = Some (KAck Pubrel id) -> halfw se id -> cstep N x N' -> Inv l c se j N -> Inv (l ++ [x]) c se j N'.
Proof.
  intros E (f & Hf & Hh) S H. assert (Hx : plain_tok x) by (split; [intros i v ok C; subst x; discriminate|intro i; unfold published; cbn; now rewrite E]).
  destruct (cstep_pkt _ _ _ _ S E eq_refl) as (Eu & Ed & Es & Ea & Er). eapply Inv_plain; eauto; rewrite ?Ed.
  - intros i Hi K. destruct Eu as [->| ->]; auto. destruct (Z.eq_dec i id) as [->|Ne].
    + apply half_phase; auto. rewrite Hf. exact Hh.
    + apply phase_up; auto; [intros (m & (_ & []) & _)|unfold isR; congruence].
  - destruct Eu as [->| ->]; auto. rewrite existsb_app. cbn. now rewrite !orb_false_r.
Qed.
Lemma begun_again id lo up D h pub del p : ~ lo -> ~ isR id p -> (forall m, reads_as p m -> is2 id m = true -> exists pre, pub = pre ++ [undup m]) -> begun2 id lo up D h pub del -> begun2 id lo (up ++ [p]) D h pub del.
Proof.
  intros Hl Hr Hp (A1 & A2 & A3 & A4 & A5). split; [apply after_snoc; auto; intro C; contradiction|]. split; auto. split; [intro E; apply none_snoc; auto|]. split; auto.
  destruct A5 as [A5|[(E & m & Em & A5)|(E & E2 & A5 & A6)]]; auto; try contradiction.
  right. left. split; auto. exists m. split; auto. intros p0 m' K R I2. apply in_app_iff in K. destruct K as [K|[<-|[]]]; [eauto|]. destruct (Hp _ R I2) as (pre & Ep). rewrite Em in Ep. apply app_inj_tail in Ep. now destruct Ep.
Qed.
Lemma Inv_again l c se N x id bs N' : carries x = Some (KAgain id bs) -> id_ok id -> cstep N x N' -> Inv l c se (Again id bs) N -> Inv (l ++ [x]) c se (Again id bs) N'.
Proof.
  intros E Hid S H. assert (Hx : plain_tok x) by (split; [intros i w ok C; subst x; discriminate|intro i; unfold published; cbn; now rewrite E]).
  destruct (i_job _ _ _ _ _ H) as (f & m0 & Hf & Hu & Eb & Hm & P1 & P2 & Hq & P3).
  assert (P4 : forall m, reads_as (KAgain id bs) m -> m = with_dup m0) by (intros m (M1 & M2); symmetry; apply publish_packet_inj; auto; [cbn; congruence|congruence]).
  destruct (cstep_pkt _ _ _ _ S E eq_refl) as (Eu & Ed & Es & Ea & Er).
  assert (NP : forall i, isP i (KAgain id bs) -> i = id /\ f_qos f = Q2) by (intros i (m & Hm' & K); apply is2_id in K; rewrite (P4 m Hm') in K; cbn in K; split; [destruct K; congruence|destruct K; congruence]).
  eapply Inv_plain; eauto; rewrite ?Ed.
  2:{ destruct Eu as [->| ->]; auto. rewrite existsb_app. cbn. now rewrite !orb_false_r. }
  intros i Hi K. destruct Eu as [->| ->]; auto. destruct (Z.eq_dec i id) as [->|Ne].
  - destruct (qos_beq (f_qos f) Q2) eqn:Eq.
    + assert (Eq2 : f_qos f = Q2) by (destruct (f_qos f); auto; discriminate). rewrite Hf in *. destruct f as [i q s]. cbn [f_qos f_st] in *. rewrite Eq2 in *.
      cbn [phase] in *. rewrite Hu in *. apply begun_again; auto.
      * intros (_ & _ & K1). now apply K1.
      * discriminate.
      * intros m' R _. rewrite (P4 m' R). now apply P3.
    + apply phase_up; auto; [|discriminate]. intro K1. destruct (NP _ K1) as (_ & K2). rewrite K2 in Eq. discriminate.
  - apply phase_up; auto; [|discriminate]. intro K1. apply Ne. now apply NP.
Qed.
End Net.
