(** QoS 1 publishes end to end: the invariant. *)
From Verif Require Import Base StateModel StateSpec StateHarness SerModel WireSpec SerHarness SerProofs4 CoreModel CoreHarness Machine MachSpec MachProofs MachFacts MachFacts2 NetSpec NetProofs NetProofs2 NetProofs3 NetProofs4 OutSpec OutProofs.

Lemma published1_app id l1 l2 : published1 id (l1 ++ l2) = published1 id l1 ++ published1 id l2.
Proof. apply flat_map_app. Qed.
Lemma unsent_snoc id l x : unsent id (l ++ [x]) -> calls_up x \/ unsent id l /\ ~ sends_id id x.
Proof.
  intros (a & y & b & E & Hy & Hb). destruct (snoc_split _ _ _ _ _ E) as [(-> & -> & _)|(b' & -> & ->)]; [auto|]. apply Forall_app in Hb. destruct Hb as (Hb & Hx). inversion Hx; subst. right. split; auto. exists a, y, b'. auto.
Qed.
Definition again_of (l : list tok) (j : job) : Prop :=
  match j with Again id bs => forall m, bs = publish_packet (with_dup m) -> pkt_ok (KPublish m) -> pm_qos m = Base.Q1 -> pm_id m = id -> exists pre, published1 id l = pre ++ [undup m] | _ => True end.

Section Net.
Variable rt : bool.
Notation lost := (lost rt).
Record Inv1 (l : list tok) (se : session) (j : job) (N : net) : Prop := mkInv1 {
  j_ph : forall id, id_ok id -> phase1 id (lookup (sent se) id) (lost id l j) (n_up N) (Djob j ++ n_down N) (published1 id l) (arrived id N);
  j_cp : rt = true -> forall id f v m, lookup (sent se) id = Some f -> f_qos f = Base.Q1 -> last_copy id l v true -> concat v = publish_packet (with_dup m) -> pkt_ok (KPublish m) -> pm_qos m = Base.Q1 ->
     exists pre, published1 id l = pre ++ [undup m];
  j_job : again_of l j;
  j_q : forall id, id_ok id -> unsent id l -> none (isP1 id) (cur (n_up N)) /\ none (isA id) (Djob j ++ n_down N) }.

(** ** Without the client *)
Lemma serves_opens v p rep v' m : serves v p rep v' -> reads_as p m -> opens p = false.
Proof. intros _ (_ & H). destruct p; auto. contradiction. Qed.
Lemma cur_sub_cons p u : Sub (cur u) (cur (p :: u)).
Proof. cbn. destruct (existsb opens u) eqn:E; [apply sub_refl|]. rewrite cur_none by auto. destruct (opens p); [apply sub_refl|apply sub_drop, sub_refl]. Qed.
Lemma cons_opens p u : existsb opens (p :: u) = false -> existsb opens u = false.
Proof. cbn. rewrite orb_false_iff. tauto. Qed.
Lemma Inv1_net l se j N N' : nstep N N' -> Inv1 l se j N -> Inv1 l se j N'.
Proof.
  intros S [A1 A2 A3 A4]. destruct S as [p u d cu v a r rep v' Hs|u1 p u2 d cu v a r Hp|u d1 x d2 cu v a r|ty body u d cu v a r H1 H2 H3]; cbn [n_up n_down] in *.
  - assert (Su : Sub u (p :: u)) by apply sub_drop, sub_refl.
    constructor; cbn [n_up n_down]; auto.
    + intros id Hid. specialize (A1 id Hid). unfold arrived in *. cbn [n_srv] in *.
      assert (P0 : phase1 id (lookup (sent se) id) (lost id l j) u (Djob j ++ d) (published1 id l) (map undup (filter (is1 id) (v_log v)))) by (eapply phase1_sub; [exact Su|apply cur_sub_cons|apply sub_refl|intros _; apply cons_opens|exact A1]).
      assert (Pn : forall y, ~ isA id y -> phase1 id (lookup (sent se) id) (lost id l j) u (Djob j ++ (if existsb opens u then d else d ++ [y])) (published1 id l) (map undup (filter (is1 id) (v_log v)))).
      { intros y Hy. destruct (existsb opens u); auto. rewrite app_assoc. now apply phase1_other. }
      destruct Hs as [v m|v p m Hm Hq|v p m Hm Hq|v p m Hm Hq|v id' Hi|v p Hx]; cbn [v_log].
      * replace (if existsb opens u then d else d ++ []) with d by (destruct (existsb opens u); now rewrite ?app_nil_r). exact P0.
      * replace (if existsb opens u then d else d ++ []) with d by (destruct (existsb opens u); now rewrite ?app_nil_r). exact P0.
      * rewrite filter_app, map_app. cbn [filter]. assert (Hi : id_ok (pm_id m)) by (eapply reads_id; eauto; congruence). destruct (Z.eq_dec (pm_id m) id) as [E|E].
        -- assert (E1 : is1 id m = true) by (apply is1_id; auto). rewrite E1, E. assert (Ho : opens p = false) by (destruct Hm as (_ & Hm); destruct p; auto; contradiction).
           pose proof (phase1_serve id _ _ p m _ _ _ _ Hm E1 Ho A1) as K. destruct (existsb opens u); [exact K|]. rewrite app_assoc. exact K.
        -- replace (is1 id m) with false by (symmetry; destruct (is1 id m) eqn:X; auto; apply is1_id in X; destruct X; congruence). cbn [map]. rewrite app_nil_r. apply Pn. apply be16_ne; auto.
      * assert (E1 : is1 id m = false) by (destruct (is1 id m) eqn:X; auto; apply is1_id in X; destruct X; congruence).
        replace (map undup (filter (is1 id) (v_log _))) with (map undup (filter (is1 id) (v_log v))); [apply Pn; intro C; unfold isA in C; congruence|].
        destruct (holds_id v (pm_id m)); auto. cbn [v_log]. rewrite filter_app. cbn [filter]. now rewrite E1, app_nil_r.
      * apply Pn. intro C. unfold isA in C. congruence.
      * replace (if existsb opens u then d else d ++ []) with d by (destruct (existsb opens u); now rewrite ?app_nil_r). exact P0.
    + intros id Hid K. destruct (A4 id Hid K) as (B1 & B2). split; [eapply none_sub; [apply cur_sub_cons|exact B1]|].
      destruct (existsb opens u) eqn:Eo; auto. rewrite app_assoc. apply Forall_app. split; auto.
      destruct Hs as [v m|v p m Hm Hq|v p m Hm Hq|v p m Hm Hq|v id' Hi|v p Hx]; try constructor; try constructor; try (intro C; unfold isA in C; congruence).
      intro C. assert (Ho : opens p = false) by (destruct Hm as (_ & Hm); destruct p; auto; contradiction). rewrite cur_none in B1 by (cbn; now rewrite Ho, Eo). apply none_tail in B1. destruct B1 as (B1 & _). apply B1.
      exists m. split; auto. apply is1_id. split; auto. apply be16_inj; auto; [eapply reads_id; eauto; congruence|congruence].
  - assert (Ho : existsb opens (u1 ++ p :: u2) = false -> existsb opens (u1 ++ u2) = false) by (apply sub_opens, sub_mid).
    constructor; cbn [n_up n_down]; auto.
    + intros id Hid. specialize (A1 id Hid). eapply phase1_sub; [apply sub_mid|apply cur_lose; exact Hp|apply sub_refl|auto|exact A1].
    + intros id Hid K. destruct (A4 id Hid K) as (B1 & B2). split; auto. eapply none_sub; [apply cur_lose; exact Hp|exact B1].
  - constructor; cbn [n_up n_down]; auto.
    + intros id Hid. specialize (A1 id Hid). eapply phase1_down; [apply sub_app_l, sub_mid|exact A1].
    + intros id Hid K. destruct (A4 id Hid K) as (B1 & B2). split; auto. eapply none_sub; [apply sub_app_l, sub_mid|exact B2].
  - constructor; cbn [n_up n_down]; auto.
    + intros id Hid. specialize (A1 id Hid). rewrite app_assoc. apply phase1_other; auto. intro C. unfold isA in C. congruence.
    + intros id Hid K. destruct (A4 id Hid K) as (B1 & B2). split; auto. rewrite app_assoc. apply none_snoc; auto. intro C. unfold isA in C. congruence.
Qed.
Lemma Inv1_nets l se j N N' : nsteps N N' -> Inv1 l se j N -> Inv1 l se j N'.
Proof. induction 1; auto. intro K. eapply Inv1_net; eauto. Qed.

(** ** The client: jobs and plain packets *)
Lemma sub_app_r {T} (a b d : list T) : Sub a b -> Sub (a ++ d) (b ++ d).
Proof. induction 1; cbn; auto using sub_refl; constructor; auto. Qed.
Lemma Inv1_job l se j N j' : Inv1 l se j N -> not_again j' -> Sub (Djob j') (Djob j) -> Inv1 l se j' N.
Proof.
  intros [A1 A2 A3 A4] H0 H1. constructor; auto.
  - intros id Hid. eapply phase1_lost; [now apply lost_job|]. eapply phase1_down; [|exact (A1 id Hid)]. now apply sub_app_r.
  - destruct j'; auto. contradiction.
  - intros id Hid K. destruct (A4 id Hid K) as (B1 & B2). split; auto. eapply none_sub; [|exact B2]. now apply sub_app_r.
Qed.
Definition plain1 (x : tok) : Prop := (forall id v ok, x <> Did (EStore id v ok)) /\ (forall id, published1 id [x] = []) /\ ~ calls_up x.
Lemma published1_plain id l x : plain1 x -> published1 id (l ++ [x]) = published1 id l.
Proof. intros (_ & H & _). rewrite published1_app, H. apply app_nil_r. Qed.
Lemma lost_plain1 id l x j : plain1 x -> lost id l j -> lost id (l ++ [x]) j.
Proof. intros (H & _) (H1 & (v & H2) & H3). split; auto. split; auto. exists v. apply last_copy_app; auto. Qed.
Lemma last_copy_back id l x v ok : (forall v ok, x <> Did (EStore id v ok)) -> last_copy id (l ++ [x]) v ok -> last_copy id l v ok.
Proof.
  intros H (a & y & b & E & Hy & Hb). destruct (snoc_split _ _ _ _ _ E) as [(-> & -> & _)|(b' & -> & ->)]; [exfalso; now apply (H v ok)|]. apply Forall_app in Hb. destruct Hb as (Hb & _). exists a, y, b'. auto.
Qed.
Lemma Inv1_plain l se j N x N' j' : plain1 x -> Inv1 l se j N -> Djob j' = Djob j -> again_of (l ++ [x]) j' -> (forall id, lost id l j -> lost id l j') ->
  (forall id, id_ok id -> phase1 id (lookup (sent se) id) (lost id l j) (n_up N) (Djob j ++ n_down N) (published1 id l) (arrived id N) ->
     phase1 id (lookup (sent se) id) (lost id l j) (n_up N') (Djob j ++ n_down N') (published1 id l) (arrived id N)) ->
  (forall id, id_ok id -> unsent id l -> ~ sends_id id x -> none (isP1 id) (cur (n_up N)) /\ none (isA id) (Djob j ++ n_down N) -> none (isP1 id) (cur (n_up N')) /\ none (isA id) (Djob j ++ n_down N')) ->
  n_srv N' = n_srv N -> Inv1 (l ++ [x]) se j' N'.
Proof.
  intros Hx [A1 A2 A3 A4] Ej Ha Hl Hp Hq E1. constructor; rewrite ?Ej; auto.
  - intros id Hid. rewrite published1_plain; auto. unfold arrived. rewrite E1. apply (phase1_lost _ _ (lost id l j)); [intro K; apply lost_plain1; auto|]. apply Hp; auto.
  - intros Hr id f v m H1 H2 H3. rewrite published1_plain by auto. apply A2 with (f := f); auto. eapply last_copy_back; eauto. apply Hx.
  - intros id Hid K. destruct (unsent_snoc _ _ _ K) as [C|(K1 & K2)]; [exfalso; now apply Hx|]. apply Hq; auto.
Qed.
Lemma again_plain l x j : plain1 x -> again_of l j -> again_of (l ++ [x]) j.
Proof. intros Hx H. destruct j; auto. cbn in *. intros m. rewrite published1_plain by auto. auto. Qed.
Lemma Inv1_send l se j N x p N' : carries x = Some p -> opens p = false -> (forall id, ~ isP1 id p) -> match p with KPublish m => pm_qos m <> Base.Q1 | _ => True end -> cstep N x N' -> Inv1 l se j N -> Inv1 (l ++ [x]) se j N'.
Proof.
  intros E Ho Hp Hm S H. assert (Hx : plain1 x).
  { split; [intros id v ok C; subst x; discriminate|]. split; [|intros (m & ->); cbn in E; assert (p = KConnect m) by congruence; subst p; discriminate]. intro id. unfold published1. cbn. rewrite E. destruct p; auto. destruct (is1 id m) eqn:K; auto. apply is1_id in K. destruct K. contradiction. }
  destruct (cstep_pkt _ _ _ _ S E Ho) as (Eu & Ed & Es & Ea & Er). eapply Inv1_plain; eauto; rewrite ?Ed.
  - apply again_plain; auto. apply H.
  - intros id Hid K. destruct Eu as [->| ->]; auto. now apply phase1_up.
  - intros id Hid K1 K2 (B1 & B2). split; auto. destruct Eu as [->| ->]; auto. rewrite cur_snoc by auto. apply none_snoc; auto.
Qed.
Lemma Inv1_did l se j N e N' : match e with EStore _ _ _ | EPkt _ _ | EIn _ => False | _ => True end -> cstep N (Did e) N' -> Inv1 l se j N -> Inv1 (l ++ [Did e]) se j N'.
Proof.
  intros He S H. inversion S; subst; try contradiction. assert (Hx : plain1 (Did e)) by (split; [intros id v ok C; assert (e = EStore id v ok) by congruence; subst e; contradiction|split; [reflexivity|intros (m & C); discriminate]]).
  eapply Inv1_plain; eauto. apply again_plain; auto. apply H.
Qed.
Lemma Inv1_read l se j N bs N' : cstep N (Did (EIn bs)) N' -> Inv1 l se j N -> Inv1 (l ++ [Did (EIn bs)]) se (match j with Wait cl b => Wait cl (b ++ bs) | _ => j end) N'.
Proof.
  intros S H. assert (Hx : plain1 (Did (EIn bs))) by (split; [discriminate|split; [reflexivity|intros (m & C); discriminate]]). inversion S; subst; try contradiction. eapply Inv1_plain; eauto; cbn [n_up n_down n_srv]; auto.
  - destruct j; reflexivity.
  - apply again_plain; auto. destruct j; auto; apply H.
  - intros id K. destruct j; auto; revert K; now apply lost_job.
Qed.
Lemma Inv1_packet l se j N ty body N' : Djob j = [] -> cstep N (Did (EPkt ty body)) N' -> Inv1 l se j N -> Inv1 (l ++ [Did (EPkt ty body)]) se (Got ty body) N'.
Proof.
  intros Hd S H. assert (Hx : plain1 (Did (EPkt ty body))) by (split; [discriminate|split; [reflexivity|intros (m & C); discriminate]]). inversion S; subst; try contradiction. destruct H as [A1 A2 A3 A4]. cbn [n_up n_down n_srv] in *. rewrite Hd in *.
  constructor; cbn [n_up n_down n_srv]; auto.
  - intros id Hid. rewrite published1_plain by auto. apply (phase1_lost _ _ (lost id l j)); [intro K; apply lost_plain1; auto; revert K; now apply lost_job|]. exact (A1 id Hid).
  - intros Hr id f w m H1 H2 H3. rewrite published1_plain by auto. apply A2 with (f := f); auto. eapply last_copy_back; eauto. discriminate.
  - exact I.
  - intros id Hid K. destruct (unsent_snoc _ _ _ K) as [(m & C)|(K1 & K2)]; [discriminate|]. exact (A4 id Hid K1).
Qed.
Lemma Inv1_connect l se j N x m N' : Djob j = [] -> carries x = Some (KConnect m) -> cstep N x N' -> Inv1 l se j N -> Inv1 (l ++ [x]) se (match x with Sent _ => Wait (cm_clean m) [] | _ => Failed end) N'.
Proof.
  intros Hd E S [A1 A2 A3 A4].
  assert (F : n_up N' = n_up N /\ ~ calls_up x \/ n_up N' = n_up N ++ [KConnect m]).
  { destruct S; cbn in E; try discriminate; try (assert (p = KConnect m) by congruence; subst p; discriminate); assert (m0 = m) by congruence; subst m0; cbn; auto. left. split; auto. intros (m1 & C). discriminate. }
  assert (G : n_down N' = [] /\ n_srv N' = n_srv N) by (destruct S; cbn in E; try discriminate; try (assert (p = KConnect m) by congruence; subst p; discriminate); auto).
  destruct G as (Ed & Es). assert (Ep : forall id, published1 id (l ++ [x]) = published1 id l) by (intro id; rewrite published1_app; unfold published1 at 2; cbn [flat_map]; rewrite E; apply app_nil_r).
  assert (Nx : forall id v ok, x <> Did (EStore id v ok)) by (intros id v ok C; subst x; discriminate).
  assert (Ej : Djob (match x with Sent _ => Wait (cm_clean m) [] | _ => Failed end) = []) by (destruct x; reflexivity).
  constructor; rewrite ?Ej, ?Ed; cbn [app]; auto.
  - intros id Hid. rewrite Ep. unfold arrived. rewrite Es. apply (phase1_lost _ _ (lost id l j)).
    { intros (K1 & (v & K2) & K3). split; auto. split; [exists v; apply last_copy_app; auto|]. destruct x; exact I. }
    eapply phase1_connect; [|exact (A1 id Hid)]. destruct F as [(F & _)|F]; eauto.
  - intros Hr id f v m1 H1 H2 H3. rewrite Ep. apply A2 with (f := f); auto. eapply last_copy_back; eauto.
  - destruct x; exact I.
  - intros id Hid K. split; [|constructor]. destruct F as [(-> & F)| ->]; [|rewrite cur_new by reflexivity; constructor].
    destruct (unsent_snoc _ _ _ K) as [C|(K1 & _)]; [contradiction|]. now apply A4.
Qed.

(** ** Publishes *)
Lemma Inv1_again l c se N x id bs N' : carries x = Some (KAgain id bs) -> id_ok id -> (forall b, x = Sent (KAgain id b) -> unsent id l) -> cstep N x N' -> Inv rt l c se (Again id bs) N -> Inv1 l se (Again id bs) N -> Inv1 (l ++ [x]) se (Again id bs) N'.
Proof.
  intros E Hid Hu S HI H. destruct (i_job _ _ _ _ _ _ HI) as (f & m0 & Hf & Hun & Eb & Hm & P1 & P2 & Hq & _).
  assert (P4 : forall m, reads_as (KAgain id bs) m -> m = with_dup m0) by (intros m (M1 & M2); symmetry; apply publish_packet_inj; auto; [cbn; congruence|congruence]).
  destruct (cstep_pkt _ _ _ _ S E eq_refl) as (Eu & Ed & Es & Ea & Er).
  assert (Hx : plain1 x) by (split; [intros i w ok C; subst x; discriminate|split; [intro i; unfold published1; cbn; now rewrite E|intros (m & ->); discriminate]]).
  assert (Hs : (exists b, x = Sent (KAgain id b)) \/ n_up N' = n_up N) by (destruct S; cbn in E; try discriminate; auto; left; exists bs; congruence).
  assert (NP : forall i, isP1 i (KAgain id bs) -> i = id /\ f_qos f = Base.Q1) by (intros i (m & Hm' & K); apply is1_id in K; rewrite (P4 m Hm') in K; cbn in K; destruct K; split; congruence).
  eapply Inv1_plain; eauto; rewrite ?Ed.
  - apply again_plain; auto. apply H.
  - intros i Hi K. destruct Hs as [(b & Hs)|Hs]; [|now rewrite Hs]. destruct Eu as [->| ->]; auto. destruct (Z.eq_dec i id) as [->|Ne]; [|apply phase1_up; auto; intro C; apply Ne; now apply NP].
    destruct (qos_beq (f_qos f) Base.Q1) eqn:Eq; [|apply phase1_up; auto; intro C; destruct (NP _ C) as (_ & C2); rewrite C2 in Eq; discriminate].
    assert (Eq1 : f_qos f = Base.Q1) by (destruct (f_qos f); auto; discriminate). rewrite Hf in *. destruct f as [i q s]. cbn [f_qos f_st] in *. subst q. cbn [phase1] in *. rewrite Eq1 in K |- *.
    destruct (j_q _ _ _ _ H id Hid (Hu b Hs)) as (B1 & B2). destruct (j_job _ _ _ _ H m0 Eb Hm ltac:(congruence) P1) as (pre & Epre).
    destruct K as [(ms & m & xs & n & K1 & K2 & K3 & K4 & K5 & K6 & K7)|(_ & (_ & _ & C))]; [left|exfalso; now apply C].
    exists ms, m, xs, n. split; auto. split; auto. split; auto. split; [|split; [auto|split]].
    + intros p m' Hp R I1. apply in_app_iff in Hp. destruct Hp as [Hp|[<-|[]]]; [eauto|]. rewrite (P4 m' R). cbn. rewrite K1 in Epre. apply app_inj_tail in Epre. now destruct Epre.
    + rewrite cur_snoc by reflexivity. apply one_snoc; auto.
    + intro C. contradiction.
  - intros i Hi K1 K2 (B1 & B2). split; auto. destruct Hs as [(b & Hs)|Hs]; [|now rewrite Hs]. destruct Eu as [->| ->]; auto. rewrite cur_snoc by reflexivity. apply none_snoc; auto.
    intro C. destruct (NP _ C) as (-> & _). apply K2. subst x. reflexivity.
Qed.
Lemma Inv1_store l se j N id v ok N' : lookup (sent se) id = None \/ ok = false -> cstep N (Did (EStore id v ok)) N' -> Inv1 l se j N -> Inv1 (l ++ [Did (EStore id v ok)]) se j N'.
Proof.
  intros Hn S [A1 A2 A3 A4]. assert (EN : N' = N) by (inversion S; reflexivity). subst N'. clear S.
  assert (Ep : forall i, published1 i (l ++ [Did (EStore id v ok)]) = published1 i l) by (intro i; rewrite published1_app; apply app_nil_r).
  constructor; auto.
  - intros i Hi. rewrite Ep. specialize (A1 i Hi). destruct (Z.eq_dec i id) as [->|Ne].
    + destruct Hn as [Hn| ->]; [rewrite Hn in *; exact A1|]. eapply phase1_lost; [|exact A1]. intros (K1 & _ & K2). split; auto. split; auto. exists v. apply last_copy_new.
    + eapply phase1_lost; [|exact A1]. intros (K1 & (w & K2) & K3). split; auto. split; auto. exists w. apply last_copy_app; auto. congruence.
  - intros Hr i f w m H1 H2 H3. rewrite Ep. destruct (Z.eq_dec i id) as [->|Ne].
    + destruct Hn as [Hn| ->]; [congruence|]. pose proof (last_copy_new id l v false) as K. destruct (last_unique _ _ _ _ _ _ H3 K). discriminate.
    + apply A2 with (f := f); auto. eapply last_copy_back; eauto. congruence.
  - destruct j; auto. cbn in *. intro m. rewrite Ep. auto.
  - intros i Hi K. destruct (unsent_snoc _ _ _ K) as [(m & C)|(K1 & K2)]; [discriminate|]. now apply A4.
Qed.
Lemma Inv1_unstored l c se j N id q v : rt = true -> q <> Q0 -> ok_of (spec_step se (Reserve id q)) = Success -> last_copy id l v false ->
  Inv rt l c se j N -> Inv1 l se j N -> Inv1 l (snd (spec_step se (Reserve id q))) j N.
Proof.
  intros Hr Hq Hok Hv HI [A1 A2 A3 A4]. destruct (reserve_new _ _ _ Hq Hok) as (Hn & L). set (se' := snd (spec_step se (Reserve id q))) in *.
  assert (S0 : forall i, i <> id -> lookup (sent se') i = lookup (sent se) i) by (intros i Hi; rewrite L; now replace (i =? id) with false by lia).
  constructor; auto.
  - intros i Hi. specialize (A1 i Hi). destruct (Z.eq_dec i id) as [->|Ne]; [|now rewrite S0]. rewrite L, Z.eqb_refl, Hn in *. destruct q; auto. cbn [phase1] in *. right. split; auto. split; auto. split; eauto.
    pose proof (i_job _ _ _ _ _ _ HI) as HJ. destruct j; auto. intros ->. destruct HJ as (f & m & HJ & _). congruence.
  - intros _ i f w m H1 H2 H3. destruct (Z.eq_dec i id) as [->|Ne]; [|rewrite S0 in H1 by auto; eauto]. destruct (last_unique _ _ _ _ _ _ H3 Hv). discriminate.
Qed.
Lemma Inv1_publish l c se j N x m N' : carries x = Some (KPublish m) -> pkt_ok (KPublish m) -> pm_qos m <> Q0 -> ok_of (spec_step se (Reserve (pm_id m) (pm_qos m))) = Success ->
  (rt = true -> exists v, last_copy (pm_id m) l v true /\ concat v = publish_packet (with_dup m)) -> cstep N x N' ->
  Inv rt l c se j N -> Inv1 l se j N -> Inv1 (l ++ [x]) (snd (spec_step se (Reserve (pm_id m) (pm_qos m)))) j N'.
Proof.
  intros E Hm Hq Hok Hv S HI [A1 A2 A3 A4]. destruct (reserve_new _ _ _ Hq Hok) as (Hn & L). set (se' := snd (spec_step se (Reserve (pm_id m) (pm_qos m)))) in *.
  remember (pm_id m) as id eqn:Eid in *. destruct (cstep_pkt _ _ _ _ S E eq_refl) as (Eu & Ed & Es & Ea & Er).
  assert (S0 : forall i, i <> id -> lookup (sent se') i = lookup (sent se) i) by (intros i Hi; rewrite L; now replace (i =? id) with false by lia).
  assert (Ep : forall i, published1 i (l ++ [x]) = published1 i l ++ if is1 i m then [undup m] else []) by (intro i; rewrite published1_app; unfold published1 at 2; cbn [flat_map]; rewrite E; now rewrite app_nil_r).
  assert (Nx : forall i v ok, x <> Did (EStore i v ok)) by (intros i v ok C; subst x; discriminate).
  assert (N2 : forall i, i <> id -> is1 i m = false) by (intros i Hi; destruct (is1 i m) eqn:K; auto; apply is1_id in K; destruct K; congruence).
  assert (Lo : forall i, lost i l j -> lost i (l ++ [x]) j) by (intros i (K1 & (w & K2) & K3); split; auto; split; auto; exists w; apply last_copy_app; auto).
  assert (NP : forall i, is1 i m = false -> ~ isP1 i (KPublish m)) by (intros i K (m' & (_ & <-) & K2); congruence).
  assert (Hs : (x = Sent (KPublish m)) \/ n_up N' = n_up N) by (destruct S; cbn in E; try discriminate; auto; left; congruence).
  constructor; auto.
  - intros i Hi. specialize (A1 i Hi). rewrite Ed. unfold arrived in *. rewrite Es. rewrite Ep. destruct (is1 i m) eqn:K.
    + assert (i = id) by (apply is1_id in K; destruct K; congruence). subst i. rewrite L, Z.eqb_refl, Hn in *. apply is1_id in K. destruct K as (Kq & _). rewrite Kq. cbn [phase1] in *. destruct A1 as (B1 & B2 & B3).
      left. exists (published1 id l), (undup m), (map undup (filter (is1 id) (v_log (n_srv N)))), 0%nat. split; auto. split; [cbn; now rewrite app_nil_r|]. split; auto. split; [|split; [now apply none_one|split; [|intro C; contradiction]]].
      * intros p m' Hp R I1. assert (Hp' : In p (n_up N) \/ p = KPublish m) by (destruct Eu as [Eu|Eu]; rewrite Eu in Hp; auto; apply in_app_iff in Hp; destruct Hp as [Hp|[<-|[]]]; auto).
        destruct Hp' as [Hp'| ->]; [exfalso; unfold none in B1; rewrite Forall_forall in B1; apply (B1 p Hp'); exists m'; auto|]. destruct R as (_ & ->). reflexivity.
      * assert (Nc : none (isP1 id) (cur (n_up N))) by (eapply none_sub; [apply cur_sub|exact B1]). destruct Eu as [->| ->]; [now apply none_one|]. rewrite cur_snoc by reflexivity. apply one_snoc; [now apply none_one|auto].
    + rewrite app_nil_r. eapply phase1_lost; [apply Lo|].
      assert (B : phase1 i (lookup (sent se') i) (lost i l j) (n_up N) (Djob j ++ n_down N) (published1 i l) (map undup (filter (is1 i) (v_log (n_srv N))))).
      { destruct (Z.eq_dec i id) as [->|Ne]; [|now rewrite S0]. rewrite L, Z.eqb_refl, Hn in *. destruct (pm_qos m) eqn:Kq; auto. exfalso. assert (is1 id m = true) by (apply is1_id; auto). congruence. }
      destruct Eu as [->| ->]; auto. apply phase1_up; auto.
  - intros Hr i f w m1 H1 H2 H3 H4 H5 H6. destruct (Z.eq_dec i id) as [->|Ne].
    + rewrite L, Z.eqb_refl in H1. assert (f = F id (pm_qos m) PublishSend) by congruence. subst f. cbn [f_qos] in H2. destruct (Hv Hr) as (v & V1 & V2). apply last_copy_back in H3; auto. destruct (last_unique _ _ _ _ _ _ H3 V1) as (-> & _).
      assert (Em : with_dup m1 = with_dup m) by (apply publish_packet_inj; auto; [cbn; congruence|congruence]). exists (published1 id l). rewrite Ep. replace (is1 id m) with true by (symmetry; apply is1_id; auto).
      f_equal. f_equal. rewrite <- (undup_dup m), <- (undup_dup m1). now rewrite Em.
    + rewrite S0 in H1 by auto. rewrite Ep, N2, app_nil_r by auto. apply A2 with (f := f) (v := w); auto. eapply last_copy_back; eauto.
  - pose proof (i_job _ _ _ _ _ _ HI) as HJ. destruct j; auto. cbn in *. intros m1 K1 K2 K3 K4. destruct HJ as (f & _ & HJ & _). rewrite Ep, N2, app_nil_r; [auto|congruence].
  - intros i Hi K. rewrite Ed. destruct (unsent_snoc _ _ _ K) as [(m1 & ->)|(K1 & K2)]; [discriminate|]. destruct (A4 i Hi K1) as (B1 & B2). split; auto. destruct Hs as [->|Hs]; [|now rewrite Hs]. destruct Eu as [->| ->]; auto. rewrite cur_snoc by reflexivity. apply none_snoc; auto.
    destruct (is1 i m) eqn:C; [|auto]. apply is1_id in C. destruct C. exfalso. apply K2. split; congruence.
Qed.

(** ** Steps that change the session *)
Lemma Inv1_sim l se se' j N : (forall i, sim (lookup (sent se) i) (lookup (sent se') i)) -> Inv1 l se j N -> Inv1 l se' j N.
Proof.
  intros Hs [A1 A2 A3 A4]. constructor; auto.
  - intros id Hid. specialize (A1 id Hid). specialize (Hs id). destruct (lookup (sent se) id) as [[i q s]|], (lookup (sent se') id) as [[i' q' s']|]; try contradiction; auto. destruct Hs as (E & _). cbn in E. subst q'. exact A1.
  - intros Hr id f v m H1 H2. specialize (Hs id). rewrite H1 in Hs. destruct (lookup (sent se) id) as [g|] eqn:E; [|contradiction]. destruct Hs as (S1 & _). apply (A2 Hr id g); auto. congruence.
Qed.
Lemma Inv1_acked l se N k id j' : ok_of (spec_step se (Acked id k OpReceive)) = Success -> Djob j' = [] -> match j' with Wait _ _ | Again _ _ => False | _ => True end ->
  Inv1 l se (Got (ack_first (ack_of k)) (be16 id)) N -> Inv1 l (snd (spec_step se (Acked id k OpReceive))) j' N.
Proof.
  intros Hok Hd Hw [A1 A2 A3 A4]. pose proof (acked_look _ _ _ Hok) as L. cbn zeta in L. set (se' := snd (spec_step se (Acked id k OpReceive))) in *.
  assert (S0 : forall i, i <> id -> lookup (sent se') i = lookup (sent se) i).
  { intros i Hi. destruct k; [destruct L as (_ & L); rewrite L; now replace (i =? id) with false by lia..|now rewrite L|destruct L as (_ & L); rewrite L; now replace (i =? id) with false by lia]. }
  assert (Sd : forall (x : Z * list Z) d, Sub d (x :: d)) by (intros; apply sub_drop, sub_refl).
  constructor; rewrite ?Hd; cbn [app Djob] in *; auto.
  - intros i Hi. eapply phase1_lost; [apply lost_job; destruct j'; cbn; auto|]. specialize (A1 i Hi). destruct (Z.eq_dec i id) as [->|Ne].
    2:{ rewrite S0 by auto. eapply phase1_down; [apply Sd|exact A1]. }
    destruct k; cbn [ack_of ack_first] in *.
    + destruct L as ((f & Ef & Eq & _) & L). rewrite L, Z.eqb_refl, Ef in *. destruct f as [a q s]. cbn in Eq. subst q. cbn [phase1] in *. eapply begun1_acked. exact A1.
    + destruct L as ((f & Ef & Eq & Es) & L). rewrite L, Z.eqb_refl, Ef in *. destruct f as [a q s]. cbn in Eq, Es. subst q s. cbn [phase1] in *. eapply free1_sub; [apply sub_refl|apply Sd|exact A1].
    + rewrite L. eapply phase1_down; [apply Sd|exact A1].
    + destruct L as ((f & Ef & Eq & Es) & L). rewrite L, Z.eqb_refl, Ef in *. destruct f as [a q s]. cbn in Eq, Es. subst q s. cbn [phase1] in *. eapply free1_sub; [apply sub_refl|apply Sd|exact A1].
  - intros Hr i f v m H1 H2. destruct (Z.eq_dec i id) as [->|Ne]; [|rewrite S0 in H1 by auto; eauto].
    destruct k; [destruct L as (_ & L); rewrite L, Z.eqb_refl in H1; try discriminate..|rewrite L in H1; eauto|destruct L as (_ & L); rewrite L, Z.eqb_refl in H1; discriminate].
    assert (f = F id Q2 PubRelSend) by congruence. subst f. discriminate.
  - destruct j'; auto; contradiction.
  - intros i Hi K. destruct (A4 i Hi K) as (B1 & B2). split; auto. now apply none_tail in B2.
Qed.
End Net.
