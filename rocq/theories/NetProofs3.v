(** Publishes end to end: the client's steps. *)
From Verif Require Import Base StateModel StateSpec StateHarness SerModel WireSpec SerHarness SerProofs4 CoreModel CoreHarness Machine MachSpec MachProofs MachFacts MachFacts2 NetSpec NetProofs NetProofs2.

(** ** Bookkeeping, seen from one identifier *)
Definition sim (o o' : option flight) : Prop :=
  match o, o' with
  | None, None => True
  | Some f, Some f' => f_qos f = f_qos f' /\ unack (f_st f) = unack (f_st f') /\ halfst (f_st f) = halfst (f_st f')
  | _, _ => False
  end.
Lemma sim_refl o : sim o o.
Proof. destruct o; cbn; auto. Qed.
Lemma sim_phase id o o' lo up D h pub del : sim o o' -> phase id o lo up D h pub del -> phase id o' lo up D h pub del.
Proof.
  destruct o as [[i q s]|], o' as [[i' q' s']|]; cbn; try contradiction; auto. intros (-> & E & _). destruct q'; auto. now rewrite E.
Qed.
Lemma sent_nil l : l = [] <-> forall id, lookup l id = None.
Proof.
  split; [now intros ->|]. intro H. destruct l as [|f l]; auto. specialize (H (f_id f)). unfold lookup in H. cbn in H. rewrite Z.eqb_refl in H. discriminate.
Qed.
Lemma reserve_new se id q : q <> Q0 -> ok_of (spec_step se (Reserve id q)) = Success ->
  lookup (sent se) id = None /\ forall i, lookup (sent (snd (spec_step se (Reserve id q)))) i = if i =? id then Some (F id q PublishSend) else lookup (sent se) i.
Proof.
  intros Hq. unfold ok_of. cbn [spec_step]. destruct q; [contradiction|..]; cbn [qos_beq];
  (destruct (id =? 0); [discriminate|]; unfold spec_add; rewrite lookup_flight; destruct (lookup (sent se) id) eqn:E; [discriminate|]; destruct (_ <? _)%nat; [|discriminate]; intros _; cbn [snd sent];
   split; auto; intro i; rewrite lookup_app; cbn [f_id]; destruct (i =? id) eqn:E2;
   [replace i with id by lia; rewrite E, Z.eqb_refl; reflexivity|replace (id =? i) with false by lia; destruct (lookup (sent se) i); reflexivity]).
Qed.
Lemma set_sim l id x f : lookup l id = Some f -> unack (f_st f) = unack x -> halfst (f_st f) = halfst x -> forall i, sim (lookup l i) (lookup (spec_set l id x) i).
Proof.
  intros H H1 H2 i. rewrite lookup_set. destruct (lookup l i) as [g|] eqn:E; cbn; auto. destruct (i =? id) eqn:E2; cbn; auto. replace i with id in E by lia. assert (f = g) by congruence. now subst g.
Qed.
Lemma published_sim se id op q i : sim (lookup (sent se) i) (lookup (sent (snd (spec_step se (Published id op q)))) i).
Proof.
  destruct q; [destruct op; apply sim_refl|..]; (destruct op; [|cbn [spec_step]; destruct (id =? 0); [apply sim_refl|]; destruct (spec_add _ _ _ _ _); apply sim_refl]).
  all: cbn [spec_step]; destruct (id =? 0); [apply sim_refl|]; destruct (lookup (sent se) id) as [f|] eqn:E; [|apply sim_refl]; destruct (negb _); [apply sim_refl|]; destruct (f_st f) eqn:Es; try apply sim_refl; cbn [snd sent];
    eapply set_sim; eauto; now rewrite Es.
Qed.
Lemma acksent_sim se id k i : sim (lookup (sent se) i) (lookup (sent (snd (spec_step se (Acked id k OpSend)))) i).
Proof.
  cbn [spec_step]. destruct (id =? 0); [apply sim_refl|]. destruct (concerns_sent k OpSend) eqn:Ek.
  - destruct k; try discriminate. destruct (lookup (sent se) id) as [f|] eqn:E; [|apply sim_refl]. destruct (f_qos f), (f_st f) eqn:Es; cbn; try apply sim_refl.
    rewrite (lookup_id _ _ _ E). eapply set_sim; eauto; now rewrite Es.
  - destruct (lookup (StateSpec.recvd se) id) as [f|]; [|apply sim_refl]. destruct (apply_action _ _ _) as [[a b] c]. apply sim_refl.
Qed.
(** PUBACK, PUBREC, PUBCOMP *)
Lemma acked_look se id k : ok_of (spec_step se (Acked id k OpReceive)) = Success ->
  let s' := sent (snd (spec_step se (Acked id k OpReceive))) in
  match k with
  | Puback => (exists f, lookup (sent se) id = Some f /\ f_qos f = Base.Q1 /\ f_st f = PubAckPending) /\ forall i, lookup s' i = if i =? id then None else lookup (sent se) i
  | Pubrec => (exists f, lookup (sent se) id = Some f /\ f_qos f = Q2 /\ f_st f = PubRecPending) /\ forall i, lookup s' i = if i =? id then Some (F id Q2 PubRelSend) else lookup (sent se) i
  | Pubcomp => (exists f, lookup (sent se) id = Some f /\ f_qos f = Q2 /\ f_st f = PubCompPending) /\ forall i, lookup s' i = if i =? id then None else lookup (sent se) i
  | Pubrel => s' = sent se
  end.
Proof.
  unfold ok_of. cbn [spec_step]. destruct (id =? 0); [discriminate|]. destruct k; cbn [concerns_sent].
  all: cbn [concerns_sent]; try (intros _; destruct (lookup (StateSpec.recvd se) id) as [f|]; [|reflexivity]; destruct (apply_action _ _ _) as [[a b] c]; reflexivity).
  all: destruct (lookup (sent se) id) as [f|] eqn:E; [|discriminate]; pose proof (lookup_id _ _ _ E); destruct f as [i0 q s]; cbn [f_id] in *; subst i0; destruct q, s; try discriminate; intros _; cbn [f_qos f_st sender_table apply_action snd sent f_id].
  all: split; [eexists; split; [reflexivity|auto]|]; intro i; rewrite ?lookup_app, lookup_drop; cbn [f_id]; auto.
  destruct (i =? id) eqn:E2; [replace (id =? i) with true by lia; reflexivity|]. destruct (lookup (sent se) i); auto. replace (id =? i) with false by lia. reflexivity.
Qed.

(** ** Steps that change the session *)
Section Net.
Variable rt : bool.
Notation Inv := (Inv rt).
Notation lost := (lost rt).
Lemma Inv_sim l c se se' j N : (forall i, sim (lookup (sent se) i) (lookup (sent se') i)) -> NoDup (ids (sent se')) -> Inv l c se j N -> Inv l c se' j N.
Proof.
  intros Hs Hn [A1 A2 A3 A4 A5 A6 A7 A8 A9 A10].
  assert (Hz : sent se = [] -> sent se' = []) by (rewrite !sent_nil; intros H id; specialize (Hs id); rewrite H in Hs; destruct (lookup (sent se') id); auto; contradiction).
  assert (Hf : forall (X : pstate -> bool) id, (X = unack \/ X = halfst) -> (exists f, lookup (sent se) id = Some f /\ X (f_st f) = true) -> exists f, lookup (sent se') id = Some f /\ X (f_st f) = true).
  { intros X id HX (f & E & K). specialize (Hs id). rewrite E in Hs. destruct (lookup (sent se') id) as [f'|]; [|contradiction]. exists f'. split; auto. destruct Hs as (_ & S1 & S2). destruct HX; subst X; congruence. }
  constructor; auto.
  - intros id Hid. eapply sim_phase; eauto.
  - intros Hr id f Ef Eu. specialize (Hs id). rewrite Ef in Hs. destruct (lookup (sent se) id) as [g|] eqn:E; [|contradiction]. destruct Hs as (S1 & S2 & _). rewrite <- S1. apply (A3 Hr id g E). congruence.
  - revert A4. clear - Hf Hs. induction j as [| |ty body|i j IH|e j IH|k i j IH|k i j IH|cl bs| |i|i bs]; cbn [J]; auto.
    + destruct k; auto; intros (A & B); split; auto; apply (Hf halfst); auto.
    + destruct k; auto; intros (A & B); split; auto; apply (Hf halfst); auto.
    + apply (Hf unack); auto.
    + intros (f & m & A1 & A2 & A3 & A4 & A5 & A6 & A7 & A8). specialize (Hs i). rewrite A1 in Hs. destruct (lookup (sent se') i) as [f'|]; [|contradiction]. destruct Hs as (S1 & S2 & _). exists f', m. rewrite <- S1, <- S2. auto 9.
  - destruct j; auto. destruct A7 as (B1 & B2 & B3 & B4). auto 8.
Qed.
Lemma begun_rec id lo up D h pub del : begun2 id lo up ((80, be16 id) :: D) h pub del -> half2 id up D h pub del.
Proof.
  intros (A1 & (A0 & A2) & A3 & A4 & A5). destruct h; [|exfalso; specialize (A4 eq_refl); apply none_tail in A4; apply A4; reflexivity].
  assert (AN : forall T (X Y : T -> Prop) l, none X l -> after X Y l) by (intros T X Y l; induction l; cbn; auto; intro H; apply none_tail in H; split; [tauto|apply IHl; tauto]).
  specialize (A3 eq_refl). specialize (A0 eq_refl). split; [apply AN; exact A3|]. split; [apply AN; exact A0|]. split; [discriminate|]. split; [intros _; exact A0|].
  destruct A5 as [(_ & A5)|[(C & _)|(C & _)]]; auto; discriminate.
Qed.
Lemma half_comp id up D h pub del : half2 id up ((112, be16 id) :: D) h pub del -> free2 id up D h pub del.
Proof.
  intros (A1 & (A0 & A2) & A3 & A4 & A5). destruct h; [exfalso; specialize (A4 eq_refl); apply none_tail in A4; apply A4; reflexivity|]. split; auto. split; [exact (A3 eq_refl)|]. split; [exact (A0 eq_refl)|auto].
Qed.
Lemma Inv_acked l c se N k id j' : ok_of (spec_step se (Acked id k OpReceive)) = Success ->
  (let se' := snd (spec_step se (Acked id k OpReceive)) in (k = Pubrec -> halfw se' id) -> J l se' j') -> Djob j' = [] -> match j' with Wait _ _ | Again _ _ => False | _ => True end ->
  Inv l c se (Got (ack_first (ack_of k)) (be16 id)) N -> Inv l c (snd (spec_step se (Acked id k OpReceive))) j' N.
Proof.
  intros Hok HJ Hd Hw [A1 A2 A3 A4 A5 A6 A7 A8 A9 A10]. pose proof (acked_look _ _ _ Hok) as L. cbn zeta in L, HJ. set (se' := snd (spec_step se (Acked id k OpReceive))) in *.
  assert (Hn : NoDup (ids (sent se'))) by (apply nodup_step; auto).
  assert (S0 : forall i, i <> id -> lookup (sent se') i = lookup (sent se) i).
  { intros i Hi. destruct k; [destruct L as (_ & L); rewrite L; now replace (i =? id) with false by lia..|now rewrite L|destruct L as (_ & L); rewrite L; now replace (i =? id) with false by lia]. }
  assert (Sd : forall (x : Z * list Z) d, Sub d (x :: d)) by (intros; apply sub_drop, sub_refl).
  constructor; auto.
  - intros i Hi. eapply phase_lost; [apply lost_job; destruct j'; cbn; auto|]. specialize (A2 i Hi). rewrite Hd. cbn [app Djob] in *. destruct (Z.eq_dec i id) as [->|Ne].
    2:{ rewrite S0 by auto. eapply phase_sub; [apply sub_refl|apply Sd|exact A2]. }
    destruct k; cbn [ack_of ack_first] in *.
    + destruct L as ((f & Ef & Eq & _) & L). rewrite L, Z.eqb_refl, Ef in *. destruct f as [a q s]. cbn in Eq. subst q. cbn [phase] in *. eapply free_sub; [apply sub_refl|apply Sd|exact A2].
    + destruct L as ((f & Ef & Eq & Es) & L). rewrite L, Z.eqb_refl, Ef in *. destruct f as [a q s]. cbn in Eq, Es. subst q s. cbn [phase unack] in *. eapply begun_rec. exact A2.
    + rewrite L. eapply phase_sub; [apply sub_refl|apply Sd|exact A2].
    + destruct L as ((f & Ef & Eq & Es) & L). rewrite L, Z.eqb_refl, Ef in *. destruct f as [a q s]. cbn in Eq, Es. subst q s. cbn [phase unack] in *. eapply half_comp. exact A2.
  - intros Hr i f Ef Eu. destruct (Z.eq_dec i id) as [->|Ne]; [|rewrite S0 in Ef by auto; eauto].
    destruct k; [destruct L as (_ & L); rewrite L, Z.eqb_refl in Ef; try discriminate..|rewrite L in Ef; eauto|destruct L as (_ & L); rewrite L, Z.eqb_refl in Ef; discriminate].
    assert (f = F id Q2 PubRelSend) by congruence. subst f. discriminate.
  - apply HJ. intros ->. destruct L as (_ & L). exists (F id Q2 PubRelSend). rewrite L, Z.eqb_refl. auto.
  - intro E. specialize (A6 E). destruct k; [destruct L as ((f & Ef & _) & L); rewrite A6 in Ef; discriminate..|now rewrite L|destruct L as ((f & Ef & _) & L); rewrite A6 in Ef; discriminate].
  - destruct j'; auto. contradiction.
Qed.

(** ** A new publish *)
Lemma Inv_store l c se j N id v ok N' : lookup (sent se) id = None \/ ok = false -> cstep N (Did (EStore id v ok)) N' -> Inv l c se j N -> Inv (l ++ [Did (EStore id v ok)]) c se j N'.
Proof.
  intros Hn S [A1 A2 A3 A4 A5 A6 A7 A8 A9 A10]. inversion S; subst.
  assert (Ep : forall i, published i (l ++ [Did (EStore id v ok)]) = published i l) by (intro i; rewrite published_app; apply app_nil_r).
  assert (Hc : forall i w o, i <> id -> last_copy i l w o -> last_copy i (l ++ [Did (EStore id v ok)]) w o) by (intros i w o Hi; apply last_copy_app; congruence).
  constructor; auto.
  - intros i Hi. rewrite Ep. specialize (A2 i Hi). destruct (Z.eq_dec i id) as [->|Ne].
    + destruct Hn as [Hn| ->]; [rewrite Hn in *; exact A2|]. eapply phase_lost; [|exact A2]. intros (K1 & _ & K2). split; auto. split; auto. exists v. apply last_copy_new.
    + eapply phase_lost; [|exact A2]. intros (K1 & (w & K2) & K3). split; auto. split; auto. exists w. auto.
  - intros Hr i f Ef Eu. destruct (A3 Hr i f Ef Eu) as (w & o & K1 & K2). destruct (Z.eq_dec i id) as [->|Ne].
    + destruct Hn as [Hn| ->]; [congruence|]. exists v, false. split; [apply last_copy_new|discriminate].
    + exists w, o. rewrite Ep. split; auto.
  - apply J_app; auto.
Qed.
Lemma J_reserve l se se' id j : lookup (sent se) id = None -> (forall i, i <> id -> lookup (sent se') i = lookup (sent se) i) -> J l se j -> J l se' j.
Proof.
  intros Hn H. assert (Hf : forall (X : pstate -> bool) i, (exists f, lookup (sent se) i = Some f /\ X (f_st f) = true) -> exists f, lookup (sent se') i = Some f /\ X (f_st f) = true).
  { intros X i (f & E & K). exists f. split; auto. rewrite H; congruence. }
  induction j as [| |ty body|i j IH|e j IH|k i j IH|k i j IH|cl bs| |i|i bs]; cbn [J]; auto.
  - destruct k; auto; intros (A & B); split; auto; apply (Hf halfst); auto.
  - destruct k; auto; intros (A & B); split; auto; apply (Hf halfst); auto.
  - apply (Hf unack); auto.
  - intros (f & m & A1 & A2 & A3 & A4 & A5 & A6 & A7 & A8). exists f, m. rewrite H by congruence. auto 9.
Qed.
Lemma free_begun3 id (lo : Prop) up D h pub del : lo -> free2 id up D h pub del -> begun2 id lo up D h pub del.
Proof.
  intros Hl (-> & A2 & A3 & ->).
  assert (AN : forall T (X Y : T -> Prop) l, none X l -> after X Y l) by (intros T X Y l; induction l; cbn; auto; intro H; apply none_tail in H; split; [tauto|apply IHl; tauto]).
  split; [apply AN; exact A2|]. split; [apply AN; exact A3|]. split; [discriminate|]. split; auto. right. right. auto.
Qed.
Lemma free_begun2 id (lo : Prop) up D h pub del m p b : (forall m', reads_as p m' -> is2 id m' = true -> undup m' = m) -> ~ isR id p -> free2 id up D h pub del -> begun2 id lo (if b : bool then up else up ++ [p]) D h (pub ++ [m]) del.
Proof.
  intros Hm Hr (-> & A2 & A3 & ->).
  assert (AN : forall T (X Y : T -> Prop) l, none X l -> after X Y l) by (intros T X Y l; induction l; cbn; auto; intro H; apply none_tail in H; split; [tauto|apply IHl; tauto]).
  split; [destruct b; [apply AN; exact A2|apply after_snoc; [apply AN; exact A2|contradiction]]|]. split; [apply AN; exact A3|]. split; [discriminate|]. split; auto. right. left. split; auto. exists m. split; auto.
  intros q m' Hq R2 I2. unfold none in A2. rewrite Forall_forall in A2. destruct b; [exfalso; apply (A2 q Hq); exists m'; auto|]. apply in_app_iff in Hq. destruct Hq as [Hq|[<-|[]]]; [exfalso; apply (A2 q Hq); exists m'; auto|auto].
Qed.
Lemma Inv_unstored l se j N id q v : rt = true -> q <> Q0 -> ok_of (spec_step se (Reserve id q)) = Success -> last_copy id l v false ->
  Inv l Connected se j N -> Inv l Connected (snd (spec_step se (Reserve id q))) j N.
Proof.
  intros Hr Hq Hok Hv [A1 A2 A3 A4 A5 A6 A7 A8 A9 A10]. destruct (reserve_new _ _ _ Hq Hok) as (Hn & L). pose proof (nodup_step se (Reserve id q) A1) as Hnd. set (se' := snd (spec_step se (Reserve id q))) in *.
  assert (S0 : forall i, i <> id -> lookup (sent se') i = lookup (sent se) i) by (intros i Hi; rewrite L; now replace (i =? id) with false by lia).
  constructor; auto.
  - intros i Hi. specialize (A2 i Hi). destruct (Z.eq_dec i id) as [->|Ne]; [|now rewrite S0]. rewrite L, Z.eqb_refl, Hn in *. destruct q; auto. cbn [phase unack] in *. apply free_begun3; auto. split; auto. split; eauto. destruct j; auto. intros ->. destruct A4 as (f & m & A4 & _). congruence.
  - intros _ i f Ef Eu. destruct (Z.eq_dec i id) as [->|Ne]; [|rewrite S0 in Ef by auto; eauto]. exists v, false. split; auto. discriminate.
  - eapply J_reserve; eauto.
  - intro E. rewrite A5 in E; discriminate.
  - destruct j; auto. destruct A7. discriminate.
Qed.
Lemma Inv_publish l se j N x m N' : carries x = Some (KPublish m) -> pkt_ok (KPublish m) -> pm_qos m <> Q0 -> ok_of (spec_step se (Reserve (pm_id m) (pm_qos m))) = Success ->
  (rt = true -> exists v, last_copy (pm_id m) l v true /\ concat v = publish_packet (with_dup m)) -> cstep N x N' ->
  Inv l Connected se j N -> Inv (l ++ [x]) Connected (snd (spec_step se (Reserve (pm_id m) (pm_qos m)))) j N'.
Proof.
  intros E Hm Hq Hok Hv S [A1 A2 A3 A4 A5 A6 A7 A8 A9 A10]. destruct (reserve_new _ _ _ Hq Hok) as (Hn & L). pose proof (nodup_step se (Reserve (pm_id m) (pm_qos m)) A1) as Hnd. set (se' := snd (spec_step se (Reserve (pm_id m) (pm_qos m)))) in *.
  remember (pm_id m) as id eqn:Eid in *. destruct (cstep_pkt _ _ _ _ S E eq_refl) as (Eu & Ed & Es & Ea & Er).
  assert (S0 : forall i, i <> id -> lookup (sent se') i = lookup (sent se) i) by (intros i Hi; rewrite L; now replace (i =? id) with false by lia).
  assert (Ep : forall i, published i (l ++ [x]) = published i l ++ if is2 i m then [undup m] else []) by (intro i; rewrite published_app; unfold published at 2; cbn [flat_map]; rewrite E; now rewrite app_nil_r).
  assert (Nx : forall i v ok, x <> Did (EStore i v ok)) by (intros i v ok C; subst x; discriminate).
  assert (N2 : forall i, i <> id -> is2 i m = false) by (intros i Hi; destruct (is2 i m) eqn:K; auto; apply is2_id in K; destruct K; congruence).
  assert (Lo : forall i, lost i l j -> lost i (l ++ [x]) j) by (intros i (K1 & (w & K2) & K3); split; auto; split; auto; exists w; apply last_copy_app; auto).
  constructor; rewrite ?Es, ?Ea, ?Er; auto.
  - intros i Hi. specialize (A2 i Hi). rewrite Ed. unfold passed_on in *. rewrite Es. rewrite Ep. destruct (is2 i m) eqn:K.
    + assert (i = id) by (apply is2_id in K; destruct K; congruence). subst i. rewrite L, Z.eqb_refl, Hn in *. apply is2_id in K. destruct K as (Kq & _). rewrite Kq. cbn [phase unack] in *.
      assert (R : forall m', reads_as (KPublish m) m' -> is2 id m' = true -> undup m' = undup m) by (intros m' (_ & ->) _; auto).
      assert (NR : ~ isR id (KPublish m)) by discriminate.
      destruct Eu as [->| ->]; [apply (free_begun2 _ _ _ _ _ _ _ _ (KPublish m) true)|apply (free_begun2 _ _ _ _ _ _ _ _ (KPublish m) false)]; auto.
    + rewrite app_nil_r. assert (NP : ~ isP i (KPublish m)) by (intros (m' & (_ & <-) & K2); congruence). eapply phase_lost; [apply Lo|].
      assert (B : phase i (lookup (sent se') i) (lost i l j) (n_up N) (Djob j ++ n_down N) (holds_id (n_srv N) i) (published i l) (map undup (filter (is2 i) (v_log (n_srv N))))).
      { destruct (Z.eq_dec i id) as [->|Ne]; [|now rewrite S0]. rewrite L, Z.eqb_refl, Hn in *. destruct (pm_qos m) eqn:Kq; auto. exfalso. assert (is2 id m = true) by (apply is2_id; auto). congruence. }
      destruct Eu as [->| ->]; auto. apply phase_up; auto. discriminate.
  - intros Hr i f Ef Eun. destruct (Z.eq_dec i id) as [->|Ne].
    + rewrite L, Z.eqb_refl in Ef. assert (f = F id (pm_qos m) PublishSend) by congruence. subst f. cbn [f_qos]. destruct (Hv Hr) as (v & V1 & V2). exists v, true. split; [apply last_copy_app; auto|]. intros _.
      exists m. split; auto. split; auto. split; auto. split; auto. split; auto. intro Kq. exists (published id l). rewrite Ep. replace (is2 id m) with true by (symmetry; apply is2_id; auto). reflexivity.
    + rewrite S0 in Ef by auto. destruct (A3 Hr i f Ef Eun) as (v & ok & K1 & K2). exists v, ok. split; [apply last_copy_app; auto|]. rewrite Ep, N2, app_nil_r by auto. exact K2.
  - eapply J_reserve; [exact Hn|exact S0|]. apply J_app; auto. intros i (f & Ef & _). unfold published. cbn [flat_map]. rewrite E, N2; auto. congruence.
  - intro Eo. rewrite A5 in Eo; discriminate.
  - destruct j; auto. destruct A7. discriminate.
  - intro K. apply A10. destruct Eu as [Eu|Eu]; rewrite Eu in K; auto. rewrite existsb_app in K. cbn in K. now rewrite !orb_false_r in K.
Qed.

(** ** Reading and connecting *)
Lemma Inv_read l c se j N bs N' : cstep N (Did (EIn bs)) N' -> Inv l c se j N ->
  Inv (l ++ [Did (EIn bs)]) c se (match j with Wait cl b => Wait cl (b ++ bs) | _ => j end) N'.
Proof.
  intros S H. assert (Hx : plain_tok (Did (EIn bs))) by (split; [discriminate|reflexivity]). inversion S; subst; try contradiction. destruct H as [A1 A2 A3 A4 A5 A6 A7 A8 A9 A10]. cbn [n_up n_down n_srv n_ans n_read] in *.
  set (j' := match j with Wait cl b => Wait cl (b ++ bs) | _ => j end). assert (Ej : Djob j' = Djob j) by (destruct j; reflexivity).
  constructor; cbn [n_up n_down n_srv n_ans n_read]; auto.
  - intros id Hid. rewrite published_plain, Ej by auto. apply (phase_lost _ _ (lost id l j)); [intro K; apply lost_plain; auto; destruct j; auto; revert K; now apply lost_job|]. apply (A2 id Hid).
  - intros Hr id f Hf Hu. apply copied_plain; eauto.
  - apply J_plain; auto. destruct j; auto.
  - destruct j; cbn; auto. destruct A7 as (B1 & B2 & B3 & B4). split; auto. split; [congruence|auto].
  - destruct a; auto. subst. now rewrite app_nil_r.
Qed.
Lemma Inv_packet l c se j N ty body N' : Djob j = [] -> match j with Wait _ _ => False | _ => True end -> cstep N (Did (EPkt ty body)) N' -> Inv l c se j N -> Inv (l ++ [Did (EPkt ty body)]) c se (Got ty body) N'.
Proof.
  intros Hd Hj S H. assert (Hx : plain_tok (Did (EPkt ty body))) by (split; [discriminate|reflexivity]). inversion S; subst; try contradiction. destruct H as [A1 A2 A3 A4 A5 A6 A7 A8 A9 A10]. cbn [n_up n_down n_srv n_ans n_read] in *.
  constructor; cbn [n_up n_down n_srv n_ans n_read]; auto.
  - intros id Hid. rewrite published_plain by auto. apply (phase_lost _ _ (lost id l j)); [intro K; apply lost_plain; auto; revert K; now apply lost_job|]. specialize (A2 id Hid). rewrite Hd in A2. exact A2.
  - intros Hr id f Hf Hu. apply copied_plain; eauto.
  - exact I.
Qed.
Lemma Inv_connect l se j N x m N' : carries x = Some (KConnect m) -> cm_clean m = false -> cstep N x N' -> Inv l NotConnected se j N ->
  Inv (l ++ [x]) NotConnected se (match x with Sent _ => Wait (cm_clean m) [] | _ => Failed end) N'.
Proof.
  intros E Hc S H. assert (Hx : plain_tok x) by (split; [intros i v ok C; subst x; discriminate|intro i; unfold published; cbn; now rewrite E]).
  assert (F : (n_up N' = n_up N \/ n_up N' = n_up N ++ [KConnect m]) /\ n_down N' = [] /\ n_srv N' = n_srv N /\ n_ans N' = None /\ n_read N' = []).
  { destruct S; cbn in E; try discriminate; try (assert (m0 = m) by congruence; subst m0; cbn; now auto 8); assert (p = KConnect m) by congruence; subst p; discriminate. }
  destruct F as (Eu & Ed & Es & Ea & Er). destruct H as [A1 A2 A3 A4 A5 A6 A7 A8 A9 A10]. constructor; rewrite ?Es, ?Ea, ?Er, ?Ed; auto.
  - intros id Hid. rewrite published_plain by auto. apply (phase_lost _ _ (lost id l j)); [intro K; apply lost_plain; auto; revert K; apply lost_job; destruct x; exact I|]. specialize (A2 id Hid). unfold passed_on in *. rewrite Es.
    replace (Djob _ ++ []) with (@nil (Z * list Z)) by (destruct x; reflexivity). eapply phase_sub in A2; [|apply sub_refl|apply (sub_none (Djob j ++ n_down N))].
    destruct Eu as [->| ->]; auto. apply phase_up; auto; [intros (m' & (_ & []) & _)|discriminate].
  - intros Hr id f Hf Hu. apply copied_plain; eauto.
  - destruct x; exact I.
  - destruct x; auto. split; auto. split; auto. split; [discriminate|auto].
Qed.
Lemma Inv_session l c se N cl bs : bs = [32; 2; 0; 0] \/ bs = [32; 2; 1; 0] -> Inv l c se (Wait cl bs) N -> v_open (n_srv N) = true /\ cl = false /\ (bs = [32; 2; 0; 0] -> sent se = []).
Proof.
  intros Hb [A1 A2 A3 A4 A5 A6 A7 A8 A9 A10]. destruct A7 as (B1 & B2 & B3 & B4). rewrite <- B2 in A9. destruct (n_ans N) as [sp|] eqn:Ea; [|destruct Hb; subst bs; discriminate]. split; [apply A8; discriminate|]. split; auto.
  intro K. apply B3. subst bs. rewrite K in A9. cbn in A9. congruence.
Qed.
End Net.
