(** Consequences of the refinement for every reachable engine state. *)
From Verif Require Import Base StateModel StateSpec StateHarness StateProofs.

Definition view (n m : nat) (c : recs) : session :=
  mkSession n (tracked (outRecs c)) m (tracked (inRecs c)).

Lemma Rel_view c s : Rel c s -> s = view (cap_out s) (cap_in s) c.
Proof.
  intros [[H1 _ _ _ _] [H2 _ _ _ _]]. destruct s as [n so m si]. cbn in *. unfold view, tracked. congruence.
Qed.

Lemma reach_view n m c : Reach n m c -> Rel c (view n m c).
Proof.
  intros H. destruct (Reach_rel _ _ _ H) as (s & HR & <- & <-).
  pose proof (Rel_view _ _ HR) as E. now rewrite <- E.
Qed.

Lemma engine_run_app cs1 : forall c cs2 r1 c1,
  engine_run c cs1 = Ok (r1, c1) ->
  engine_run c (cs1 ++ cs2) = let! (r2, c2) := engine_run c1 cs2 in Ok (r1 ++ r2, c2).
Proof.
  induction cs1 as [|x cs1 IH]; intros c cs2 r1 c1 H; cbn [engine_run app] in *.
  - inversion H; subst. destruct (engine_run c1 cs2) as [[? ?]|]; reflexivity.
  - destruct (engine_step c x) as [[r c']|]; cbn [rbind] in *; [|discriminate].
    destruct (engine_run c' cs1) as [[rs c2]|] eqn:E; cbn [rbind] in *; [|discriminate].
    inversion H; subst. rewrite (IH _ _ _ _ E).
    destruct (engine_run c1 cs2) as [[? ?]|]; reflexivity.
Qed.

Lemma reach_step n m c o : Reach n m c -> call_ok n m o ->
  exists c', engine_step c (to_call o) = Ok (fst (spec_step (view n m c) o), c') /\
    view n m c' = snd (spec_step (view n m c) o) /\ Reach n m c'.
Proof.
  intros H Hc. pose proof (reach_view _ _ _ H) as HR.
  destruct (engine_step_refines c (view n m c) o HR Hc) as (c' & E & R').
  exists c'. split; [exact E|]. split.
  - destruct (spec_step_caps (view n m c) o) as [K1 K2]. cbn [view cap_out cap_in] in K1, K2.
    rewrite (Rel_view _ _ R') at 1. now rewrite K1, K2.
  - destruct H as (ops & outs & Hok & Er).
    exists (ops ++ [o]), (outs ++ [fst (spec_step (view n m c) o)]). split.
    + apply Forall_app. split; [exact Hok|]. constructor; [exact Hc|constructor].
    + rewrite map_app, (engine_run_app _ _ _ _ _ Er). cbn [map engine_run]. rewrite E. reflexivity.
Qed.

Lemma reach_fresh n m : Reach n m (fresh_recs n m).
Proof. exists [], []. split; [constructor|reflexivity]. Qed.

Lemma lookup_none_iff l id : lookup l id = None <-> ~ In id (ids l).
Proof.
  unfold lookup, ids. split.
  - intros H Hc. apply in_map_iff in Hc. destruct Hc as (f & E & Hf).
    pose proof (find_none _ _ H f Hf) as K. cbn in K. lia.
  - intros H. destruct (find (fun f => f_id f =? id) l) as [f|] eqn:E; [|reflexivity].
    exfalso. apply H. apply in_map_iff. apply find_some in E. exists f. split; [lia|tauto].
Qed.

Lemma in_flight_false l id : ~ In id (ids l) -> in_flight l id = false.
Proof.
  intros H. destruct (in_flight l id) eqn:E; [|reflexivity]. exfalso. apply H. now apply in_flight_iff.
Qed.

Ltac vw H := cbn [view snd fst] in H; unfold view in H; injection H as ? ?.

Lemma run_is_spec n m ops : Forall (call_ok n m) ops ->
  exists c, engine_run (fresh_recs n m) (map to_call ops) =
              Ok (fst (spec_run (fresh_session n m) ops), c) /\
    tracked (outRecs c) = sent (snd (spec_run (fresh_session n m) ops)) /\
    tracked (inRecs c) = recvd (snd (spec_run (fresh_session n m) ops)).
Proof.
  intros H. destruct (engine_run_refines ops _ _ (Rel_fresh n m) H) as (c & E & R).
  exists c. split; [exact E|]. destruct R as [[R1 _ _ _ _] [R2 _ _ _ _]]. split; assumption.
Qed.

(** ** C16, C17 *)
Lemma ids_unique n m c : Reach n m c ->
  NoDup (ids (tracked (outRecs c))) /\ NoDup (ids (tracked (inRecs c))) /\
  ~ In 0 (ids (tracked (outRecs c))) /\ ~ In 0 (ids (tracked (inRecs c))).
Proof.
  intros H. destruct (reach_view _ _ _ H) as [[H1 H2 H3 H4 H5] [I1 I2 I3 I4 I5]].
  cbn [view sent recvd] in *. repeat split; auto; intros Hc; apply in_map_iff in Hc;
    destruct Hc as (f & E & Hf).
  - rewrite Forall_forall in H5. apply H5 in Hf. now apply (proj1 Hf).
  - rewrite Forall_forall in I5. apply I5 in Hf. now apply (proj1 Hf).
Qed.

Lemma slots_bounded n m c : Reach n m c ->
  (length (tracked (outRecs c)) <= n /\ length (tracked (inRecs c)) <= m)%nat.
Proof.
  intros H. destruct (reach_view _ _ _ H) as [[H1 H2 H3 H4 H5] [I1 I2 I3 I4 I5]].
  cbn [view cap_out cap_in] in *. rewrite <- H2, <- I2. unfold tracked. split; apply abs_length_le.
Qed.

Lemma nonempty_n n m c id : Reach n m c -> In id (ids (tracked (outRecs c))) -> n <> 0%nat.
Proof.
  intros H Hi. destruct (slots_bounded _ _ _ H) as [K _]. unfold ids in Hi.
  destruct (tracked (outRecs c)); [contradiction|]. cbn in K. lia.
Qed.
Lemma nonempty_m n m c id : Reach n m c -> In id (ids (tracked (inRecs c))) -> m <> 0%nat.
Proof.
  intros H Hi. destruct (slots_bounded _ _ _ H) as [_ K]. unfold ids in Hi.
  destruct (tracked (inRecs c)); [contradiction|]. cbn in K. lia.
Qed.
Lemma nonzero_in n m c id : Reach n m c -> In id (ids (tracked (outRecs c))) -> id <> 0.
Proof. intros H Hi ->. destruct (ids_unique _ _ _ H) as (_ & _ & K1 & K2). contradiction. Qed.
Lemma nonzero_in' n m c id : Reach n m c -> In id (ids (tracked (inRecs c))) -> id <> 0.
Proof. intros H Hi ->. destruct (ids_unique _ _ _ H) as (_ & _ & K1 & K2). contradiction. Qed.

Lemma reserve_collision n m c id q : Reach n m c -> q <> Q0 -> In id (ids (tracked (outRecs c))) ->
  exists c', reserveState c id q = Ok (StateCollision, c') /\
    tracked (outRecs c') = tracked (outRecs c) /\ tracked (inRecs c') = tracked (inRecs c).
Proof.
  intros H Hq Hi. pose proof (nonzero_in _ _ _ _ H Hi) as Hid.
  destruct (reach_step n m c (Reserve id q) H) as (c' & E & V & _).
  { cbn. destruct q; auto; intros _; eapply nonempty_n; eauto. }
  cbn [to_call engine_step] in E. cbn [spec_step] in E, V.
  replace (qos_beq q Q0) with false in * by (destruct q; congruence || reflexivity).
  replace (id =? 0) with false in * by lia. cbn [view cap_out sent cap_in recvd] in E, V.
  unfold spec_add in E, V. rewrite (proj2 (in_flight_iff _ _) Hi) in E, V. cbn [fst snd] in E, V.
  destruct (reserveState c id q) as [[st s']|]; cbn [rbind] in E; [|discriminate].
  inversion E; subst. exists c'. split; [reflexivity|]. vw V. split; assumption.
Qed.

Lemma receive_collision n m c id q : Reach n m c -> q <> Q0 -> In id (ids (tracked (inRecs c))) ->
  exists c', updateStatePublishApi c id OpReceive q = Ok (StateCollision, None, c') /\
    tracked (outRecs c') = tracked (outRecs c) /\ tracked (inRecs c') = tracked (inRecs c).
Proof.
  intros H Hq Hi. pose proof (nonzero_in' _ _ _ _ H Hi) as Hid.
  destruct (reach_step n m c (Published id OpReceive q) H) as (c' & E & V & _).
  { cbn. destruct q; auto; eapply nonempty_m; eauto. }
  cbn [to_call engine_step] in E.
  assert (Es : spec_step (view n m c) (Published id OpReceive q) = ((StateCollision, None), view n m c)).
  { destruct q; [congruence| |]; cbn [spec_step]; replace (id =? 0) with false by lia;
      cbn [view cap_out sent cap_in recvd]; unfold spec_add; rewrite (proj2 (in_flight_iff _ _) Hi);
      reflexivity. }
  rewrite Es in E, V. cbn [fst snd] in E, V.
  destruct (updateStatePublishApi c id OpReceive q) as [[[st ns] s']|]; cbn [rbind] in E; [|discriminate].
  inversion E; subst. exists c'. split; [reflexivity|]. vw V. split; assumption.
Qed.

Lemma reserve_fresh n m c id q : Reach n m c -> n <> 0%nat -> q <> Q0 -> id <> 0 ->
  ~ In id (ids (tracked (outRecs c))) ->
  exists c', tracked (inRecs c') = tracked (inRecs c) /\
    ((length (tracked (outRecs c)) < n)%nat /\ reserveState c id q = Ok (Success, c') /\
       tracked (outRecs c') = tracked (outRecs c) ++ [F id q PublishSend]
     \/ length (tracked (outRecs c)) = n /\ reserveState c id q = Ok (NoMemory, c') /\
       tracked (outRecs c') = tracked (outRecs c)).
Proof.
  intros H Hn Hq Hid Hi. destruct (slots_bounded _ _ _ H) as [Hb _].
  destruct (reach_step n m c (Reserve id q) H) as (c' & E & V & _).
  { cbn. destruct q; auto. }
  cbn [to_call engine_step] in E. cbn [spec_step] in E, V.
  replace (qos_beq q Q0) with false in * by (destruct q; congruence || reflexivity).
  replace (id =? 0) with false in * by lia. cbn [view cap_out sent cap_in recvd] in E, V.
  unfold spec_add in E, V. rewrite (in_flight_false _ _ Hi) in E, V.
  destruct (length (tracked (outRecs c)) <? n)%nat eqn:El; cbn [fst snd] in E, V;
    (destruct (reserveState c id q) as [[st s']|]; cbn [rbind] in E; [|discriminate]);
    inversion E; subst; exists c'; vw V; (split; [assumption|]).
  - left. repeat split; auto. lia.
  - right. repeat split; auto. lia.
Qed.

Lemma receive_fresh n m c id q : Reach n m c -> m <> 0%nat -> q <> Q0 -> id <> 0 ->
  ~ In id (ids (tracked (inRecs c))) ->
  let next := match q with Q1 => PubAckSend | _ => PubRecSend end in
  exists c', tracked (outRecs c') = tracked (outRecs c) /\
    ((length (tracked (inRecs c)) < m)%nat /\
       updateStatePublishApi c id OpReceive q = Ok (Success, Some next, c') /\
       tracked (inRecs c') = tracked (inRecs c) ++ [F id q next]
     \/ length (tracked (inRecs c)) = m /\
       updateStatePublishApi c id OpReceive q = Ok (NoMemory, None, c') /\
       tracked (inRecs c') = tracked (inRecs c)).
Proof.
  intros H Hm Hq Hid Hi next. destruct (slots_bounded _ _ _ H) as [_ Hb].
  destruct (reach_step n m c (Published id OpReceive q) H) as (c' & E & V & _).
  { cbn. destruct q; auto. }
  cbn [to_call engine_step] in E.
  assert (Es : spec_step (view n m c) (Published id OpReceive q) =
     if (length (tracked (inRecs c)) <? m)%nat
     then ((Success, Some next), mkSession n (tracked (outRecs c)) m (tracked (inRecs c) ++ [F id q next]))
     else ((NoMemory, None), view n m c)).
  { destruct q; [congruence| |]; cbn [spec_step]; replace (id =? 0) with false by lia;
      cbn [view cap_out sent cap_in recvd]; unfold spec_add; rewrite (in_flight_false _ _ Hi);
      destruct (length (tracked (inRecs c)) <? m)%nat; reflexivity. }
  rewrite Es in E, V.
  destruct (length (tracked (inRecs c)) <? m)%nat eqn:El; cbn [fst snd] in E, V;
    (destruct (updateStatePublishApi c id OpReceive q) as [[[st ns] s']|]; cbn [rbind] in E; [|discriminate]);
    inversion E; subst; exists c'; vw V; (split; [assumption|]).
  - left. repeat split; auto. lia.
  - right. repeat split; auto. lia.
Qed.

(** ** C18 *)
Lemma ack_effect n m c id t op : Reach n m c -> id <> 0 ->
  exists st ns c', updateStateAckApi c id t op = Ok (st, ns, c') /\
    Reach n m c' /\ other_side t op c' = other_side t op c /\
    match lookup (side t op c) id with
    | None => st = BadResponse /\ ns = None /\ side t op c' = side t op c
    | Some f => (st, ns, side t op c') = apply_action (side t op c) f (ack_table (f_qos f) (f_st f) t op)
    end.
Proof.
  intros H Hid.
  destruct (reach_step n m c (Acked id t op) H I) as (c' & E & V & Hr).
  cbn [to_call engine_step] in E. cbn [spec_step] in E, V.
  replace (id =? 0) with false in * by lia. unfold side, other_side, ack_table.
  destruct (updateStateAckApi c id t op) as [[[st ns] s']|] eqn:Eu; cbn [rbind] in E; [|discriminate].
  exists st, ns, s'.
  destruct (concerns_sent t op); cbn [view cap_out sent cap_in recvd] in E, V.
  - destruct (lookup (tracked (outRecs c)) id) as [f|] eqn:El.
    + destruct (apply_action _ _ _) as [[st1 ns1] l1]. cbn [fst snd] in *. inversion E; subst.
      vw V. repeat split; auto. congruence.
    + cbn [fst snd] in *. inversion E; subst. vw V. repeat split; auto.
  - destruct (lookup (tracked (inRecs c)) id) as [f|] eqn:El.
    + destruct (apply_action _ _ _) as [[st1 ns1] l1]. cbn [fst snd] in *. inversion E; subst.
      vw V. repeat split; auto. congruence.
    + cbn [fst snd] in *. inversion E; subst. vw V. repeat split; auto.
Qed.

Lemma others_set l id st : others (spec_set l id st) id = others l id.
Proof.
  unfold others, spec_set. induction l as [|f l IH]; cbn [map filter]; [reflexivity|].
  destruct (f_id f =? id) eqn:E; cbn [f_id]; rewrite E; cbn [negb]; [exact IH|]. f_equal. exact IH.
Qed.
Lemma others_drop l id : others (spec_drop l id) id = others l id.
Proof. unfold others, spec_drop. apply filter_idem. Qed.

Lemma ack_others n m c id t op st ns c' : Reach n m c -> id <> 0 ->
  updateStateAckApi c id t op = Ok (st, ns, c') ->
  others (side t op c') id = others (side t op c) id /\ other_side t op c' = other_side t op c.
Proof.
  intros H Hid E. destruct (ack_effect n m c id t op H Hid) as (st1 & ns1 & c1 & E1 & _ & Ho & K).
  rewrite E in E1. inversion E1; subst. split; [|exact Ho].
  destruct (lookup (side t op c) id) as [f|] eqn:El.
  - pose proof (lookup_id _ _ _ El) as Eid.
    destruct (ack_table (f_qos f) (f_st f) t op); cbn [apply_action] in K;
      pose proof (f_equal snd K) as Kl; cbn [snd] in Kl; rewrite Kl, ?Eid.
    + apply others_set.
    + unfold others. rewrite filter_app. cbn [filter f_id]. rewrite Z.eqb_refl. cbn [negb].
      rewrite app_nil_r. apply (others_drop (side t op c)).
    + reflexivity.
    + apply others_drop.
    + reflexivity.
  - destruct K as (_ & _ & ->). reflexivity.
Qed.

(** ** C21 *)
Lemma table_finish_target n m c t op f : Reach n m c -> In f (side t op c) ->
  match ack_table (f_qos f) (f_st f) t op with
  | Goto s | GotoBack s => s <> PublishDone | Stay => f_st f <> PublishDone | _ => True end.
Proof.
  intros H Hf. unfold ack_table. unfold side in Hf.
  destruct (concerns_sent t op); unfold sender_table, receiver_table;
  destruct (f_qos f), (f_st f), t, op; cbn; first [exact I|congruence].
Qed.

Lemma spec_drop_ids l id : ~ In id (ids (spec_drop l id)).
Proof. intros H. apply In_ids_drop in H. now destruct H. Qed.

Lemma done_state n m c id t op c' : Reach n m c -> id <> 0 ->
  updateStateAckApi c id t op = Ok (Success, Some PublishDone, c') ->
  Reach n m c' /\ In id (ids (side t op c)) /\ side t op c' = others (side t op c) id.
Proof.
  intros H Hid E. destruct (ack_effect n m c id t op H Hid) as (st1 & ns1 & c1 & E1 & R1 & _ & K).
  rewrite E in E1. inversion E1; subst. split; [exact R1|].
  destruct (lookup (side t op c) id) as [f|] eqn:El; [|destruct K; discriminate].
  pose proof (lookup_id _ _ _ El) as Eid. pose proof (lookup_In _ _ _ El) as HIn.
  pose proof (table_finish_target n m c t op f H HIn) as Ht.
  split; [unfold ids; rewrite <- Eid; now apply in_map|].
  destruct (ack_table (f_qos f) (f_st f) t op); cbn [apply_action] in K; 
    pose proof (f_equal (fun x => snd (fst x)) K) as K2; pose proof (f_equal snd K) as K3;
    cbn [fst snd] in K2, K3; try congruence.
  rewrite K3, Eid. reflexivity.
Qed.

Lemma side_eq t op t' op' c : concerns_sent t' op' = concerns_sent t op -> side t' op' c = side t op c.
Proof. unfold side. now intros ->. Qed.

Lemma done_later_ack n m c id t op c' t' op' : Reach n m c -> id <> 0 ->
  updateStateAckApi c id t op = Ok (Success, Some PublishDone, c') ->
  concerns_sent t' op' = concerns_sent t op ->
  exists c'', updateStateAckApi c' id t' op' = Ok (BadResponse, None, c'') /\
    tracked (outRecs c'') = tracked (outRecs c') /\ tracked (inRecs c'') = tracked (inRecs c').
Proof.
  intros H Hid E Hs. destruct (done_state n m c id t op c' H Hid E) as (R1 & _ & Es).
  destruct (ack_effect n m c' id t' op' R1 Hid) as (st & ns & c2 & E2 & _ & Ho & K).
  rewrite (side_eq _ _ _ _ c' Hs) in K.
  assert (El : lookup (side t op c') id = None).
  { apply lookup_none_iff. rewrite Es. apply spec_drop_ids. }
  rewrite El in K. destruct K as (-> & -> & K2). exists c2. split; [exact E2|].
  rewrite <- (side_eq _ _ _ _ c' Hs) in K2. unfold side, other_side in *.
  destruct (concerns_sent t' op'); split; assumption.
Qed.

Lemma walk_incl_pub n m c l : Reach n m c -> Walk (publishToResend c) 0 l ->
  forall id, In id l -> In id (ids (tracked (outRecs c))).
Proof.
  intros H HW id Hi. pose proof (walk_publish _ _ (reach_view _ _ _ H)) as W.
  rewrite (Walk_det _ _ _ HW _ W) in Hi. cbn [view sent] in Hi. unfold pubq, ids in *.
  apply in_map_iff in Hi. destruct Hi as (f & E & Hf). apply filter_In in Hf.
  apply in_map_iff. exists f. tauto.
Qed.
Lemma walk_incl_rel n m c l : Reach n m c -> Walk (pubrelToResend c) 0 l ->
  forall id, In id l -> In id (ids (tracked (outRecs c))).
Proof.
  intros H HW id Hi. pose proof (walk_pubrel _ _ (reach_view _ _ _ H)) as W.
  rewrite (Walk_det _ _ _ HW _ W) in Hi. cbn [view sent] in Hi. unfold relq, ids in *.
  apply in_map_iff in Hi. destruct Hi as (f & E & Hf). apply filter_In in Hf.
  apply in_map_iff. exists f. tauto.
Qed.

Lemma drop_le l id : (length (spec_drop l id) <= length l)%nat.
Proof. unfold spec_drop. induction l as [|x l IH]; cbn [filter length]; [lia|]. destruct (negb (f_id x =? id)); cbn [length]; lia. Qed.
Lemma drop_shorter l id : In id (ids l) -> (length (spec_drop l id) < length l)%nat.
Proof.
  unfold ids. induction l as [|f l IH]; cbn [map In length]; [tauto|].
  pose proof (drop_le l id) as Hle. unfold spec_drop in *. cbn [filter]. intros [E|Hin].
  - replace (f_id f =? id) with true by lia. cbn [negb]. lia.
  - specialize (IH Hin). destruct (negb (f_id f =? id)); cbn [length]; lia.
Qed.

Lemma done_free n m c id t op c' q : Reach n m c -> id <> 0 -> concerns_sent t op = true ->
  updateStateAckApi c id t op = Ok (Success, Some PublishDone, c') -> q <> Q0 ->
  tracked (outRecs c') = others (tracked (outRecs c)) id /\
  tracked (inRecs c') = tracked (inRecs c) /\
  (forall l, Walk (publishToResend c') 0 l -> ~ In id l) /\
  (forall l, Walk (pubrelToResend c') 0 l -> ~ In id l) /\
  exists c'', reserveState c' id q = Ok (Success, c'').
Proof.
  intros H Hid Hc E Hq. destruct (done_state n m c id t op c' H Hid E) as (R1 & Hin & Es).
  destruct (ack_others n m c id t op _ _ _ H Hid E) as [_ Ho].
  unfold side, other_side in *. rewrite Hc in *.
  assert (Hni : ~ In id (ids (tracked (outRecs c')))) by (rewrite Es; apply spec_drop_ids).
  repeat split; auto.
  - intros l HW Hi. apply Hni. eapply walk_incl_pub; eauto.
  - intros l HW Hi. apply Hni. eapply walk_incl_rel; eauto.
  - destruct (reserve_fresh n m c' id q R1 (nonempty_n _ _ _ _ H Hin) Hq Hid Hni) as (c2 & _ & [(_ & K & _)|(K & _)]).
    + now exists c2.
    + exfalso. destruct (slots_bounded _ _ _ H) as [Hb _]. rewrite Es in K. unfold others in K.
      pose proof (drop_shorter _ _ Hin). unfold spec_drop in *. lia.
Qed.

(** ** C22 *)
Lemma cancel_effect n m c id : Reach n m c -> id <> 0 ->
  exists st c', removeStateRecord c id = Ok (st, c') /\ Reach n m c' /\
    (In id (ids (tracked (outRecs c))) /\ st = Success \/
     ~ In id (ids (tracked (outRecs c))) /\ st = BadParameter) /\
    tracked (outRecs c') = others (tracked (outRecs c)) id /\
    tracked (inRecs c') = tracked (inRecs c).
Proof.
  intros H Hid. destruct (reach_step n m c (Cancel id) H Hid) as (c' & E & V & Hr).
  cbn [to_call engine_step] in E. cbn [spec_step] in E, V.
  destruct (removeStateRecord c id) as [[st s']|] eqn:Er; cbn [rbind] in E; [|discriminate].
  cbn [view cap_out sent cap_in recvd] in E, V.
  destruct (lookup (tracked (outRecs c)) id) as [f|] eqn:El; cbn [fst snd] in *;
    inversion E; subst; eexists _, c'; (split; [reflexivity|]); (split; [exact Hr|]); vw V.
  - repeat split; auto. left. split; [|reflexivity].
    pose proof (lookup_id _ _ _ El) as Eid. apply lookup_In in El. unfold ids. rewrite <- Eid. now apply in_map.
  - apply lookup_none_iff in El. repeat split; auto.
    etransitivity; [eassumption|]. symmetry. now apply spec_drop_notin.
Qed.

(** ** C21 over histories: between two completions of an id there is a new reservation *)
Lemma in_flight_ids l l' : ids l = ids l' -> forall id, in_flight l id = in_flight l' id.
Proof.
  intros E id. destruct (in_flight l' id) eqn:K.
  - apply in_flight_iff. rewrite E. now apply in_flight_iff.
  - destruct (in_flight l id) eqn:K2; [|reflexivity]. apply in_flight_iff in K2. rewrite E in K2.
    apply in_flight_iff in K2. congruence.
Qed.

Lemma in_flight_app a b id : in_flight (a ++ b) id = in_flight a id || in_flight b id.
Proof. unfold in_flight. apply existsb_app. Qed.

Lemma in_flight_drop l id x : in_flight (spec_drop l id) x = negb (x =? id) && in_flight l x.
Proof.
  destruct (in_flight (spec_drop l id) x) eqn:E.
  - apply in_flight_iff, In_ids_drop in E. destruct E as [E1 E2].
    replace (x =? id) with false by lia. cbn [negb andb]. symmetry. now apply in_flight_iff.
  - destruct (x =? id) eqn:K; [reflexivity|]. cbn [negb andb]. symmetry.
    destruct (in_flight l x) eqn:K2; [|reflexivity].
    assert (in_flight (spec_drop l id) x = true); [|congruence].
    apply in_flight_iff, In_ids_drop. split; [now apply in_flight_iff|lia].
Qed.

Lemma completion_step s o id : good s ->
  (b2n (is_completion id (o, fst (spec_step s o))) + b2n (in_flight (sent (snd (spec_step s o))) id) <=
   b2n (is_reservation id (o, fst (spec_step s o))) + b2n (in_flight (sent s) id))%nat.
Proof.
  intros [HN HO]. destruct o as [i q|i op q|i t op|i|]; cbn [spec_step].
  - destruct q; cbn [qos_beq].
    + cbn. lia.
    + destruct (i =? 0); [cbn; lia|].
      destruct (spec_add_cases (cap_out s) (sent s) i Q1 PublishSend) as [(e & He & E)|E]; rewrite E;
        cbn [fst snd sent is_completion is_reservation].
      * destruct e; cbn [b2n]; lia.
      * rewrite in_flight_app. cbn [in_flight existsb f_id]. rewrite orb_false_r.
        destruct (in_flight (sent s) id), (i =? id); cbn [orb b2n]; lia.
    + destruct (i =? 0); [cbn; lia|].
      destruct (spec_add_cases (cap_out s) (sent s) i Q2 PublishSend) as [(e & He & E)|E]; rewrite E;
        cbn [fst snd sent is_completion is_reservation].
      * destruct e; cbn [b2n]; lia.
      * rewrite in_flight_app. cbn [in_flight existsb f_id]. rewrite orb_false_r.
        destruct (in_flight (sent s) id), (i =? id); cbn [orb b2n]; lia.
  - assert (Hgen : forall r s', in_flight (sent s') id = in_flight (sent s) id ->
      (b2n (is_completion id (Published i op q, fst (r, s'))) + b2n (in_flight (sent (snd (r, s'))) id) <=
       b2n (is_reservation id (Published i op q, fst (r, s'))) + b2n (in_flight (sent s) id))%nat).
    { intros r s' E. cbn [fst snd is_completion is_reservation b2n]. rewrite E. lia. }
    destruct q, op; try (apply Hgen; reflexivity); destruct (i =? 0); try (apply Hgen; reflexivity);
     try (destruct (lookup (sent s) i) as [f|]; [|apply Hgen; reflexivity];
      destruct (negb _); [apply Hgen; reflexivity|];
      destruct (f_st f); apply Hgen; try reflexivity; cbn [sent]; apply in_flight_ids, ids_set);
     destruct (spec_add _ _ _ _ _); apply Hgen; reflexivity.
  - destruct (i =? 0); [cbn; lia|]. destruct (concerns_sent t op) eqn:Ec.
    + destruct (lookup (sent s) i) as [f|] eqn:El; [|cbn; lia].
      pose proof (lookup_id _ _ _ El) as Eid.
      assert (Hin : in_flight (sent s) i = true).
      { apply in_flight_iff. apply lookup_In in El. unfold ids. rewrite <- Eid. now apply in_map. }
      destruct (sender_table (f_qos f) (f_st f) t op) eqn:Et; cbn [apply_action fst snd sent is_reservation b2n].
      * rewrite (in_flight_ids _ _ (ids_set (sent s) (f_id f) s0) id).
        replace (is_completion id (Acked i t op, (Success, Some s0))) with false; [cbn [b2n]; lia|].
        destruct s0; try reflexivity. exfalso. unfold sender_table in Et.
        destruct (f_qos f), (f_st f), t, op; discriminate.
      * rewrite in_flight_app, in_flight_drop. cbn [in_flight existsb f_id]. rewrite orb_false_r.
        replace (is_completion id (Acked i t op, (Success, Some s0))) with false.
        -- destruct (id =? f_id f) eqn:K1, (f_id f =? id) eqn:K2, (in_flight (sent s) id) eqn:K3;
             cbn [negb andb orb b2n]; try lia.
           assert (id = i) by lia. subst. congruence.
        -- destruct s0; try reflexivity. exfalso. unfold sender_table in Et.
           destruct (f_qos f), (f_st f), t, op; discriminate.
      * replace (is_completion id (Acked i t op, (Success, Some (f_st f)))) with false; [cbn [b2n]; lia|].
        unfold sender_table in Et. destruct (f_qos f), (f_st f), t, op; try discriminate; reflexivity.
      * cbn [is_completion]. rewrite Ec, andb_true_r, in_flight_drop.
        destruct (i =? id) eqn:K1.
        -- replace (id =? f_id f) with true by lia. assert (id = i) by lia. subst. rewrite Hin. cbn [negb andb b2n]. lia.
        -- destruct (id =? f_id f), (in_flight (sent s) id); cbn [negb andb b2n]; lia.
      * cbn [is_completion b2n]. lia.
    + destruct (lookup (recvd s) i) as [f|] eqn:El; [|cbn; lia].
      destruct (apply_action _ _ _) as [[st ns] l]. cbn [fst snd sent is_completion is_reservation].
      destruct st; cbn [b2n]; try lia. destruct ns as [p|]; [|cbn [b2n]; lia].
      destruct p; cbn [b2n]; try lia. rewrite Ec, andb_false_r. cbn [b2n]. lia.
  - destruct (lookup (sent s) i) as [f|] eqn:El; cbn [fst snd sent is_completion is_reservation b2n]; [|lia].
    rewrite in_flight_drop. destruct (id =? i), (in_flight (sent s) id); cbn [negb andb b2n]; lia.
  - cbn [fst snd sent is_completion is_reservation b2n in_flight existsb]. lia.
Qed.

Lemma completions_bounded n m ops : forall c outs c' id, Reach n m c -> Forall (call_ok n m) ops ->
  engine_run c (map to_call ops) = Ok (outs, c') ->
  (count (is_completion id) (combine ops outs) + b2n (in_flight (tracked (outRecs c')) id) <=
   count (is_reservation id) (combine ops outs) + b2n (in_flight (tracked (outRecs c)) id))%nat.
Proof.
  induction ops as [|o ops IH]; intros c outs c' id H Hok E; cbn [map engine_run] in E.
  - inversion E; subst. cbn. lia.
  - inversion Hok as [|? ? H1 H2]; subst.
    destruct (reach_step n m c o H H1) as (c1 & E1 & V1 & R1). rewrite E1 in E. cbn [rbind] in E.
    destruct (engine_run c1 (map to_call ops)) as [[rs c2]|] eqn:E2; cbn [rbind] in E; [|discriminate].
    inversion E; subst. specialize (IH _ _ _ id R1 H2 E2).
    pose proof (completion_step (view n m c) o id (Rel_good _ _ (reach_view _ _ _ H))) as K.
    rewrite <- V1 in K. cbn [view sent] in K. cbn [combine]. unfold count in *. cbn [filter].
    destruct (is_completion id (o, fst (spec_step (view n m c) o)));
      destruct (is_reservation id (o, fst (spec_step (view n m c) o))); cbn [length b2n] in *; lia.
Qed.
