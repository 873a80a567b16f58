(** Statements about single API calls, in terms of what is observed. *)
From Verif Require Import Base StateModel StateSpec StateHarness StateProofs StateProofs2 SerModel WireSpec SerHarness SerProofs SerProofs2 SerProofs3 SerProofs4 SerProofs5
  CoreModel CoreHarness CoreSpec CoreProofs CoreProofs2 CoreProofs3 CoreProofs4 CoreProofs5 CoreProofs6 CoreProofs7 CoreProofs8 CoreProofs9 CoreProofs10 CoreProofs11 CoreProofs12 CoreProofs13.

(** ** Clock *)
Lemma elapsed_true T1 T2 : 0 <= T2 - T1 < 4294967296 -> elapsed (u32 T2) (u32 T1) = T2 - T1.
Proof.
  intro H. unfold elapsed, u32. rewrite <- Zminus_mod. apply Z.mod_small. exact H.
Qed.

(** ** Partial writes *)
Definition after (b : bool) (x : cstatus) : cstatus :=
  if b then match x with Connected => DisconnectPending | y => y end else x.
Lemma sent_ok_exact bs s r s' t : sent_ok bs s r s' t ->
  exists k, (k <= length bs)%nat /\ outs t = firstn k bs /\ quiet t /\ (r = zlen bs <-> k = length bs) /\
    (errs t = true -> r < 0) /\ (errs t = false -> r = Z.of_nat k) /\
    x_status (s_ctx s') = if errs t then match x_status (s_ctx s) with Connected => DisconnectPending | x => x end
                          else x_status (s_ctx s).
Proof.
  intros (k & l & Q1 & Q2 & Q3 & Q4 & Q5 & Q6). exists k. split; [exact Q1|]. split; [exact Q2|].
  destruct Q6 as [(-> & He & ->)|(Hr & Hk & (t0 & -> & He) & ->)].
  - rewrite He. repeat split; auto; try discriminate; unfold zlen in *; try lia. now apply quiet_noerr.
  - assert (E : errs (t0 ++ [EOutErr]) = true) by (unfold errs; rewrite existsb_app; cbn; apply orb_true_r).
    rewrite E. rewrite broke_status. repeat split; auto; try discriminate; unfold zlen in *; try lia.
    now apply quiet_last.
Qed.
Lemma sentb_exact bs s ok s' t : sentb bs s ok s' t ->
  exists k, (k <= length bs)%nat /\ outs t = firstn k bs /\ quiet t /\ (ok = true <-> k = length bs) /\
    (errs t = true -> ok = false) /\
    x_status (s_ctx s') = if errs t then match x_status (s_ctx s) with Connected => DisconnectPending | x => x end
                          else x_status (s_ctx s).
Proof.
  intros (k & l & Q1 & Q2 & Q3 & Q4 & Q5 & Q6 & Q7). exists k. split; [exact Q1|]. split; [exact Q2|].
  destruct Q7 as [(He & ->)|(-> & (t0 & -> & He) & ->)].
  - rewrite He. repeat split; try tauto; try discriminate. now apply quiet_noerr.
  - assert (E : errs (t0 ++ [EOutErr]) = true) by (unfold errs; rewrite existsb_app; cbn; apply orb_true_r).
    rewrite E. rewrite broke_status. repeat split; try tauto. now apply quiet_last.
Qed.

Section Calls.
Variable G : cfg.
Lemma send_vector_exact vs s r s' t : sendMessageVector G vs s = Ret r s' t ->
  exists k, (k <= length (concat vs))%nat /\ outs t = firstn k (concat vs) /\ quiet t /\
    (r = zlen (concat vs) <-> k = length (concat vs)) /\
    (errs t = true -> r < 0) /\ (errs t = false -> r = Z.of_nat k) /\
    x_status (s_ctx s') = if errs t then match x_status (s_ctx s) with Connected => DisconnectPending | x => x end
                          else x_status (s_ctx s).
Proof. intro H. apply sent_ok_exact. now apply sendMessageVector_spec in H. Qed.
Lemma send_buffer_exact bs s r s' t : sendBuffer G bs s = Ret r s' t ->
  exists k, (k <= length bs)%nat /\ outs t = firstn k bs /\ quiet t /\ (r = zlen bs <-> k = length bs) /\
    (errs t = true -> r < 0) /\ (errs t = false -> r = Z.of_nat k) /\
    x_status (s_ctx s') = if errs t then match x_status (s_ctx s) with Connected => DisconnectPending | x => x end
                          else x_status (s_ctx s).
Proof. intro H. apply sent_ok_exact. now apply sendBuffer_spec in H. Qed.

Lemma wire_none bs res s s' t : res <> Success -> res <> SendFailed -> outs t = [] -> errs t = false -> wire bs res s s' t.
Proof. intros H1 H2 H3 H4. exists 0%nat. rewrite H4. repeat split; auto; try lia; try congruence. now apply quiet_noerr. Qed.
Lemma wire_sent bs ok s s' t : sentb bs s ok s' t -> wire bs (sendst ok) s s' t.
Proof.
  intro H. apply sentb_exact in H. destruct H as (k & Q1 & Q2 & Q3 & Q4 & Q5 & Q6). exists k.
  split; [exact Q1|]. split; [exact Q2|]. split; [exact Q3|]. unfold sendst. destruct ok.
  - split; [intros; now apply Q4|]. split; [discriminate|]. intro He. specialize (Q5 He). discriminate.
  - split; [discriminate|]. split.
    + intros _. destruct Q4 as (_ & Q4). destruct (Nat.eq_dec k (length bs)) as [E|E]; [specialize (Q4 E); discriminate|lia].
    + intro He. split; auto. rewrite Q6, He. destruct (x_status (s_ctx s)); congruence.
Qed.
Lemma store_noerr p id c vd ok e e' t : store_step p id c vd ok e e' t -> errs t = false.
Proof. unfold store_step. destruct (_ && _); intros (_ & _ & ->); reflexivity. Qed.
Lemma errs_app a b : errs (a ++ b) = errs a || errs b.
Proof. apply existsb_app. Qed.
Lemma refusal_kinds r : refusal r -> r <> Success /\ r <> SendFailed.
Proof. unfold refusal. intros [->|[->| ->]]; split; discriminate. Qed.


(** the engine calls of MQTT_Publish *)
Lemma reserve_eq n m c id q : Reach n m c -> q <> Q0 -> id <> 0 -> outRecs c <> None ->
  exists c', reserveState c id q = Ok (fst (spec_add n (tracked (outRecs c)) id q PublishSend), c') /\ Reach n m c' /\
    tracked (outRecs c') = snd (spec_add n (tracked (outRecs c)) id q PublishSend) /\
    tracked (inRecs c') = tracked (inRecs c).
Proof.
  intros HR Hq Hi Ho. assert (Hn : n <> 0%nat). { intros ->. apply Ho. apply (reach_shape _ _ _ HR). auto. }
  destruct (reach_step n m c (Reserve id q) HR) as (c' & E & V & R'); [destruct q; cbn; auto|].
  exists c'. cbn [to_call engine_step] in E. cbn [spec_step] in E, V.
  replace (qos_beq q Q0) with false in * by (destruct q; auto; congruence). replace (id =? 0) with false in * by lia.
  cbn [view cap_out sent cap_in StateSpec.recvd] in E, V. destruct (spec_add n (tracked (outRecs c)) id q PublishSend) as [st l].
  cbn [fst snd] in *. destruct (reserveState c id q) as [[st' c'']|]; cbn [rbind] in E; [|discriminate].
  assert (st' = st /\ c'' = c') by (split; congruence). destruct H as (-> & ->). split; auto. split; auto.
  cbn [view snd] in V. split; [exact (f_equal sent V)|exact (f_equal StateSpec.recvd V)].
Qed.
Lemma published_eq n m c id q : Reach n m c -> q <> Q0 -> id <> 0 ->
  let r := spec_step (view n m c) (Published id OpSend q) in
  exists c', updateStatePublishApi c id OpSend q = Ok (fst (fst r), snd (fst r), c') /\ Reach n m c' /\
    tracked (outRecs c') = sent (snd r) /\ tracked (inRecs c') = tracked (inRecs c).
Proof.
  intros HR Hq Hi r. destruct (reach_step n m c (Published id OpSend q) HR) as (c' & E & V & R'); [destruct q; exact I|].
  exists c'. cbn [to_call engine_step] in E. fold r in E, V.
  destruct (updateStatePublishApi c id OpSend q) as [[[st' ns'] c'']|]; cbn [rbind] in E; [|discriminate].
  assert ((st', ns') = fst r /\ c'' = c') by (split; congruence). destruct H as (E1 & ->). rewrite <- E1. split; auto. split; auto.
  rewrite <- V. split; auto.
  assert (K : tracked (inRecs c') = StateSpec.recvd (snd r)) by (rewrite <- V; reflexivity). rewrite K.
  unfold r. cbn [spec_step]. destruct q; [congruence|..]; (destruct (id =? 0); [reflexivity|]);
    cbn [view sent]; destruct (lookup _ id) as [f|]; try reflexivity; destruct (negb _); try reflexivity; destruct (f_st f); reflexivity.
Qed.

Lemma in_flight_lookup l id : in_flight l id = match lookup l id with Some _ => true | None => false end.
Proof.
  unfold in_flight, lookup. induction l as [|f l IH]; cbn; auto. destruct (f_id f =? id); auto.
Qed.
Lemma lookup_app l l2 id : lookup l id = None -> lookup (l ++ l2) id = lookup l2 id.
Proof. unfold lookup. induction l as [|f l IH]; cbn; auto. destruct (f_id f =? id); [discriminate|auto]. Qed.
Lemma set_absent l id x : lookup l id = None -> spec_set l id x = l.
Proof.
  unfold lookup, spec_set. induction l as [|f l IH]; cbn; auto. destruct (f_id f =? id); [discriminate|]. intro H. now rewrite (IH H).
Qed.
Lemma reserve_step_eq n m c p id rst r1 : Reach n m c -> (p_qos p <> Q0 -> outRecs c <> None /\ id <> 0) -> reserve_step p id c = Ok (rst, r1) ->
  Reach n m r1 /\ tracked (inRecs r1) = tracked (inRecs c) /\
  if qos_beq (p_qos p) Q0 then rst = Success /\ r1 = c
  else match lookup (tracked (outRecs c)) id with
  | Some f => tracked (outRecs r1) = tracked (outRecs c) /\ rst = (if p_dup p then Success else StateCollision)
  | None => if (length (tracked (outRecs c)) <? n)%nat
            then rst = Success /\ tracked (outRecs r1) = tracked (outRecs c) ++ [F id (p_qos p) PublishSend]
            else rst = NoMemory /\ tracked (outRecs r1) = tracked (outRecs c)
  end.
Proof.
  intros HR Hp H. unfold reserve_step in H. destruct (qos_beq (p_qos p) Q0) eqn:Eq.
  - destruct (p_qos p); try discriminate. assert (rst = Success /\ r1 = c) by (split; congruence). destruct H0; subst. auto.
  - assert (Nq : p_qos p <> Q0) by (destruct (p_qos p); congruence || discriminate). specialize (Hp Nq).
    destruct (reserve_eq n m c id (p_qos p) HR Nq (proj2 Hp) (proj1 Hp)) as (c' & E & HR' & E1 & E2).
    replace (reserve_step p id c) with (reserve_step p id c) in * by auto.
    assert (K : (if status_beq (fst (spec_add n (tracked (outRecs c)) id (p_qos p) PublishSend)) StateCollision && p_dup p
                 then Success else fst (spec_add n (tracked (outRecs c)) id (p_qos p) PublishSend)) = rst /\ c' = r1).
    { destruct (p_qos p); [congruence|..]; rewrite E in H; cbn [rbind] in H; split; congruence. }
    destruct K as (<- & <-). split; auto. split; auto. rewrite E1. unfold spec_add. rewrite in_flight_lookup.
    destruct (lookup _ id).
    + cbn [fst snd status_beq andb]. split; auto.
    + destruct (length _ <? n)%nat; cbn [fst snd status_beq andb]; auto.
Qed.
Lemma publish_params c p id : validatePublishParams c p id = Success -> p_qos p <> Q0 -> outRecs (x_recs c) <> None /\ id <> 0.
Proof.
  unfold validatePublishParams. intros H Hq.
  assert (E : negb (qos_beq (p_qos p) Q0) = true) by (destruct (p_qos p); auto; congruence). rewrite E in H. cbn [andb] in H.
  destruct (id =? 0) eqn:E0; [discriminate|]. destruct (_ && _); [discriminate|].
  destruct (outRecs (x_recs c)); [|discriminate]. split; [discriminate|lia].
Qed.

Lemma publish_effect n m p id msg s st s' t : Reach n m (x_recs (s_ctx s)) -> pub_means p id msg ->
  publish G p id s = Ret st s' t ->
  incoming s' = incoming s /\
  (s' = s /\ t = [] /\ (st = BadParameter \/ st = must_be_connected (s_ctx s) /\ x_status (s_ctx s) <> Connected) \/
   x_status (s_ctx s) = Connected /\ pub_cases n p id (publish_packet msg) st (outgoing s) (outgoing s') t).
Proof.
  intros HR Hm H. pose proof H as H'. apply publish_spec in H.
  destruct H as [(-> & -> & _ & Hr)|(Hc & Hv & rl & ps & h & hs & rst & r1 & K1 & K2 & K3 & K4)].
  { split; auto. left. repeat split; auto. destruct Hr as [(-> & _)|(? & ->)]; auto. }
  destruct (publish_prepared _ _ _ _ _ _ _ Hm K1 K2) as (Hne & Hmax & -> & -> & (vs & Ev & Ec) & _).
  destruct (reserve_step_eq _ _ _ _ _ _ _ HR (publish_params _ _ _ Hv) K3) as (HR1 & Ei & Eo).
  cbv zeta in K4. unfold incoming, outgoing.
  destruct K4 as [(Hn & -> & -> & ->)|(-> & vd & ok & e & te & S1 & S2 & S3)].
  { cbn [s_ctx set_recs x_recs]. split; auto. right. split; auto. unfold pub_cases.
    destruct (qos_beq (p_qos p) Q0); [destruct Eo; congruence|].
    destruct (lookup _ id); [destruct (p_dup p); destruct Eo; [congruence|auto]|].
    destruct (_ <? _)%nat; destruct Eo; [congruence|auto]. }
  pose proof (store_outs _ _ _ _ _ _ _ _ S1) as So.
  destruct S3 as [(-> & -> & -> & ->)|(-> & vs' & sok & t1 & s1 & S3 & S4 & -> & S5)].
  { cbn [s_ctx set_recs x_recs]. split; auto. right. split; auto. unfold pub_cases, store_step in *.
    destruct (qos_beq (p_qos p) Q0); cbn [negb andb] in S1; [destruct S1; discriminate|].
    destruct (lookup _ id); [destruct (p_dup p); destruct Eo; [auto|discriminate]|].
    destruct (_ <? _)%nat; destruct Eo; [auto|discriminate]. }
  assert (vs' = vs) by congruence. subst vs'. rewrite Ec in S4.
  pose proof (sentb_recs _ _ _ _ _ S4) as Er. cbn [s_ctx set_recs x_recs] in Er.
  apply sentb_exact in S4. destruct S4 as (k & W1 & W2 & W3 & W4 & W5 & _).
  unfold pub_cases. rewrite outs_app, So. cbn [app].
  destruct S5 as [(-> & -> & ->)|(-> & S5)].
  { rewrite Er. split; auto. right. split; auto.
    assert (Hk : exists k, (k < length (publish_packet msg))%nat /\ outs t1 = firstn k (publish_packet msg)).
    { exists k. split; auto. destruct (Nat.eq_dec k (length (publish_packet msg))) as [E|E]; [|lia].
      apply W4 in E. discriminate. }
    destruct (qos_beq (p_qos p) Q0); [destruct Eo as (_ & ->); auto|].
    destruct (lookup _ id); [destruct (p_dup p); destruct Eo; [auto|discriminate]|].
    destruct (_ <? _)%nat; destruct Eo; [auto|discriminate]. }
  assert (Hk : outs t1 = publish_packet msg).
  { rewrite W2. rewrite (proj1 W4 eq_refl). apply firstn_all. }
  rewrite Hk. destruct (qos_beq (p_qos p) Q0) eqn:Eq.
  { destruct (p_qos p); try discriminate. destruct S5 as (-> & ->). rewrite Er. destruct Eo as (_ & ->). split; [reflexivity|]. right. auto. }
  assert (Nq : p_qos p <> Q0) by (destruct (p_qos p); congruence || discriminate).
  pose proof (publish_params _ _ _ Hv Nq) as (_ & Hid).
  destruct (published_eq n m r1 id (p_qos p) HR1 Nq Hid) as (c' & E & HR' & E1 & E2).
  assert (S6 : exists ns r2, updateStatePublishApi r1 id OpSend (p_qos p) = Ok (st, ns, r2) /\
                    s' = mkSt (set_recs (s_ctx s1) r2) (s_env s1)) by (destruct (p_qos p); [congruence|exact S5..]).
  destruct S6 as (ns & r2 & S6 & ->). cbn [s_ctx set_recs x_recs].
  set (r := spec_step (view n m r1) (Published id OpSend (p_qos p))) in *.
  assert (r2 = c' /\ st = fst (fst r)) by (split; congruence). destruct H as (-> & ->).
  rewrite E2, Ei. split; auto. right. split; auto. rewrite E1. unfold r. clear - Eo Hid Nq Eq.
  cbn [spec_step view sent]. replace (id =? 0) with false by lia.
  destruct (lookup (tracked (outRecs (x_recs (s_ctx s)))) id) as [f|] eqn:El.
  - destruct (p_dup p); destruct Eo as (Et & Eo); [|discriminate]. right. split; auto. rewrite Et, El.
    destruct (qos_beq (f_qos f) (p_qos p)) eqn:Ef.
    + assert (f_qos f = p_qos p) by (destruct (f_qos f), (p_qos p); discriminate || reflexivity).
      destruct (p_qos p); [congruence|..]; cbn [negb]; destruct (f_st f); cbn [fst snd view sent sent_state]; rewrite ?Et; auto 10;
        right; right; left; split; auto; split; auto; split; auto; intros [|[|[|[]]]]; congruence.
    + assert (f_qos f <> p_qos p) by (intro K; rewrite K in Ef; destruct (p_qos p); discriminate).
      destruct (p_qos p); [congruence|..]; cbn [negb fst snd view sent]; rewrite ?Et; auto 10.
  - destruct (_ <? _)%nat; destruct Eo as (Eo1 & Eo2); [|discriminate]. rewrite Eo2. left.
    rewrite lookup_app by exact El. cbn [lookup find f_id]. rewrite Z.eqb_refl. cbn [f_qos f_st].
    destruct (p_qos p); [congruence|..]; cbn [qos_beq negb fst snd sent sent_state];
      (split; [|auto]); unfold spec_set; rewrite map_app; fold (spec_set (tracked (outRecs (x_recs (s_ctx s)))) id PubAckPending);
      fold (spec_set (tracked (outRecs (x_recs (s_ctx s)))) id PubRecPending); rewrite set_absent by exact El; cbn; now rewrite Z.eqb_refl.
Qed.
End Calls.
