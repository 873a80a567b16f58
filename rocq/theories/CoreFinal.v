(** Final forms of the results about the core, as stated in Props_Core.v. *)
From Verif Require Import Base StateModel StateSpec StateHarness StateProofs StateProofs2 SerModel WireSpec SerHarness SerProofs SerProofs2 SerProofs3 SerProofs4 SerProofs5
  CoreModel CoreSpec CoreHarness CoreCases CoreProofs CoreProofs2 CoreProofs3 CoreProofs5 CoreProofs6 CoreProofs7 CoreProofs8 CoreProofs9
  CoreProofs10 CoreProofs11 CoreProofs12 CoreProofs13 CoreProofs14 CoreProofs15 CoreProofs16 CoreProofs17 CoreProofs18.

Section Final.
Variable G : cfg.
Lemma begun_reach n m s : Begun G n m s -> Reach n m (x_recs (s_ctx s)).
Proof. intro H. now apply begun_inv in H. Qed.
Lemma begun_bytes n m s : Begun G n m s -> bytes_ok (e_in (s_env s)).
Proof. intro H. apply begun_inv in H. destruct H as (((_ & _ & _ & _ & H) & _) & _). exact H. Qed.
Lemma begun_publish n m p id msg s st s' t : Begun G n m s -> pub_means p id msg ->
  publish G p id s = Ret st s' t ->
  incoming s' = incoming s /\
  (s' = s /\ t = [] /\ (st = BadParameter \/ st = not_connected_result (x_status (s_ctx s)) /\ x_status (s_ctx s) <> Connected) \/
   x_status (s_ctx s) = Connected /\ pub_cases n p id (publish_packet msg) st (outgoing s) (outgoing s') t).
Proof.
  intros HB Hm H. apply begun_reach in HB. destruct (publish_effect G _ _ _ _ _ _ _ _ _ HB Hm H) as (Q & K). split; auto.
  destruct K as [(-> & -> & K)|K]; [left|right; exact K]. repeat split; auto.
  destruct K as [K|(K & K2)]; [now left|right]. split; auto. now rewrite <- must_be_result.
Qed.
(** MQTT_Connect on a client that is not disconnected *)
Lemma connect_when_up ci will tmo s st sp s' t : x_status (s_ctx s) <> NotConnected ->
  connect G ci will tmo s = Ret (st, sp) s' t ->
  t = [] /\ sp = None /\ s_env s' = s_env s /\
  (fst (getConnectPacketSize ci will) = Success /\ s' = s /\
     st = match x_status (s_ctx s) with Connected => StConnected | _ => StDisconnectPending end \/
   fst (getConnectPacketSize ci will) <> Success /\ st = fst (getConnectPacketSize ci will) /\ s_ctx s' = transport_broke (s_ctx s)).
Proof.
  intros Hn H. unfold connect in H. destruct (getConnectPacketSize ci will) as [r size] eqn:E.
  assert (Hs : r = Success -> exists x, size = Some x).
  { intros ->. unfold getConnectPacketSize in E. repeat match type of E with context [if ?b then _ else _] => destruct b end; try discriminate; injection E as <-; eauto. }
  assert (Hr : r = Success \/ r = BadParameter).
  { unfold getConnectPacketSize in E. repeat match type of E with context [if ?b then _ else _] => destruct b end; injection E as <- _; auto. }
  destruct Hr as [->| ->].
  - destruct (Hs eq_refl) as ((rl, ps) & ->). cbn [fst]. destruct (x_status (s_ctx s)) eqn:Ex; [congruence|..];
      unfold bind, getc, ret in H; rewrite Ex in H; cbn in H; injection H as <- <- <- <-;
      repeat split; left; repeat split; reflexivity.
  - cbn in H. injection H as <- <- <- <-. cbn. repeat split. right. repeat split; congruence.
Qed.
(** what a successful MQTT_Connect sends first is what MQTT_SerializeConnect writes *)
Lemma connect_serialized n m ci will cm tmo s sp s' t b M : 4294967296 <= M -> con_means ci will cm -> Begun G n m s ->
  connect G ci will tmo s = Ret (Success, sp) s' t -> zlen (connect_packet cm) <= zlen b ->
  exists rl bs rest, getConnectPacketSize ci will = (Success, Some (rl, zlen bs)) /\
    serializeConnect M ci will rl (Some b) = Ok (Success, Some (bs ++ skipn (length bs) b)) /\
    outs t = bs ++ rest /\ (sp = Some false -> rest = []).
Proof.
  intros HM Hm HB H Hb.
  assert (Hn : x_status (s_ctx s) = NotConnected).
  { destruct (x_status (s_ctx s)) eqn:E; auto; (destruct (connect_when_up ci will tmo s Success sp s' t) as (_ & _ & _ & K); [congruence|exact H|]);
      rewrite E in K; destruct K as [(_ & _ & K)|(K & K2 & _)]; congruence. }
  pose proof (connect_observed G _ _ _ _ _ _ _ _ _ _ _ Hm (begun_reach _ _ _ HB) (begun_bytes _ _ _ HB) H Hn) as K.
  destruct K as [(K & _)|(Hi & Hw & K)]; [discriminate|].
  exists (zlen (connect_body cm)), (connect_packet cm).
  assert (E : exists rest, outs t = connect_packet cm ++ rest /\ (sp = Some false -> rest = [])).
  { destruct K as [(_ & K & _)|[(_ & _ & K & _)|(_ & Ksp & _ & _ & _ & _ & copies & rest & _ & K)]].
    - congruence.
    - exists []. rewrite app_nil_r. auto.
    - destruct K as [(_ & _ & _ & K & _)|[(K & _)|(id & more & _ & _ & [(K & _)|(K & _)])]]; try discriminate. eexists. split; [exact K|].
      intro Q. rewrite Ksp in Q. discriminate. }
  destruct E as (rest & E1 & E2). exists rest.
  split; [rewrite (connect_size_ok _ _ _ Hm Hi), Hw; reflexivity|]. split; [|split; auto].
  rewrite (connect_encode _ _ _ _ _ HM Hm Hw). destruct (zlen b <? zlen (connect_packet cm)) eqn:Q; [lia|reflexivity].
Qed.
Lemma begun_connect : forall n m ci will cm tmo s st sp s' t, con_means ci will cm -> Begun G n m s ->
  connect G ci will tmo s = Ret (st, sp) s' t -> x_status (s_ctx s) = NotConnected ->
  (st = BadParameter /\ sp = None /\ s' = s /\ t = []) \/
  cm_id cm <> [] /\ will_fits cm = true /\
  ((exists k, (k <= length (connect_packet cm))%nat /\ outs t = firstn k (connect_packet cm)) /\
    st <> Success /\ x_status (s_ctx s') = NotConnected /\ x_recs (s_ctx s') = x_recs (s_ctx s) /\ x_index (s_ctx s') = x_index (s_ctx s) /\ cleared t = [] \/
   st = Success /\ sp = Some false /\ outs t = connect_packet cm /\ ins t = [32; 2; 0; 0] /\ x_status (s_ctx s') = Connected /\
     outgoing s' = [] /\ incoming s' = [] /\ x_index (s_ctx s') = 0 /\
     cleared t = (if x_retr (s_ctx s) then unacked (outgoing s) else []) \/
   c_clean ci = false /\ sp = Some true /\ ins t = [32; 2; 1; 0] /\ cleared t = [] /\ incoming s' = incoming s /\
     x_status (s_ctx s') = (if status_beq st Success then Connected else DisconnectPending) /\
     exists copies rest,
       retrieved t = map (fun p => (fst p, Some (snd p))) copies ++ rest /\
       let all := connect_packet cm ++ flat_map pubrel (half_done (outgoing s)) ++ flat_map snd copies in
       (st = Success /\ rest = [] /\ map fst copies = (if x_retr (s_ctx s) then unacked (outgoing s) else []) /\ outs t = all /\
          outgoing s' = mark (half_done (outgoing s)) (outgoing s) \/
        st = SendFailed /\ copies = [] /\ rest = [] /\ (exists rels id more k, half_done (outgoing s) = rels ++ id :: more /\ (k < 4)%nat /\
          outs t = connect_packet cm ++ flat_map pubrel rels ++ firstn k (pubrel id) /\ outgoing s' = mark rels (outgoing s)) \/
        (exists id more, unacked (outgoing s) = map fst copies ++ id :: more /\ outgoing s' = mark (half_done (outgoing s)) (outgoing s) /\
          (st = PublishRetrieveFailed /\ rest = [(id, None)] /\ outs t = all \/
           st = SendFailed /\ exists bs k, rest = [(id, Some bs)] /\ (k < length bs)%nat /\ outs t = all ++ firstn k bs)))).
Proof. intros n m ci will cm tmo s st sp s' t H1 H2. apply connect_observed with (1 := H1) (2 := begun_reach _ _ _ H2) (3 := begun_bytes _ _ _ H2). Qed.
(** the receive buffer *)
Lemma begun_buffer n m s : Begun G n m s -> 0 <= x_index (s_ctx s) <= zlen (x_buf (s_ctx s)).
Proof. intro H. apply begun_inv in H. destruct H as (((_ & H & _) & _) & _). exact H. Qed.
Lemma opened_safe' n m l s : 4294967296 <= g_M G -> 3 <= g_maxvec G ->
  opened G n m s -> cbs_sound (s_env s) -> Forall call_sound l -> run_calls G l s <> Undef.
Proof. intros H1 H2. now apply opened_safe. Qed.
End Final.
