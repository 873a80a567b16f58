(** The statuses the functions of the serializer and the state engine return: C119. *)
From Verif Require Import Base StateModel StateSpec StateHarness SerModel LowSpec LowProofs LowCases.

(** *** C119 *)
(** Every call returns a status its documentation lists, or one of three others. *)
Theorem low_statuses_partial : forall c st, low_ok c -> low_status c = Ok st ->
  (In st (low_documented c) \/ In st (low_undocumented c)) /\ ~ In st (low_null_only c).
Proof. exact low_doc. Qed.
Print Assumptions low_statuses_partial.

Lemma low_checked : forallb low_check low_runs = true.
Proof. vm_compute. reflexivity. Qed.
Lemma session_reach l : Forall (call_ok 1 1) l -> Reach 1 1 (session_after l) \/ session_after l = fresh_recs 1 1.
Proof.
  intro H. unfold session_after. destruct (engine_run (fresh_recs 1 1) (map to_call l)) as [[outs c]|] eqn:E; [left|auto]. exists l, outs. auto.
Qed.
Lemma fresh_reach : Reach 1 1 (fresh_recs 1 1).
Proof. exists [], []. split; [constructor|reflexivity]. Qed.
Lemma runs_ok r : In r low_runs -> low_ok (fst r).
Proof.
  assert (S : forall l, Forall (call_ok 1 1) l -> Reach 1 1 (session_after l)).
  { intros l H. destruct (session_reach l H) as [K | ->]; [exact K|exact fresh_reach]. }
  unfold low_runs. cbn [In]. intro H.
  repeat (destruct H as [<- | H]; [cbn [fst low_ok]; try exact I; exists 1%nat, 1%nat; try exact fresh_reach; apply S; repeat constructor; discriminate|]). destruct H.
Qed.
Lemma low_cover c st : low_possible c st -> existsb (fun r => (low_index c =? low_index (fst r))%nat && status_beq st (snd r)) low_runs = true.
Proof. intros (H1 & H2). destruct c; destruct st; try reflexivity; exfalso; cbn in H1, H2; try (apply H2; tauto); intuition discriminate. Qed.
(** all of these are returned in some run *)
Theorem low_statuses_reached : forall c st,
  (In st (low_documented c) \/ In st (low_undocumented c)) /\ ~ In st (low_null_only c) ->
  exists c', low_index c = low_index c' /\ low_ok c' /\ low_status c' = Ok st.
Proof.
  intros c st H. apply low_cover in H. apply existsb_exists in H. destruct H as (r & Hr & H). apply andb_true_iff in H. destruct H as (H1 & H2).
  pose proof low_checked as K. rewrite forallb_forall in K. specialize (K r Hr). unfold low_check in K. exists (fst r).
  split; [now apply Nat.eqb_eq|]. split; [now apply runs_ok|]. destruct (low_status (fst r)) as [x|]; [|discriminate].
  f_equal. destruct (snd r), st, x; discriminate || reflexivity.
Qed.
Print Assumptions low_statuses_reached.
(** so the documentation of MQTT_ReserveState, MQTT_UpdateStatePublish and
    MQTT_ProcessIncomingPacketTypeAndLength is incomplete *)
Theorem low_documented_refuted :
  ~ (forall c st, low_ok c -> low_status c = Ok st -> In st (low_documented c)) /\
  forall c, low_undocumented c <> [] -> exists c' st, low_index c = low_index c' /\ low_ok c' /\ low_status c' = Ok st /\ ~ In st (low_documented c).
Proof.
  assert (K : forall c, low_undocumented c <> [] -> exists c' st, low_index c = low_index c' /\ low_ok c' /\ low_status c' = Ok st /\ ~ In st (low_documented c)).
  { intros c H. assert (E : exists st, low_possible c st /\ ~ In st (low_documented c)).
    { destruct c; try (now destruct H); [exists BadParameter|exists NoMemory|exists NeedMoreBytes]; unfold low_possible; cbn; intuition discriminate. }
    destruct E as (st & E1 & E2). destruct (low_statuses_reached c st E1) as (c' & H1 & H2 & H3). exists c', st. auto. }
  split; [|exact K]. intro X. specialize (X (LProcess [208] 1) NeedMoreBytes I eq_refl). cbn in X. intuition discriminate.
Qed.
Print Assumptions low_documented_refuted.
(** one record, in use: a second incoming QoS 1 publish *)
Example low_statuses_case :
  low_status (LPublished (session_after [Published 5 OpReceive Q1]) 6 OpReceive Q1) = Ok NoMemory /\
  ~ In NoMemory (low_documented (LPublished (session_after [Published 5 OpReceive Q1]) 6 OpReceive Q1)) /\
  low_status (LReadAck (mkPkt 144 4 (Some [0; 5; 1; 128]))) = Ok ServerRefused.
Proof. split; [vm_compute; reflexivity|]. split; [cbn; intuition discriminate|vm_compute; reflexivity]. Qed.
