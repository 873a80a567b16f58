(** The statuses each function returns: C118. *)
From Verif Require Import Base StateModel StateSpec StateHarness SerModel WireSpec SerHarness CoreModel CoreSpec CoreHarness CoreCases DocSpec DocProofs DocCases.

(** *** C118 *)
(** Every call returns a status its documentation lists, or one of few others; some that are
    listed are never returned. *)
Theorem statuses_returned_partial : forall G n m c s st s' t, Begun G n m s -> run_call G c s = Ret st s' t ->
  (In st (documented c) \/ In st (undocumented c)) /\ ~ In st (never_returned c).
Proof. intros G n m c s st s' t HB H. exact (call_doc G n m c s st s' t HB H). Qed.
Print Assumptions statuses_returned_partial.

Lemma run_exists r : In r doc_runs -> doc_check r = true ->
  let '(_, _, c, st) := r in exists s s' t, Begun cfg1 3 2 s /\ run_call cfg1 c s = Ret st s' t.
Proof.
  intros _ H. destruct r as [[[l e] c] st]. cbn [doc_check] in H. rewrite !andb_true_iff, negb_true_iff in H. destruct H as (((H1 & H2) & H3) & H4).
  destruct (run_call cfg1 c (after_calls l (client1 e))) as [x s' t| |] eqn:E; try discriminate. assert (x = st) by (destruct x, st; discriminate || reflexivity). subst x.
  exists (after_calls l (client1 e)), s', t. split; [|exact E]. apply begun_after; [now apply bytes_dec|exact H3|exact H1].
Qed.
Lemma runs_checked : forallb doc_check doc_runs = true.
Proof. vm_compute. reflexivity. Qed.
Lemma runs_cover c st : (In st (documented c) \/ In st (undocumented c)) /\ ~ In st (never_returned c) ->
  existsb (fun r => same_function c (snd (fst r)) && status_beq st (snd r)) doc_runs = true.
Proof.
  intros (H1 & H2). destruct c as [[]| | |], st; try reflexivity; exfalso; cbn in H1, H2; try (apply H2; tauto); intuition discriminate.
Qed.
(** all of these are returned in some run *)
Theorem statuses_reached : forall c st, (In st (documented c) \/ In st (undocumented c)) /\ ~ In st (never_returned c) ->
  exists c' s s' t, same_function c c' = true /\ Begun cfg1 3 2 s /\ run_call cfg1 c' s = Ret st s' t.
Proof.
  intros c st H. apply runs_cover in H. apply existsb_exists in H. destruct H as (r & Hr & H). apply andb_true_iff in H. destruct H as (H1 & H2).
  pose proof runs_checked as K. rewrite forallb_forall in K. pose proof (run_exists r Hr (K r Hr)) as E. destruct r as [[[l e] c'] st']. cbn [fst snd] in *.
  assert (st' = st) by (destruct st', st; discriminate || reflexivity). subst st'. destruct E as (s & s' & t & E1 & E2). exists c', s, s', t. auto.
Qed.
Print Assumptions statuses_reached.
(** so the documentation is incomplete for MQTT_Publish, MQTT_Connect and both loops *)
Theorem statuses_documented_refuted :
  ~ (forall G n m c s st s' t, Begun G n m s -> run_call G c s = Ret st s' t -> In st (documented c)) /\
  forall c, undocumented c <> [] -> exists c' s st s' t, same_function c c' = true /\ Begun cfg1 3 2 s /\ run_call cfg1 c' s = Ret st s' t /\ ~ In st (documented c').
Proof.
  assert (K : forall c, undocumented c <> [] -> exists c' s st s' t, same_function c c' = true /\ Begun cfg1 3 2 s /\ run_call cfg1 c' s = Ret st s' t /\ ~ In st (documented c')).
  { intros c H. assert (E : exists st, In st (undocumented c) /\ ~ In st (documented c) /\ ~ In st (never_returned c)).
    { destruct c as [[]| | |]; try (now destruct H); [exists StateCollision|exists BadResponse|exists NoMemory|exists NoMemory]; cbn; intuition discriminate. }
    destruct E as (st & E1 & E2 & E3). destruct (statuses_reached c st) as (c' & s & s' & t & H1 & H2 & H3); [auto|].
    exists c', s, st, s', t. split; [exact H1|]. split; [exact H2|]. split; [exact H3|]. destruct c as [[]| | |], c' as [[]| | |]; try discriminate; exact E2. }
  split; [|exact K]. intro X. destruct (K CProcess) as (c' & s & st & s' & t & _ & H1 & H2 & H3); [discriminate|]. eauto.
Qed.
Print Assumptions statuses_documented_refuted.
(** a third QoS 2 publish, with two records: MQTTNoMemory from MQTT_ReceiveLoop *)
Example statuses_returned_case : exists s s' t, Begun cfg1 3 2 s /\ run_call cfg1 CReceive s = Ret NoMemory s' t /\ handled t = [(52, [0; 1; 97; 0; 3])] /\
  In NoMemory (undocumented CReceive).
Proof.
  eexists (after_calls [d_conn; CReceive; CReceive] (client1 (d_slow (d_in2 1 ++ d_in2 2 ++ d_in2 3) [7; 7; 7] (repeat 100 5)))), _, _.
  split; [apply begun_after; [apply bytes_dec| |]; vm_compute; reflexivity|]. split; [vm_compute; reflexivity|]. split; [vm_compute; reflexivity|]. left. reflexivity.
Qed.
