(** Whole packets and MQTTSendFailed: C117. *)
From Verif Require Import Base StateModel StateSpec StateHarness SerModel WireSpec SerHarness CoreModel CoreSpec CoreHarness CoreCases DrainProofs WholeProofs.

(** *** C117 *)
(** A call that returns anything but MQTTSendFailed has sent complete packets only: its own
    packet, for MQTT_Connect also PUBRELs and the copies retrieved, for the loops acknowledgements
    and PINGREQ. *)
Theorem whole_unless_failed : forall G n m c s st s' t, 4294967296 <= g_M G -> g_big G = false -> Begun G n m s ->
  Forall (fun o => o = []) (e_cbs (s_env s)) -> describes (g_M G) c ->
  run_call G c s = Ret st s' t -> st <> SendFailed ->
  exists bss, outs t = concat bss /\ Forall (packet_of (g_M G) c t) bss.
Proof. intros G n m c s st s' t H1 H2 H3 H4 H5 H6 H7. exact (call_whole G n m c s st s' t H1 H2 H3 H4 H5 H6 H7). Qed.
Print Assumptions whole_unless_failed.
(** one that returns MQTTSendFailed has cut the last of its packets *)
Theorem failed_means_cut : forall G n m c s s' t, 4294967296 <= g_M G -> g_big G = false -> Begun G n m s ->
  Forall (fun o => o = []) (e_cbs (s_env s)) -> describes (g_M G) c ->
  run_call G c s = Ret SendFailed s' t ->
  exists bss b k, outs t = concat bss ++ firstn k b /\ (k < length b)%nat /\ Forall (packet_of (g_M G) c t) bss /\ packet_of (g_M G) c t b.
Proof. intros G n m c s s' t H1 H2 H3 H4 H5 H6. exact (call_cut G n m c s s' t H1 H2 H3 H4 H5 H6). Qed.
Print Assumptions failed_means_cut.
(** over any number of calls *)
Theorem whole_until_failed : forall G n m l s rs s' t, 4294967296 <= g_M G -> g_big G = false -> Begun G n m s ->
  Forall (fun o => o = []) (e_cbs (s_env s)) -> Forall (describes (g_M G)) l ->
  run_calls G l s = Ret rs s' t -> ~ In SendFailed rs ->
  exists bss, outs t = concat bss /\ Forall (fun b => exists c, In c l /\ packet_of (g_M G) c t b) bss.
Proof. intros G n m l s rs s' t H1 H2 H3 H4 H5 H6 H7. exact (calls_whole G n m l H1 H2 s rs s' t H3 H4 H5 H6 H7). Qed.
Print Assumptions whole_until_failed.

(** a PUBLISH sent in two parts, a message of the server acknowledged; then an error of the transport in the middle of a PINGREQ *)
Definition whole_calls : list call := [CConnect con1 None 1000; COp (OPublish (pub1 Q1) 7); CProcess; COp OGetId].
Definition whole_env : env :=
  mkEnv [32; 2; 0; 0; 50; 5; 0; 1; 97; 0; 9] [1; 1; 2; 7] [100; 3; 100; 100; 1; -1] (repeat 0 30) [[]] [true] [].
Example whole_until_failed_case : Begun cfg1 3 2 (client1 whole_env) /\ Forall (fun o => o = []) (e_cbs (s_env (client1 whole_env))) /\
  Forall (describes (g_M cfg1)) (whole_calls ++ [COp OPing]) /\
  results whole_calls (client1 whole_env) = [Success; Success; Success; Success] /\
  outs (trace whole_calls (client1 whole_env)) = concat [connect_packet con1_msg; publish_packet (pub1_msg Q1 7); ack_packet KPuback 9] /\
  results (whole_calls ++ [COp OPing]) (client1 whole_env) = [Success; Success; Success; Success; SendFailed] /\
  outs (trace [COp OPing] (after_calls whole_calls (client1 whole_env))) = firstn 1 pingreq_packet.
Proof.
  split; [apply (begun_after [] whole_env); [apply bytes_dec| |]; vm_compute; reflexivity|].
  split; [repeat constructor|]. split.
  - apply Forall_cons. { exists con1_msg. unfold con_means, con1, con1_msg, holds_opt, holds0, holds; cbn; repeat match goal with |- _ /\ _ => split end; try reflexivity; try lia; try exact I; try (vm_compute; congruence); try (eexists; repeat split; try reflexivity; vm_compute; congruence). }
    apply Forall_cons. { exists (publish_packet (pub1_msg Q1 7)). constructor. unfold pub_means, holds0, holds. repeat split; try lia; try left; eexists; repeat split; vm_compute; congruence. }
    apply Forall_cons; [exact I|]. apply Forall_cons; [exact I|]. apply Forall_cons; [|constructor]. exists pingreq_packet. constructor.
  - each.
Qed.
