(** A concrete history for the Examples of Props_Net.v. *)
From Verif Require Import Base StateModel StateSpec StateHarness SerModel WireSpec SerHarness CoreModel CoreSpec CoreHarness CoreCases CoreFinal3 Props_Findings
  ConcModel ConcHarness ConcCases Machine MachSpec MachProofs MachProofs5 MachFinal MachCases NetSpec NetProofs NetProofs2 NetProofs3 NetProofs4 NetFinal.

(** a QoS 2 publish is sent, the PUBREC is lost, the session is resumed *)
Definition once_env : env := mkEnv ([32; 2; 0; 0] ++ [32; 2; 1; 0] ++ [80; 2; 0; 8] ++ [112; 2; 0; 8]) [1; 1; 2; 1; 1; 2; 4; 4]
  (repeat 100 20) (repeat 0 99) [] (repeat true 9) [Some (publish_packet (with_dup (pub1_msg Q2 8)))].
Definition once_calls : list call := [conn1; COp (OPublish (pub1 Q2) 8); COp ODisconnect; conn1; CProcess; CProcess].
Definition once_world : world := mkW false [].
Definition once_trace : list ev :=
  [EOut con_bytes; EIn [32]; EIn [2]; EIn [0; 0]; EStore 8 [[60; 7; 0; 1]; [97]; [0; 8]; [1; 2]] true; EOut [52; 7; 0; 1; 97; 0; 8; 1; 2]; EOut [224; 0];
   EOut con_bytes; EIn [32]; EIn [2]; EIn [1; 0]; ERetrieve 8 (Some [60; 7; 0; 1; 97; 0; 8; 1; 2]); EOut [60; 7; 0; 1; 97; 0; 8; 1; 2];
   EIn [80; 2; 0; 8]; EPkt 80 [0; 8]; EClear 8; ECb 80 [0; 8] 8 None Success; EOut [98; 2; 0; 8]; EIn [112; 2; 0; 8]; EPkt 112 [0; 8]; ECb 112 [0; 8] 8 None Success].
Definition once_toks : list tok :=
  [Sent (KConnect con1_msg); Did (EIn [32]); Did (EIn [2]); Did (EIn [0; 0]); Did (EStore 8 [[60; 7; 0; 1]; [97]; [0; 8]; [1; 2]] true); Sent (KPublish (pub1_msg Q2 8)); Sent KDisconnect;
   Sent (KConnect con1_msg); Did (EIn [32]); Did (EIn [2]); Did (EIn [1; 0]); Did (ERetrieve 8 (Some [60; 7; 0; 1; 97; 0; 8; 1; 2])); Sent (KAgain 8 [60; 7; 0; 1; 97; 0; 8; 1; 2]);
   Did (EIn [80; 2; 0; 8]); Did (EPkt 80 (be16 8)); Did (EClear 8); Did (ECb 80 (be16 8) 8 None Success); Sent (KAck Pubrel 8); Did (EIn [112; 2; 0; 8]); Did (EPkt 112 (be16 8)); Did (ECb 112 (be16 8) 8 None Success)].
Lemma once_run : legal cfg1 3 2 once_calls once_world (client1 once_env) /\ all_fit cfg1 false once_calls once_world (client1 once_env) /\
  exists rs w', c_run_calls cfg1 once_calls once_world (client1 once_env) = Ret (Some rs, w') (c_after once_calls once_world (client1 once_env)) once_trace.
Proof.
  split; [legal1|]. split; [fits1|]. assert (E2 : c_trace once_calls once_world (client1 once_env) = Some (repeat Success 6, once_trace)) by (vm_compute; reflexivity).
  unfold c_trace, c_after in *. destruct (c_run_calls cfg1 once_calls once_world (client1 once_env)) as [[[rs|] w'] s' t| |]; try discriminate. assert (t = once_trace) by congruence. subst t. eauto.
Qed.
Lemma says_one p t l : Says t l -> Says (EOut (bytes p) :: t) (Sent p :: l).
Proof. intro H. apply (says_sent p [EOut (bytes p)]); auto; [constructor; auto; exact I|cbn; apply app_nil_r]. Qed.
Lemma once_says : Says once_trace once_toks.
Proof.
  unfold once_trace, once_toks. apply (says_one (KConnect con1_msg)). do 4 (apply says_did; [reflexivity|]). apply (says_one (KPublish (pub1_msg Q2 8))). apply (says_one KDisconnect). apply (says_one (KConnect con1_msg)).
  do 4 (apply says_did; [reflexivity|]). apply (says_one (KAgain 8 [60; 7; 0; 1; 97; 0; 8; 1; 2])). do 4 (apply says_did; [reflexivity|]). apply (says_one (KAck Pubrel 8)). do 3 (apply says_did; [reflexivity|]). constructor.
Qed.
Lemma ns_cons N N1 N' : nstep N N1 -> nsteps N1 N' -> nsteps N N'.
Proof. intros H K. eapply nsteps_trans; [eapply ns_step; [constructor|eauto]|exact K]. Qed.
Lemma nrun_joint l : forall k N N', Joint k N -> nrun N l N' -> Joint (k ++ l) N'.
Proof.
  assert (K : forall k N N', Joint k N -> nsteps N N' -> Joint k N') by (intros k N N' H S; revert H; induction S as [|A N1 C S IH S2]; intro H; [exact H|exact (joint_net _ _ _ (IH H) S2)]).
  induction l as [|x l IH]; intros k N N' H R; inversion R; subst; [rewrite app_nil_r; eauto|]. replace (k ++ x :: l) with ((k ++ [x]) ++ l) by now rewrite <- app_assoc. eapply IH; [|eassumption]. eapply joint_client; [eapply K; [exact H|eassumption]|eassumption].
Qed.
Definition once_net : net := mkNet [] [] false (mkServer true [] [pub1_msg Q2 8]) (Some 1) [32; 2; 1; 0; 80; 2; 0; 8; 112; 2; 0; 8].
Ltac quietly := eapply nr_tok; [apply ns_nil|first [apply c_did; exact I|apply c_read; reflexivity|apply c_packet|apply c_connect|apply c_send; reflexivity]|]; cbn [app n_up].
Ltac served r := eapply nr_tok; [eapply ns_cons; [eapply n_serve; r|apply ns_nil]|first [apply c_did; exact I|apply c_read; reflexivity|apply c_packet|apply c_connect|apply c_send; reflexivity]|]; cbn.
Lemma pub1_ok q id : id_ok id -> pkt_ok (KPublish (pub1_msg q id)).
Proof. intro H. split; [split; [discriminate|unfold str_ok; cbn; lia]|]. split; auto. destruct q; cbn; unfold max_remaining; lia. Qed.
Lemma once_joint : Joint once_toks once_net.
Proof.
  apply (nrun_joint once_toks [] net0); [constructor|]. unfold once_toks, net0. assert (H8 : id_ok 8) by (unfold id_ok; lia). quietly. served ltac:(apply v_connect). do 4 quietly.
  served ltac:(apply v_publish2 with (m := pub1_msg Q2 8); [split; [now apply pub1_ok|reflexivity]|reflexivity]). (* PUBREC is sent *)
  quietly. (* and lost *)
  eapply nr_tok; [eapply ns_cons; [eapply n_serve; apply v_other; exact I|]; cbn; eapply ns_cons; [eapply n_serve; apply v_connect|apply ns_nil]|apply c_read; reflexivity|]; cbn.
  do 5 quietly.
  served ltac:(apply v_publish2 with (m := with_dup (pub1_msg Q2 8)); [split; [apply dup_ok; now apply pub1_ok|reflexivity]|reflexivity]).
  do 4 quietly. served ltac:(now apply v_pubrel). quietly. apply nr_nil, ns_nil.
Qed.
Lemma run_one_tok rt cn a x b l d : mstep rt cn a [x] b -> Run rt cn b l d -> Run rt cn a (x :: l) d.
Proof. apply (run_step rt cn a [x] b l d). Qed.
Lemma run_silent rt cn a b l d : mstep rt cn a [] b -> Run rt cn b l d -> Run rt cn a l d.
Proof. apply (run_step rt cn a [] b l d). Qed.
Lemma con1_ok : pkt_ok (KConnect con1_msg).
Proof. split; [unfold u16_ok; cbn; lia|]. split; [unfold str_ok; cbn; lia|]. split; [exact I|]. split; [exact I|]. split; [exact I|]. cbn. unfold max_remaining. lia. Qed.
Lemma once_machine : Run true false (mkM NotConnected (fresh_session 3 2) 1 Idle) once_toks (mkM Connected (fresh_session 3 2) 1 Idle).
Proof.
  unfold once_toks, fresh_session. assert (H8 : id_ok 8) by (unfold id_ok; lia).
  eapply run_one_tok; [apply s_connect with (ok := true); [exact con1_ok|constructor]|]. cbn [cm_clean con1_msg].
  do 3 (eapply run_one_tok; [apply s_wait_read|]; cbn [app]). eapply run_silent; [apply (s_new_session true)|]. cbn.
  eapply (run_step _ _ _ [_; _]); [apply s_publish with (m := pub1_msg Q2 8) (ok := true) (ok1 := true) (l0 := [Did (EStore 8 [[60; 7; 0; 1]; [97]; [0; 8]; [1; 2]] true)]) (l := [Sent (KPublish (pub1_msg Q2 8))]) (c' := Connected);
    [now apply pub1_ok|discriminate|left; reflexivity|eexists; split; [|reflexivity]; reflexivity|constructor]|]. cbn.
  eapply run_one_tok; [apply s_disconnect with (ok := true); [discriminate|constructor]|].
  eapply run_one_tok; [apply s_connect with (ok := true); [exact con1_ok|constructor]|]. cbn [cm_clean con1_msg].
  do 3 (eapply run_one_tok; [apply s_wait_read|]; cbn [app]). eapply run_silent; [apply s_old_session|].
  eapply run_silent; [apply s_resume_publish with (id := 8); [reflexivity|cbn; auto]|]. eapply run_one_tok; [apply s_fetch|]. cbn. eapply run_one_tok; [apply s_again with (ok := true); constructor|]. eapply run_silent; [apply s_resumed|].
  eapply run_one_tok; [apply s_read|]. eapply run_one_tok; [apply s_packet|]. eapply run_silent; [apply (s_got_ack true false _ _ _ Pubrec 8 H8); reflexivity|]. cbn.
  eapply run_one_tok; [apply s_clear|]. eapply run_one_tok; [apply s_show|]. eapply run_one_tok; [apply s_owe with (ok := true); constructor|]. eapply run_silent; [apply s_note|]. cbn.
  eapply run_one_tok; [apply s_read|]. eapply run_one_tok; [apply s_packet|]. eapply run_silent; [apply (s_got_ack true false _ _ _ Pubcomp 8 H8); reflexivity|]. cbn.
  eapply run_one_tok; [apply s_show|]. apply run_nil.
Qed.
Lemma once_terms : one_session once_toks /\ no_dups once_toks /\ keeps_copies once_toks.
Proof.
  split; [|split].
  - intros x m H E. unfold once_toks in H. cbn in H. repeat (destruct H as [<-|H]; [cbn in E; try discriminate; injection E as <-; reflexivity|]). contradiction.
  - intros x m H E _. unfold once_toks in H. cbn in H. repeat (destruct H as [<-|H]; [cbn in E; try discriminate; injection E as <-; reflexivity|]). contradiction.
  - intros k1 id bs k2 E. unfold once_toks in E. do 11 (destruct k1 as [|? k1]; [discriminate|]; cbn in E; injection E as <- E). destruct k1 as [|? k1].
    + cbn in E. injection E as <- <- <-. eexists [_; _; _; _], _, [_; _; _; _; _; _]. split; [reflexivity|]. split; [eexists; split; [reflexivity|reflexivity]|]. repeat constructor; discriminate.
    + exfalso. cbn in E. injection E as <- E. repeat (destruct k1 as [|? k1]; [discriminate|]; cbn in E; injection E as <- E). destruct k1; discriminate.
Qed.
