(** Concrete histories for Props_Out.v. *)
From Verif Require Import Base StateModel StateSpec StateHarness SerModel WireSpec SerHarness CoreModel CoreSpec CoreHarness CoreCases CoreFinal3 Props_Findings
  ConcModel ConcHarness ConcCases Machine MachSpec MachProofs MachProofs5 MachFinal MachCases NetSpec NetProofs NetProofs2 NetProofs3 NetProofs4 NetFinal NetCases OutSpec OutHist.

(** ** A QoS 1 publish is sent, the PUBACK is lost, the session is resumed *)
Definition lost_env : env := mkEnv ([32; 2; 0; 0] ++ [32; 2; 1; 0] ++ [64; 2; 0; 8]) [1; 1; 2; 1; 1; 2; 4]
  (repeat 100 20) (repeat 0 99) [] (repeat true 9) [Some (publish_packet (with_dup (pub1_msg Q1 8)))].
Definition lost_calls : list call := [conn1; COp (OPublish (pub1 Q1) 8); COp ODisconnect; conn1; CProcess].
Definition lost_trace : list ev :=
  [EOut con_bytes; EIn [32]; EIn [2]; EIn [0; 0]; EStore 8 [[58; 7; 0; 1]; [97]; [0; 8]; [1; 2]] true; EOut [50; 7; 0; 1; 97; 0; 8; 1; 2]; EOut [224; 0];
   EOut con_bytes; EIn [32]; EIn [2]; EIn [1; 0]; ERetrieve 8 (Some [58; 7; 0; 1; 97; 0; 8; 1; 2]); EOut [58; 7; 0; 1; 97; 0; 8; 1; 2];
   EIn [64; 2; 0; 8]; EPkt 64 [0; 8]; EClear 8; ECb 64 [0; 8] 8 None Success].
Definition lost_toks : list tok :=
  [Sent (KConnect con1_msg); Did (EIn [32]); Did (EIn [2]); Did (EIn [0; 0]); Did (EStore 8 [[58; 7; 0; 1]; [97]; [0; 8]; [1; 2]] true); Sent (KPublish (pub1_msg Q1 8)); Sent KDisconnect;
   Sent (KConnect con1_msg); Did (EIn [32]); Did (EIn [2]); Did (EIn [1; 0]); Did (ERetrieve 8 (Some [58; 7; 0; 1; 97; 0; 8; 1; 2])); Sent (KAgain 8 [58; 7; 0; 1; 97; 0; 8; 1; 2]);
   Did (EIn [64; 2; 0; 8]); Did (EPkt 64 (be16 8)); Did (EClear 8); Did (ECb 64 (be16 8) 8 None Success)].
Lemma lost_run : (opened cfg1 3 2 (client1 lost_env) /\ 3 <= g_maxvec cfg1 /\ cbs_sound (s_env (client1 lost_env)) /\ Forall call_sound lost_calls) /\ g_big cfg1 = false /\
  all_fit cfg1 false lost_calls (mkW false []) (client1 lost_env) /\ run_calls cfg1 lost_calls (client1 lost_env) = Ret (repeat Success 5) (after_calls lost_calls (client1 lost_env)) lost_trace.
Proof.
  split; [|split; [reflexivity|split; [fits1|]]].
  - assert (L : legal cfg1 3 2 lost_calls (mkW false []) (client1 lost_env)) by legal1. destruct L as (A & B & C & D & _). auto.
  - unfold after_calls. assert (E : match run_calls cfg1 lost_calls (client1 lost_env) with Ret r _ t => (r, t) = (repeat Success 5, lost_trace) | _ => False end) by (vm_compute; reflexivity).
    destruct (run_calls cfg1 lost_calls (client1 lost_env)); try contradiction. congruence.
Qed.
Lemma lost_says : Says lost_trace lost_toks.
Proof.
  unfold lost_trace, lost_toks. apply (says_one (KConnect con1_msg)). do 4 (apply says_did; [reflexivity|]). apply (says_one (KPublish (pub1_msg Q1 8))). apply (says_one KDisconnect). apply (says_one (KConnect con1_msg)).
  do 4 (apply says_did; [reflexivity|]). apply (says_one (KAgain 8 [58; 7; 0; 1; 97; 0; 8; 1; 2])). do 4 (apply says_did; [reflexivity|]). constructor.
Qed.
Definition lost_net : net := mkNet [] [] false (mkServer true [] [pub1_msg Q1 8; with_dup (pub1_msg Q1 8)]) (Some 1) [32; 2; 1; 0; 64; 2; 0; 8].
Lemma lost_joint : Joint lost_toks lost_net.
Proof.
  apply (nrun_joint lost_toks [] net0); [constructor|]. unfold lost_toks, net0. assert (H8 : id_ok 8) by (unfold id_ok; lia). quietly. served ltac:(apply v_connect). do 4 quietly.
  served ltac:(apply v_publish1 with (m := pub1_msg Q1 8); [split; [now apply pub1_ok|reflexivity]|reflexivity]). (* PUBACK is sent *)
  quietly. (* and lost *)
  eapply nr_tok; [eapply ns_cons; [eapply n_serve; apply v_other; exact I|]; cbn; eapply ns_cons; [eapply n_serve; apply v_connect|apply ns_nil]|apply c_read; reflexivity|]; cbn.
  do 5 quietly.
  served ltac:(apply v_publish1 with (m := with_dup (pub1_msg Q1 8)); [split; [apply dup_ok; now apply pub1_ok|reflexivity]|reflexivity]).
  do 2 quietly. apply nr_nil, ns_nil.
Qed.
Lemma lost_machine : machine_run 3 2 (client1 lost_env) (after_calls lost_calls (client1 lost_env)) lost_toks.
Proof.
  unfold machine_run. replace (mkM _ (session_of 3 2 _) _ Idle) with (mkM Connected (fresh_session 3 2) 1 Idle) by (vm_compute; reflexivity).
  change (x_retr (s_ctx (client1 lost_env))) with true.
  unfold lost_toks, fresh_session. assert (H8 : id_ok 8) by (unfold id_ok; lia).
  eapply run_one_tok; [apply s_connect with (ok := true); [exact con1_ok|constructor]|]. cbn [cm_clean con1_msg].
  do 3 (eapply run_one_tok; [apply s_wait_read|]; cbn [app]). eapply run_silent; [apply (s_new_session true)|]. cbn.
  eapply (run_step _ _ _ [_; _]); [apply s_publish with (m := pub1_msg Q1 8) (ok := true) (ok1 := true) (l0 := [Did (EStore 8 [[58; 7; 0; 1]; [97]; [0; 8]; [1; 2]] true)]) (l := [Sent (KPublish (pub1_msg Q1 8))]) (c' := Connected);
    [now apply pub1_ok|discriminate|left; reflexivity|eexists; split; [|reflexivity]; reflexivity|constructor]|]. cbn.
  eapply run_one_tok; [apply s_disconnect with (ok := true); [discriminate|constructor]|].
  eapply run_one_tok; [apply s_connect with (ok := true); [exact con1_ok|constructor]|]. cbn [cm_clean con1_msg].
  do 3 (eapply run_one_tok; [apply s_wait_read|]; cbn [app]). eapply run_silent; [apply s_old_session|].
  eapply run_silent; [apply s_resume_publish with (id := 8); [reflexivity|cbn; auto]|]. eapply run_one_tok; [apply s_fetch|]. cbn. eapply run_one_tok; [apply s_again with (ok := true); constructor|]. eapply run_silent; [apply s_resumed|].
  eapply run_one_tok; [apply s_read|]. eapply run_one_tok; [apply s_packet|]. eapply run_silent; [apply (s_got_ack true false _ _ _ Puback 8 H8); reflexivity|]. cbn.
  eapply run_one_tok; [apply s_clear|]. eapply run_one_tok; [apply s_show|]. apply run_nil.
Qed.
Lemma lost_terms : one_session lost_toks /\ no_dups lost_toks /\ keeps_copies lost_toks.
Proof.
  split; [|split].
  - intros x m H E. unfold lost_toks in H. cbn in H. repeat (destruct H as [<-|H]; [cbn in E; try discriminate; injection E as <-; reflexivity|]). contradiction.
  - intros x m H E _. unfold lost_toks in H. cbn in H. repeat (destruct H as [<-|H]; [cbn in E; try discriminate; injection E as <-; reflexivity|]). contradiction.
  - intros k1 id bs k2 E. unfold lost_toks in E. do 11 (destruct k1 as [|? k1]; [discriminate|]; cbn in E; injection E as <- E). destruct k1 as [|? k1].
    + cbn in E. injection E as <- <- <-. eexists [_; _; _; _], _, [_; _; _; _; _; _]. split; [reflexivity|]. split; [eexists; split; [reflexivity|reflexivity]|]. repeat constructor; discriminate.
    + exfalso. cbn in E. injection E as <- E. repeat (destruct k1 as [|? k1]; [discriminate|]; cbn in E; injection E as <- E). destruct k1; discriminate.
Qed.

(** ** Another thread publishes while the session is resumed *)
Definition pub2 (q : qos) : pubinfo := mkPub q false false (Some [97]) 1 (Some [9]) 1.
Definition pub2_msg (q : qos) (id : Z) : publish_msg := mkPublish false q false [97] id [9].
Definition twice_env : env := mkEnv ([32; 2; 0; 0] ++ [32; 2; 1; 0] ++ [64; 2; 0; 5] ++ [64; 2; 0; 5]) [1; 1; 2; 1; 1; 2; 4; 4]
  (repeat 100 20) (repeat 0 99) [] (repeat true 9) [Some (publish_packet (with_dup (pub1_msg Q1 5)))].
Definition twice_calls : list call := [conn1; COp ODisconnect; conn1; CProcess; COp (OPublish (pub2 Q1) 5); CProcess].
Definition twice_world : world := meanwhile 4 [OPublish (pub1 Q1) 5].
Definition twice_trace : list ev :=
  [EOut con_bytes; EIn [32]; EIn [2]; EIn [0; 0]; EOut [224; 0]; EOut con_bytes; EIn [32]; EIn [2]; EIn [1; 0];
   EStore 5 [[58; 7; 0; 1]; [97]; [0; 5]; [1; 2]] true; EOut [50; 7; 0; 1; 97; 0; 5; 1; 2];
   ERetrieve 5 (Some [58; 7; 0; 1; 97; 0; 5; 1; 2]); EOut [58; 7; 0; 1; 97; 0; 5; 1; 2];
   EIn [64; 2; 0; 5]; EPkt 64 [0; 5]; EClear 5; ECb 64 [0; 5] 5 None Success;
   EStore 5 [[58; 6; 0; 1]; [97]; [0; 5]; [9]] true; EOut [50; 6; 0; 1; 97; 0; 5; 9];
   EIn [64; 2; 0; 5]; EPkt 64 [0; 5]; EClear 5; ECb 64 [0; 5] 5 None Success].
Definition twice_toks : list tok :=
  [Sent (KConnect con1_msg); Did (EIn [32]); Did (EIn [2]); Did (EIn [0; 0]); Sent KDisconnect; Sent (KConnect con1_msg); Did (EIn [32]); Did (EIn [2]); Did (EIn [1; 0]);
   Did (EStore 5 [[58; 7; 0; 1]; [97]; [0; 5]; [1; 2]] true); Sent (KPublish (pub1_msg Q1 5));
   Did (ERetrieve 5 (Some [58; 7; 0; 1; 97; 0; 5; 1; 2])); Sent (KAgain 5 [58; 7; 0; 1; 97; 0; 5; 1; 2]);
   Did (EIn [64; 2; 0; 5]); Did (EPkt 64 (be16 5)); Did (EClear 5); Did (ECb 64 (be16 5) 5 None Success);
   Did (EStore 5 [[58; 6; 0; 1]; [97]; [0; 5]; [9]] true); Sent (KPublish (pub2_msg Q1 5));
   Did (EIn [64; 2; 0; 5]); Did (EPkt 64 (be16 5)); Did (EClear 5); Did (ECb 64 (be16 5) 5 None Success)].
Lemma twice_run : legal cfg1 3 2 twice_calls twice_world (client1 twice_env) /\ g_big cfg1 = false /\ all_fit cfg1 false twice_calls twice_world (client1 twice_env) /\
  exists w', c_run_calls cfg1 twice_calls twice_world (client1 twice_env) = Ret (Some (repeat Success 6), w') (c_after twice_calls twice_world (client1 twice_env)) twice_trace.
Proof.
  split; [legal1|]. split; [reflexivity|]. split; [fits1|]. assert (E2 : c_trace twice_calls twice_world (client1 twice_env) = Some (repeat Success 6, twice_trace)) by (vm_compute; reflexivity).
  unfold c_trace, c_after in *. destruct (c_run_calls cfg1 twice_calls twice_world (client1 twice_env)) as [[[rs|] w'] s' t| |]; try discriminate. assert (t = twice_trace) by congruence. assert (rs = repeat Success 6) by congruence. subst t rs. eauto.
Qed.
Lemma twice_says : Says twice_trace twice_toks.
Proof.
  unfold twice_trace, twice_toks. apply (says_one (KConnect con1_msg)). do 3 (apply says_did; [reflexivity|]). apply (says_one KDisconnect). apply (says_one (KConnect con1_msg)). do 4 (apply says_did; [reflexivity|]).
  apply (says_one (KPublish (pub1_msg Q1 5))). apply says_did; [reflexivity|]. apply (says_one (KAgain 5 [58; 7; 0; 1; 97; 0; 5; 1; 2])). do 5 (apply says_did; [reflexivity|]).
  apply (says_one (KPublish (pub2_msg Q1 5))). do 4 (apply says_did; [reflexivity|]). constructor.
Qed.
Lemma pub2_ok q id : id_ok id -> pkt_ok (KPublish (pub2_msg q id)).
Proof. intro H. split; [split; [discriminate|unfold str_ok; cbn; lia]|]. split; auto. destruct q; cbn; unfold max_remaining; lia. Qed.
(** the second message is lost *)
Definition twice_net : net := mkNet [] [] false (mkServer true [] [pub1_msg Q1 5; with_dup (pub1_msg Q1 5)]) (Some 1) [32; 2; 1; 0; 64; 2; 0; 5; 64; 2; 0; 5].
Lemma twice_joint : Joint twice_toks twice_net.
Proof.
  apply (nrun_joint twice_toks [] net0); [constructor|]. unfold twice_toks, net0. assert (H5 : id_ok 5) by (unfold id_ok; lia). quietly. served ltac:(apply v_connect). do 3 quietly.
  quietly.
  eapply nr_tok; [eapply ns_cons; [eapply n_serve; apply v_other; exact I|]; cbn; eapply ns_cons; [eapply n_serve; apply v_connect|apply ns_nil]|apply c_read; reflexivity|]; cbn.
  do 4 quietly.
  served ltac:(apply v_publish1 with (m := pub1_msg Q1 5); [split; [now apply pub1_ok|reflexivity]|reflexivity]).
  quietly.
  served ltac:(apply v_publish1 with (m := with_dup (pub1_msg Q1 5)); [split; [apply dup_ok; now apply pub1_ok|reflexivity]|reflexivity]).
  do 9 quietly. apply nr_nil. eapply ns_cons; [apply (n_lose_up []); discriminate|]. cbn. apply ns_nil.
Qed.
Lemma twice_machine : machine_run 3 2 (client1 twice_env) (c_after twice_calls twice_world (client1 twice_env)) twice_toks.
Proof.
  unfold machine_run. replace (mkM _ (session_of 3 2 _) _ Idle) with (mkM Connected (fresh_session 3 2) 1 Idle) by (vm_compute; reflexivity).
  change (x_retr (s_ctx (client1 twice_env))) with true.
  unfold twice_toks, fresh_session. assert (H5 : id_ok 5) by (unfold id_ok; lia).
  eapply run_one_tok; [apply s_connect with (ok := true); [exact con1_ok|constructor]|]. cbn [cm_clean con1_msg].
  do 3 (eapply run_one_tok; [apply s_wait_read|]; cbn [app]). eapply run_silent; [apply (s_new_session true)|]. cbn.
  eapply run_one_tok; [apply s_disconnect with (ok := true); [discriminate|constructor]|].
  eapply run_one_tok; [apply s_connect with (ok := true); [exact con1_ok|constructor]|]. cbn [cm_clean con1_msg].
  do 3 (eapply run_one_tok; [apply s_wait_read|]; cbn [app]). eapply run_silent; [apply s_old_session|].
  eapply (run_step _ _ _ [_; _]); [apply s_publish with (m := pub1_msg Q1 5) (ok := true) (ok1 := true) (l0 := [Did (EStore 5 [[58; 7; 0; 1]; [97]; [0; 5]; [1; 2]] true)]) (l := [Sent (KPublish (pub1_msg Q1 5))]) (c' := Connected);
    [now apply pub1_ok|discriminate|left; reflexivity|eexists; split; [|reflexivity]; reflexivity|constructor]|]. cbn.
  eapply run_silent; [apply s_resume_publish with (id := 5); [reflexivity|cbn; auto]|]. eapply run_one_tok; [apply s_fetch|]. cbn. eapply run_one_tok; [apply s_again with (ok := true); constructor|]. eapply run_silent; [apply s_resumed|].
  eapply run_one_tok; [apply s_read|]. eapply run_one_tok; [apply s_packet|]. eapply run_silent; [apply (s_got_ack true false _ _ _ Puback 5 H5); reflexivity|]. cbn.
  eapply run_one_tok; [apply s_clear|]. eapply run_one_tok; [apply s_show|].
  eapply (run_step _ _ _ [_; _]); [apply s_publish with (m := pub2_msg Q1 5) (ok := true) (ok1 := true) (l0 := [Did (EStore 5 [[58; 6; 0; 1]; [97]; [0; 5]; [9]] true)]) (l := [Sent (KPublish (pub2_msg Q1 5))]) (c' := Connected);
    [now apply pub2_ok|discriminate|left; reflexivity|eexists; split; [|reflexivity]; reflexivity|constructor]|]. cbn.
  eapply run_one_tok; [apply s_read|]. eapply run_one_tok; [apply s_packet|]. eapply run_silent; [apply (s_got_ack true false _ _ _ Puback 5 H5); reflexivity|]. cbn.
  eapply run_one_tok; [apply s_clear|]. eapply run_one_tok; [apply s_show|]. apply run_nil.
Qed.
Lemma twice_terms : one_session twice_toks /\ no_dups twice_toks /\ keeps_copies twice_toks.
Proof.
  split; [|split].
  - intros x m H E. unfold twice_toks in H. cbn in H. repeat (destruct H as [<-|H]; [cbn in E; try discriminate; injection E as <-; reflexivity|]). contradiction.
  - intros x m H E _. unfold twice_toks in H. cbn in H. repeat (destruct H as [<-|H]; [cbn in E; try discriminate; injection E as <-; reflexivity|]). contradiction.
  - intros k1 id bs k2 E. unfold twice_toks in E. do 11 (destruct k1 as [|? k1]; [discriminate|]; cbn in E; injection E as <- E). destruct k1 as [|? k1].
    + cbn in E. injection E as <- <- <-. eexists [_; _; _; _; _; _; _; _; _], _, [_]. split; [reflexivity|]. split; [eexists; split; [reflexivity|reflexivity]|]. repeat constructor; discriminate.
    + exfalso. cbn in E. injection E as <- E. repeat (destruct k1 as [|? k1]; [discriminate|]; cbn in E; injection E as <- E). destruct k1; discriminate.
Qed.
