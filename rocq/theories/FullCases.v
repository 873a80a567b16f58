(** Concrete histories for Props_Full.v. *)
From Verif Require Import Base StateModel StateSpec StateHarness SerModel WireSpec SerHarness CoreModel CoreSpec CoreHarness CoreCases CoreFinal3 Props_Findings
  ConcModel ConcHarness ConcCases Machine MachSpec MachProofs MachProofs5 MachFinal MachCases NetSpec NetProofs NetProofs2 NetProofs3 NetProofs4 NetFinal NetCases OutSpec OutHist OutCases WireProofs ByteSpec ByteProofs ByteCases FullSpec.

(** Of a QoS 2 publish with 9 bytes the transport takes 7 within the send timeout, and
    MQTT_Publish returns MQTTSendFailed.  The application disconnects and connects again,
    and the publish is sent again. *)
Definition half_env : env := mkEnv ([32; 2; 0; 0] ++ [32; 2; 1; 0]) [1; 1; 2; 1; 1; 2]
  ([100; 7; 0] ++ repeat 100 20) (repeat 0 9 ++ repeat 30000 99) [] (repeat true 9) [Some (publish_packet (with_dup (pub1_msg Q2 8)))].
Definition half_trace : list ev :=
  [EOut con_bytes; EIn [32]; EIn [2]; EIn [0; 0]; EStore 8 [[60; 7; 0; 1]; [97]; [0; 8]; [1; 2]] true; EOut [52; 7; 0; 1; 97; 0; 8]; EOut []; EOut [224; 0];
   EOut con_bytes; EIn [32]; EIn [2]; EIn [1; 0]; ERetrieve 8 (Some [60; 7; 0; 1; 97; 0; 8; 1; 2]); EOut [60; 7; 0; 1; 97; 0; 8; 1; 2]].
Definition half_calls : list call := [conn1; COp (OPublish (pub1 Q2) 8); COp ODisconnect; conn1].
Definition half_toks : list tok :=
  [Sent (KConnect con1_msg); Did (EIn [32]); Did (EIn [2]); Did (EIn [0; 0]); Did (EStore 8 [[60; 7; 0; 1]; [97]; [0; 8]; [1; 2]] true); Cut (KPublish (pub1_msg Q2 8)) false; Sent KDisconnect;
   Sent (KConnect con1_msg); Did (EIn [32]); Did (EIn [2]); Did (EIn [1; 0]); Did (ERetrieve 8 (Some [60; 7; 0; 1; 97; 0; 8; 1; 2])); Sent (KAgain 8 [60; 7; 0; 1; 97; 0; 8; 1; 2])].
Definition half_results : list status := [Success; SendFailed; Success; Success].
Lemma half_run : legal cfg1 3 2 half_calls (mkW false []) (client1 half_env) /\ all_fit cfg1 false half_calls (mkW false []) (client1 half_env) /\
  exists w', c_run_calls cfg1 half_calls (mkW false []) (client1 half_env) = Ret (Some half_results, w') (c_after half_calls (mkW false []) (client1 half_env)) half_trace.
Proof. split; [legal1|]. split; [fits1|]. apply trace_run. vm_compute. reflexivity. Qed.
Lemma half_careful : careful cfg1 true half_calls (mkW false []) (client1 half_env).
Proof. vm_compute. repeat split; discriminate. Qed.
Lemma half_says : Says half_trace half_toks.
Proof.
  unfold half_trace, half_toks. apply (says_one (KConnect con1_msg)). do 4 (apply says_did; [reflexivity|]).
  apply (says_cut (KPublish (pub1_msg Q2 8)) 7 [EOut [52; 7; 0; 1; 97; 0; 8]; EOut []]); [repeat constructor|reflexivity|cbn; lia|reflexivity|].
  apply (says_one KDisconnect). apply (says_one (KConnect con1_msg)).
  do 4 (apply says_did; [reflexivity|]). apply (says_one (KAgain 8 [60; 7; 0; 1; 97; 0; 8; 1; 2])). constructor.
Qed.
Definition half_ses : session := mkSession 3 [StateSpec.F 8 Q2 PublishSend] 2 [].
Lemma half_machine : machine_run 3 2 (client1 half_env) (c_after half_calls (mkW false []) (client1 half_env)) half_toks.
Proof.
  unfold machine_run. replace (mkM _ (session_of 3 2 _) _ Idle) with (mkM Connected half_ses 1 Idle) by (vm_compute; reflexivity).
  change (x_retr (s_ctx (client1 half_env))) with true.
  unfold half_toks, fresh_session. assert (H8 : id_ok 8) by (unfold id_ok; lia).
  eapply run_one_tok; [apply s_connect with (ok := true); [exact con1_ok|constructor]|]. cbn [cm_clean con1_msg].
  do 3 (eapply run_one_tok; [apply s_wait_read|]; cbn [app]). eapply run_silent; [apply (s_new_session true)|]. cbn.
  eapply (run_step _ _ _ [_; _]); [apply s_publish with (m := pub1_msg Q2 8) (ok := true) (ok1 := false) (l0 := [Did (EStore 8 [[60; 7; 0; 1]; [97]; [0; 8]; [1; 2]] true)]) (l := [Cut (KPublish (pub1_msg Q2 8)) false]) (c' := Connected);
    [now apply pub1_ok|discriminate|left; reflexivity|eexists; split; [|reflexivity]; reflexivity|constructor]|]. cbn.
  eapply run_one_tok; [apply s_disconnect with (ok := true); [discriminate|constructor]|].
  eapply run_one_tok; [apply s_connect with (ok := true); [exact con1_ok|constructor]|]. cbn [cm_clean con1_msg].
  do 3 (eapply run_one_tok; [apply s_wait_read|]; cbn [app]). eapply run_silent; [apply s_old_session|].
  eapply run_silent; [apply s_resume_publish with (id := 8); [reflexivity|cbn; auto]|]. eapply run_one_tok; [apply s_fetch|]. cbn. eapply run_one_tok; [apply s_again with (ok := true); constructor|]. eapply run_silent; [apply s_resumed|].
  apply run_nil.
Qed.
Lemma half_terms : one_session half_toks /\ no_dups half_toks /\ keeps_copies half_toks.
Proof.
  split; [|split].
  - intros x m H E. unfold half_toks in H. cbn in H. repeat (destruct H as [<-|H]; [cbn in E; try discriminate; injection E as <-; reflexivity|]). contradiction.
  - intros x m H E _. unfold half_toks in H. cbn in H. repeat (destruct H as [<-|H]; [cbn in E; try discriminate; injection E as <-; reflexivity|]). contradiction.
  - intros k1 id bs k2 E. unfold half_toks in E. do 11 (destruct k1 as [|? k1]; [discriminate|]; cbn in E; injection E as <- E). destruct k1 as [|? k1].
    + cbn in E. injection E as <- <- <-. eexists [_; _; _; _], _, [_; _; _; _; _; _]. split; [reflexivity|]. split; [eexists; split; [reflexivity|reflexivity]|]. repeat constructor; discriminate.
    + exfalso. cbn in E. injection E as <- E. repeat (destruct k1 as [|? k1]; [discriminate|]; cbn in E; injection E as <- E). destruct k1; discriminate.
Qed.
(** the network *)
Inductive frun (st : bool) : fnet -> list tok -> fnet -> Prop :=
| fr_nil F : frun st F [] F
| fr_net F F1 l F' : fstep F F1 -> frun st F1 l F' -> frun st F l F'
| fr_tok F x F1 l F' : fcstep st F x F1 -> frun st F1 l F' -> frun st F (x :: l) F'.
Lemma frun_joint st F l F' : frun st F l F' -> forall k, FJoint st k F -> FJoint st (k ++ l) F'.
Proof.
  induction 1 as [|F F1 l F' S R IH|F x F1 l F' S R IH]; intros k H; [now rewrite app_nil_r|apply IH; eapply fjoint_net; eauto|].
  change (x :: l) with ([x] ++ l). rewrite app_assoc. apply IH. eapply fjoint_client; eauto.
Qed.
Ltac fsimp := cbn [app alone opens andb give t_alive t_half t_bytes negb v_open].
Ltac ftok := eapply fr_tok; [first [apply fc_did; exact I|apply fc_read; eexists; reflexivity|apply fc_connect|eapply (fc_send _ _ []); [reflexivity|intro; reflexivity]]|]; fsimp.
Ltac fsrv r := eapply fr_net; [r|]; fsimp.
Lemma con1_std : standard (KConnect con1_msg).
Proof. split; [exact con1_ok|exact I]. Qed.
Lemma dup1_std q : q <> Q0 -> standard (KPublish (with_dup (pub1_msg q 8))).
Proof. intro H. split; [apply dup_ok, pub1_ok; unfold id_ok; lia|cbn; congruence]. Qed.
(** the application closes the connection before it calls MQTT_Disconnect *)
Definition half_net : fnet := mkF [mkS [] true false] [(80, be16 8)] (mkServer true [8] [with_dup (pub1_msg Q2 8)]) (Some 1) [32; 2; 1; 0].
Lemma half_joint : FJoint true half_toks half_net.
Proof.
  refine (frun_joint true fnet0 half_toks half_net _ [] (fjoint_nil true)). unfold half_toks, fnet0. assert (H8 : id_ok 8) by (unfold id_ok; lia).
  ftok. fsrv ltac:(apply f_next). fsrv ltac:(apply (f_serve (KConnect con1_msg) []); [exact con1_std|apply v_connect]). do 4 ftok.
  eapply fr_tok; [eapply (fc_send_cut _ (KPublish (pub1_msg Q2 8)) false [52; 7; 0; 1; 97; 0; 8] [1; 2] []); [reflexivity|intro; reflexivity|reflexivity|discriminate]|]; fsimp.
  fsrv ltac:(apply (f_break [] [52; 7; 0; 1; 97; 0; 8] [])). ftok. ftok.
  fsrv ltac:(apply f_next). fsrv ltac:(apply (f_serve (KConnect con1_msg) []); [exact con1_std|apply v_connect]). do 5 ftok.
  fsrv ltac:(apply (f_serve (KPublish (with_dup (pub1_msg Q2 8))) []); [apply dup1_std; discriminate|apply v_publish2 with (m := with_dup (pub1_msg Q2 8)); [split; [apply dup_ok; now apply pub1_ok|reflexivity]|reflexivity]]).
  apply fr_nil.
Qed.
(** it does not: the two bytes of DISCONNECT are the rest of the publish *)
Definition odd_msg : publish_msg := mkPublish false Q2 false [97] 8 [224; 0].
Definition odd_net : fnet := mkF [mkS [] true false] [(80, be16 8)] (mkServer true [8] [odd_msg]) (Some 1) [32; 2; 1; 0].
Lemma odd_ok : pkt_ok (KPublish odd_msg).
Proof. split; [split; [discriminate|unfold str_ok; cbn; lia]|]. split; [intros _; unfold id_ok; cbn; lia|cbn; unfold max_remaining; lia]. Qed.
Lemma odd_joint : FJoint false half_toks odd_net.
Proof.
  refine (frun_joint false fnet0 half_toks odd_net _ [] (fjoint_nil false)). unfold half_toks, fnet0. assert (H8 : id_ok 8) by (unfold id_ok; lia).
  ftok. fsrv ltac:(apply f_next). fsrv ltac:(apply (f_serve (KConnect con1_msg) []); [exact con1_std|apply v_connect]). do 4 ftok.
  eapply fr_tok; [eapply (fc_send_cut _ (KPublish (pub1_msg Q2 8)) false [52; 7; 0; 1; 97; 0; 8] [1; 2] []); [reflexivity|intro; reflexivity|reflexivity|discriminate]|]; fsimp.
  eapply fr_tok; [eapply (fc_send _ _ []); [reflexivity|intro; discriminate]|]; fsimp.
  fsrv ltac:(apply (f_serve (KPublish odd_msg) []); [split; [exact odd_ok|discriminate]|apply v_publish2 with (m := odd_msg); [split; [exact odd_ok|reflexivity]|reflexivity]]).
  ftok. fsrv ltac:(apply f_next). fsrv ltac:(apply (f_serve (KConnect con1_msg) []); [exact con1_std|apply v_connect]). do 5 ftok.
  fsrv ltac:(apply (f_serve (KPublish (with_dup (pub1_msg Q2 8))) []); [apply dup1_std; discriminate|apply v_publish2 with (m := with_dup (pub1_msg Q2 8)); [split; [apply dup_ok; now apply pub1_ok|reflexivity]|reflexivity]]).
  apply fr_nil.
Qed.

(** the history of OutCases.v: a QoS 1 publish, of which the PUBACK is lost *)
Definition lost_fnet : fnet := mkF [mkS [] true false] [(64, be16 8)] (mkServer true [] [pub1_msg Q1 8; with_dup (pub1_msg Q1 8)]) (Some 1) [32; 2; 1; 0; 64; 2; 0; 8].
Lemma lost_fjoint : FJoint true lost_toks lost_fnet.
Proof.
  refine (frun_joint true fnet0 lost_toks lost_fnet _ [] (fjoint_nil true)). unfold lost_toks, fnet0. assert (H8 : id_ok 8) by (unfold id_ok; lia).
  ftok. fsrv ltac:(apply f_next). fsrv ltac:(apply (f_serve (KConnect con1_msg) []); [exact con1_std|apply v_connect]). do 5 ftok.
  fsrv ltac:(apply (f_serve (KPublish (pub1_msg Q1 8)) []); [split; [now apply pub1_ok|discriminate]|apply v_publish1 with (m := pub1_msg Q1 8); [split; [now apply pub1_ok|reflexivity]|reflexivity]]).
  ftok. ftok. fsrv ltac:(apply (f_serve KDisconnect []); [split; exact I|apply v_other; exact I]).
  fsrv ltac:(apply f_next). fsrv ltac:(apply (f_serve (KConnect con1_msg) []); [exact con1_std|apply v_connect]). do 5 ftok.
  fsrv ltac:(apply (f_serve (KPublish (with_dup (pub1_msg Q1 8))) []); [apply dup1_std; discriminate|apply v_publish1 with (m := with_dup (pub1_msg Q1 8)); [split; [apply dup_ok; now apply pub1_ok|reflexivity]|reflexivity]]).
  do 4 ftok. apply fr_nil.
Qed.
