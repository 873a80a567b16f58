(** Concrete histories for Props_Req.v. *)
From Coq Require Import Permutation.
From Verif Require Import Base StateModel StateSpec StateHarness SerModel WireSpec SerHarness CoreModel CoreSpec CoreHarness CoreCases CoreFinal3 Props_Findings
  ConcModel ConcHarness ConcCases Machine MachSpec MachProofs MachProofs5 MachFinal MachCases NetSpec NetCases WireProofs ByteSpec ByteProofs ByteCases FullSpec FullCases ReqSpec.

Inductive rrun (st : bool) : rnet -> list tok -> rnet -> Prop :=
| rr_nil N : rrun st N [] N
| rr_net N N1 l N' : rstep N N1 -> rrun st N1 l N' -> rrun st N l N'
| rr_tok N x N1 l N' : rcstep st N x N1 -> rrun st N1 l N' -> rrun st N (x :: l) N'.
Lemma rrun_asked st N l N' : rrun st N l N' -> forall k, Asked st k N -> Asked st (k ++ l) N'.
Proof.
  induction 1 as [|N N1 l N' S R IH|N x N1 l N' S R IH]; intros k H; [now rewrite app_nil_r|apply IH; eapply asked_net; eauto|].
  change (x :: l) with ([x] ++ l). rewrite app_assoc. apply IH. eapply asked_client; eauto.
Qed.
Ltac rsimp := cbn [app due_of request opens give t_alive t_half t_bytes negb].
Ltac rtok := eapply rr_tok; [first [apply rc_did; exact I|apply rc_read; eexists; reflexivity|apply rc_connect|apply rc_send; [reflexivity|intro; reflexivity]]|]; rsimp.
Ltac rsrv r := eapply rr_net; [r|]; rsimp.
Lemma no_copies k : (forall id r, ~ In (Did (ERetrieve id r)) k) -> keeps_copies k.
Proof. intros H k1 id bs k2 ->. exfalso. apply (H id (Some bs)), in_app_iff. right. now left. Qed.

(** Two topic filters and a ping; the server answers the ping first, and refuses the second
    filter. *)
Definition two_subs : list subinfo := [mkSub Q1 (Some [97]) 1; mkSub Q0 (Some [98]) 1].
Definition two_filters : list (list Z * qos) := [([97], Q1); ([98], Q0)].
Definition ask_env : env := mkEnv ([32; 2; 0; 0] ++ [208; 0] ++ [144; 4; 0; 3; 1; 128]) [1; 1; 2; 2; 6; 0] (repeat 100 20) (repeat 0 99) [] (repeat true 9) [].
Definition ask_calls : list call := [conn1; COp (OSubscribe (Some two_subs) 2 3); COp OPing; CProcess; CProcess].
Definition ask_trace : list ev :=
  [EOut con_bytes; EIn [32]; EIn [2]; EIn [0; 0]; EOut [130; 10; 0; 3; 0; 1; 97; 1]; EOut [0; 1; 98; 0]; EOut [192; 0]; EIn [208; 0];
   EPkt 208 []; EIn [144; 4; 0; 3; 1; 128]; EPkt 144 [0; 3; 1; 128]; ECb 144 [0; 3; 1; 128] 3 None ServerRefused].
Definition ask_toks : list tok :=
  [Sent (KConnect con1_msg); Did (EIn [32]); Did (EIn [2]); Did (EIn [0; 0]); Sent (KSubscribe 3 two_filters); Sent KPing; Did (EIn [208; 0]);
   Did (EPkt 208 []); Did (EIn [144; 4; 0; 3; 1; 128]); Did (EPkt 144 [0; 3; 1; 128]); Did (ECb 144 [0; 3; 1; 128] 3 None ServerRefused)].
Lemma ask_run : legal cfg1 3 2 ask_calls (mkW false []) (client1 ask_env) /\ all_fit cfg1 true ask_calls (mkW false []) (client1 ask_env) /\
  exists w', c_run_calls cfg1 ask_calls (mkW false []) (client1 ask_env) = Ret (Some (repeat Success 5), w') (c_after ask_calls (mkW false []) (client1 ask_env)) ask_trace.
Proof. split; [legal1|]. split; [fits1|]. apply trace_run. vm_compute. reflexivity. Qed.
Lemma ask_careful : careful cfg1 true ask_calls (mkW false []) (client1 ask_env).
Proof. vm_compute. repeat split; discriminate. Qed.
Lemma ask_says : Says ask_trace ask_toks.
Proof.
  unfold ask_trace, ask_toks. apply (says_one (KConnect con1_msg)). do 3 (apply says_did; [reflexivity|]).
  apply (says_sent (KSubscribe 3 two_filters) [EOut [130; 10; 0; 3; 0; 1; 97; 1]; EOut [0; 1; 98; 0]]); [repeat constructor|reflexivity|reflexivity|].
  apply (says_one KPing). do 5 (apply says_did; [reflexivity|]). constructor.
Qed.
Lemma two_ok : pkt_ok (KSubscribe 3 two_filters).
Proof. split; [unfold id_ok; lia|]. split; [discriminate|]. split; [repeat constructor; cbn; try discriminate; unfold str_ok; cbn; lia|cbn; unfold max_remaining; lia]. Qed.
Lemma ask_machine : Run true true (mkM NotConnected (fresh_session 3 2) 1 Idle) ask_toks (mkM Connected (fresh_session 3 2) 1 Idle).
Proof.
  unfold ask_toks, fresh_session. eapply run_one_tok; [apply s_connect with (ok := true); [exact con1_ok|constructor]|]. cbn [cm_clean con1_msg].
  do 3 (eapply run_one_tok; [apply s_wait_read|]; cbn [app]). eapply run_silent; [apply (s_new_session true)|]. cbn.
  eapply run_one_tok; [eapply s_subscribe with (ok := true); [exact two_ok|constructor]|]. eapply run_one_tok; [apply s_ping with (ok := true); constructor|].
  eapply run_one_tok; [apply s_read|]. eapply run_one_tok; [apply s_packet|]. eapply run_silent; [apply s_ignore|].
  eapply run_one_tok; [apply s_read|]. eapply run_one_tok; [apply s_packet|]. eapply run_silent; [apply s_got_suback with (id := 3) (r := ServerRefused); [reflexivity|auto]|].
  eapply run_one_tok; [apply s_show|]. apply run_nil.
Qed.
Lemma ask_copies : keeps_copies ask_toks.
Proof. apply no_copies. intros id r H. unfold ask_toks in H. cbn in H. repeat (destruct H as [H|H]; [discriminate|]). contradiction. Qed.
Definition ask_net : rnet := mkR (mkS [] true false) [] [(208, []); (144, [0; 3; 1; 128])] (Some 0) [32; 2; 0; 0; 208; 0; 144; 4; 0; 3; 1; 128].
Lemma ask_asked : Asked true ask_toks ask_net.
Proof.
  refine (rrun_asked true rnet0 ask_toks ask_net _ [] (asked_nil true)). unfold ask_toks, rnet0.
  rtok. rsrv ltac:(apply (r_take (KConnect con1_msg) []) with (sp := 0); exact con1_std). do 5 rtok.
  rsrv ltac:(apply (r_take (KSubscribe 3 two_filters) (bytes KPing)) with (sp := 0); split; [exact two_ok|exact I]).
  rsrv ltac:(apply (r_take KPing []) with (sp := 0); split; exact I).
  rsrv ltac:(apply (r_answer KPing (208, []) _ [_]); [constructor|split; [unfold first_ok, is_byte; cbn; lia|cbn; unfold max_remaining; lia]]).
  rsrv ltac:(apply (r_answer (KSubscribe 3 two_filters) (144, [0; 3; 1; 128]) _ []); [apply (an_sub 3 two_filters [1; 128]); reflexivity|split; [unfold first_ok, is_byte; cbn; lia|cbn; unfold max_remaining; lia]]).
  do 5 rtok. apply rr_nil.
Qed.

(** Of a SUBSCRIBE to the filter abc the transport takes 7 bytes within the send timeout, and
    MQTT_Subscribe returns MQTTSendFailed.  The application publishes a QoS 0 message. *)
Definition abc_sub : list subinfo := [mkSub Q1 (Some [97; 98; 99]) 3].
Definition abc_filter : list (list Z * qos) := [([97; 98; 99], Q1)].
Definition mix_env : env := mkEnv ([32; 2; 0; 0] ++ [144; 3; 0; 3; 0]) [1; 1; 2; 5; 0] ([100; 7; 0] ++ repeat 100 20) (repeat 0 9 ++ repeat 30000 99) [] (repeat true 9) [].
Definition mix_calls : list call := [conn1; COp (OSubscribe (Some abc_sub) 1 3); COp (OPublish (pub1 Q0) 0); CProcess].
Definition mix_results : list status := [Success; SendFailed; Success; Success].
Definition mix_trace : list ev :=
  [EOut con_bytes; EIn [32]; EIn [2]; EIn [0; 0]; EOut [130; 8; 0; 3; 0; 3; 97]; EOut []; EOut [48; 5; 0; 1; 97; 1; 2];
   EIn [144; 3; 0; 3; 0]; EPkt 144 [0; 3; 0]; ECb 144 [0; 3; 0] 3 None Success].
Definition mix_toks : list tok :=
  [Sent (KConnect con1_msg); Did (EIn [32]); Did (EIn [2]); Did (EIn [0; 0]); Cut (KSubscribe 3 abc_filter) false; Sent (KPublish (pub1_msg Q0 0));
   Did (EIn [144; 3; 0; 3; 0]); Did (EPkt 144 [0; 3; 0]); Did (ECb 144 [0; 3; 0] 3 None Success)].
Lemma mix_run : legal cfg1 3 2 mix_calls (mkW false []) (client1 mix_env) /\ all_fit cfg1 true mix_calls (mkW false []) (client1 mix_env) /\
  exists w', c_run_calls cfg1 mix_calls (mkW false []) (client1 mix_env) = Ret (Some mix_results, w') (c_after mix_calls (mkW false []) (client1 mix_env)) mix_trace.
Proof. split; [legal1|]. split; [fits1|]. apply trace_run. vm_compute. reflexivity. Qed.
Lemma mix_careful : careful cfg1 true mix_calls (mkW false []) (client1 mix_env).
Proof. vm_compute. repeat split; discriminate. Qed.
Lemma mix_says : Says mix_trace mix_toks.
Proof.
  unfold mix_trace, mix_toks. apply (says_one (KConnect con1_msg)). do 3 (apply says_did; [reflexivity|]).
  apply (says_cut (KSubscribe 3 abc_filter) 7 [EOut [130; 8; 0; 3; 0; 3; 97]; EOut []]); [repeat constructor|reflexivity|cbn; lia|reflexivity|].
  apply (says_one (KPublish (pub1_msg Q0 0))). do 3 (apply says_did; [reflexivity|]). constructor.
Qed.
Lemma abc_ok : pkt_ok (KSubscribe 3 abc_filter).
Proof. split; [unfold id_ok; lia|]. split; [discriminate|]. split; [repeat constructor; cbn; try discriminate; unfold str_ok; cbn; lia|cbn; unfold max_remaining; lia]. Qed.
Lemma pub0_ok : pkt_ok (KPublish (pub1_msg Q0 0)).
Proof. split; [split; [discriminate|unfold str_ok; cbn; lia]|]. split; [intro C; now destruct C|cbn; unfold max_remaining; lia]. Qed.
Lemma mix_machine : Run true true (mkM NotConnected (fresh_session 3 2) 1 Idle) mix_toks (mkM Connected (fresh_session 3 2) 1 Idle).
Proof.
  unfold mix_toks, fresh_session. eapply run_one_tok; [apply s_connect with (ok := true); [exact con1_ok|constructor]|]. cbn [cm_clean con1_msg].
  do 3 (eapply run_one_tok; [apply s_wait_read|]; cbn [app]). eapply run_silent; [apply (s_new_session true)|]. cbn.
  eapply run_one_tok; [eapply s_subscribe with (ok := false); [exact abc_ok|constructor]|].
  eapply run_one_tok; [apply s_publish0 with (m := pub1_msg Q0 0) (ok := true); [exact pub0_ok|reflexivity|constructor]|].
  eapply run_one_tok; [apply s_read|]. eapply run_one_tok; [apply s_packet|]. eapply run_silent; [apply s_got_suback with (id := 3) (r := Success); [reflexivity|auto]|].
  eapply run_one_tok; [apply s_show|]. apply run_nil.
Qed.
Lemma mix_copies : keeps_copies mix_toks.
Proof. apply no_copies. intros id r H. unfold mix_toks in H. cbn in H. repeat (destruct H as [H|H]; [discriminate|]). contradiction. Qed.
(** the filter the server reads: a, the first byte of PUBLISH and its length *)
Definition mix_filter : list (list Z * qos) := [([97; 48; 5], Q0)].
Lemma mix_ok : pkt_ok (KSubscribe 3 mix_filter).
Proof. split; [unfold id_ok; lia|]. split; [discriminate|]. split; [repeat constructor; cbn; try discriminate; unfold str_ok; cbn; lia|cbn; unfold max_remaining; lia]. Qed.
Definition mix_net : rnet := mkR (mkS [1; 97; 1; 2] true true) [] [(144, [0; 3; 0])] (Some 0) [32; 2; 0; 0; 144; 3; 0; 3; 0].
Lemma mix_asked : Asked false mix_toks mix_net.
Proof.
  refine (rrun_asked false rnet0 mix_toks mix_net _ [] (asked_nil false)). unfold mix_toks, rnet0.
  rtok. rsrv ltac:(apply (r_take (KConnect con1_msg) []) with (sp := 0); exact con1_std). do 3 rtok.
  eapply rr_tok; [apply (rc_send_cut _ (KSubscribe 3 abc_filter) false [130; 8; 0; 3; 0; 3; 97] [98; 99; 1]); [reflexivity|intro; reflexivity|reflexivity|discriminate]|]; rsimp.
  eapply rr_tok; [apply rc_send; [reflexivity|intro; discriminate]|]; rsimp.
  rsrv ltac:(apply (r_take (KSubscribe 3 mix_filter) [1; 97; 1; 2]) with (sp := 0); split; [exact mix_ok|exact I]).
  rsrv ltac:(apply (r_answer (KSubscribe 3 mix_filter) (144, [0; 3; 0]) _ []); [apply (an_sub 3 mix_filter [0]); reflexivity|split; [unfold first_ok, is_byte; cbn; lia|cbn; unfold max_remaining; lia]]).
  do 3 rtok. apply rr_nil.
Qed.
