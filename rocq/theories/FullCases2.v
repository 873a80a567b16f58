(** Concrete histories for Props_Full.v: messages of the server. *)
From Verif Require Import Base StateModel StateSpec StateHarness SerModel WireSpec SerHarness CoreModel CoreSpec CoreHarness CoreCases CoreFinal3 Props_Findings
  ConcModel ConcHarness ConcCases Machine MachSpec MachProofs MachProofs5 MachFinal MachCases NetSpec NetProofs NetProofs2 NetProofs3 NetProofs4 NetFinal NetCases InSpec InProofs InProofs2 InProofs3 InProofs4 InFinal InStuck InCases WireProofs ByteSpec ByteProofs ByteCases FullSpec.

Inductive hrun (st : bool) : hnet -> list tok -> hnet -> Prop :=
| hr_nil F : hrun st F [] F
| hr_net F F1 l F' : hstep F F1 -> hrun st F1 l F' -> hrun st F l F'
| hr_tok F x F1 l F' : hcstep st F x F1 -> hrun st F1 l F' -> hrun st F (x :: l) F'.
Lemma hrun_linked st F l F' : hrun st F l F' -> forall k, HLinked st k F -> HLinked st (k ++ l) F'.
Proof.
  induction 1 as [|F F1 l F' S R IH|F x F1 l F' S R IH]; intros k H; [now rewrite app_nil_r|apply IH; eapply hlinked_net; eauto|].
  change (x :: l) with ([x] ++ l). rewrite app_assoc. apply IH. eapply hlinked_client; eauto.
Qed.
Ltac hsimp := cbn [app alone asks_in andb give t_alive t_half t_bytes negb w_open answered].
Ltac htok := eapply hr_tok; [first [apply hc_did; exact I|apply hc_read; eexists; reflexivity|apply hc_connect|eapply (hc_send _ _ []); [reflexivity|intro; reflexivity]]|]; hsimp.
Ltac hsrv r := eapply hr_net; [r|]; hsimp.
Lemma con1_standard : standard (KConnect con1_msg).
Proof. split; [exact con1_ok|exact I]. Qed.
Lemma ack_standard a id : id_ok id -> standard (KAck a id).
Proof. intro H. split; [exact H|exact I]. Qed.

(** the history of InCases.v: a QoS 2 publish comes, the PUBREC is lost *)
Definition in_hnet : hnet := mkH [mkS [] true false] [DPub (as_dup (pub1_msg Q2 8)); DRel 8] (mkSender true [] [] [pub1_msg Q2 8]) (Some 1) [32; 2; 1; 0; 60; 7; 0; 1; 97; 0; 8; 1; 2; 98; 2; 0; 8].
Lemma in_hlinked : HLinked true in_toks in_hnet.
Proof.
  refine (hrun_linked true hnet0 in_toks in_hnet _ [] (hlinked_nil true)). unfold in_toks, hnet0. assert (H8 : id_ok 8) by (unfold id_ok; lia).
  htok. hsrv ltac:(apply h_next). hsrv ltac:(apply (h_take (KConnect con1_msg) []); [exact con1_standard|apply t_connect]). do 3 htok.
  hsrv ltac:(eapply (h_new (pub1_msg Q2 8)); [reflexivity|split; [now apply pub1_ok|discriminate]|reflexivity|reflexivity]).
  do 4 htok. hsrv ltac:(apply (h_break [] [] [80; 2; 0; 8])). do 2 htok. hsrv ltac:(apply h_next).
  hsrv ltac:(apply (h_take (KConnect con1_msg) []); [exact con1_standard|apply t_connect]).
  do 3 htok. hsrv ltac:(eapply (h_again 8); [left; reflexivity|reflexivity|reflexivity]).
  do 3 htok. hsrv ltac:(eapply (h_take (KAck Pubrec 8) []); [now apply ack_standard|eapply t_pubrec; reflexivity]). do 4 htok.
  hsrv ltac:(eapply (h_take (KAck Pubcomp 8) []); [now apply ack_standard|eapply t_pubcomp; reflexivity]). apply hr_nil.
Qed.
Lemma in_copies : keeps_copies in_toks.
Proof. intros k1 id bs k2 E. exfalso. unfold in_toks in E. repeat (destruct k1 as [|? k1]; [discriminate|]; cbn in E; injection E as <- E). destruct k1; discriminate. Qed.

(** Of the PUBACK for 8 the transport takes three bytes within the send timeout.
    MQTT_Disconnect sends [224; 0]: the server reads a PUBACK for 224, which is on its way. *)
Definition ack_env : env := mkEnv ([32; 2; 0; 0] ++ [50; 7; 0; 1; 97; 0; 8; 1; 2]) [1; 1; 2; 9] [100; 3; 0; 100] (repeat 0 9 ++ repeat 30000 40) [] (repeat true 9) [].
Definition ack_calls : list call := [conn1; CProcess; COp ODisconnect].
Definition ack_cb : ev := ECb 50 [0; 1; 97; 0; 8; 1; 2] 8 (Some (mkDpub Q1 false false 2 1 (Some 5) 2)) Success.
Definition ack_trace : list ev :=
  [EOut con_bytes; EIn [32]; EIn [2]; EIn [0; 0]; EIn [50; 7; 0; 1; 97; 0; 8; 1; 2]; EPkt 50 [0; 1; 97; 0; 8; 1; 2]; ack_cb; EOut [64; 2; 0]; EOut []; EOut [224; 0]].
Definition ack_toks : list tok :=
  [Sent (KConnect con1_msg); Did (EIn [32]); Did (EIn [2]); Did (EIn [0; 0]); Did (EIn [50; 7; 0; 1; 97; 0; 8; 1; 2]); Did (EPkt 50 [0; 1; 97; 0; 8; 1; 2]); Did ack_cb; Cut (KAck Puback 8) false; Sent KDisconnect].
Definition ack_results : list status := [Success; SendFailed; Success].
Lemma ack_run : legal cfg1 3 2 ack_calls (mkW false []) (client1 ack_env) /\ all_fit cfg1 true ack_calls (mkW false []) (client1 ack_env) /\
  exists w', c_run_calls cfg1 ack_calls (mkW false []) (client1 ack_env) = Ret (Some ack_results, w') (c_after ack_calls (mkW false []) (client1 ack_env)) ack_trace.
Proof. split; [legal1|]. split; [fits1|]. apply trace_run. vm_compute. reflexivity. Qed.
Lemma ack_careful : careful cfg1 true ack_calls (mkW false []) (client1 ack_env).
Proof. vm_compute. repeat split; discriminate. Qed.
Lemma ack_says : Says ack_trace ack_toks.
Proof.
  unfold ack_trace, ack_toks. apply (says_one (KConnect con1_msg)). do 6 (apply says_did; [reflexivity|]).
  apply (says_cut (KAck Puback 8) 3 [EOut [64; 2; 0]; EOut []]); [repeat constructor|reflexivity|cbn; lia|reflexivity|]. apply (says_one KDisconnect). constructor.
Qed.
Lemma ack_terms : same_session ack_toks /\ keeps_copies ack_toks.
Proof.
  split.
  - intros x m H E; unfold ack_toks in H; cbn in H; repeat (destruct H as [<-|H]; [cbn in E; try discriminate; injection E as <-; reflexivity|]); contradiction.
  - intros k1 id bs k2 E. exfalso. unfold ack_toks in E. repeat (destruct k1 as [|? k1]; [discriminate|]; cbn in E; injection E as <- E). destruct k1; discriminate.
Qed.
Definition ack_hnet : hnet := mkH [mkS [0] true true] [DPub (pub1_msg Q1 8); DPub (pub1_msg Q1 224)] (mkSender true [(pub1_msg Q1 8, false)] [] [pub1_msg Q1 8; pub1_msg Q1 224]) (Some 0)
  [32; 2; 0; 0; 50; 7; 0; 1; 97; 0; 8; 1; 2].
Lemma ack_hlinked : HLinked false ack_toks ack_hnet.
Proof.
  refine (hrun_linked false hnet0 ack_toks ack_hnet _ [] (hlinked_nil false)). unfold ack_toks, hnet0. assert (H8 : id_ok 8) by (unfold id_ok; lia). assert (H224 : id_ok 224) by (unfold id_ok; lia).
  htok. hsrv ltac:(apply h_next). hsrv ltac:(apply (h_take (KConnect con1_msg) []); [exact con1_standard|apply t_connect]). do 3 htok.
  hsrv ltac:(eapply (h_new (pub1_msg Q1 8)); [reflexivity|split; [now apply pub1_ok|discriminate]|reflexivity|reflexivity]).
  hsrv ltac:(eapply (h_new (pub1_msg Q1 224)); [reflexivity|split; [now apply pub1_ok|discriminate]|reflexivity|reflexivity]).
  do 3 htok. eapply hr_tok; [eapply (hc_send_cut _ (KAck Puback 8) false [64; 2; 0] [8] []); [reflexivity|intro; reflexivity|reflexivity|discriminate]|]; hsimp.
  eapply hr_tok; [eapply (hc_send _ _ []); [reflexivity|intro; discriminate]|]; hsimp.
  hsrv ltac:(eapply (h_take (KAck Puback 224) [0]); [now apply ack_standard|eapply t_puback; reflexivity]). apply hr_nil.
Qed.
Lemma ack_machine : Run true true (mkM NotConnected (fresh_session 3 2) 1 Idle) ack_toks (mkM NotConnected (mkSession 3 [] 2 [StateSpec.F 8 Q1 PubAckSend]) 1 Idle).
Proof.
  unfold ack_toks, fresh_session.
  eapply run_one_tok; [apply s_connect with (ok := true); [exact con1_ok|constructor]|]. cbn [cm_clean con1_msg].
  do 3 (eapply run_one_tok; [apply s_wait_read|]; cbn [app]). eapply run_silent; [apply (s_new_session true)|]. cbn.
  eapply run_one_tok; [apply s_read|]. eapply run_one_tok; [apply s_packet|].
  eapply run_silent; [apply (s_got_publish true true _ _ _ 50 [0; 1; 97; 0; 8; 1; 2] (pub1_msg Q1 8) (mkDpub Q1 false false 2 1 (Some 5) 2)); [| |discriminate|reflexivity]|].
  - split; [cbn; lia|]. split; [reflexivity|]. split; [reflexivity|]. split; [cbn; lia|]. split; [discriminate|intros _; cbn; lia].
  - repeat split; reflexivity.
  - cbn. eapply run_one_tok; [apply s_show|]. eapply run_one_tok; [apply s_owe with (ok := false); constructor|]. cbn. eapply run_one_tok; [apply s_disconnect with (ok := true); [discriminate|constructor]|]. apply run_nil.
Qed.
