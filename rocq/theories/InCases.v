(** Concrete histories for Props_In.v. *)
From Verif Require Import Base StateModel StateSpec StateHarness SerModel WireSpec SerHarness CoreModel CoreSpec CoreHarness CoreCases CoreFinal3 Props_Findings
  ConcModel ConcHarness ConcCases Machine MachSpec MachProofs MachProofs5 MachFinal MachCases NetCases InSpec InProofs InProofs2 InProofs3 InProofs4 InFinal InStuck.

(** a QoS 2 publish comes, the PUBREC is lost, the session is resumed *)
Definition in_env : env := mkEnv ([32; 2; 0; 0] ++ [52; 7; 0; 1; 97; 0; 8; 1; 2] ++ [32; 2; 1; 0] ++ [60; 7; 0; 1; 97; 0; 8; 1; 2] ++ [98; 2; 0; 8]) [1; 1; 2; 9; 1; 1; 2; 9; 4]
  (repeat 100 20) (repeat 0 99) [] (repeat true 9) [].
Definition in_calls : list call := [conn1; CProcess; COp ODisconnect; conn1; CProcess; CProcess].
Definition in_world : world := mkW false [].
(** a QoS 2 publish comes, the PUBCOMP is lost, the session is resumed *)
Definition lost_env : env := mkEnv ([32; 2; 0; 0] ++ [52; 7; 0; 1; 97; 0; 8; 1; 2] ++ [98; 2; 0; 8] ++ [32; 2; 1; 0] ++ [98; 2; 0; 8]) [1; 1; 2; 9; 4; 1; 1; 2; 4]
  (repeat 100 20) (repeat 0 99) [] (repeat true 9) [].
Definition lost_calls : list call := [conn1; CProcess; CProcess; COp ODisconnect; conn1; CProcess].
Definition in_d (dup : bool) : dpub := mkDpub Q2 false dup 2 1 (Some 5) 2.
Definition in_cb : ev := ECb 52 [0; 1; 97; 0; 8; 1; 2] 8 (Some (in_d false)) Success.
Definition in_trace : list ev :=
  [EOut con_bytes; EIn [32]; EIn [2]; EIn [0; 0]; EIn [52; 7; 0; 1; 97; 0; 8; 1; 2]; EPkt 52 [0; 1; 97; 0; 8; 1; 2]; in_cb; EOut [80; 2; 0; 8]; EOut [224; 0];
   EOut con_bytes; EIn [32]; EIn [2]; EIn [1; 0]; EIn [60; 7; 0; 1; 97; 0; 8; 1; 2]; EPkt 60 [0; 1; 97; 0; 8; 1; 2]; EOut [80; 2; 0; 8];
   EIn [98; 2; 0; 8]; EPkt 98 [0; 8]; ECb 98 [0; 8] 8 None Success; EOut [112; 2; 0; 8]].
Definition in_toks : list tok :=
  [Sent (KConnect con1_msg); Did (EIn [32]); Did (EIn [2]); Did (EIn [0; 0]); Did (EIn [52; 7; 0; 1; 97; 0; 8; 1; 2]); Did (EPkt 52 [0; 1; 97; 0; 8; 1; 2]); Did in_cb; Sent (KAck Pubrec 8); Sent KDisconnect;
   Sent (KConnect con1_msg); Did (EIn [32]); Did (EIn [2]); Did (EIn [1; 0]); Did (EIn [60; 7; 0; 1; 97; 0; 8; 1; 2]); Did (EPkt 60 [0; 1; 97; 0; 8; 1; 2]); Sent (KAck Pubrec 8);
   Did (EIn [98; 2; 0; 8]); Did (EPkt 98 (be16 8)); Did (ECb 98 (be16 8) 8 None Success); Sent (KAck Pubcomp 8)].
Definition lost_trace : list ev :=
  [EOut con_bytes; EIn [32]; EIn [2]; EIn [0; 0]; EIn [52; 7; 0; 1; 97; 0; 8; 1; 2]; EPkt 52 [0; 1; 97; 0; 8; 1; 2]; in_cb; EOut [80; 2; 0; 8];
   EIn [98; 2; 0; 8]; EPkt 98 [0; 8]; ECb 98 [0; 8] 8 None Success; EOut [112; 2; 0; 8]; EOut [224; 0];
   EOut con_bytes; EIn [32]; EIn [2]; EIn [1; 0]; EIn [98; 2; 0; 8]; EPkt 98 [0; 8]].
Definition lost_toks : list tok :=
  [Sent (KConnect con1_msg); Did (EIn [32]); Did (EIn [2]); Did (EIn [0; 0]); Did (EIn [52; 7; 0; 1; 97; 0; 8; 1; 2]); Did (EPkt 52 [0; 1; 97; 0; 8; 1; 2]); Did in_cb; Sent (KAck Pubrec 8);
   Did (EIn [98; 2; 0; 8]); Did (EPkt 98 (be16 8)); Did (ECb 98 (be16 8) 8 None Success); Sent (KAck Pubcomp 8); Sent KDisconnect;
   Sent (KConnect con1_msg); Did (EIn [32]); Did (EIn [2]); Did (EIn [1; 0]); Did (EIn [98; 2; 0; 8]); Did (EPkt 98 (be16 8))].
Lemma in_run : legal cfg1 3 2 in_calls in_world (client1 in_env) /\ all_fit cfg1 true in_calls in_world (client1 in_env) /\
  exists w', c_run_calls cfg1 in_calls in_world (client1 in_env) = Ret (Some (repeat Success 6), w') (c_after in_calls in_world (client1 in_env)) in_trace.
Proof.
  split; [legal1|]. split; [fits1|]. assert (E2 : c_trace in_calls in_world (client1 in_env) = Some (repeat Success 6, in_trace)) by (vm_compute; reflexivity).
  unfold c_trace, c_after in *. destruct (c_run_calls cfg1 in_calls in_world (client1 in_env)) as [[[rs|] w'] s' t| |]; try discriminate. assert (t = in_trace) by congruence. assert (rs = repeat Success 6) by congruence. subst t rs. eauto.
Qed.
Lemma lost_run : legal cfg1 3 2 lost_calls in_world (client1 lost_env) /\ all_fit cfg1 true lost_calls in_world (client1 lost_env) /\
  exists w', c_run_calls cfg1 lost_calls in_world (client1 lost_env) = Ret (Some (repeat Success 5 ++ [BadResponse]), w') (c_after lost_calls in_world (client1 lost_env)) lost_trace.
Proof.
  split; [legal1|]. split; [fits1|]. assert (E2 : c_trace lost_calls in_world (client1 lost_env) = Some (repeat Success 5 ++ [BadResponse], lost_trace)) by (vm_compute; reflexivity).
  unfold c_trace, c_after in *. destruct (c_run_calls cfg1 lost_calls in_world (client1 lost_env)) as [[[rs|] w'] s' t| |]; try discriminate. assert (t = lost_trace) by congruence. assert (rs = repeat Success 5 ++ [BadResponse]) by congruence. subst t rs. eauto.
Qed.
Lemma in_says : Says in_trace in_toks.
Proof.
  unfold in_trace, in_toks. apply (says_one (KConnect con1_msg)). do 6 (apply says_did; [reflexivity|]). apply (says_one (KAck Pubrec 8)). apply (says_one KDisconnect). apply (says_one (KConnect con1_msg)).
  do 5 (apply says_did; [reflexivity|]). apply (says_one (KAck Pubrec 8)). do 3 (apply says_did; [reflexivity|]). apply (says_one (KAck Pubcomp 8)). constructor.
Qed.
Lemma lost_says : Says lost_trace lost_toks.
Proof.
  unfold lost_trace, lost_toks. apply (says_one (KConnect con1_msg)). do 6 (apply says_did; [reflexivity|]). apply (says_one (KAck Pubrec 8)). do 3 (apply says_did; [reflexivity|]). apply (says_one (KAck Pubcomp 8)). apply (says_one KDisconnect). apply (says_one (KConnect con1_msg)).
  do 5 (apply says_did; [reflexivity|]). constructor.
Qed.
Lemma pub_in dup : publish_means (publish_first (mkPublish dup Q2 false [97] 8 [1; 2])) (publish_body (mkPublish dup Q2 false [97] 8 [1; 2])) (mkPublish dup Q2 false [97] 8 [1; 2]).
Proof.
  split; [destruct dup; cbn; lia|]. split; [reflexivity|]. split; [reflexivity|]. split; [cbn; lia|]. split; [discriminate|intros _; cbn; lia].
Qed.
Lemma in_machine : Run true true (mkM NotConnected (fresh_session 3 2) 1 Idle) in_toks (mkM Connected (fresh_session 3 2) 1 Idle).
Proof.
  unfold in_toks, fresh_session. assert (H8 : id_ok 8) by (unfold id_ok; lia).
  eapply run_one_tok; [apply s_connect with (ok := true); [exact con1_ok|constructor]|]. cbn [cm_clean con1_msg].
  do 3 (eapply run_one_tok; [apply s_wait_read|]; cbn [app]). eapply run_silent; [apply (s_new_session true)|]. cbn.
  eapply run_one_tok; [apply s_read|]. eapply run_one_tok; [apply s_packet|]. eapply run_silent; [apply (s_got_publish true true _ _ _ 52 [0; 1; 97; 0; 8; 1; 2] _ (in_d false) (pub_in false)); [|discriminate|reflexivity]|].
  { repeat split; reflexivity. }
  cbn. eapply run_one_tok; [apply s_show|]. eapply run_one_tok; [apply s_owe with (ok := true); constructor|]. eapply run_silent; [apply s_note|]. cbn.
  eapply run_one_tok; [apply s_disconnect with (ok := true); [discriminate|constructor]|].
  eapply run_one_tok; [apply s_connect with (ok := true); [exact con1_ok|constructor]|]. cbn [cm_clean con1_msg].
  do 3 (eapply run_one_tok; [apply s_wait_read|]; cbn [app]). eapply run_silent; [apply s_old_session|]. eapply run_silent; [apply s_resumed|].
  eapply run_one_tok; [apply s_read|]. eapply run_one_tok; [apply s_packet|]. eapply run_silent; [apply (s_got_repeated true true _ _ _ 60 [0; 1; 97; 0; 8; 1; 2] _ (pub_in true)); [discriminate|reflexivity]|].
  eapply run_one_tok; [apply s_owe with (ok := true); constructor|]. eapply run_silent; [apply s_note|]. cbn.
  eapply run_one_tok; [apply s_read|]. eapply run_one_tok; [apply s_packet|]. eapply run_silent; [apply (s_got_ack true true _ _ _ Pubrel 8 H8); reflexivity|]. cbn.
  eapply run_one_tok; [apply s_show|]. eapply run_one_tok; [apply s_owe with (ok := true); constructor|]. eapply run_silent; [apply s_note|]. cbn. apply run_nil.
Qed.
Lemma lost_machine : Run true true (mkM NotConnected (fresh_session 3 2) 1 Idle) lost_toks (mkM Connected (fresh_session 3 2) 1 Idle).
Proof.
  unfold lost_toks, fresh_session. assert (H8 : id_ok 8) by (unfold id_ok; lia).
  eapply run_one_tok; [apply s_connect with (ok := true); [exact con1_ok|constructor]|]. cbn [cm_clean con1_msg].
  do 3 (eapply run_one_tok; [apply s_wait_read|]; cbn [app]). eapply run_silent; [apply (s_new_session true)|]. cbn.
  eapply run_one_tok; [apply s_read|]. eapply run_one_tok; [apply s_packet|]. eapply run_silent; [apply (s_got_publish true true _ _ _ 52 [0; 1; 97; 0; 8; 1; 2] _ (in_d false) (pub_in false)); [|discriminate|reflexivity]|].
  { repeat split; reflexivity. }
  cbn. eapply run_one_tok; [apply s_show|]. eapply run_one_tok; [apply s_owe with (ok := true); constructor|]. eapply run_silent; [apply s_note|]. cbn.
  eapply run_one_tok; [apply s_read|]. eapply run_one_tok; [apply s_packet|]. eapply run_silent; [apply (s_got_ack true true _ _ _ Pubrel 8 H8); reflexivity|]. cbn.
  eapply run_one_tok; [apply s_show|]. eapply run_one_tok; [apply s_owe with (ok := true); constructor|]. eapply run_silent; [apply s_note|]. cbn.
  eapply run_one_tok; [apply s_disconnect with (ok := true); [discriminate|constructor]|].
  eapply run_one_tok; [apply s_connect with (ok := true); [exact con1_ok|constructor]|]. cbn [cm_clean con1_msg].
  do 3 (eapply run_one_tok; [apply s_wait_read|]; cbn [app]). eapply run_silent; [apply s_old_session|]. eapply run_silent; [apply s_resumed|].
  eapply run_one_tok; [apply s_read|]. eapply run_one_tok; [apply s_packet|]. eapply run_silent; [apply s_ignore|]. apply run_nil.
Qed.
Lemma ws_cons N N1 N' : wstep N N1 -> wsteps N1 N' -> wsteps N N'.
Proof. intros H K. eapply wsteps_trans; [eapply ws_step; [constructor|eauto]|exact K]. Qed.
Ltac acts := first [apply k_did; exact I|apply k_read; reflexivity|apply (k_packet (DRel 8))|apply (k_packet (DPub (pub1_msg Q2 8)))|apply (k_packet (DPub (as_dup (pub1_msg Q2 8))))|apply k_connect|apply k_send; reflexivity].
Ltac still := eapply wr_tok; [apply ws_nil|acts|]; cbn [app i_up].
Ltac first_then r := eapply wr_tok; [r|acts|]; cbn.
Definition in_net : inet := mkInet [] [] false (mkSender true [] [] [pub1_msg Q2 8]) (Some 1) [32; 2; 1; 0; 60; 7; 0; 1; 97; 0; 8; 1; 2; 98; 2; 0; 8].
Lemma in_linked : Linked in_toks in_net.
Proof.
  apply (linked_wrun in_toks [] inet0); [constructor|]. unfold in_toks, inet0. assert (H8 : id_ok 8) by (unfold id_ok; lia). still.
  first_then ltac:(eapply ws_cons; [eapply w_take; apply t_connect|apply ws_nil]). do 2 still.
  first_then ltac:(eapply ws_cons; [eapply (w_new (pub1_msg Q2 8)); [reflexivity|split; [now apply pub1_ok|discriminate]|reflexivity|reflexivity]|apply ws_nil]).
  do 4 still. (* the PUBREC is lost *)
  still. eapply wr_tok; [eapply ws_cons; [apply (w_lose_up [] (KAck Pubrec 8)); discriminate|]; eapply ws_cons; [eapply w_take; apply t_ignore; exact I|]; eapply ws_cons; [eapply w_take; apply t_connect|apply ws_nil]|acts|]; cbn.
  do 2 still. first_then ltac:(eapply ws_cons; [eapply (w_again 8); [left; reflexivity|reflexivity|reflexivity]|apply ws_nil]).
  do 2 still. first_then ltac:(eapply ws_cons; [eapply w_take; eapply t_pubrec; reflexivity|apply ws_nil]). do 2 still. still.
  apply wr_nil. eapply ws_cons; [eapply w_take; eapply t_pubcomp; reflexivity|apply ws_nil].
Qed.
Definition lost_net : inet := mkInet [] [] false (mkSender true [(pub1_msg Q2 8, true)] [] [pub1_msg Q2 8]) (Some 1) [32; 2; 1; 0; 98; 2; 0; 8].
Lemma lost_linked : Linked lost_toks lost_net.
Proof.
  apply (linked_wrun lost_toks [] inet0); [constructor|]. unfold lost_toks, inet0. assert (H8 : id_ok 8) by (unfold id_ok; lia). still.
  first_then ltac:(eapply ws_cons; [eapply w_take; apply t_connect|apply ws_nil]). do 2 still.
  first_then ltac:(eapply ws_cons; [eapply (w_new (pub1_msg Q2 8)); [reflexivity|split; [now apply pub1_ok|discriminate]|reflexivity|reflexivity]|apply ws_nil]).
  do 3 still. first_then ltac:(eapply ws_cons; [eapply w_take; eapply t_pubrec; reflexivity|apply ws_nil]). do 3 still. (* the PUBCOMP is lost *)
  still. still. eapply wr_tok; [eapply ws_cons; [apply (w_lose_up [] (KAck Pubcomp 8)); discriminate|]; eapply ws_cons; [eapply w_take; apply t_ignore; exact I|]; eapply ws_cons; [eapply w_take; apply t_connect|apply ws_nil]|acts|]; cbn.
  do 2 still. first_then ltac:(eapply ws_cons; [eapply (w_again 8); [left; reflexivity|reflexivity|reflexivity]|apply ws_nil]).
  still. apply wr_nil, ws_nil.
Qed.
Lemma in_same : same_session in_toks /\ same_session lost_toks.
Proof.
  split; intros x m H E; unfold in_toks, lost_toks in H; cbn in H; repeat (destruct H as [<-|H]; [cbn in E; try discriminate; injection E as <-; reflexivity|]); contradiction.
Qed.
Lemma in_handed : handed [pub1_msg Q2 8] [Did in_cb].
Proof.
  apply (handed_snoc [] []); [constructor|discriminate| |reflexivity]. constructor; [|constructor]. exists (pub1_msg Q2 8), (in_d false). split; [reflexivity|]. split; [repeat split; reflexivity|reflexivity].
Qed.
