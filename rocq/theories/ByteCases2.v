(** Concrete histories for Props_Byte.v: QoS 1. *)
From Verif Require Import Base StateModel StateSpec StateHarness SerModel WireSpec SerHarness CoreModel CoreSpec CoreHarness CoreCases CoreFinal3 Props_Findings
  ConcModel ConcHarness ConcCases Machine MachSpec MachProofs MachProofs5 MachFinal MachCases NetSpec NetProofs NetProofs2 NetProofs3 NetProofs4 NetFinal NetCases OutSpec OutHist OutCases ByteSpec ByteProofs ByteCases.

(** the history of OutCases.v *)
Lemma lost_careful : careful1 cfg1 true lost_calls (client1 lost_env).
Proof. vm_compute. repeat split; discriminate. Qed.
Definition lost_bnet : bnet := mkB [] [(64, be16 8)] false (mkServer true [] [pub1_msg Q1 8; with_dup (pub1_msg Q1 8)]) (Some 1) [32; 2; 1; 0; 64; 2; 0; 8].
Lemma lost_bjoint : BJoint lost_toks lost_bnet.
Proof.
  refine (brun_joint bnet0 lost_toks lost_bnet _ [] bjoint_nil). unfold lost_toks, bnet0. assert (H8 : id_ok 8) by (unfold id_ok; lia).
  btok. bsrv ltac:(eapply b_serve; apply v_connect). do 5 btok.
  bsrv ltac:(eapply b_serve; apply v_publish1 with (m := pub1_msg Q1 8); [split; [now apply pub1_ok|reflexivity]|reflexivity]). (* PUBACK is sent, and not read *)
  btok. btok. bsrv ltac:(eapply b_serve; apply v_other; exact I). bsrv ltac:(eapply b_serve; apply v_connect). do 5 btok.
  bsrv ltac:(eapply b_serve; apply v_publish1 with (m := with_dup (pub1_msg Q1 8)); [split; [apply dup_ok; now apply pub1_ok|reflexivity]|reflexivity]).
  do 4 btok. apply br_nil.
Qed.

(** The publish is lost.  The server sends a packet of 42 bytes, the buffer has 32; its last
    10 bytes come late, and MQTT_ReceiveLoop returns MQTTRecvFailed.  The application calls it
    once more: it takes these bytes for packets. *)
Definition gap_body : list Z := [0; 1; 97] ++ repeat 7 27 ++ [64; 2; 0; 8] ++ repeat 7 6.
Definition gap_env : env := mkEnv ([32; 2; 0; 0] ++ [48; 40] ++ gap_body) [1; 1; 2; 32; 0; 10]
  (repeat 100 20) (repeat 0 12 ++ repeat 30000 20) [] (repeat true 9) [].
Definition gap_calls : list call := [conn1; COp (OPublish (pub1 Q1) 8); CReceive; CReceive].
Definition gap_results : list status := [Success; Success; RecvFailed; Success].
Definition gap_trace : list ev :=
  [EOut con_bytes; EIn [32]; EIn [2]; EIn [0; 0]; EStore 8 [[58; 7; 0; 1]; [97]; [0; 8]; [1; 2]] true; EOut [50; 7; 0; 1; 97; 0; 8; 1; 2];
   EIn ([48; 40; 0; 1; 97] ++ repeat 7 27); EDrop 48 40; EIn []; EIn [64; 2; 0; 8; 7; 7; 7; 7; 7; 7]; EPkt 64 [0; 8]; EClear 8; ECb 64 [0; 8] 8 None Success].
Definition gap_toks : list tok :=
  [Sent (KConnect con1_msg); Did (EIn [32]); Did (EIn [2]); Did (EIn [0; 0]); Did (EStore 8 [[58; 7; 0; 1]; [97]; [0; 8]; [1; 2]] true); Sent (KPublish (pub1_msg Q1 8));
   Did (EIn ([48; 40; 0; 1; 97] ++ repeat 7 27)); Did (EDrop 48 40); Did (EIn []); Did (EIn [64; 2; 0; 8; 7; 7; 7; 7; 7; 7]); Did (EPkt 64 (be16 8)); Did (EClear 8); Did (ECb 64 (be16 8) 8 None Success)].
Lemma gap_run : legal cfg1 3 2 gap_calls (mkW false []) (client1 gap_env) /\ all_fit cfg1 false gap_calls (mkW false []) (client1 gap_env) /\
  exists w', c_run_calls cfg1 gap_calls (mkW false []) (client1 gap_env) = Ret (Some gap_results, w') (c_after gap_calls (mkW false []) (client1 gap_env)) gap_trace.
Proof. split; [legal1|]. split; [fits1|]. apply trace_run. vm_compute. reflexivity. Qed.
Lemma gap_says : Says gap_trace gap_toks.
Proof.
  unfold gap_trace, gap_toks. apply (says_one (KConnect con1_msg)). do 4 (apply says_did; [reflexivity|]). apply (says_one (KPublish (pub1_msg Q1 8))). do 7 (apply says_did; [reflexivity|]). constructor.
Qed.
Lemma gap_terms : one_session gap_toks /\ no_dups gap_toks /\ keeps_copies gap_toks.
Proof.
  split; [|split].
  - intros x m H E. unfold gap_toks in H. cbn in H. repeat (destruct H as [<-|H]; [cbn in E; try discriminate; injection E as <-; reflexivity|]). contradiction.
  - intros x m H E _. unfold gap_toks in H. cbn in H. repeat (destruct H as [<-|H]; [cbn in E; try discriminate; injection E as <-; reflexivity|]). contradiction.
  - intros k1 id bs k2 E. exfalso. unfold gap_toks in E. repeat (destruct k1 as [|? k1]; [discriminate|]; cbn in E; injection E as <- E). destruct k1; discriminate.
Qed.
Definition gap_bnet : bnet := mkB [] [(48, gap_body)] false (mkServer true [] []) (Some 0) ([32; 2; 0; 0] ++ [48; 40] ++ gap_body).
Lemma gap_bjoint : BJoint gap_toks gap_bnet.
Proof.
  refine (brun_joint bnet0 gap_toks gap_bnet _ [] bjoint_nil). unfold gap_toks, bnet0. assert (H8 : id_ok 8) by (unfold id_ok; lia).
  btok. bsrv ltac:(eapply b_serve; apply v_connect). do 5 btok. bsrv ltac:(apply (b_lose_up [] (KPublish (pub1_msg Q1 8))); discriminate).
  bsrv ltac:(apply (b_other 48 gap_body); [lia|lia|lia|]; split; [unfold first_ok, is_byte; cbn; lia|cbn; unfold max_remaining; lia]).
  do 7 btok. apply br_nil.
Qed.
