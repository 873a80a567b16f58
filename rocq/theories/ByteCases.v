(** Concrete histories for Props_Byte.v. *)
From Verif Require Import Base StateModel StateSpec StateHarness SerModel WireSpec SerHarness CoreModel CoreSpec CoreHarness CoreCases CoreFinal3 Props_Findings
  ConcModel ConcHarness ConcCases Machine MachSpec MachProofs MachProofs5 MachFinal MachCases NetSpec NetProofs NetProofs2 NetProofs3 NetProofs4 NetFinal NetCases InSpec InProofs InProofs2 InProofs3 InProofs4 InFinal InStuck InCases ByteSpec ByteProofs.

(** The history of NetCases.v, but the server also answers a ping, and the reads do not end
    where the packets do. *)
Definition cut_env : env := mkEnv ([32; 2; 0; 0] ++ [32; 2; 1; 0] ++ [80; 2; 0; 8] ++ [208; 0] ++ [112; 2; 0; 8]) [1; 1; 2; 1; 1; 2; 2; 4; 4; 0]
  (repeat 100 20) (repeat 0 99) [] (repeat true 9) [Some (publish_packet (with_dup (pub1_msg Q2 8)))].
Definition cut_calls : list call := [conn1; COp (OPublish (pub1 Q2) 8); COp ODisconnect; conn1; CProcess; CProcess; CProcess; CProcess].
Definition cut_trace : list ev :=
  [EOut con_bytes; EIn [32]; EIn [2]; EIn [0; 0]; EStore 8 [[60; 7; 0; 1]; [97]; [0; 8]; [1; 2]] true; EOut [52; 7; 0; 1; 97; 0; 8; 1; 2]; EOut [224; 0];
   EOut con_bytes; EIn [32]; EIn [2]; EIn [1; 0]; ERetrieve 8 (Some [60; 7; 0; 1; 97; 0; 8; 1; 2]); EOut [60; 7; 0; 1; 97; 0; 8; 1; 2];
   EIn [80; 2]; EIn [0; 8; 208; 0]; EPkt 80 [0; 8]; EClear 8; ECb 80 [0; 8] 8 None Success; EOut [98; 2; 0; 8];
   EIn [112; 2; 0; 8]; EPkt 208 []; EIn []; EPkt 112 [0; 8]; ECb 112 [0; 8] 8 None Success].
Definition cut_toks : list tok := firstn 13 once_toks ++
  [Did (EIn [80; 2]); Did (EIn [0; 8; 208; 0]); Did (EPkt 80 (be16 8)); Did (EClear 8); Did (ECb 80 (be16 8) 8 None Success); Sent (KAck Pubrel 8);
   Did (EIn [112; 2; 0; 8]); Did (EPkt 208 []); Did (EIn []); Did (EPkt 112 (be16 8)); Did (ECb 112 (be16 8) 8 None Success)].
Definition cut_results : list status := [Success; Success; Success; Success; NeedMoreBytes; Success; Success; Success].
Lemma trace_run l w s rs t : c_trace l w s = Some (rs, t) -> exists w', c_run_calls cfg1 l w s = Ret (Some rs, w') (c_after l w s) t.
Proof.
  unfold c_trace, c_after. intro E. destruct (c_run_calls cfg1 l w s) as [[[x|] w'] s' u| |]; try discriminate. exists w'. congruence.
Qed.
Lemma cut_run : legal cfg1 3 2 cut_calls once_world (client1 cut_env) /\ all_fit cfg1 false cut_calls once_world (client1 cut_env) /\
  exists w', c_run_calls cfg1 cut_calls once_world (client1 cut_env) = Ret (Some cut_results, w') (c_after cut_calls once_world (client1 cut_env)) cut_trace.
Proof.
  split; [legal1|]. split; [fits1|]. apply trace_run. vm_compute. reflexivity.
Qed.
Lemma cut_careful : careful cfg1 true cut_calls once_world (client1 cut_env).
Proof. vm_compute. repeat split; discriminate. Qed.
Lemma cut_says : Says cut_trace cut_toks.
Proof.
  unfold cut_trace, cut_toks, once_trace, once_toks. cbn [firstn app]. apply (says_one (KConnect con1_msg)). do 4 (apply says_did; [reflexivity|]). apply (says_one (KPublish (pub1_msg Q2 8))). apply (says_one KDisconnect). apply (says_one (KConnect con1_msg)).
  do 4 (apply says_did; [reflexivity|]). apply (says_one (KAgain 8 [60; 7; 0; 1; 97; 0; 8; 1; 2])). do 5 (apply says_did; [reflexivity|]). apply (says_one (KAck Pubrel 8)). do 5 (apply says_did; [reflexivity|]). constructor.
Qed.
Lemma cut_machine : Run true false (mkM NotConnected (fresh_session 3 2) 1 Idle) cut_toks (mkM Connected (fresh_session 3 2) 1 Idle).
Proof.
  unfold cut_toks, once_toks, fresh_session. cbn [firstn app]. assert (H8 : id_ok 8) by (unfold id_ok; lia).
  eapply run_one_tok; [apply s_connect with (ok := true); [exact con1_ok|constructor]|]. cbn [cm_clean con1_msg].
  do 3 (eapply run_one_tok; [apply s_wait_read|]; cbn [app]). eapply run_silent; [apply (s_new_session true)|]. cbn.
  eapply (run_step _ _ _ [_; _]); [apply s_publish with (m := pub1_msg Q2 8) (ok := true) (ok1 := true) (l0 := [Did (EStore 8 [[60; 7; 0; 1]; [97]; [0; 8]; [1; 2]] true)]) (l := [Sent (KPublish (pub1_msg Q2 8))]) (c' := Connected);
    [now apply pub1_ok|discriminate|left; reflexivity|eexists; split; [|reflexivity]; reflexivity|constructor]|]. cbn.
  eapply run_one_tok; [apply s_disconnect with (ok := true); [discriminate|constructor]|].
  eapply run_one_tok; [apply s_connect with (ok := true); [exact con1_ok|constructor]|]. cbn [cm_clean con1_msg].
  do 3 (eapply run_one_tok; [apply s_wait_read|]; cbn [app]). eapply run_silent; [apply s_old_session|].
  eapply run_silent; [apply s_resume_publish with (id := 8); [reflexivity|cbn; auto]|]. eapply run_one_tok; [apply s_fetch|]. cbn. eapply run_one_tok; [apply s_again with (ok := true); constructor|]. eapply run_silent; [apply s_resumed|].
  do 2 (eapply run_one_tok; [apply s_read|]). eapply run_one_tok; [apply s_packet|]. eapply run_silent; [apply (s_got_ack true false _ _ _ Pubrec 8 H8); reflexivity|]. cbn.
  eapply run_one_tok; [apply s_clear|]. eapply run_one_tok; [apply s_show|]. eapply run_one_tok; [apply s_owe with (ok := true); constructor|]. eapply run_silent; [apply s_note|]. cbn.
  eapply run_one_tok; [apply s_read|]. eapply run_one_tok; [apply s_packet|]. eapply run_silent; [apply s_ignore|].
  eapply run_one_tok; [apply s_read|]. eapply run_one_tok; [apply s_packet|]. eapply run_silent; [apply (s_got_ack true false _ _ _ Pubcomp 8 H8); reflexivity|]. cbn.
  eapply run_one_tok; [apply s_show|]. apply run_nil.
Qed.
Lemma cut_terms : one_session cut_toks /\ no_dups cut_toks /\ keeps_copies cut_toks.
Proof.
  split; [|split].
  - intros x m H E. unfold cut_toks in H. cbn in H. repeat (destruct H as [<-|H]; [cbn in E; try discriminate; injection E as <-; reflexivity|]). contradiction.
  - intros x m H E _. unfold cut_toks in H. cbn in H. repeat (destruct H as [<-|H]; [cbn in E; try discriminate; injection E as <-; reflexivity|]). contradiction.
  - intros k1 id bs k2 E. unfold cut_toks, once_toks in E. cbn [firstn app] in E. do 11 (destruct k1 as [|? k1]; [discriminate|]; cbn in E; injection E as <- E). destruct k1 as [|? k1].
    + cbn in E. injection E as <- <- <-. eexists [_; _; _; _], _, [_; _; _; _; _; _]. split; [reflexivity|]. split; [eexists; split; [reflexivity|reflexivity]|]. repeat constructor; discriminate.
    + exfalso. cbn in E. injection E as <- E. repeat (destruct k1 as [|? k1]; [discriminate|]; cbn in E; injection E as <- E). destruct k1; discriminate.
Qed.
(** the network *)
Inductive brun : bnet -> list tok -> bnet -> Prop :=
| br_nil B : brun B [] B
| br_net B B1 l B' : bstep B B1 -> brun B1 l B' -> brun B l B'
| br_tok B x B1 l B' : bcstep B x B1 -> brun B1 l B' -> brun B (x :: l) B'.
Lemma brun_joint B l B' : brun B l B' -> forall k, BJoint k B -> BJoint (k ++ l) B'.
Proof.
  induction 1 as [|B B1 l B' S R IH|B x B1 l B' S R IH]; intros k H; [now rewrite app_nil_r|apply IH; eapply bjoint_net; eauto|].
  change (x :: l) with ([x] ++ l). rewrite app_assoc. apply IH. eapply bjoint_client; eauto.
Qed.
Definition cut_net : bnet := mkB [] [(80, be16 8); (208, []); (112, be16 8)] false (mkServer true [] [pub1_msg Q2 8]) (Some 1) [32; 2; 1; 0; 80; 2; 0; 8; 208; 0; 112; 2; 0; 8].
Ltac btok := eapply br_tok; [first [apply bc_did; exact I|apply bc_read; eexists; reflexivity|apply bc_connect|apply bc_send; reflexivity]|]; cbn [app existsb opens orb andb negb].
Ltac bsrv r := eapply br_net; [r|]; cbn [app existsb opens orb andb negb v_open].
Lemma cut_joint : BJoint cut_toks cut_net.
Proof.
  refine (brun_joint bnet0 cut_toks cut_net _ [] bjoint_nil). unfold cut_toks, once_toks, bnet0. cbn [firstn app]. assert (H8 : id_ok 8) by (unfold id_ok; lia).
  btok. bsrv ltac:(eapply b_serve; apply v_connect). do 4 btok. btok.
  bsrv ltac:(eapply b_serve; apply v_publish2 with (m := pub1_msg Q2 8); [split; [now apply pub1_ok|reflexivity]|reflexivity]). (* PUBREC is sent, and not read *)
  btok. btok. bsrv ltac:(eapply b_serve; apply v_other; exact I). bsrv ltac:(eapply b_serve; apply v_connect). do 5 btok.
  bsrv ltac:(eapply b_serve; apply v_publish2 with (m := with_dup (pub1_msg Q2 8)); [split; [apply dup_ok; now apply pub1_ok|reflexivity]|reflexivity]).
  bsrv ltac:(apply (b_other 208 []); [lia|lia|lia|]; split; [unfold first_ok, is_byte; cbn; lia|cbn; unfold max_remaining; lia]).
  do 6 btok. bsrv ltac:(eapply b_serve; now apply v_pubrel). do 5 btok. apply br_nil.
Qed.
(** the history of InCases.v *)
Lemma in_careful : careful cfg1 true in_calls in_world (client1 in_env).
Proof. vm_compute. repeat split; discriminate. Qed.
Inductive birun : binet -> list tok -> binet -> Prop :=
| bir_nil B : birun B [] B
| bir_net B B1 l B' : bwstep B B1 -> birun B1 l B' -> birun B l B'
| bir_tok B x B1 l B' : bkstep B x B1 -> birun B1 l B' -> birun B (x :: l) B'.
Lemma birun_linked B l B' : birun B l B' -> forall k, BLinked k B -> BLinked (k ++ l) B'.
Proof.
  induction 1 as [|B B1 l B' S R IH|B x B1 l B' S R IH]; intros k H; [now rewrite app_nil_r|apply IH; eapply blinked_net; eauto|].
  change (x :: l) with ([x] ++ l). rewrite app_assoc. apply IH. eapply blinked_client; eauto.
Qed.
Definition in_bnet : binet := mkBI [] [DPub (as_dup (pub1_msg Q2 8)); DRel 8] false (mkSender true [] [] [pub1_msg Q2 8]) (Some 1) [32; 2; 1; 0; 60; 7; 0; 1; 97; 0; 8; 1; 2; 98; 2; 0; 8].
Ltac bitok := eapply bir_tok; [first [apply bk_did; exact I|apply bk_read; eexists; reflexivity|apply bk_connect|apply bk_send; reflexivity]|]; cbn [app existsb asks_in orb andb negb].
Ltac bisrv r := eapply bir_net; [r|]; cbn [app existsb asks_in orb andb negb w_open].
Lemma in_blinked : BLinked in_toks in_bnet.
Proof.
  refine (birun_linked binet0 in_toks in_bnet _ [] blinked_nil). unfold in_toks, binet0. assert (H8 : id_ok 8) by (unfold id_ok; lia).
  bitok. bisrv ltac:(eapply bw_take; apply t_connect). do 3 bitok.
  bisrv ltac:(eapply (bw_new (pub1_msg Q2 8)); [reflexivity|split; [now apply pub1_ok|discriminate]|reflexivity|reflexivity]).
  do 5 bitok. bisrv ltac:(apply (bw_lose_up [] (KAck Pubrec 8)); discriminate). bitok. bisrv ltac:(eapply bw_take; apply t_ignore; exact I). bisrv ltac:(eapply bw_take; apply t_connect).
  do 3 bitok. bisrv ltac:(eapply (bw_again 8); [left; reflexivity|reflexivity|reflexivity]).
  do 3 bitok. bisrv ltac:(eapply bw_take; eapply t_pubrec; reflexivity). do 4 bitok. bisrv ltac:(eapply bw_take; eapply t_pubcomp; reflexivity). apply bir_nil.
Qed.
