(** What the server reads on each connection: C115. *)
From Verif Require Import Base StateModel StateSpec StateHarness SerModel WireSpec SerHarness CoreModel CoreSpec CoreHarness CoreCases CoreFinal3 Props_Findings
  ConcModel ConcHarness ConcCases Machine MachSpec MachProofs MachProofs5 MachFinal MachCases NetSpec NetProofs NetCases OutHist WireProofs ByteSpec ByteCases FullSpec FullCases LineSpec LineProofs ReqCases.

Inductive lrun (st : bool) : list line -> list tok -> list line -> Prop :=
| lr_nil N : lrun st N [] N
| lr_net N N1 l N' : lstep N N1 -> lrun st N1 l N' -> lrun st N l N'
| lr_tok N x N1 l N' : lcstep st N x N1 -> lrun st N1 l N' -> lrun st N (x :: l) N'.
Lemma lrun_wired st N l N' : lrun st N l N' -> forall k, Wired st k N -> Wired st (k ++ l) N'.
Proof.
  induction 1 as [|N N1 l N' S R IH|N x N1 l N' S R IH]; intros k H; [now rewrite app_nil_r|apply IH; eapply wired_net; eauto|].
  change (x :: l) with ([x] ++ l). rewrite app_assoc. apply IH. eapply wired_client; eauto.
Qed.
Ltac lsmp := cbn [app give t_alive t_half t_bytes negb].
Ltac ltok := eapply lr_tok; [first [apply lc_did|apply lc_connect|apply lc_send; [reflexivity|intro; reflexivity]]|]; lsmp.
Ltac lsrv r := eapply lr_net; [r|]; lsmp.
(** the history of FullCases.v: of the first connection a part of the publish arrives *)
Definition half_lines : list line :=
  [mkL (mkS [] true false) [KConnect con1_msg; KPublish (with_dup (pub1_msg Q2 8))]; mkL (mkS [52; 7; 0; 1; 97; 0; 8] false true) [KConnect con1_msg]; line0].
Lemma half_wired : Wired true half_toks half_lines.
Proof.
  refine (lrun_wired true [line0] half_toks half_lines _ [] (wired_nil true)). unfold half_toks.
  do 5 ltok. eapply lr_tok; [apply (lc_send_cut _ (KPublish (pub1_msg Q2 8)) false [52; 7; 0; 1; 97; 0; 8] [1; 2]); [reflexivity|intro; reflexivity|reflexivity|discriminate]|]; lsmp.
  lsrv ltac:(apply (l_read (KConnect con1_msg) [52; 7; 0; 1; 97; 0; 8] true true [] []); exact con1_std).
  lsrv ltac:(apply (l_break [52; 7; 0; 1; 97; 0; 8] [] true true _ [])). do 7 ltok.
  lsrv ltac:(apply (l_read (KConnect con1_msg) (bytes (KPublish (with_dup (pub1_msg Q2 8)))) true false [] []); exact con1_std).
  lsrv ltac:(apply (l_read (KPublish (with_dup (pub1_msg Q2 8))) [] true false _ []); apply dup1_std; discriminate). apply lr_nil.
Qed.
(** the history of ReqCases.v, in which a message is published after the half of a SUBSCRIBE *)
Definition mix_lines : list line := [mkL (mkS [1; 97; 1; 2] true true) [KConnect con1_msg; KSubscribe 3 mix_filter]; line0].
Lemma mix_wired : Wired false mix_toks mix_lines.
Proof.
  refine (lrun_wired false [line0] mix_toks mix_lines _ [] (wired_nil false)). unfold mix_toks.
  do 4 ltok. eapply lr_tok; [apply (lc_send_cut _ (KSubscribe 3 abc_filter) false [130; 8; 0; 3; 0; 3; 97] [98; 99; 1]); [reflexivity|intro; reflexivity|reflexivity|discriminate]|]; lsmp.
  eapply lr_tok; [apply lc_send; [reflexivity|intro; discriminate]|]; lsmp.
  lsrv ltac:(apply (l_read (KConnect con1_msg) (bytes (KSubscribe 3 mix_filter) ++ [1; 97; 1; 2]) true true [] []); exact con1_std).
  lsrv ltac:(apply (l_read (KSubscribe 3 mix_filter) [1; 97; 1; 2] true true _ []); split; [exact mix_ok|exact I]). do 3 ltok. apply lr_nil.
Qed.

(** *** C115 *)
(** The packets the server reads from a connection are the first of those sent on it, all of
    them when it is up and nothing is on its way; with connections that break at any byte, partial
    sends and a server that reads the connections in any order, when nothing is sent on a
    connection after a send that timed out. *)
Theorem packets_as_sent : forall G n m l w s rs w' s' t cn, legal G n m l w s -> g_big G = false ->
  c_run_calls G l w s = Ret (Some rs, w') s' t -> all_fit G cn l w s ->
  exists k, Says t k /\
  Run (x_retr (s_ctx s)) cn (mkM NotConnected (fresh_session n m) 1 Idle) k (mkM (x_status (s_ctx s')) (session_of n m s') (x_nextId (s_ctx s')) Idle) /\
  (keeps_copies k -> forall k1 k2 N, k = k1 ++ k2 -> Wired true k1 N -> Forall2 line_ok (lines k1) N).
Proof. intros. eapply line_history; eauto. Qed.
Print Assumptions packets_as_sent.
(** a part of a publish on the first connection; on the second it is sent again and read *)
Example packets_as_sent_case : (legal cfg1 3 2 half_calls (mkW false []) (client1 half_env) /\ all_fit cfg1 false half_calls (mkW false []) (client1 half_env) /\
  exists w', c_run_calls cfg1 half_calls (mkW false []) (client1 half_env) = Ret (Some half_results, w') (c_after half_calls (mkW false []) (client1 half_env)) half_trace) /\
  Says half_trace half_toks /\ machine_run 3 2 (client1 half_env) (c_after half_calls (mkW false []) (client1 half_env)) half_toks /\ keeps_copies half_toks /\ Wired true half_toks half_lines /\
  lines half_toks = [[KConnect con1_msg; KAgain 8 [60; 7; 0; 1; 97; 0; 8; 1; 2]]; [KConnect con1_msg; KDisconnect]; []] /\
  map l_got half_lines = [[KConnect con1_msg; KPublish (with_dup (pub1_msg Q2 8))]; [KConnect con1_msg]; []].
Proof.
  split; [exact half_run|]. split; [exact half_says|]. split; [exact half_machine|]. split; [exact (proj2 (proj2 half_terms))|]. split; [exact half_wired|]. split; reflexivity.
Qed.
(** The condition is met when no send times out. *)
Theorem without_timeouts_lines : forall k N, Wired false k N -> no_timeouts k -> Wired true k N.
Proof. intros k N H1 H2. exact (proj1 (undelayed_wired k N H1 H2)). Qed.
Print Assumptions without_timeouts_lines.
(** Refuted otherwise: the server reads a SUBSCRIBE that was never sent, and not the publish. *)
Theorem packets_as_sent_refuted : exists l w s rs w' s' t k N,
  legal cfg1 3 2 l w s /\ g_big cfg1 = false /\ all_fit cfg1 true l w s /\ c_run_calls cfg1 l w s = Ret (Some rs, w') s' t /\
  Says t k /\ (exists a, Run true true (mkM NotConnected (fresh_session 3 2) 1 Idle) k a) /\ keeps_copies k /\ Wired false k N /\
  lines k = [[KConnect con1_msg; KPublish (pub1_msg Q0 0)]; []] /\ map l_got N = [[KConnect con1_msg; KSubscribe 3 [([97; 48; 5], Q0)]]; []] /\ ~ Forall2 line_ok (lines k) N.
Proof.
  destruct mix_run as (H1 & H2 & w' & H3). exists mix_calls, (mkW false []), (client1 mix_env), mix_results, w', (c_after mix_calls (mkW false []) (client1 mix_env)), mix_trace, mix_toks, mix_lines.
  split; [exact H1|]. split; [reflexivity|]. split; [exact H2|]. split; [exact H3|]. split; [exact mix_says|]. split; [eexists; exact mix_machine|]. split; [exact mix_copies|]. split; [exact mix_wired|].
  split; [reflexivity|]. split; [reflexivity|]. intro K. change (lines mix_toks) with [[KConnect con1_msg; KPublish (pub1_msg Q0 0)]; []] in K. inversion K as [|? ? ? ? (ps & rest & E & F & _) _]; subst.
  cbn [l_got] in F. inversion F as [|p1 ? ps1 ? _ F1]; subst. inversion F1 as [|p2 ? ps2 ? U F2]; subst. cbn in E. injection E as <- <- _. discriminate U.
Qed.
Print Assumptions packets_as_sent_refuted.
