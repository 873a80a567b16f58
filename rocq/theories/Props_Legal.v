(** What a server that checks the packets finds: C116. *)
From Verif Require Import Base StateModel StateSpec StateHarness SerModel WireSpec SerHarness CoreModel CoreSpec CoreHarness CoreCases CoreFinal3 Props_Findings
  ConcModel ConcHarness ConcCases Machine MachSpec MachProofs MachProofs5 MachFinal MachCases NetSpec NetProofs NetCases OutHist WireProofs ByteSpec ByteCases FullSpec FullCases LineSpec LineProofs LegalSpec LegalProofs ReqCases Props_Line.

(** *** C116 *)
(** The packets sent completely on each connection are in order, whatever the transport does. *)
Theorem connections_in_order : forall G n m l w s rs w' s' t cn, legal G n m l w s -> g_big G = false ->
  c_run_calls G l w s = Ret (Some rs, w') s' t -> all_fit G cn l w s ->
  exists k, Says t k /\
  Run (x_retr (s_ctx s)) cn (mkM NotConnected (fresh_session n m) 1 Idle) k (mkM (x_status (s_ctx s')) (session_of n m s') (x_nextId (s_ctx s')) Idle) /\
  Forall in_order (lines k).
Proof.
  intros G n m l w s rs w' s' t cn H1 H2 H4 H3. destruct (refinement _ _ _ _ _ _ _ _ _ _ _ H1 H2 H3 H4) as (k & S & R). exists k. split; auto. split; auto.
  eapply lines_in_order, run_upon, R.
Qed.
Print Assumptions connections_in_order.
(** The server reads a CONNECT first, no other on the same connection, and nothing after a
    DISCONNECT, on connections that break at any byte; what it has not read yet is packets of the
    standard and at most a part of another; when nothing is sent on a connection after a send that
    timed out. *)
Theorem server_finds_order : forall G n m l w s rs w' s' t cn, legal G n m l w s -> g_big G = false ->
  c_run_calls G l w s = Ret (Some rs, w') s' t -> all_fit G cn l w s ->
  exists k, Says t k /\
  Run (x_retr (s_ctx s)) cn (mkM NotConnected (fresh_session n m) 1 Idle) k (mkM (x_status (s_ctx s')) (session_of n m s') (x_nextId (s_ctx s')) Idle) /\
  (keeps_copies k -> forall k1 k2 N, k = k1 ++ k2 -> Wired true k1 N -> Forall legal_line N).
Proof. intros. eapply legal_history; eauto. Qed.
Print Assumptions server_finds_order.
(** two connections; the first breaks within a publish *)
Example server_finds_order_case : (legal cfg1 3 2 half_calls (mkW false []) (client1 half_env) /\ all_fit cfg1 false half_calls (mkW false []) (client1 half_env) /\
  exists w', c_run_calls cfg1 half_calls (mkW false []) (client1 half_env) = Ret (Some half_results, w') (c_after half_calls (mkW false []) (client1 half_env)) half_trace) /\
  Says half_trace half_toks /\ machine_run 3 2 (client1 half_env) (c_after half_calls (mkW false []) (client1 half_env)) half_toks /\ keeps_copies half_toks /\ Wired true half_toks half_lines /\
  lines half_toks = [[KConnect con1_msg; KAgain 8 [60; 7; 0; 1; 97; 0; 8; 1; 2]]; [KConnect con1_msg; KDisconnect]; []] /\
  map l_got half_lines = [[KConnect con1_msg; KPublish (with_dup (pub1_msg Q2 8))]; [KConnect con1_msg]; []] /\
  map (fun L => t_bytes (l_up L)) half_lines = [[]; [52; 7; 0; 1; 97; 0; 8]; []].
Proof.
  split; [exact half_run|]. split; [exact half_says|]. split; [exact half_machine|]. split; [exact (proj2 (proj2 half_terms))|]. split; [exact half_wired|]. split; [reflexivity|]. split; reflexivity.
Qed.
(** Refuted otherwise: after the half of a SUBSCRIBE, completed by the bytes of a PUBLISH, the
    server finds bytes on a connection still up that begin no packet. *)
Lemma first_small p : standard p -> 16 <= first_of p.
Proof. intros (_ & H). destruct p as [?|mg|?|?| | |a i|?]; cbn; try lia; [unfold publish_first; destruct (pm_dup mg), (pm_qos mg), (pm_retain mg); cbn; lia|destruct a; cbn; lia]. Qed.
Lemma mix_unreadable : ~ readable [1; 97; 1; 2].
Proof.
  intros ([|p ps] & x & H & E & q & y & Hq & Hy & Ey).
  - cbn in E. subst x. destruct (bytes_packet q Hq) as (F & _). rewrite F in Ey. unfold packet in Ey. cbn in Ey. injection Ey as Ey _. pose proof (first_small q Hq). lia.
  - inversion H as [|? ? Hp _]; subst. destruct (bytes_packet p Hp) as (F & _). cbn [map concat] in E. rewrite F in E. unfold packet in E. cbn in E. injection E as E _. pose proof (first_small p Hp). lia.
Qed.
Theorem server_finds_order_refuted : exists l w s rs w' s' t k N,
  legal cfg1 3 2 l w s /\ g_big cfg1 = false /\ all_fit cfg1 true l w s /\ c_run_calls cfg1 l w s = Ret (Some rs, w') s' t /\
  Says t k /\ (exists a, Run true true (mkM NotConnected (fresh_session 3 2) 1 Idle) k a) /\ keeps_copies k /\ Wired false k N /\
  exists L N', N = L :: N' /\ t_alive (l_up L) = true /\ t_bytes (l_up L) = [1; 97; 1; 2] /\ ~ legal_line L.
Proof.
  destruct mix_run as (H1 & H2 & w' & H3). exists mix_calls, (mkW false []), (client1 mix_env), mix_results, w', (c_after mix_calls (mkW false []) (client1 mix_env)), mix_trace, mix_toks, mix_lines.
  split; [exact H1|]. split; [reflexivity|]. split; [exact H2|]. split; [exact H3|]. split; [exact mix_says|]. split; [eexists; exact mix_machine|]. split; [exact mix_copies|]. split; [exact mix_wired|].
  eexists _, _. split; [reflexivity|]. split; [reflexivity|]. split; [reflexivity|]. intros (_ & K). exact (mix_unreadable K).
Qed.
Print Assumptions server_finds_order_refuted.
