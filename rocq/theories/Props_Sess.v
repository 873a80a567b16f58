(** Property theorems: sessions. *)
From Verif Require Import Base StateModel StateSpec StateHarness SerModel WireSpec SerHarness CoreModel CoreSpec CoreHarness CoreCases CoreFinal3 Props_Findings
  ConcModel ConcHarness ConcCases Machine MachSpec MachSpec2 MachProofs MachProofs5 MachFinal MachFinal2 MachCases SessCases.

(** *** C83 *)
(** MQTT-3.1.2-6: state of an earlier session must not be used after a CONNECT that asks
    for a clean session.  A publish is sent again only if no such CONNECT was sent since it
    was stored, and PUBREL only if none was sent since the PUBREC.  Partial: in histories
    in which something was sent on each connection with a clean session before the next
    CONNECT ([used]), so that the client knew that the server accepted it. *)
Theorem discarded_not_resumed_partial : forall G n m l w s s' t, completed G n m l w s s' t -> exists k, spells t k /\
  forall k1 x k2 id, k = k1 ++ x :: k2 -> used k1 ->
    ((exists bs, carries x = Some (KAgain id bs)) -> since (was_stored id) (fun x => ~ cleans x) k1) /\
    (carries x = Some (KAck Pubrel id) -> since (eq (Did (EPkt 80 (be16 id)))) (fun x => ~ cleans x) k1).
Proof. exact completed_kept. Qed.
Print Assumptions discarded_not_resumed_partial.
(** a publish (7) of a discarded session, one (9) of the next *)
Example discarded_case : completed cfg1 3 2 next_calls (mkW false []) (client1 next_env) (c_after next_calls (mkW false []) (client1 next_env)) next_trace /\
  Says next_trace next_toks /\ used next_toks /\ Exists cleans next_toks /\ Exists (was_stored 7) next_toks /\
  exists k1, next_toks = k1 ++ [Sent (KAgain 9 [58; 7; 0; 1; 97; 0; 9; 1; 2])].
Proof.
  split; [exact next_completed|]. split; [exact next_says|]. split; [exact next_used|]. split; [do 7 apply Exists_cons_tl; apply Exists_cons_hd; eexists; split; reflexivity|].
  split; [do 4 apply Exists_cons_tl; apply Exists_cons_hd; eexists _, _; reflexivity|]. exists (removelast next_toks). reflexivity.
Qed.
(** The client forgets the session only when a CONNACK accepts the clean one
    (core_mqtt.c:2963-2983).  Here the answer to the clean CONNECT is lost, and so is the
    answer to the next one, without clean session; the server has a new session by then and
    says so when the client connects once more.  The client sends a publish of the session
    that it had the server discard. *)
Theorem discarded_not_resumed_refuted : exists t k1, legal cfg1 3 2 lost_calls (mkW false []) (client1 lost_env) /\
  c_trace lost_calls (mkW false []) (client1 lost_env) = Some ([Success; Success; Success; RecvFailed; RecvFailed; Success], t) /\
  Says t (k1 ++ [Sent (KAgain 7 (publish_packet (with_dup (pub1_msg Q1 7))))]) /\ resuming k1 /\
  exists a b, k1 = a ++ Sent (KConnect clean_msg) :: b /\ cm_clean clean_msg = true /\ Exists (was_stored 7) a /\ ~ Exists (was_stored 7) b.
Proof.
  eexists _, lost_toks. split; [legal1|]. split; [vm_compute; reflexivity|]. split; [exact lost_says|]. split.
  - eexists [_; _; _; _; _; _; _; _; _; _; _], _, _. split; [reflexivity|]. split; [reflexivity|]. split; [reflexivity|].
    repeat constructor; (intros (ty & body & E); discriminate) || (intros (m & E); discriminate).
  - eexists [_; _; _; _; _; _; _], _. split; [reflexivity|]. split; [reflexivity|]. split; [do 4 apply Exists_cons_tl; apply Exists_cons_hd; eexists _, _; reflexivity|].
    intro H. repeat (inversion H as [? ? (v & ok & E)|? ? H']; subst; [discriminate E|clear H; rename H' into H]). inversion H.
Qed.
Print Assumptions discarded_not_resumed_refuted.
