(** The bytes sent can be read in one way only. *)
From Verif Require Import Base StateModel StateSpec StateHarness SerModel WireSpec SerHarness CoreModel CoreSpec CoreHarness CoreCases CoreFinal3 Props_Findings
  ConcModel ConcHarness ConcCases Machine MachSpec MachProofs MachProofs5 MachFinal MachCases WireProofs Props_Mach.

(** *** C99 *)
(** Packets one after the other, the last maybe cut off: their bytes determine them. *)
Theorem stream_read_one_way : forall ps qs x y, Forall standard ps -> Forall standard qs -> cut x -> cut y ->
  concat (map bytes ps) ++ x = concat (map bytes qs) ++ y -> ps = qs /\ x = y.
Proof. exact stream_unique. Qed.
Print Assumptions stream_read_one_way.
Example stream_read_case : Forall standard [KConnect con1_msg; KPublish (pub1_msg Q1 7); KAck Pubrel 8; KPing] /\ cut [48; 5; 0] /\
  concat (map bytes [KConnect con1_msg; KPublish (pub1_msg Q1 7); KAck Pubrel 8; KPing]) ++ [48; 5; 0] =
  con_bytes ++ [50; 7; 0; 1; 97; 0; 7; 1; 2; 98; 2; 0; 8; 192; 0; 48; 5; 0].
Proof.
  assert (H : Forall standard [KConnect con1_msg; KPublish (pub1_msg Q1 7); KAck Pubrel 8; KPing]).
  { repeat constructor; cbn; unfold u16_ok, str_ok, name_ok, id_ok; try lia; try discriminate; try (vm_compute; congruence); auto. }
  split; [exact H|]. split; [|reflexivity].
  exists (KPublish (mkPublish false Q0 false [97] 0 [1; 2])), [1; 97; 1; 2]. split; [|split; [discriminate|reflexivity]].
  split; [|reflexivity]. cbn. unfold name_ok, str_ok. repeat split; try discriminate; try (vm_compute; congruence).
Qed.

(** Whoever reads what a client sent in a history - as packets, and maybe the beginning
    of one - finds the packets it sent, if none was cut off and the copies the
    application returned for retransmission are packets. *)
Theorem sent_read_one_way : forall G n m l w s s' t, completed G n m l w s s' t -> exists k, spells t k /\
  (Forall whole k -> forall ps x, Forall standard ps -> cut x -> outs t = concat (map bytes ps) ++ x ->
     Forall2 understood (sent_packets k) ps /\ x = []).
Proof.
  intros G n m l w s s' t H. destruct (completed_legal G n m l w s s' t H) as (k & Hk). exists k. split; [exact Hk|].
  intros Hw ps x Hps Hx E. destruct Hk as (Hs & Hc). eapply run_understood; eauto.
  apply Forall_forall. intros p Hin. apply in_flat_map in Hin. destruct Hin as (y & Hy & Hin). destruct y as [q|q e|e]; [|destruct Hin|destruct Hin].
  destruct Hin as [<-|[]]. apply in_split in Hy. destruct Hy as (k1 & k2 & ->). eapply Hc; [reflexivity|reflexivity].
Qed.
Print Assumptions sent_read_one_way.
Example sent_read_case : completed cfg1 3 2 tour_calls tour_world (client1 tour_env) (c_after tour_calls tour_world (client1 tour_env)) tour_trace /\
  outs tour_trace = concat (map bytes [KConnect con1_msg; KPublish (pub1_msg Q2 8); KAck Pubrec 9; KPing; KPublish (pub1_msg Q1 7); KAck Pubrel 8; KDisconnect;
    KConnect con1_msg; KAck Pubrel 8; KPublish (with_dup (pub1_msg Q1 7))]) ++ [] /\ cut [].
Proof. split; [exact tour_completed|]. split; [vm_compute; reflexivity|exact cut_nil]. Qed.
