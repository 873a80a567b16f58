(** How long calls take, and the keep-alive interval as the server sees it.  Proofs are in
    ClockProofs.v. *)
From Verif Require Import Base StateModel StateSpec StateHarness SerModel WireSpec SerHarness CoreModel CoreSpec CoreHarness CoreTime CoreCases CoreProofs23 CoreProofs25
  Props_Findings Props_Loop ClockSpec ClockProofs.

(** *** C103 *)
(** From one reading of the clock to the next at most D ms pass, and the timeouts end before
    the 32-bit clock has wrapped.  The last reading of the clock in a history of calls is then
    no later than the sum of the times set for the calls ([call_ms]) after the start, plus a
    time for each byte of the packets that did not fit the buffer and were skipped.  N is the
    number of outgoing records; no callback sends more than K messages.  The environment may
    otherwise do what it likes. *)
Theorem calls_in_time : forall G D K start s l rs s' t, pace_suits G D -> 0 <= K -> largest < g_M G ->
  let B := zlen (x_buf (s_ctx s)) in let N := zlen (arr (outRecs (x_recs (s_ctx s)))) in
  1 <= B < g_M G -> 0 <= x_index (s_ctx s) <= B -> paced D start (e_times (s_env s)) ->
  Forall (fun o => ops_msgs o <= K) (e_cbs (s_env s)) -> Forall (call_paced G D B) l -> run_calls G l s = Ret rs s' t ->
  exists used, e_times (s_env s) = used ++ e_times (s_env s') /\
    last used start <= start + calls_sum (call_ms G D N B K) l + skip_ms G D * skipped t.
Proof.
  intros G D K start s l rs s' t H1 H2 H3 B N H4 H5 H6 H7 H8 H9.
  assert (P : 0 <= skip_ms G D) by (destruct H1 as (? & ? & ? & _); unfold skip_ms; lia).
  assert (HI : In D B N K (e_times (s_env s)) start start s).
  { split; [split; [exists []; split; reflexivity|exact H6]|]. split; [exact H7|]. split; [reflexivity|]. split; [reflexivity|exact H5]. }
  pose proof (Tm_calls G D B N K H1 ltac:(lia) ltac:(lia) H2 (skip_ms G D) (e_times (s_env s)) start l ltac:(lia) ltac:(unfold N, zlen; lia) H8 start s HI) as HT.
  rewrite H9 in HT. destruct HT as (_ & _ & t1 & L & ((used & E & El) & _) & _). exists used. split; [exact E|]. rewrite El. lia.
Qed.
Print Assumptions calls_in_time.
(** MQTT_Connect in particular skips nothing in this sense, whatever arrives. *)
Theorem connect_in_time : forall G D start s ci will timeoutMs st sp s' t, pace_suits G D -> largest < g_M G ->
  let B := zlen (x_buf (s_ctx s)) in let N := zlen (arr (outRecs (x_recs (s_ctx s)))) in
  1 <= B < g_M G -> 0 <= x_index (s_ctx s) <= B -> paced D start (e_times (s_env s)) -> e_cbs (s_env s) = [] ->
  0 <= timeoutMs -> timeoutMs + read_ms G D B + 2 * D < 4294967296 -> connect G ci will timeoutMs s = Ret (st, sp) s' t ->
  exists used, e_times (s_env s) = used ++ e_times (s_env s') /\
    last used start <= start + timeoutMs + 5 * D + read_ms G D B + (2 * N + 2) * send_ms G D.
Proof.
  intros G D start s ci will tmo st sp s' t H1 H3 B N H4 H5 H6 H7 H8 H9 H10.
  assert (HI : In D B N 0 (e_times (s_env s)) start start s).
  { split; [split; [exists []; split; reflexivity|exact H6]|]. rewrite H7. split; [constructor|]. split; [reflexivity|]. split; [reflexivity|exact H5]. }
  pose proof (Tm_connect G D B N 0 H1 ltac:(lia) 0 (e_times (s_env s)) start ci will tmo ltac:(unfold N, zlen; lia) H8 H9 start s HI) as HT.
  rewrite H10 in HT. destruct HT as (_ & _ & t1 & L & ((used & E & El) & _) & _). exists used. split; [exact E|]. rewrite El. lia.
Qed.
Print Assumptions connect_in_time.
(** and when it succeeds, it has read no more than the two bytes of the CONNACK *)
Theorem connected_in_time : forall G D start s ci will timeoutMs sp s' t, pace_suits G D -> largest < g_M G ->
  let B := zlen (x_buf (s_ctx s)) in let N := zlen (arr (outRecs (x_recs (s_ctx s)))) in
  1 <= B < g_M G -> 0 <= x_index (s_ctx s) <= B -> paced D start (e_times (s_env s)) -> e_cbs (s_env s) = [] ->
  0 <= timeoutMs -> timeoutMs + 2 * D < 4294967296 -> connect G ci will timeoutMs s = Ret (Success, sp) s' t ->
  exists used, e_times (s_env s) = used ++ e_times (s_env s') /\
    last used start <= start + timeoutMs + 3 * D + read_ms G D 2 + (2 * N + 2) * send_ms G D.
Proof.
  intros G D start s ci will tmo sp s' t H1 H3 B N H4 H5 H6 H7 H8 H9 H10.
  assert (HI : In D B N 0 (e_times (s_env s)) start start s).
  { split; [split; [exists []; split; reflexivity|exact H6]|]. rewrite H7. split; [constructor|]. split; [reflexivity|]. split; [reflexivity|exact H5]. }
  pose proof (connect_made G D B N 0 H1 ltac:(lia) 0 (e_times (s_env s)) start ci will tmo start s sp s' t HI ltac:(unfold N, zlen; lia) H8 H9 H10) as HT.
  destruct HT as (_ & _ & t1 & L & ((used & E & El) & _) & _). exists used. split; [exact E|]. rewrite El. lia.
Qed.
Print Assumptions connected_in_time.

(** readings D ms apart *)
Definition every (d : Z) (n : nat) : list Z := map (fun k => d * Z.of_nat k) (seq 1 n).
Fixpoint copies {A} (n : nat) (l : list A) : list A := match n with O => [] | S k => l ++ copies k l end.
(** a slow clock and a transport that takes nothing: the publish is given up after 24 of the
    29 seconds that are set for it *)
Definition slow_link : st := after_calls [conn1] (client1 (mkEnv [32; 2; 0; 0] [1; 1; 2] [100] (every 3 8) [] [] [])).
Example calls_in_time_case : exists s' t used, pace_suits cfg1 3000 /\ call_ms cfg1 3000 3 32 0 (COp (OPublish (pub1 Q1) 7)) = 29000 /\
  let s := mkSt (s_ctx slow_link) (mkEnv [] [] (repeat 0 9) (map (fun k => 24 + 3000 * Z.of_nat k) (seq 1 20)) [] [] []) in
  paced 3000 24 (e_times (s_env s)) /\ run_calls cfg1 [COp (OPublish (pub1 Q1) 7)] s = Ret [SendFailed] s' t /\
  e_times (s_env s) = used ++ e_times (s_env s') /\ last used 24 = 24 + 24000.
Proof.
  eexists _, _, (map (fun k => 24 + 3000 * Z.of_nat k) (seq 1 8)). split; [vm_compute; repeat split; congruence|]. split; [vm_compute; reflexivity|].
  split; [vm_compute; repeat split; congruence|]. split; [vm_compute; reflexivity|]. split; vm_compute; reflexivity.
Qed.
Example connect_in_time_case : exists s' t used,
  let s := client1 (mkEnv [32; 2; 0; 0] (repeat 0 5 ++ [1; 1; 0; 1; 0; 1]) [100] (every 9 99) [] [] []) in
  pace_suits cfg1 9 /\ paced 9 0 (e_times (s_env s)) /\ connect cfg1 con1 None 1000 s = Ret (Success, Some false) s' t /\
  e_times (s_env s) = used ++ e_times (s_env s') /\ last used 0 = 144 /\ read_ms cfg1 9 2 = 66.
Proof.
  eexists _, _, (every 9 16). split; [vm_compute; repeat split; congruence|]. split; [vm_compute; repeat split; congruence|].
  split; [vm_compute; reflexivity|]. split; [vm_compute; reflexivity|]. split; vm_compute; reflexivity.
Qed.

(** *** C104 *)
(** MQTT-3.1.2-23: in the absence of other packets the client must send a PINGREQ within the
    keep-alive interval.  When a pass that reads nothing succeeds, something was sent less than
    the interval ago, or a PINGREQ at most MQTT_PINGRESP_TIMEOUT_MS ago, or one goes out now. *)
Theorem keep_alive_kept_partial : forall G n m s s' u, Begun G n m s -> processLoop G s = Ret Success s' (EIn [] :: u) ->
  x_status (s_ctx s) = Connected -> 0 < x_keep (s_ctx s) <= 65535 -> 0 < g_tx G ->
  exists x l, e_times (s_env s) = x :: l /\
    (since (x mod 4294967296) (x_lastTx (s_ctx s)) < Z.min (1000 * x_keep (s_ctx s)) (g_tx G) \/
     x_waiting (s_ctx s) = true /\ since (x mod 4294967296) (x_pingTime (s_ctx s)) <= g_pingto G \/
     exists t2 t3, u = t2 ++ t3 /\ outs t2 = pingreq_packet /\ errs t2 = false).
Proof.
  intros G n m s s' u HB H Hc Hk Hg. destruct (x_waiting (s_ctx s)) eqn:Hw.
  { destruct (process_patient G n m s Success s' u HB H) as (x & l & E & P); [discriminate|exact Hw|]. exists x, l. auto. }
  destruct (idle_pass_pings G n m s Success s' [] u HB H) as [(F & _)|(_ & x & l & t2 & t3 & E & -> & _ & _ & C)]; [congruence|].
  exists x, l. split; [exact E|]. rewrite Hw, Hc in C. cbn [negb andb] in C. unfold ping_due in C. rewrite (Z.mod_small (1000 * _)) in C by lia.
  destruct (Z.leb (Z.min (1000 * x_keep (s_ctx s)) (g_tx G)) (since (x mod 4294967296) (x_lastTx (s_ctx s)))) eqn:E1; [|left; lia].
  right. right. replace (Z.min _ _ =? 0) with false in C by lia. cbn [negb andb orb] in C. destruct C as [(C & _)|C]; [discriminate|]. exists t2, t3. split; [reflexivity|exact C].
Qed.
Print Assumptions keep_alive_kept_partial.
Example keep_alive_kept_case : exists s s' u, Begun cfg1 3 2 s /\ processLoop cfg1 s = Ret Success s' (EIn [] :: u) /\ x_status (s_ctx s) = Connected /\
  x_waiting (s_ctx s) = false /\ x_keep (s_ctx s) = 60 /\ outs u = pingreq_packet.
Proof.
  exists (linked [] [0] [100] (repeat 0 8 ++ repeat 30000 9)). eexists _, _. split; [linked|]. split; [vm_compute; reflexivity|]. each.
Qed.
(** It is not so in general: a pass that reads something does not look whether a PINGREQ is
    due (core_mqtt.c:1767-1789).  A server sends a small QoS 0 PUBLISH twice a second; the
    application calls MQTT_ProcessLoop all the time, which handles each of them and succeeds.
    For 6 seconds nothing is sent though the keep-alive interval is 2 seconds, and the
    server is to close the connection after 3. *)
Definition con2 : coninfo := mkCon false 2 (Some [97; 98; 99]) 3 None 0 None 0.
Definition con2_msg : connect_msg := mkConnect false 2 [97; 98; 99] None None None.
Definition conn2 : call := CConnect con2 None 1000.
Definition chatty_env : env := mkEnv ([32; 2; 0; 0] ++ copies 12 [48; 4; 0; 1; 97; 5]) ([1; 1; 2] ++ repeat 6 12) (repeat 100 9) (every 500 20) [] [] [].
Theorem keep_alive_under_traffic_refuted : exists s rs s' t, opened cfg1 3 2 s /\ paced 500 0 (e_times (s_env s)) /\
  run_calls cfg1 (conn2 :: repeat CProcess 12) s = Ret rs s' t /\ Forall (fun r => r = Success) rs /\ x_status (s_ctx s') = Connected /\
  x_keep (s_ctx s') = 2 /\ outs t = connect_packet con2_msg /\
  (exists used, e_times (s_env s) = used ++ [10000] ++ e_times (s_env s')) /\ x_lastTx (s_ctx s') = 1000.
Proof.
  exists (client1 chatty_env). eexists _, _, _. split.
  { exists (repeat 0 32), true, chatty_env. repeat split; try (vm_compute; congruence); try (apply bytes_dec; vm_compute; reflexivity). }
  split; [vm_compute; repeat split; congruence|]. split; [vm_compute; reflexivity|]. split; [repeat constructor|].
  split; [vm_compute; reflexivity|]. split; [vm_compute; reflexivity|]. split; [vm_compute; reflexivity|]. split; [exists (every 500 19); vm_compute; reflexivity|]. vm_compute. reflexivity.
Qed.
Print Assumptions keep_alive_under_traffic_refuted.
(** Nor within one call: a packet that does not fit the buffer is skipped by a loop that ends
    only when nothing arrives for MQTT_RECV_POLLING_TIMEOUT_MS (core_mqtt.c:1160-1187).  400
    bytes, one every 9 ms: this pass of MQTT_ProcessLoop lasts more than 3.5 seconds and sends
    nothing, with the same keep-alive interval of 2 seconds. *)
Definition dripping_env : env := mkEnv ([32; 2; 0; 0] ++ [48; 144; 3] ++ repeat 0 400) ([1; 1; 2] ++ [3] ++ repeat 1 400) (repeat 100 9) (every 9 450) [] [] [].
Definition dripping : st := after_calls [conn2] (client1 dripping_env).
Fixpoint pacedb (D t0 : Z) (l : list Z) : bool := match l with [] => true | x :: r => (t0 <=? x) && (x <=? t0 + D) && pacedb D x r end.
Lemma pacedb_ok D : forall l t0, pacedb D t0 l = true -> paced D t0 l.
Proof. induction l as [|x l IH]; intros t0 H; [exact I|]. cbn in H. apply andb_prop in H as [H1 H2]. split; [lia|now apply IH]. Qed.
Definition list_eqb (a b : list Z) : bool := if list_eq_dec Z.eq_dec a b then true else false.
Lemma list_eqb_eq a b : list_eqb a b = true -> a = b.
Proof. unfold list_eqb. destruct (list_eq_dec Z.eq_dec a b) as [E|E]; [intros _; exact E|discriminate]. Qed.
Definition used_by (s s' : st) : list Z := firstn (length (e_times (s_env s)) - length (e_times (s_env s')))%nat (e_times (s_env s)).
Definition drip_check (m : res status) (s : st) : bool :=
  match m with
  | Ret Success s' t => list_eqb (outs t) [] && list_eqb (e_times (s_env s)) ([hd 0 (used_by s s')] ++ removelast (tl (used_by s s')) ++ [last (used_by s s') 0] ++ e_times (s_env s'))
      && (last (used_by s s') 0 - hd 0 (used_by s s') >? 3500)
  | _ => false
  end.
Theorem pass_outlasts_keep_alive_refuted : exists s s' t x used y, Begun cfg1 3 2 s /\ x_status (s_ctx s) = Connected /\ x_keep (s_ctx s) = 2 /\
  paced 9 72 (e_times (s_env s)) /\ processLoop cfg1 s = Ret Success s' t /\ outs t = [] /\
  e_times (s_env s) = [x] ++ used ++ [y] ++ e_times (s_env s') /\ y - x > 3500.
Proof.
  assert (E : drip_check (processLoop cfg1 dripping) dripping = true) by (vm_compute; reflexivity).
  assert (HB : Begun cfg1 3 2 dripping) by (apply begun_after; [apply bytes_dec| |]; vm_compute; reflexivity).
  assert (H1 : x_status (s_ctx dripping) = Connected) by (vm_compute; reflexivity). assert (H2 : x_keep (s_ctx dripping) = 2) by (vm_compute; reflexivity).
  assert (H3 : paced 9 72 (e_times (s_env dripping))) by (apply pacedb_ok; vm_compute; reflexivity).
  revert E HB H1 H2 H3. generalize dripping as s. intros s E HB H1 H2 H3. unfold drip_check in E.
  destruct (processLoop cfg1 s) as [[] s' t| |] eqn:EP; try discriminate E.
  apply andb_prop in E as [E E3]. apply andb_prop in E as [E1 E2]. apply list_eqb_eq in E1. apply list_eqb_eq in E2.
  exists s, s', t. eexists _, _, _. split; [exact HB|]. split; [exact H1|]. split; [exact H2|]. split; [exact H3|]. split; [exact EP|]. split; [exact E1|]. split; [exact E2|]. lia.
Qed.
Print Assumptions pass_outlasts_keep_alive_refuted.
