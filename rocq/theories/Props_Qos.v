(** QoS values outside the enumeration. *)
From Verif Require Import Base StateModel StateSpec StateHarness SerModel WireSpec SerHarness CoreModel CoreSpec CoreHarness CoreCases CoreProofs2 CoreProofs4 CoreProofs11 QosModel QosProofs QosSub QosSpec QosSubProofs.

(** The models with an integer QoS agree with StateModel and CoreModel on the values of
    the enumeration, whatever values the records hold. *)
Theorem integer_qos_engine : forall cs z, Forall ok_call cs ->
  engine_run (abz toq z) (map zto_call cs) = rmap (fun x => (fst x, abz toq (snd x))) (z_run z cs).
Proof. exact (fun cs z => same_run cs z). Qed.
Print Assumptions integer_qos_engine.
Theorem integer_qos_publish : forall G p q id z s, 0 <= q <= 2 ->
  publish G (known p q) id (withrecs (abz toq z) s) = after (z_publish G p q id z s).
Proof. exact publish_known. Qed.
Print Assumptions integer_qos_publish.
Definition z3 : zrecs := mkZs (Some [zempty; zempty; zempty]) (Some [zempty; zempty]).
Example integer_qos_case : Forall ok_call [ZReserve 7 1; ZUpdatePublish 7 OpSend 1; ZReserve 8 2; ZUpdateAck 7 Puback OpReceive] /\
  abz toq z3 = fresh_recs 3 2 /\
  z_run z3 [ZReserve 7 1; ZUpdatePublish 7 OpSend 1; ZReserve 8 2; ZUpdateAck 7 Puback OpReceive] =
    Ok ([(Success, None); (Success, Some PubAckPending); (Success, None); (Success, Some PublishDone)],
        mkZs (Some [zempty; mkZ 8 2 PublishSend; zempty]) (Some [zempty; zempty])).
Proof. split; [|split; reflexivity]. repeat constructor; cbn; unfold ok_qos; lia. Qed.

(** *** C98 *)
(** A publish with such a value is sent: as a QoS 0 message whose payload begins with
    the packet identifier.  The result is then MQTTIllegalState, and in every case the
    record made for it stays. *)
Theorem invalid_qos_described : forall G p q id m z s st z' s' t,
  2 < q -> 1 <= id <= 65535 -> pub_means (with_qos p Q1) id m -> pm_topic m <> [] -> zlen (publish_body m) <= 268435450 ->
  zout z <> None -> zslots (zarr (zout z)) -> Forall (fun r => zid r <> id) (zarr (zout z)) -> In zempty (zarr (zout z)) ->
  x_status (s_ctx s) = Connected -> z_publish G p q id z s = Ret (st, z') s' t ->
  In (mkZ id q PublishSend) (zarr (zout z')) /\ zslots (zarr (zout z')) /\ zin z' = zin z /\
  (st = IllegalState /\ outs t = publish_packet (as_qos0 m) \/
   (st = SendFailed \/ st = PublishStoreFailed) /\ exists k, (k < length (publish_packet (as_qos0 m)))%nat /\ outs t = firstn k (publish_packet (as_qos0 m))).
Proof. exact invalid_publish. Qed.
Print Assumptions invalid_qos_described.

(** A record with such a value outlives every call of the state engine except the clean
    session: no acknowledgement completes it and it cannot be removed.  Its identifier
    stays taken, and MQTT_PublishToResend names it. *)
Theorem invalid_record_stays : forall id q z cs rs z', id <> 0 -> 2 < q ->
  zslots (zarr (zout z)) -> zslots (zarr (zin z)) -> In (mkZ id q PublishSend) (zarr (zout z)) ->
  ~ In ZReset cs -> z_run z cs = Ok (rs, z') ->
  In (mkZ id q PublishSend) (zarr (zout z')) /\
  Forall2 (fun c (r : status * option pstate) => forall x, c = ZReserve id x -> x <> 0 -> fst r = StateCollision) cs rs /\
  exists c c', z_publishToResend z' c = (id, c').
Proof.
  intros id q z cs rs z' Hid Hq H1 H2 H3 Hn H. destruct (bad_run id q Hid Hq cs z rs z') as (A & B); auto; [split; auto|].
  split; [apply A|]. split; [exact B|]. exact (bad_resent id q z' A).
Qed.
Print Assumptions invalid_record_stays.

(** a client with QoS 3 in the publish information *)
Definition z3' : zrecs := mkZs (Some [mkZ 7 3 PublishSend; zempty; zempty]) (Some [zempty; zempty]).
Definition env_3 : env := mkEnv [32; 2; 0; 0; 32; 2; 1; 0] [1; 1; 2; 1; 1; 2] (repeat 100 30) (repeat 0 200) [] [] [Some [56; 7; 0; 1; 97; 0; 7; 1; 2]].
Definition up3 : st := after_calls [CConnect con1 None 1000] (client1 env_3).
Example invalid_qos_case : exists s' t, z_publish cfg1 (pub1 Q1) 3 7 z3 up3 = Ret (IllegalState, z3') s' t /\
  outs t = [48; 7; 0; 1; 97; 0; 7; 1; 2] /\ map (fun x => concat (snd (fst x))) (stores t) = [[56; 7; 0; 1; 97; 0; 7; 1; 2]] /\
  x_status (s_ctx up3) = Connected /\
  z_run z3' [ZUpdateAck 7 Puback OpReceive; ZUpdateAck 7 Pubrec OpReceive; ZRemove 7; ZReserve 7 1; ZUpdatePublish 7 OpSend 3] =
    Ok ([(IllegalState, None); (IllegalState, None); (BadParameter, None); (StateCollision, None); (IllegalState, None)], z3').
Proof. eexists _, _. each. Qed.
(** The client goes on: at the next resumption of the session the stored copy is sent,
    a DUP publish of QoS 0, which MQTT 3.1.1 forbids. *)
Definition after3 : st := match z_publish cfg1 (pub1 Q1) 3 7 z3 up3 with Ret (_, z) s _ => withrecs (abz toq z) s | _ => up3 end.
Example invalid_qos_resent_case : exists s' t, run_calls cfg1 [COp ODisconnect; CConnect con1 None 1000] after3 = Ret [Success; Success] s' t /\
  outs t = disconnect_packet ++ connect_packet con1_msg ++ [56; 7; 0; 1; 97; 0; 7; 1; 2] /\ outgoing s' = [F 7 Q0 PublishSend].
Proof. eexists _, _. each. Qed.
(** An invalid QoS is not refused before anything is sent. *)
Theorem invalid_qos_refused_refuted : exists G p q id z s st z' s' t, 2 < q /\ x_status (s_ctx s) = Connected /\
  z_publish G p q id z s = Ret (st, z') s' t /\ outs t <> [] /\ z' <> z.
Proof.
  destruct invalid_qos_case as (s' & t & H1 & H2 & _ & H3 & _). exists cfg1, (pub1 Q1), 3, 7, z3, up3, IllegalState, z3', s', t.
  split; [lia|]. split; [exact H3|]. split; [exact H1|]. rewrite H2. split; discriminate.
Qed.
Print Assumptions invalid_qos_refused_refuted.

(** *** C113 *)
(** MQTT_Subscribe with the QoS fields as integers agrees with CoreModel on 0, 1 and 2. *)
Theorem integer_qos_subscribe : forall G subs count id s, (forall l, subs = Some l -> Forall (fun x => 0 <= snd x <= 2) l) ->
  subscribe G (option_map (map lowsub) subs) count id s = z_subscribe G subs count id s.
Proof. exact z_subscribe_known. Qed.
Print Assumptions integer_qos_subscribe.
(** Whatever the fields hold, a SUBSCRIBE with the low byte of each goes out; it is legal just
    when these bytes are 0, 1 or 2. *)
Theorem subscribe_options_described : forall G l fs id s st s' t, 4294967296 <= g_M G -> g_big G = false ->
  zsubs_mean l fs -> fs <> [] -> 0 < id < 65536 -> zlen (options_body id fs) <= max_remaining ->
  x_status (s_ctx s) = Connected -> inRecs (x_recs (s_ctx s)) <> None -> z_subscribe G (Some l) (zlen l) id s = Ret st s' t ->
  (st = Success /\ outs t = options_packet id fs \/
   st = SendFailed /\ exists k, (k < length (options_packet id fs))%nat /\ outs t = firstn k (options_packet id fs)) /\
  (legal_subscribe (options_packet id fs) <-> Forall (fun f => snd f mod 256 <= 2) fs).
Proof.
  intros G l fs id s st s' t HM Hb Hz Hne Hid Hm Hc Hr H. split; [|apply options_iff; eapply means_short; exact Hz].
  apply (z_subscribe_spec G l fs id) in H; auto; [|unfold max_remaining in Hm; lia]. unfold subs_need_state in H.
  destruct (inRecs (x_recs (s_ctx s))); [|contradiction]. replace (max_remaining <? _) with false in H by lia. cbn [orb] in H. rewrite Hc in H.
  destruct H as ([|] & Hs & ->); [left|right]; (split; [reflexivity|]).
  - now apply sentb_true in Hs.
  - apply sentb_fail in Hs. destruct Hs as (k & Hk & Ho & _). eauto.
Qed.
Print Assumptions subscribe_options_described.
Theorem serialize_options_described : forall M l fs id b, 4294967296 <= M -> zsubs_mean l fs -> fs <> [] -> 0 < id < 65536 ->
  zlen (options_body id fs) <= max_remaining ->
  z_serializeSubscribe M (Some l) (zlen l) id (zlen (options_body id fs)) (Some b) =
    if zlen b <? zlen (options_packet id fs) then Ok (NoMemory, Some b)
    else Ok (Success, Some (options_packet id fs ++ skipn (length (options_packet id fs)) b)).
Proof. exact z_encode. Qed.
Print Assumptions serialize_options_described.
(** An application that leaves the field uninitialised, here 3 and 2147483777, asks for QoS 3
    with a reserved bit; the call succeeds. *)
Definition subs3 : list (subinfo * Z) := [(mkSub Q0 (Some [97]) 1, 1); (mkSub Q0 (Some [98; 47; 35]) 3, 3); (mkSub Q0 (Some [99]) 1, 2147483777)].
Definition fs3 : list (list Z * Z) := [([97], 1); ([98; 47; 35], 3); ([99], 2147483777)].
Example subs3_mean : zsubs_mean subs3 fs3.
Proof.
  assert (P : forall x q, 0 < zlen x < 65536 -> zsub_means (mkSub Q0 (Some x) (zlen x), q) (x, q)).
  { intros x q H. split; [|split; [exact H|reflexivity]]. exists x. cbn. unfold zlen in *. rewrite Nat2Z.id, firstn_all. auto with zarith. }
  repeat (constructor; [apply P; cbn; lia|]). constructor.
Qed.
Example serialize_options_case : z_serializeSubscribe 4294967296 (Some subs3) 3 9 16 (Some (repeat 0 20)) =
  Ok (Success, Some [130; 16; 0; 9; 0; 1; 97; 1; 0; 3; 98; 47; 35; 3; 0; 1; 99; 129; 0; 0]).
Proof. vm_compute. reflexivity. Qed.
Theorem subscribe_options_refuted : exists G l fs id s s' t, 4294967296 <= g_M G /\ g_big G = false /\ zsubs_mean l fs /\ x_status (s_ctx s) = Connected /\
  z_subscribe G (Some l) (zlen l) id s = Ret Success s' t /\ outs t = options_packet id fs /\ ~ legal_subscribe (outs t).
Proof.
  exists cfg1, subs3, fs3, 9, up3. eexists _, _. split; [vm_compute; congruence|]. split; [reflexivity|]. split; [exact subs3_mean|]. split; [vm_compute; reflexivity|].
  split; [vm_compute; reflexivity|]. split; [vm_compute; reflexivity|]. match goal with |- ~ legal_subscribe ?x => replace x with (options_packet 9 fs3) by (vm_compute; reflexivity) end.
  rewrite options_iff by (eapply means_short; exact subs3_mean). intro F. inversion F as [|? ? _ F2]; subst. inversion F2 as [|? ? K _]; subst. vm_compute in K. congruence.
Qed.
Print Assumptions subscribe_options_refuted.
