(** Properties of the serializer: theorems only.  Vocabulary: WireSpec.v (the MQTT
    3.1.1 wire format) and SerHarness.v (what the C structures describe).  M is the
    modulus of size_t (2^32 or 2^64). *)
From Verif Require Import Base SerModel WireSpec SerHarness SerProofs SerProofs2 SerProofs3 SerProofs4 SerProofs5.

(** *** C01 *)
(** Writing the length n behind a first byte t (in a buffer with room) and reading
    the header back, followed by anything, gives t, n and the number of bytes
    written, which is the announced one; no other header for (t, n) exists. *)
Theorem remaining_length_round_trip : forall n t b0,
  0 <= n <= max_remaining -> first_ok t -> 4 <= zlen b0 ->
  exists b' pos, encodeRemainingLength (t :: b0, 1%nat) n = Ok (b', pos) /\
    (2 <= pos <= 5)%nat /\ Z.of_nat pos = 1 + remainingLengthEncodedSize n /\
    firstn 1 b' = [t] /\ skipn pos b' = skipn pos (t :: b0) /\
    (forall rest, bytes_ok rest ->
       processIncomingPacketTypeAndLength (firstn pos b' ++ rest) (zlen (firstn pos b' ++ rest)) =
         Ok (Success, Some (t, n, Z.of_nat pos))) /\
    (forall h hl, bytes_ok h -> processIncomingPacketTypeAndLength h (zlen h) = Ok (Success, Some (t, n, hl)) ->
       hl = Z.of_nat pos /\ (pos <= length h)%nat).
Proof. exact remaining_round_trip. Qed.
Print Assumptions remaining_length_round_trip.
Example remaining_length_case : first_ok 48 /\ 0 <= 321 <= max_remaining /\
  encodeRemainingLength ([48; 0; 0; 0; 0], 1%nat) 321 = Ok ([48; 193; 2; 0; 0], 3%nat).
Proof. repeat split; unfold max_remaining; cbv; try lia; try (intros; discriminate); auto. Qed.

(** *** C02 *)
(** The header decision is exactly the grammar [header] of WireSpec.v. *)
Theorem header_recognised_exactly : forall buf index,
  0 <= index <= zlen buf -> bytes_ok (firstn (Z.to_nat index) buf) ->
  let r := firstn (Z.to_nat index) buf in
  (forall t rl hl, processIncomingPacketTypeAndLength buf index = Ok (Success, Some (t, rl, hl)) <->
     exists h rest, r = h ++ rest /\ header h t rl /\ hl = zlen h) /\
  (processIncomingPacketTypeAndLength buf index = Ok (NeedMoreBytes, None) <->
     r <> [] /\ exists more t rl, more <> [] /\ header (r ++ more) t rl) /\
  (processIncomingPacketTypeAndLength buf index = Ok (NoDataAvailable, None) <-> r = []) /\
  (processIncomingPacketTypeAndLength buf index = Ok (BadResponse, None) <->
     r <> [] /\ (forall h rest t rl, r = h ++ rest -> ~ header h t rl) /\
     (forall more t rl, ~ header (r ++ more) t rl)) /\
  ((exists t rl hl, processIncomingPacketTypeAndLength buf index = Ok (Success, Some (t, rl, hl))) \/
   exists st, processIncomingPacketTypeAndLength buf index = Ok (st, None) /\
              (st = NeedMoreBytes \/ st = NoDataAvailable \/ st = BadResponse)).
Proof. exact header_decision. Qed.
Print Assumptions header_recognised_exactly.
Example header_case :
  processIncomingPacketTypeAndLength [50; 193; 2; 7; 7] 4 = Ok (Success, Some (50, 321, 3)) /\
  processIncomingPacketTypeAndLength [50; 193; 2; 7; 7] 2 = Ok (NeedMoreBytes, None) /\
  processIncomingPacketTypeAndLength [50; 193; 0; 7; 7] 3 = Ok (BadResponse, None) /\
  processIncomingPacketTypeAndLength [16; 0] 2 = Ok (BadResponse, None).
Proof. repeat split. Qed.

(** *** C03 *)
Theorem header_ignores_unreceived_bytes : forall buf buf' index,
  0 <= index <= zlen buf -> index <= zlen buf' ->
  firstn (Z.to_nat index) buf = firstn (Z.to_nat index) buf' ->
  processIncomingPacketTypeAndLength buf index = processIncomingPacketTypeAndLength buf' index.
Proof. exact header_frame. Qed.
Print Assumptions header_ignores_unreceived_bytes.
Theorem header_decision_final : forall buf i j st r,
  0 <= i <= j -> j <= zlen buf -> bytes_ok (firstn (Z.to_nat j) buf) ->
  st = Success \/ st = BadResponse ->
  processIncomingPacketTypeAndLength buf i = Ok (st, r) ->
  processIncomingPacketTypeAndLength buf j = Ok (st, r).
Proof. exact header_final. Qed.
Print Assumptions header_decision_final.
(** "Need more bytes" is never the answer once five bytes are there. *)
Theorem header_needs_at_most_five_bytes : forall buf index,
  0 <= index <= zlen buf -> bytes_ok (firstn (Z.to_nat index) buf) ->
  processIncomingPacketTypeAndLength buf index = Ok (NeedMoreBytes, None) -> index <= 4.
Proof. exact need_more_short. Qed.
Print Assumptions header_needs_at_most_five_bytes.
Example header_final_case :
  processIncomingPacketTypeAndLength [64; 2; 0; 1] 2 = Ok (Success, Some (64, 2, 2)) /\
  processIncomingPacketTypeAndLength [64; 2; 0; 1] 4 = Ok (Success, Some (64, 2, 2)) /\
  processIncomingPacketTypeAndLength [64; 255; 255; 255] 4 = Ok (NeedMoreBytes, None).
Proof. repeat split. Qed.

(** *** C04 *)
(** The pull parser on a stream l (ending with the non-positive transport result
    e) against the push parser on the same bytes.  A stream that ends inside the
    header gives MQTTBadResponse. *)
Theorem pull_parser_agrees : forall l e, bytes_ok l -> e <= 0 ->
  match processIncomingPacketTypeAndLength l (zlen l) with
  | Ok (Success, Some (t, rl, hl)) =>
      getIncomingPacketTypeAndLength recv1_stream (l, e) = Ok (Success, Some (t, rl), (skipn (Z.to_nat hl) l, e))
  | Ok (NoDataAvailable, None) =>
      exists s, getIncomingPacketTypeAndLength recv1_stream (l, e) = Ok (if e =? 0 then NoDataAvailable else RecvFailed, None, s)
  | Ok (NeedMoreBytes, None) | Ok (BadResponse, None) =>
      exists s, getIncomingPacketTypeAndLength recv1_stream (l, e) = Ok (BadResponse, None, s)
  | _ => False
  end.
Proof. exact pull_vs_push. Qed.
Print Assumptions pull_parser_agrees.
Example pull_case :
  getIncomingPacketTypeAndLength recv1_stream ([48; 130; 1; 9; 9], 0) = Ok (Success, Some (48, 130), ([9; 9], 0)) /\
  getIncomingPacketTypeAndLength recv1_stream ([], -1) = Ok (RecvFailed, None, ([], -1)).
Proof. repeat split. Qed.

(** *** C05 *)
Theorem connect_size_exact : forall c will m, con_means c will m -> cm_id m <> [] ->
  getConnectPacketSize c will =
    if will_fits m then (Success, Some (zlen (connect_body m), zlen (connect_packet m)))
    else (BadParameter, None).
Proof. exact connect_size_ok. Qed.
Print Assumptions connect_size_exact.
Theorem connect_bytes_exact : forall M c will m b, 4294967296 <= M -> con_means c will m ->
  will_fits m = true ->
  serializeConnect M c will (zlen (connect_body m)) (Some b) =
    if zlen b <? zlen (connect_packet m) then Ok (NoMemory, Some b)
    else Ok (Success, Some (connect_packet m ++ skipn (length (connect_packet m)) b)).
Proof. exact connect_encode. Qed.
Print Assumptions connect_bytes_exact.
Definition con_ex : coninfo := mkCon true 60 (Some [97; 98; 99]) 3 (Some [117]) 1 (Some [112]) 1.
Definition will_ex : pubinfo := mkPub Q1 true false (Some [119]) 1 (Some [1; 2]) 2.
Definition con_ex_msg : connect_msg :=
  mkConnect true 60 [97; 98; 99] (Some (mkWill [119] [1; 2] Q1 true)) (Some [117]) (Some [112]).
Example connect_case : con_means con_ex (Some will_ex) con_ex_msg /\ will_fits con_ex_msg = true /\
  cm_id con_ex_msg <> [] /\
  connect_packet con_ex_msg = [16; 28; 0; 4; 77; 81; 84; 84; 4; 238; 0; 60; 0; 3; 97; 98; 99; 0; 1; 119; 0; 2; 1; 2; 0; 1; 117; 0; 1; 112].
Proof.
  split; [|split; [reflexivity|split; [discriminate|reflexivity]]].
  unfold con_means, con_ex, will_ex, con_ex_msg, holds_opt, holds0, holds. cbn.
  repeat match goal with |- _ /\ _ => split end; try reflexivity; try lia; try left;
  eexists; repeat split; try reflexivity; vm_compute; congruence.
Qed.
(** *** C48 *)
(** The serialiser does not enforce the rules of MQTT 3.1.1 on the contents: the
    packet for a password without user name is produced. *)
Definition nouser_con : coninfo := mkCon true 60 (Some [97]) 1 None 0 (Some [112]) 1.
Definition nouser_msg : connect_msg := mkConnect true 60 [97] None None (Some [112]).
Theorem connect_legal_refuted : exists c m b o ps,
  con_means c None m /\ ~ connect_legal m /\
  getConnectPacketSize c None = (Success, Some (ps - 2, ps)) /\
  serializeConnect 4294967296 c None (ps - 2) (Some b) = Ok (Success, Some o) /\ o = connect_packet m.
Proof.
  exists nouser_con, nouser_msg, (repeat 0 18), (connect_packet nouser_msg), 18.
  split; [|split; [intros [H _]; specialize (H eq_refl); discriminate|repeat split; vm_compute; reflexivity]].
  unfold con_means, nouser_con, nouser_msg, holds_opt, holds0, holds. cbn.
  repeat match goal with |- _ /\ _ => split end; try reflexivity; try lia;
  eexists; repeat split; try reflexivity; vm_compute; congruence.
Qed.
Print Assumptions connect_legal_refuted.

(** And so is the packet for a will with an empty topic (and no password). *)
Definition notopic_will : pubinfo := mkPub Q0 false false (Some []) 0 (Some [5]) 1.
Definition notopic_msg : connect_msg := mkConnect true 60 [97] (Some (mkWill [] [5] Q0 false)) None None.
Theorem connect_will_topic_refuted : exists c w m b o ps,
  con_means c (Some w) m /\ (cm_user m = None -> cm_pass m = None) /\ ~ connect_legal m /\
  getConnectPacketSize c (Some w) = (Success, Some (ps - 2, ps)) /\
  serializeConnect 4294967296 c (Some w) (ps - 2) (Some b) = Ok (Success, Some o) /\ o = connect_packet m.
Proof.
  exists (mkCon true 60 (Some [97]) 1 None 0 None 0), notopic_will, notopic_msg, (repeat 0 20), (connect_packet notopic_msg), 20.
  split; [|split; [reflexivity|split; [intros [_ H]; now apply H|repeat split; vm_compute; reflexivity]]].
  unfold con_means, notopic_will, notopic_msg, holds_opt, holds0, holds. cbn.
  repeat match goal with |- _ /\ _ => split end; try reflexivity; try lia; try left;
  eexists; repeat split; try reflexivity; vm_compute; congruence.
Qed.
Print Assumptions connect_will_topic_refuted.

(** *** C49 *)
(** Outside the domain of [con_means] the bytes are not determined by the arguments: a will whose
    payload pointer is NULL with a non-zero length is accepted, and the packet then
    contains whatever the buffer held before. *)
Theorem connect_null_will_payload_refuted : exists c will n ps b1 b2 o1 o2,
  getConnectPacketSize c (Some will) = (Success, Some (n, ps)) /\ zlen b1 = ps /\ zlen b2 = ps /\
  serializeConnect 4294967296 c (Some will) n (Some b1) = Ok (Success, Some o1) /\
  serializeConnect 4294967296 c (Some will) n (Some b2) = Ok (Success, Some o2) /\ o1 <> o2.
Proof.
  exists stale_con, stale_will, 20, 22, (repeat 0 22), (repeat 1 22). eexists _, _.
  repeat split; try (vm_compute; reflexivity). vm_compute. discriminate.
Qed.
Print Assumptions connect_null_will_payload_refuted.

(** *** C06 *)
Theorem subscribe_size_exact : forall M l fs id, 4294967296 <= M -> subs_mean l fs -> fs <> [] ->
  zlen (subscribe_body id fs) < M ->
  getSubscribePacketSize M (Some l) (zlen l) =
    if zlen (subscribe_body id fs) <=? max_remaining
    then Ok (Success, Some (zlen (subscribe_body id fs), zlen (subscribe_packet id fs)))
    else Ok (BadParameter, None).
Proof. exact subscribe_size_ok. Qed.
Print Assumptions subscribe_size_exact.
Theorem subscribe_bytes_exact : forall M l fs id b, 4294967296 <= M -> subs_mean l fs -> fs <> [] ->
  0 < id < 65536 -> zlen (subscribe_body id fs) <= max_remaining ->
  serializeSubscribe M (Some l) (zlen l) id (zlen (subscribe_body id fs)) (Some b) =
    if zlen b <? zlen (subscribe_packet id fs) then Ok (NoMemory, Some b)
    else Ok (Success, Some (subscribe_packet id fs ++ skipn (length (subscribe_packet id fs)) b)).
Proof. exact subscribe_encode. Qed.
Print Assumptions subscribe_bytes_exact.
Theorem unsubscribe_size_exact : forall M l fs id, 4294967296 <= M -> subs_mean l fs -> fs <> [] ->
  zlen (unsubscribe_body id (map fst fs)) < M ->
  getUnsubscribePacketSize M (Some l) (zlen l) =
    if zlen (unsubscribe_body id (map fst fs)) <=? max_remaining
    then Ok (Success, Some (zlen (unsubscribe_body id (map fst fs)), zlen (unsubscribe_packet id (map fst fs))))
    else Ok (BadParameter, None).
Proof. exact unsubscribe_size_ok. Qed.
Print Assumptions unsubscribe_size_exact.
Theorem unsubscribe_bytes_exact : forall M l fs id b, 4294967296 <= M -> subs_mean l fs -> fs <> [] ->
  0 < id < 65536 -> zlen (unsubscribe_body id (map fst fs)) <= max_remaining ->
  serializeUnsubscribe M (Some l) (zlen l) id (zlen (unsubscribe_body id (map fst fs))) (Some b) =
    if zlen b <? zlen (unsubscribe_packet id (map fst fs)) then Ok (NoMemory, Some b)
    else Ok (Success, Some (unsubscribe_packet id (map fst fs) ++ skipn (length (unsubscribe_packet id (map fst fs))) b)).
Proof. exact unsubscribe_encode. Qed.
Print Assumptions unsubscribe_bytes_exact.
(** One missing or empty filter anywhere in the list refuses the whole list. *)
Theorem subscription_bad_filter_refused : forall M l t,
  (exists x, In x l /\ (s_len x = 0 \/ s_filter x = None)) ->
  calculateSubscriptionPacketSize M l (zlen l) t = Ok (BadParameter, None).
Proof. intros M l t H. exact (subscription_refused M l t (proj2 (sub_bad_iff l) H)). Qed.
Print Assumptions subscription_bad_filter_refused.
(** No list, an empty list, packet id 0 or no buffer: refused, the buffer untouched. *)
Theorem subscription_bad_parameters_refused : forall M subs count id rl buf,
  subs = None \/ count = 0 \/ id = 0 \/ buf = None ->
  serializeSubscribe M subs count id rl buf = Ok (BadParameter, buf) /\
  serializeUnsubscribe M subs count id rl buf = Ok (BadParameter, buf).
Proof. exact subscribe_params_refused. Qed.
Print Assumptions subscription_bad_parameters_refused.
(** One filter, id 0 and a buffer that would do *)
Example subscription_bad_parameters_case :
  serializeSubscribe 4294967296 (Some [mkSub Q1 (Some [97]) 1]) 1 0 6 (Some (repeat 7 8)) = Ok (BadParameter, Some (repeat 7 8)) /\
  serializeSubscribe 4294967296 (Some [mkSub Q1 (Some [97]) 1]) 1 3 6 (Some (repeat 7 8)) = Ok (Success, Some [130; 6; 0; 3; 0; 1; 97; 1]).
Proof. split; reflexivity. Qed.
Definition subs_ex : list subinfo := [mkSub Q1 (Some [97; 47; 35; 120]) 3; mkSub Q2 (Some [98]) 1].
Definition fs_ex : list (list Z * qos) := [([97; 47; 35], Q1); ([98], Q2)].
Example subscribe_case : subs_mean subs_ex fs_ex /\
  subscribe_packet 258 fs_ex = [130; 12; 1; 2; 0; 3; 97; 47; 35; 1; 0; 1; 98; 2] /\
  unsubscribe_packet 258 (map fst fs_ex) = [162; 10; 1; 2; 0; 3; 97; 47; 35; 0; 1; 98].
Proof.
  split; [|split; reflexivity]. unfold subs_mean, subs_ex, fs_ex, sub_means, holds.
  repeat apply Forall2_cons; try apply Forall2_nil;
    (split; [eexists; split; [reflexivity|split; [vm_compute; split; congruence|reflexivity]]|cbn; split; [lia|reflexivity]]).
Qed.

(** *** C07 *)
(** Exact as long as the true size does not exceed what size_t can hold (see
    subscribe_size_exact); with a 64-bit size_t that covers every array of less
    than 2^47 entries. *)
Theorem subscription_size_exact_64bit_partial : forall l fs id, subs_mean l fs -> fs <> [] -> zlen l <= 140737488355328 ->
  getSubscribePacketSize 18446744073709551616 (Some l) (zlen l) =
    (if zlen (subscribe_body id fs) <=? max_remaining
     then Ok (Success, Some (zlen (subscribe_body id fs), zlen (subscribe_packet id fs)))
     else Ok (BadParameter, None)) /\
  getUnsubscribePacketSize 18446744073709551616 (Some l) (zlen l) =
    (if zlen (unsubscribe_body id (map fst fs)) <=? max_remaining
     then Ok (Success, Some (zlen (unsubscribe_body id (map fst fs)), zlen (unsubscribe_packet id (map fst fs))))
     else Ok (BadParameter, None)).
Proof. exact subs_exact_64. Qed.
Print Assumptions subscription_size_exact_64bit_partial.
(** With a 32-bit size_t the sum wraps: 65535 filters of 65535 bytes need 4295032832
    bytes behind the header, the library reports 65536 (packet size 65540), and
    serialising into a buffer of the reported size writes outside it. *)
Theorem subscription_size_32bit_refuted : exists l fs,
  subs_mean l fs /\ fs <> [] /\
  getSubscribePacketSize 4294967296 (Some l) (zlen l) = Ok (Success, Some (65536, 65540)) /\
  zlen (subscribe_body 1 fs) = 4295032832 /\
  forall b, zlen b = 65540 -> serializeSubscribe 4294967296 (Some l) (zlen l) 1 65536 (Some b) = Ub.
Proof. exact subs_overflow_32. Qed.
Print Assumptions subscription_size_32bit_refuted.

(** *** C08 *)
Theorem publish_size_exact : forall p id m, pub_means p id m -> pm_topic m <> [] ->
  getPublishPacketSize p =
    if zlen (publish_body m) <=? 268435450
    then (Success, Some (zlen (publish_body m), zlen (publish_packet m)))
    else (BadParameter, None).
Proof. exact publish_size_ok. Qed.
Print Assumptions publish_size_exact.
Theorem publish_bytes_exact : forall M p id m b, 4294967296 <= M -> pub_means p id m -> pub_ids_ok m ->
  pm_topic m <> [] -> zlen (publish_body m) <= max_remaining ->
  serializePublish M p id (zlen (publish_body m)) (Some b) =
    if zlen b <? zlen (publish_packet m) then Ok (NoMemory, Some b)
    else Ok (Success, Some (publish_packet m ++ skipn (length (publish_packet m)) b)).
Proof. exact publish_encode. Qed.
Print Assumptions publish_bytes_exact.
Theorem publish_header_exact : forall M p id m b, 4294967296 <= M -> pub_means p id m -> pub_ids_ok m ->
  pm_topic m <> [] -> zlen (publish_body m) <= max_remaining ->
  serializePublishHeader M p id (zlen (publish_body m)) (Some b) =
    (if zlen b <? zlen (publish_header_bytes m) then Ok (NoMemory, Some b, None)
     else Ok (Success, Some (publish_header_bytes m ++ skipn (length (publish_header_bytes m)) b),
              Some (zlen (publish_header_bytes m)))) /\
  publish_header_bytes m ++ pm_payload m = publish_packet m.
Proof. exact publish_header_both. Qed.
Print Assumptions publish_header_exact.
Theorem publish_bad_parameters_refused : forall M p id rl b,
  (p_topic p = None \/ p_topiclen p = 0 \/ (p_payload p = None /\ 0 < p_paylen p) \/
   (p_qos p <> Q0 /\ id = 0) \/ (p_dup p = true /\ p_qos p = Q0)) ->
  serializePublish M p id rl (Some b) = Ok (BadParameter, Some b).
Proof. exact publish_refused'. Qed.
Print Assumptions publish_bad_parameters_refused.
Definition pub_ex : pubinfo := mkPub Q2 true true (Some [97; 47; 98; 0]) 3 (Some [1; 2; 3]) 2.
Definition pub_ex_msg : publish_msg := mkPublish true Q2 true [97; 47; 98] 513 [1; 2].
Example publish_case : pub_means pub_ex 513 pub_ex_msg /\ pub_ids_ok pub_ex_msg /\ pm_topic pub_ex_msg <> [] /\
  publish_packet pub_ex_msg = [61; 9; 0; 3; 97; 47; 98; 2; 1; 1; 2].
Proof.
  split; [|split; [split; cbn; discriminate|split; [discriminate|reflexivity]]].
  unfold pub_means, holds0, holds, pub_ex, pub_ex_msg. cbn.
  repeat match goal with |- _ /\ _ => split end; try reflexivity; try lia; try left;
  eexists; repeat split; try reflexivity; vm_compute; congruence.
Qed.

(** *** C09 *)
(** Serialise into any large enough buffer, send exactly the announced bytes,
    followed by anything: the receiver's header parser and PUBLISH decoder give the
    message back. *)
Theorem publish_round_trip : forall M p id m b rest, 4294967296 <= M -> pub_means p id m -> pub_ids_ok m ->
  pm_topic m <> [] -> (pm_qos m = Q0 -> id = 0) ->
  bytes_ok (pm_topic m) -> bytes_ok (pm_payload m) -> bytes_ok rest ->
  forall rl ps, getPublishPacketSize p = (Success, Some (rl, ps)) -> ps <= zlen b ->
  exists b' hl d pid,
    serializePublish M p id rl (Some b) = Ok (Success, Some b') /\
    processIncomingPacketTypeAndLength (firstn (Z.to_nat ps) b' ++ rest) (zlen (firstn (Z.to_nat ps) b' ++ rest)) =
      Ok (Success, Some (publish_first m, rl, hl)) /\ ps = hl + rl /\
    deserializePublishApi M (mkPkt (publish_first m) rl (Some (skipn (Z.to_nat hl) (firstn (Z.to_nat ps) b' ++ rest)))) =
      Ok (Success, Some (d, pid)) /\
    dpub_means (skipn (Z.to_nat hl) (firstn (Z.to_nat ps) b' ++ rest)) d pid m.
Proof. exact publish_round. Qed.
Print Assumptions publish_round_trip.
Example publish_round_case : bytes_ok (pm_topic pub_ex_msg) /\ bytes_ok (pm_payload pub_ex_msg) /\
  getPublishPacketSize pub_ex = (Success, Some (9, 11)).
Proof. unfold bytes_ok, is_byte. repeat split; repeat constructor; lia. Qed.

(** *** C10 *)
(** Exactly the well-formed bodies are accepted (except the completely empty
    message: empty topic and no payload), nothing outside the body is read, and
    the reported ranges are the topic and payload. *)
Theorem publish_decoding_exact : forall M t rem data, 4294967296 <= M -> is_byte t -> t / 16 = 3 ->
  0 <= rem <= zlen data -> rem < M -> bytes_ok (firstn (Z.to_nat rem) data) ->
  (exists m d pid, deserializePublishApi M (mkPkt t rem (Some data)) = Ok (Success, Some (d, pid)) /\
     publish_means t (firstn (Z.to_nat rem) data) m /\ (pm_topic m <> [] \/ pm_payload m <> []) /\
     dpub_means data d pid m) \/
  (deserializePublishApi M (mkPkt t rem (Some data)) = Ok (BadResponse, None) /\
     forall m, publish_means t (firstn (Z.to_nat rem) data) m -> pm_topic m = [] /\ pm_payload m = []).
Proof. exact publish_decode. Qed.
Print Assumptions publish_decoding_exact.
(** The meaning of a body is unique. *)
Theorem publish_meaning_unique : forall t b m m', publish_means t b m -> publish_means t b m' ->
  pm_topic m <> [] \/ pm_payload m <> [] -> pm_topic m' <> [] \/ pm_payload m' <> [] -> m = m'.
Proof. exact publish_means_inj. Qed.
Print Assumptions publish_meaning_unique.
Example publish_decoding_case :
  deserializePublishApi 4294967296 (mkPkt 61 9 (Some [0; 3; 97; 47; 98; 2; 1; 1; 2; 99])) =
    Ok (Success, Some (mkDpub Q2 true true 2 3 (Some 7) 2, Some 513)) /\
  deserializePublishApi 4294967296 (mkPkt 61 9 (Some [0; 6; 97; 47; 98; 2; 1; 1; 2; 99])) = Ok (BadResponse, None) /\
  deserializePublishApi 4294967296 (mkPkt 54 9 (Some [0; 3; 97; 47; 98; 2; 1; 1; 2; 99])) = Ok (BadResponse, None).
Proof. repeat split. Qed.

(** *** C11 *)
Theorem ack_bytes_exact : forall k id b, ack_kind_client k = true -> 0 < id < 65536 ->
  serializeAck (Some b) (ack_first k) id =
    if zlen b <? zlen (ack_packet k id) then Ok (NoMemory, Some b)
    else Ok (Success, Some (ack_packet k id ++ skipn (length (ack_packet k id)) b)).
Proof. exact ack_encode. Qed.
Print Assumptions ack_bytes_exact.
(** Other packet types and id 0 are refused, the buffer untouched. *)
Theorem ack_other_refused : forall t id b, 4 <= zlen b ->
  (id = 0 \/ forall k, ack_kind_client k = true -> t <> ack_first k) ->
  serializeAck (Some b) t id = Ok (BadParameter, Some b).
Proof. exact ack_refused. Qed.
Print Assumptions ack_other_refused.
Theorem ack_decoding_exact : forall k rem data, 0 <= rem <= zlen data -> bytes_ok (firstn (Z.to_nat rem) data) ->
  (exists id, 1 <= id <= 65535 /\ firstn (Z.to_nat rem) data = be16 id /\
     deserializeAck (mkPkt (ack_first k) rem (Some data)) = Ok (Success, Some id, None)) \/
  ((forall id, 1 <= id <= 65535 -> firstn (Z.to_nat rem) data <> be16 id) /\
   exists o, deserializeAck (mkPkt (ack_first k) rem (Some data)) = Ok (BadResponse, o, None)).
Proof. exact ack_decode. Qed.
Print Assumptions ack_decoding_exact.
Theorem pingresp_decoding_exact : forall rem data,
  deserializeAck (mkPkt PKT_PINGRESP rem data) = Ok (if rem =? 0 then Success else BadResponse, None, None).
Proof. exact pingresp_decode. Qed.
Print Assumptions pingresp_decoding_exact.
Theorem unknown_ack_refused : forall t rem data, is_byte t ->
  ~ In t [32; 144; 208; 176; 64; 80; 98; 112] ->
  deserializeAck (mkPkt t rem (Some data)) = Ok (BadResponse, None, None).
Proof. exact other_ack. Qed.
Print Assumptions unknown_ack_refused.
Theorem pingreq_bytes_exact : forall b, serializePingreq (Some b) =
  if zlen b <? zlen pingreq_packet then Ok (NoMemory, Some b)
  else Ok (Success, Some (pingreq_packet ++ skipn (length pingreq_packet) b)).
Proof. exact pingreq_encode. Qed.
Print Assumptions pingreq_bytes_exact.
Theorem disconnect_bytes_exact : forall b, serializeDisconnect (Some b) =
  if zlen b <? zlen disconnect_packet then Ok (NoMemory, Some b)
  else Ok (Success, Some (disconnect_packet ++ skipn (length disconnect_packet) b)).
Proof. exact disconnect_encode. Qed.
Print Assumptions disconnect_bytes_exact.
Example ack_case : serializeAck (Some [0; 0; 0; 0; 7]) 98 513 = Ok (Success, Some [98; 2; 2; 1; 7]) /\
  deserializeAck (mkPkt 98 2 (Some [2; 1; 7])) = Ok (Success, Some 513, None) /\
  deserializeAck (mkPkt 98 3 (Some [2; 1; 7])) = Ok (BadResponse, None, None).
Proof. repeat split. Qed.

(** *** C12 *)
Theorem connack_decoding_exact : forall rem data, 0 <= rem <= zlen data -> bytes_ok (firstn (Z.to_nat rem) data) ->
  exists sp, deserializeAck (mkPkt 32 rem (Some data)) =
    Ok (fst (connack_result (firstn (Z.to_nat rem) data)), None, sp) /\
    (fst (connack_result (firstn (Z.to_nat rem) data)) <> BadResponse -> sp = snd (connack_result (firstn (Z.to_nat rem) data))).
Proof. exact connack_decode. Qed.
Print Assumptions connack_decoding_exact.
Example connack_case : deserializeAck (mkPkt 32 2 (Some [1; 0])) = Ok (Success, None, Some true) /\
  deserializeAck (mkPkt 32 2 (Some [0; 5])) = Ok (ServerRefused, None, Some false) /\
  connack_result [1; 5] = (BadResponse, None).
Proof. repeat split. Qed.

(** *** C13 *)
Theorem suback_decoding_exact : forall rem data, 0 <= rem <= zlen data -> bytes_ok (firstn (Z.to_nat rem) data) ->
  exists id, deserializeAck (mkPkt 144 rem (Some data)) =
    Ok (fst (suback_result (firstn (Z.to_nat rem) data)), id, None) /\
    (fst (suback_result (firstn (Z.to_nat rem) data)) <> BadResponse -> id = snd (suback_result (firstn (Z.to_nat rem) data))).
Proof. exact suback_decode. Qed.
Print Assumptions suback_decoding_exact.
(** The codes handed out for an accepted SUBACK are all its codes. *)
Theorem suback_codes_exact : forall rem data id codes, 0 <= rem <= zlen data ->
  firstn (Z.to_nat rem) data = be16 id ++ codes -> codes <> [] ->
  exists off n, getSubAckStatusCodes (mkPkt 144 rem (Some data)) = (Success, Some (off, n)) /\
    sub data off n = codes.
Proof. exact suback_codes_ok. Qed.
Print Assumptions suback_codes_exact.
Example suback_case : deserializeAck (mkPkt 144 5 (Some [0; 9; 0; 128; 2])) = Ok (ServerRefused, Some 9, None) /\
  getSubAckStatusCodes (mkPkt 144 5 (Some [0; 9; 0; 128; 2])) = (Success, Some (2, 3)) /\
  deserializeAck (mkPkt 144 5 (Some [0; 9; 0; 128; 3])) = Ok (BadResponse, Some 9, None).
Proof. repeat split. Qed.

(** *** C14 *)
(** Whatever the arguments, an accepted size is encodable and consistent. *)
Theorem publish_size_within_limit_partial : forall p rl ps, 0 <= p_topiclen p -> 0 <= p_paylen p ->
  getPublishPacketSize p = (Success, Some (rl, ps)) ->
  0 <= rl <= max_remaining /\ ps = 1 + zlen (varlen rl) + rl.
Proof. exact publish_size_max. Qed.
Print Assumptions publish_size_within_limit_partial.
Theorem connect_size_within_limit : forall c will rl ps,
  0 <= c_idlen c < 65536 -> 0 <= c_userlen c < 65536 -> 0 <= c_passlen c < 65536 ->
  match will with Some w => 0 <= p_topiclen w < 65536 /\ 0 <= p_paylen w | None => True end ->
  getConnectPacketSize c will = (Success, Some (rl, ps)) ->
  0 <= rl <= max_remaining /\ ps = 1 + zlen (varlen rl) + rl.
Proof. exact connect_size_max. Qed.
Print Assumptions connect_size_within_limit.
Theorem subscription_size_within_limit : forall M l count t rl ps, 4294967296 <= M ->
  calculateSubscriptionPacketSize M l count t = Ok (Success, Some (rl, ps)) ->
  0 <= rl <= max_remaining /\ ps = 1 + zlen (varlen rl) + rl.
Proof. exact subscription_size_max. Qed.
Print Assumptions subscription_size_within_limit.
Example size_limit_case : getPublishPacketSize pub_ex = (Success, Some (9, 11)) /\
  getConnectPacketSize con_ex (Some will_ex) = (Success, Some (28, 30)) /\
  calculateSubscriptionPacketSize 4294967296 subs_ex 2 SUBSCRIBE = Ok (Success, Some (12, 14)).
Proof. repeat split. Qed.
(** The converse fails for PUBLISH: a message whose packet has the legal remaining
    length 268435451 is refused (the limit counts the fixed header twice; exactly
    the lengths 268435451..268435455 are lost, see publish_size_exact). *)
Theorem publish_size_limit_refuted : exists p m, pub_means p 0 m /\ pm_topic m <> [] /\
  zlen (publish_body m) <= max_remaining /\ getPublishPacketSize p = (BadParameter, None).
Proof. exact limit_refuted. Qed.
Print Assumptions publish_size_limit_refuted.

(** *** C15 *)
(** On the first byte of the packet of any message m: the result is the first byte
    of the same message with the requested DUP flag (and the rest of a PUBLISH
    packet does not depend on DUP). *)
Theorem dup_flag_exact : forall m b,
  let m' := mkPublish b (pm_qos m) (pm_retain m) (pm_topic m) (pm_id m) (pm_payload m) in
  updateDuplicatePublishFlag (publish_first m) b = (Success, publish_first m') /\
  tl (publish_packet m') = tl (publish_packet m).
Proof. exact dup_flag_both. Qed.
Print Assumptions dup_flag_exact.
(** On any byte: only bit 3 changes; anything but a PUBLISH is refused. *)
Theorem dup_flag_one_bit : forall h b, is_byte h ->
  updateDuplicatePublishFlag h b =
    if h / 16 =? 3 then (Success, h - h / 8 mod 2 * 8 + bit b 8) else (BadParameter, h).
Proof. exact dup_flag_any. Qed.
Print Assumptions dup_flag_one_bit.
Example dup_flag_case : updateDuplicatePublishFlag 50 true = (Success, 58) /\
  updateDuplicatePublishFlag 58 false = (Success, 50) /\ updateDuplicatePublishFlag 98 true = (BadParameter, 98).
Proof. repeat split. Qed.
