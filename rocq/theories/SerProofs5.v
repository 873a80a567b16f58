(** Proofs about the serializer model: round trips, refusals and counterexamples. *)
From Verif Require Import Base SerModel WireSpec SerHarness SerProofs SerProofs2 SerProofs3 SerProofs4.

Lemma pitl_whole l : bytes_ok l -> processIncomingPacketTypeAndLength l (zlen l) = Ok (hdr_dec l).
Proof.
  intros H. pose proof (zlen_nonneg l).
  assert (E : firstn (Z.to_nat (zlen l)) l = l) by (unfold zlen; rewrite Nat2Z.id; apply firstn_all).
  rewrite pitl_eq; rewrite ?E; [reflexivity|lia|exact H].
Qed.

(** ** Remaining length *)
Lemma remaining_round_trip n t b0 : 0 <= n <= max_remaining -> first_ok t -> 4 <= zlen b0 ->
  exists b' pos, encodeRemainingLength (t :: b0, 1%nat) n = Ok (b', pos) /\
    (2 <= pos <= 5)%nat /\ Z.of_nat pos = 1 + remainingLengthEncodedSize n /\
    firstn 1 b' = [t] /\ skipn pos b' = skipn pos (t :: b0) /\
    (forall rest, bytes_ok rest ->
       processIncomingPacketTypeAndLength (firstn pos b' ++ rest) (zlen (firstn pos b' ++ rest)) =
         Ok (Success, Some (t, n, Z.of_nat pos))) /\
    (forall h hl, bytes_ok h -> processIncomingPacketTypeAndLength h (zlen h) = Ok (Success, Some (t, n, hl)) ->
       hl = Z.of_nat pos /\ (pos <= length h)%nat).
Proof.
  intros Hn Ht Hb. change (t :: b0, 1%nat) with (wr (t :: b0) [t]).
  pose proof (encsize_bounds n) as He.
  rewrite encode_wr by (rewrite ?zlen_cons, ?zlen_nil; auto; lia).
  set (out := [t] ++ varlen n). unfold wr. exists (out ++ skipn (length out) (t :: b0)), (length out).
  assert (Ho : Z.of_nat (length out) = 1 + remainingLengthEncodedSize n).
  { subst out. change (Z.of_nat (length ([t] ++ varlen n))) with (zlen ([t] ++ varlen n)). autorewrite with zl. lia. }
  split; [reflexivity|]. split; [lia|]. split; [exact Ho|]. split; [reflexivity|].
  assert (Eo : firstn (length out) (out ++ skipn (length out) (t :: b0)) = out).
  { rewrite firstn_app, Nat.sub_diag, firstn_all, firstn_O. apply app_nil_r. }
  split.
  { rewrite skipn_app, Nat.sub_diag, skipn_all. reflexivity. }
  rewrite Eo. split.
  - intros rest Hr. pose proof Ht as Ht'. destruct Ht' as [Hby _].
    assert (Hbo : bytes_ok (([t] ++ varlen n) ++ rest)).
    { apply Forall_app. split; [|exact Hr]. apply Forall_app. split; [constructor; [exact Hby|constructor]|now apply varlen_bytes]. }
    rewrite pitl_whole by exact Hbo. f_equal. apply hdr_success_iff; [exact Hbo|].
    exists ([t] ++ varlen n), rest. split; [reflexivity|]. split; [|reflexivity]. split; [exact Ht|]. split; [lia|reflexivity].
  - intros h hl Hh. rewrite pitl_whole by exact Hh. intros E. injection E as E.
    apply hdr_success_iff in E; [|exact Hh]. destruct E as (h' & rest & -> & (_ & _ & ->) & ->).
    subst out. split; [reflexivity|]. cbn [app length]. rewrite app_length. lia.
Qed.

(** ** The received bytes alone decide *)
Lemma header_frame buf buf' index : 0 <= index <= zlen buf -> index <= zlen buf' ->
  firstn (Z.to_nat index) buf = firstn (Z.to_nat index) buf' ->
  processIncomingPacketTypeAndLength buf index = processIncomingPacketTypeAndLength buf' index.
Proof. intros H H' E. rewrite (pitl_prefix buf), (pitl_prefix buf'), E by lia. reflexivity. Qed.

Lemma firstn_more {A} (l : list A) i j : (i <= j)%nat -> exists more, firstn j l = firstn i l ++ more.
Proof.
  intros H. exists (skipn i (firstn j l)).
  replace (firstn i l) with (firstn i (firstn j l)) by (rewrite firstn_firstn; f_equal; lia).
  now rewrite firstn_skipn.
Qed.

Lemma header_final buf i j st r : 0 <= i <= j -> j <= zlen buf -> bytes_ok (firstn (Z.to_nat j) buf) ->
  st = Success \/ st = BadResponse ->
  processIncomingPacketTypeAndLength buf i = Ok (st, r) ->
  processIncomingPacketTypeAndLength buf j = Ok (st, r).
Proof.
  intros Hij Hj Hb Hst. destruct (firstn_more buf (Z.to_nat i) (Z.to_nat j) ltac:(lia)) as [more Em].
  assert (Hbi : bytes_ok (firstn (Z.to_nat i) buf)) by (rewrite Em in Hb; apply Forall_app in Hb; tauto).
  rewrite !pitl_eq by (assumption || lia). rewrite Em. intros E. injection E as E. f_equal.
  destruct (hdr_kinds (firstn (Z.to_nat i) buf) Hbi) as [(t & rl & hl & K)|[K|[K|K]]]; rewrite K in E; injection E as <- <-;
    try (destruct Hst; discriminate).
  - now apply hdr_success_more.
  - now apply hdr_bad_more.
Qed.

Lemma need_more_short buf index : 0 <= index <= zlen buf -> bytes_ok (firstn (Z.to_nat index) buf) ->
  processIncomingPacketTypeAndLength buf index = Ok (NeedMoreBytes, None) -> index <= 4.
Proof.
  intros Hi Hb. rewrite pitl_eq by assumption. intros E. injection E as E. apply hdr_need_short in E.
  rewrite firstn_length in E. unfold zlen in Hi. lia.
Qed.

(** ** Header decision against the grammar *)
Lemma header_decision buf index : 0 <= index <= zlen buf -> bytes_ok (firstn (Z.to_nat index) buf) ->
  let r := firstn (Z.to_nat index) buf in
  (forall t rl hl, processIncomingPacketTypeAndLength buf index = Ok (Success, Some (t, rl, hl)) <->
     exists h rest, r = h ++ rest /\ header h t rl /\ hl = zlen h) /\
  (processIncomingPacketTypeAndLength buf index = Ok (NeedMoreBytes, None) <->
     r <> [] /\ exists more t rl, more <> [] /\ header (r ++ more) t rl) /\
  (processIncomingPacketTypeAndLength buf index = Ok (NoDataAvailable, None) <-> r = []) /\
  (processIncomingPacketTypeAndLength buf index = Ok (BadResponse, None) <->
     r <> [] /\ (forall h rest t rl, r = h ++ rest -> ~ header h t rl) /\
     (forall more t rl, ~ header (r ++ more) t rl)) /\
  ((exists t rl hl, processIncomingPacketTypeAndLength buf index = Ok (Success, Some (t, rl, hl))) \/
   exists st, processIncomingPacketTypeAndLength buf index = Ok (st, None) /\
              (st = NeedMoreBytes \/ st = NoDataAvailable \/ st = BadResponse)).
Proof.
  intros Hi Hb r. rewrite pitl_eq by assumption. fold r. fold r in Hb.
  assert (Inj : forall a b : status * option (Z * Z * Z), Ok a = Ok b <-> a = b) by (intros; split; congruence).
  split; [intros t rl hl; rewrite Inj; now apply hdr_success_iff|].
  split; [rewrite Inj; now apply hdr_need_iff|]. split; [rewrite Inj; apply hdr_nodata_iff|].
  split; [rewrite Inj; now apply hdr_bad_iff|].
  destruct (hdr_kinds r Hb) as [(t & rl & hl & K)|[K|[K|K]]]; rewrite K; eauto 8.
Qed.

Lemma pull_vs_push l e : bytes_ok l -> e <= 0 ->
  match processIncomingPacketTypeAndLength l (zlen l) with
  | Ok (Success, Some (t, rl, hl)) =>
      getIncomingPacketTypeAndLength recv1_stream (l, e) = Ok (Success, Some (t, rl), (skipn (Z.to_nat hl) l, e))
  | Ok (NoDataAvailable, None) =>
      exists s, getIncomingPacketTypeAndLength recv1_stream (l, e) = Ok (if e =? 0 then NoDataAvailable else RecvFailed, None, s)
  | Ok (NeedMoreBytes, None) | Ok (BadResponse, None) =>
      exists s, getIncomingPacketTypeAndLength recv1_stream (l, e) = Ok (BadResponse, None, s)
  | _ => False
  end.
Proof.
  intros Hl He. rewrite pitl_whole by exact Hl. destruct (pull_agrees l e Hl He) as [s Es]. rewrite Es.
  destruct (hdr_kinds l Hl) as [(t & rl & hl & K)|[K|[K|K]]]; rewrite K; eauto.
Qed.

(** ** PUBLISH round trip *)
Lemma bytes_app a b : bytes_ok a -> bytes_ok b -> bytes_ok (a ++ b).
Proof. intros Ha Hb. apply Forall_app. auto. Qed.
Lemma be16_bytes n : 0 <= n < 65536 -> bytes_ok (be16 n).
Proof. intros H. unfold be16, bytes_ok, is_byte. repeat constructor; lia. Qed.
Lemma publish_body_bytes m : bytes_ok (pm_topic m) -> bytes_ok (pm_payload m) -> zlen (pm_topic m) < 65536 ->
  0 <= pm_id m < 65536 -> bytes_ok (publish_body m).
Proof.
  intros Ht Hp HL Hid. unfold publish_body, publish_head, mstr. pose proof (zlen_nonneg (pm_topic m)).
  repeat apply bytes_app; try assumption; try (apply be16_bytes; lia).
  destruct (pm_qos m); [constructor|apply be16_bytes; lia|apply be16_bytes; lia].
Qed.

Lemma publish_round M p id m b rest : 4294967296 <= M -> pub_means p id m -> pub_ids_ok m -> pm_topic m <> [] ->
  (pm_qos m = Q0 -> id = 0) -> bytes_ok (pm_topic m) -> bytes_ok (pm_payload m) -> bytes_ok rest ->
  forall rl ps, getPublishPacketSize p = (Success, Some (rl, ps)) -> ps <= zlen b ->
  exists b' hl d pid,
    serializePublish M p id rl (Some b) = Ok (Success, Some b') /\
    processIncomingPacketTypeAndLength (firstn (Z.to_nat ps) b' ++ rest) (zlen (firstn (Z.to_nat ps) b' ++ rest)) =
      Ok (Success, Some (publish_first m, rl, hl)) /\ ps = hl + rl /\
    deserializePublishApi M (mkPkt (publish_first m) rl (Some (skipn (Z.to_nat hl) (firstn (Z.to_nat ps) b' ++ rest)))) =
      Ok (Success, Some (d, pid)) /\
    dpub_means (skipn (Z.to_nat hl) (firstn (Z.to_nat ps) b' ++ rest)) d pid m.
Proof.
  intros HM Hm Hok Hne Hq0 Hbt Hbp Hbr rl ps Hsz Hb.
  rewrite (publish_size_ok p id m Hm Hne) in Hsz.
  destruct (zlen (publish_body m) <=? 268435450) eqn:El; [|discriminate].
  apply some_inj in Hsz. destruct Hsz as [<- <-].
  pose proof (publish_limit_le m El) as Hmax. unfold max_remaining in Hmax.
  exists (publish_packet m ++ skipn (length (publish_packet m)) b), (1 + zlen (varlen (zlen (publish_body m)))),
    (fst (dpub_of m)), (snd (dpub_of m)).
  rewrite (publish_encode M p id m b HM Hm Hok Hne) by (unfold max_remaining; lia).
  replace (zlen b <? zlen (publish_packet m)) with false by lia.
  split; [reflexivity|].
  destruct (firstn_zlen_app (publish_packet m) (skipn (length (publish_packet m)) b) _ eq_refl) as [-> _].
  pose proof Hm as Hm'. destruct Hm' as (_ & _ & _ & Hid & Hidr & Htl & Ht & _).
  assert (HtL : 0 <= zlen (pm_topic m) < 65536) by (pose proof (holds_len _ _ _ Ht); pose proof (zlen_nonneg (pm_topic m)); lia).
  assert (Hbody : bytes_ok (publish_body m)) by (apply publish_body_bytes; try assumption; lia).
  destruct (publish_first_range m) as [Hf1 Hf3].
  assert (HbN := zlen_nonneg (publish_body m)).
  assert (Hpk : bytes_ok (publish_packet m)).
  { unfold publish_packet, packet. constructor; [exact Hf1|]. apply bytes_app; [apply varlen_bytes; unfold max_remaining; lia|exact Hbody]. }
  split.
  { rewrite pitl_whole by now apply bytes_app. f_equal. apply hdr_success_iff; [now apply bytes_app|].
    exists (publish_first m :: varlen (zlen (publish_body m))), (publish_body m ++ rest). split.
    - unfold publish_packet, packet. cbn [app]. now rewrite <- app_assoc.
    - split; [|rewrite zlen_cons; lia]. split; [|split; [unfold max_remaining; lia|reflexivity]].
      split; [exact Hf1|]. cbv zeta. rewrite Hf3. auto. }
  split; [unfold publish_packet; rewrite zlen_packet, zlen_varlen; lia|].
  assert (Esk : skipn (Z.to_nat (1 + zlen (varlen (zlen (publish_body m))))) (publish_packet m ++ rest) = publish_body m ++ rest).
  { unfold publish_packet, packet.
    replace ((publish_first m :: varlen (zlen (publish_body m)) ++ publish_body m) ++ rest)
      with ((publish_first m :: varlen (zlen (publish_body m))) ++ publish_body m ++ rest) by (cbn [app]; now rewrite <- app_assoc).
    apply firstn_zlen_app. rewrite zlen_cons. lia. }
  rewrite Esk.
  assert (Efn : firstn (Z.to_nat (zlen (publish_body m))) (publish_body m ++ rest) = publish_body m) by (now apply firstn_zlen_app).
  assert (Hmean : publish_means (publish_first m) (publish_body m) m).
  { unfold publish_means. split; [exact Hf1|]. split; [reflexivity|]. split; [reflexivity|]. split; [lia|]. split.
    - intros K. rewrite <- Hid. auto.
    - intros K. destruct Hok as [K2 _]. specialize (K2 K). lia. }
  split.
  - rewrite deser_api; try assumption; try lia; rewrite ?Efn; try assumption.
    + rewrite (pdec_complete _ _ m Hmean) by (now left). unfold dpub_of. reflexivity.
    + rewrite zlen_app. pose proof (zlen_nonneg rest). lia.
  - apply (dpub_of_means _ (zlen (publish_body m)) (publish_first m)).
    + rewrite zlen_app. pose proof (zlen_nonneg rest). lia.
    + rewrite Efn. exact Hmean.
Qed.

(** ** Refusals *)
Lemma publish_refused M p id rl b : 
  (match p_topic p with None => True | _ => False end \/ p_topiclen p = 0 \/
   (p_payload p = None /\ 0 < p_paylen p) \/
   (p_qos p <> Q0 /\ id = 0) \/ (p_dup p = true /\ p_qos p = Q0)) ->
  serializePublish M p id rl (Some b) = Ok (BadParameter, Some b).
Proof.
  intros H. unfold serializePublish.
  destruct ((0 <? p_paylen p) && match p_payload p with None => true | _ => false end) eqn:E1; [reflexivity|].
  destruct (match p_topic p with None => true | _ => false end || (p_topiclen p =? 0)) eqn:E2; [reflexivity|].
  destruct (negb (qos_beq (p_qos p) Q0) && (id =? 0)) eqn:E3; [reflexivity|].
  destruct (p_dup p && qos_beq (p_qos p) Q0) eqn:E4; [reflexivity|]. exfalso.
  destruct H as [H|[H|[[H H']|[[H H']|[H H']]]]].
  - destruct (p_topic p); [exact H|discriminate].
  - rewrite H in E2. now rewrite orb_true_r in E2.
  - rewrite H, andb_true_r in E1. lia.
  - rewrite H' in E3. destruct (p_qos p); [congruence|discriminate|discriminate].
  - rewrite H, H' in E4. discriminate.
Qed.

Lemma size_loop_bad M l t : forall acc st, st = BadParameter \/ existsb sub_bad l = true ->
  snd (subscription_size_loop M l t acc st) = BadParameter.
Proof.
  induction l as [|x l IH]; intros acc st H; cbn [subscription_size_loop existsb] in *.
  - destruct H; [assumption|discriminate].
  - fold (sub_bad x). destruct (sub_bad x) eqn:Ex.
    + destruct t; apply IH; auto.
    + cbn [orb] in H. destruct t; apply IH; exact H.
Qed.
Lemma subscription_refused M l t : existsb sub_bad l = true ->
  calculateSubscriptionPacketSize M l (zlen l) t = Ok (BadParameter, None).
Proof.
  intros H. unfold calculateSubscriptionPacketSize, rassert.
  assert (Hl : 0 < zlen l) by (destruct l; [discriminate|]; rewrite zlen_cons; pose proof (zlen_nonneg l); lia).
  replace (zlen l =? 0) with false by lia. cbn [negb]. rewrite sub_entries_all. cbn [rbind].
  pose proof (size_loop_bad M l t 2 Success (or_intror H)) as K.
  destruct (subscription_size_loop M l t 2 Success) as [n st]. cbn [snd] in K. subst st.
  destruct (MAX_REMAINING_LENGTH <? n); reflexivity.
Qed.
Lemma sub_bad_iff l : existsb sub_bad l = true <-> exists x, In x l /\ (s_len x = 0 \/ s_filter x = None).
Proof.
  rewrite existsb_exists. split; intros (x & Hi & H); exists x; (split; [exact Hi|]); unfold sub_bad in *.
  - apply orb_true_iff in H. destruct H as [H|H]; [left; lia|right; destruct (s_filter x); [discriminate|reflexivity]].
  - destruct H as [->| ->]; [reflexivity|apply orb_true_r].
Qed.

(** a 64-bit size_t cannot overflow for an array that fits in memory *)
Lemma sub_total_bound t l : Forall (fun x => 0 <= s_len x < 65536) l -> 0 <= sub_total t l <= zlen l * 65538.
Proof.
  induction 1 as [|x l Hx Hl IH]; [cbn; lia|]. rewrite zlen_cons. cbn [sub_total]. unfold sub_cost. destruct t; lia.
Qed.

(** ** Counterexamples *)
(** a legal PUBLISH just under the protocol limit is refused *)
Definition limit_payload : list Z := repeat 0 (Z.to_nat 268435448).
Definition limit_pub : pubinfo := mkPub Q0 false false (Some [97]) 1 (Some limit_payload) 268435448.
Definition limit_msg : publish_msg := mkPublish false Q0 false [97] 0 limit_payload.
Lemma limit_len : zlen limit_payload = 268435448.
Proof. unfold limit_payload. rewrite zlen_repeat. lia. Qed.
Lemma firstn_whole (l : list Z) n : zlen l = n -> firstn (Z.to_nat n) l = l.
Proof. intros <-. unfold zlen. rewrite Nat2Z.id. apply firstn_all. Qed.
Lemma limit_holds : holds (Some limit_payload) 268435448 limit_payload.
Proof.
  exists limit_payload. split; [reflexivity|]. rewrite limit_len. split; [lia|].
  symmetry. apply firstn_whole, limit_len.
Qed.
#[local] Opaque limit_payload.
Lemma limit_means : pub_means limit_pub 0 limit_msg.
Proof.
  unfold limit_pub, limit_msg, pub_means. cbn [p_qos p_retain p_dup p_topic p_topiclen p_payload p_paylen pm_qos pm_retain pm_dup pm_id pm_topic pm_payload].
  split; [reflexivity|]. split; [reflexivity|]. split; [reflexivity|]. split; [reflexivity|]. split; [lia|]. split; [lia|].
  split; [exists [97]; split; [reflexivity|split; [vm_compute; split; congruence|reflexivity]]|].
  left. exact limit_holds.
Qed.
Lemma limit_body : zlen (publish_body limit_msg) = 268435451.
Proof. rewrite zlen_publish_body. cbn [pm_topic pm_qos pm_payload limit_msg]. rewrite limit_len. reflexivity. Qed.
Lemma limit_refused : getPublishPacketSize limit_pub = (BadParameter, None).
Proof.
  rewrite (publish_size_ok _ _ _ limit_means) by discriminate. rewrite limit_body. reflexivity.
Qed.

(** a will without payload pointer but with a payload length *)
Definition stale_con : coninfo := mkCon true 60 (Some [97]) 1 None 0 None 0.
Definition stale_will : pubinfo := mkPub Q0 false false (Some [98]) 1 None 2.

(** ** Statements assembled for Props_Ser.v *)
Lemma subs_lens l fs : subs_mean l fs -> Forall (fun x => 0 <= s_len x < 65536) l.
Proof. induction 1 as [|x f l fs Hx Hl IH]; constructor; [destruct Hx as (_ & Hx & _); lia|exact IH]. Qed.
Lemma subs_exact_64 l fs id : subs_mean l fs -> fs <> [] -> zlen l <= 140737488355328 ->
  getSubscribePacketSize 18446744073709551616 (Some l) (zlen l) =
    (if zlen (subscribe_body id fs) <=? max_remaining
     then Ok (Success, Some (zlen (subscribe_body id fs), zlen (subscribe_packet id fs)))
     else Ok (BadParameter, None)) /\
  getUnsubscribePacketSize 18446744073709551616 (Some l) (zlen l) =
    (if zlen (unsubscribe_body id (map fst fs)) <=? max_remaining
     then Ok (Success, Some (zlen (unsubscribe_body id (map fst fs)), zlen (unsubscribe_packet id (map fst fs))))
     else Ok (BadParameter, None)).
Proof.
  intros Hm Hne Hl. destruct (sub_total_bytes _ _ Hm) as [H1 H2]. rewrite <- (sub_body_id id) in H1. rewrite <- (unsub_body_id id) in H2.
  pose proof (sub_total_bound SUBSCRIBE l (subs_lens _ _ Hm)). pose proof (sub_total_bound UNSUBSCRIBE l (subs_lens _ _ Hm)).
  split; [apply subscribe_size_ok|apply unsubscribe_size_ok]; auto; lia.
Qed.
Lemma subs_overflow_32 : exists l fs,
  subs_mean l fs /\ fs <> [] /\
  getSubscribePacketSize 4294967296 (Some l) (zlen l) = Ok (Success, Some (65536, 65540)) /\
  zlen (subscribe_body 1 fs) = 4295032832 /\
  forall b, zlen b = 65540 -> serializeSubscribe 4294967296 (Some l) (zlen l) 1 65536 (Some b) = Ub.
Proof.
  exists big_subs, big_fs. split; [exact big_means|]. split.
  { intros K. apply (f_equal zlen) in K. unfold big_fs in K. rewrite zlen_repeat, zlen_nil in K. lia. }
  split; [exact big_size|]. split; [exact big_real|]. intros b Hb. apply big_overrun; [exact Hb|lia].
Qed.
Lemma publish_header_both M p id m b : 4294967296 <= M -> pub_means p id m -> pub_ids_ok m ->
  pm_topic m <> [] -> zlen (publish_body m) <= max_remaining ->
  serializePublishHeader M p id (zlen (publish_body m)) (Some b) =
    (if zlen b <? zlen (publish_header_bytes m) then Ok (NoMemory, Some b, None)
     else Ok (Success, Some (publish_header_bytes m ++ skipn (length (publish_header_bytes m)) b),
              Some (zlen (publish_header_bytes m)))) /\
  publish_header_bytes m ++ pm_payload m = publish_packet m.
Proof. intros. split; [now apply publish_header_encode|apply publish_header_packet]. Qed.
Lemma publish_refused' M p id rl b :
  (p_topic p = None \/ p_topiclen p = 0 \/ (p_payload p = None /\ 0 < p_paylen p) \/
   (p_qos p <> Q0 /\ id = 0) \/ (p_dup p = true /\ p_qos p = Q0)) ->
  serializePublish M p id rl (Some b) = Ok (BadParameter, Some b).
Proof. intros H. apply publish_refused. destruct H as [->|H]; [now left|now right]. Qed.
Lemma ack_refused t id b : 4 <= zlen b -> (id = 0 \/ forall k, ack_kind_client k = true -> t <> ack_first k) ->
  serializeAck (Some b) t id = Ok (BadParameter, Some b).
Proof.
  intros Hb H. unfold serializeAck. replace (zlen b <? 4) with false by lia. destruct (id =? 0) eqn:E; [reflexivity|].
  destruct H as [H|H]; [lia|].
  pose proof (H KPuback eq_refl) as H1. pose proof (H KPubrec eq_refl) as H2. pose proof (H KPubrel eq_refl) as H3.
  pose proof (H KPubcomp eq_refl) as H4. cbn [ack_first] in *. unfold PKT_PUBACK, PKT_PUBREC, PKT_PUBREL, PKT_PUBCOMP.
  replace (_ || _ || _ || _) with false by lia. reflexivity.
Qed.
Lemma suback_codes_ok rem data id codes : 0 <= rem <= zlen data ->
  firstn (Z.to_nat rem) data = be16 id ++ codes -> codes <> [] ->
  exists off n, getSubAckStatusCodes (mkPkt 144 rem (Some data)) = (Success, Some (off, n)) /\ sub data off n = codes.
Proof.
  intros Hr E Hne. exists 2, (rem - 2). pose proof (zlen_firstn data rem Hr) as HL. rewrite E, zlen_app, zlen_be16 in HL.
  assert (0 < zlen codes) by (destruct codes; [congruence|]; rewrite zlen_cons; pose proof (zlen_nonneg codes); lia).
  unfold getSubAckStatusCodes. cbn [k_type k_data k_rem]. change (negb (144 =? PKT_SUBACK)) with false. cbv iota.
  replace (rem <? 3) with false by lia. split; [reflexivity|].
  rewrite (sub_of_prefix data rem _ _ _ E) by lia. rewrite <- (app_nil_r codes) at 1. apply sub_app; [reflexivity|lia].
Qed.
Lemma limit_refuted : exists p m, pub_means p 0 m /\ pm_topic m <> [] /\
  zlen (publish_body m) <= max_remaining /\ getPublishPacketSize p = (BadParameter, None).
Proof.
  exists limit_pub, limit_msg. split; [exact limit_means|]. split; [discriminate|]. split; [|exact limit_refused].
  rewrite limit_body. unfold max_remaining. lia.
Qed.
Lemma dup_flag_both m b :
  let m' := mkPublish b (pm_qos m) (pm_retain m) (pm_topic m) (pm_id m) (pm_payload m) in
  updateDuplicatePublishFlag (publish_first m) b = (Success, publish_first m') /\
  tl (publish_packet m') = tl (publish_packet m).
Proof. cbv zeta. split; [apply dup_flag|reflexivity]. Qed.
Lemma dup_flag_any h b : is_byte h ->
  updateDuplicatePublishFlag h b =
    if h / 16 =? 3 then (Success, h - h / 8 mod 2 * 8 + bit b 8) else (BadParameter, h).
Proof.
  intros Hh. destruct (h / 16 =? 3) eqn:E; [apply dup_flag_byte|apply dup_flag_other]; auto; lia.
Qed.

Lemma subscribe_params_refused M subs count id rl buf :
  subs = None \/ count = 0 \/ id = 0 \/ buf = None ->
  serializeSubscribe M subs count id rl buf = Ok (BadParameter, buf) /\
  serializeUnsubscribe M subs count id rl buf = Ok (BadParameter, buf).
Proof.
  intros H. assert (E : validateSubscriptionSerializeParams M subs count id rl buf = BadParameter).
  { unfold validateSubscriptionSerializeParams. destruct subs as [l|]; [|reflexivity]. destruct buf as [b|]; [|reflexivity].
    destruct (count =? 0) eqn:E1; [reflexivity|]. destruct (id =? 0) eqn:E2; [reflexivity|].
    destruct H as [H|[H|[H|H]]]; discriminate || lia. }
  unfold serializeSubscribe, serializeUnsubscribe. rewrite E. split; reflexivity.
Qed.
