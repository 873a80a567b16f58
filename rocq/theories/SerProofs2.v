(** Proofs about the serializer model: the packet-level encoding theorems. *)
From Verif Require Import Base SerModel WireSpec SerHarness SerProofs.

Ltac zl := autorewrite with zl in *.
Ltac pair_lia :=
  match goal with |- context [Some (?a, ?b)] =>
    match goal with |- _ = ?r => match r with context [Some (?c, ?d)] =>
      let H1 := fresh in let H2 := fresh in
      assert (H1 : a = c) by lia; assert (H2 : b = d) by lia; rewrite ?H1, ?H2; reflexivity end end end.

Lemma is_none_holds p len s : holds p len s -> match p with None => true | Some _ => false end = false.
Proof. intros (m & -> & _). reflexivity. Qed.

(** ** PUBLISH *)
Lemma publish_size_ok p id m : pub_means p id m -> pm_topic m <> [] ->
  getPublishPacketSize p =
    if zlen (publish_body m) <=? 268435450
    then (Success, Some (zlen (publish_body m), zlen (publish_packet m)))
    else (BadParameter, None).
Proof.
  intros (Hq & Hr & Hd & Hi & Hidr & Htl & Ht & Hp) Hne.
  pose proof (holds_len _ _ _ Ht) as HtL. pose proof (holds0_len _ _ _ Hp) as HpL.
  unfold getPublishPacketSize. rewrite (is_none_holds _ _ _ Ht). cbn [orb].
  assert (Htn : 0 < zlen (pm_topic m)).
  { destruct (pm_topic m); [congruence|]. rewrite zlen_cons. pose proof (zlen_nonneg l). lia. }
  replace (p_topiclen p =? 0) with false by lia.
  unfold calculatePublishPacketSize. rewrite Hq.
  pose proof (zlen_publish_body m) as HB. unfold publish_packet. rewrite zlen_packet.
  set (h := match pm_qos m with Q0 => p_topiclen p + 2 | _ => p_topiclen p + 2 + 2 end).
  assert (Hh : h + p_paylen p = zlen (publish_body m)).
  { rewrite HB. subst h. destruct (pm_qos m); lia. }
  assert (Hhb : 2 < h <= 65539) by (subst h; destruct (pm_qos m); lia).
  pose proof (zlen_nonneg (pm_payload m)) as HpN.
  rewrite Hh. unfold MAX_REMAINING_LENGTH. unfold remainingLengthEncodedSize.
  set (B := zlen (publish_body m)) in *.
  destruct (268435455 - h - 1 <? p_paylen p) eqn:E1.
  { replace (B <=? 268435450) with false by lia. reflexivity. }
  destruct (B <? 128) eqn:C1; [|destruct (B <? 16384) eqn:C2; [|destruct (B <? 2097152) eqn:C3]];
  match goal with |- context [?a - ?b <? p_paylen p] => destruct (a - b <? p_paylen p) eqn:E2 end;
  try (replace (B <=? 268435450) with false by lia; reflexivity);
  try (replace (B <=? 268435450) with true by lia; pair_lia); exfalso; lia.
Qed.

Lemma publish_limit_le m : zlen (publish_body m) <=? 268435450 = true -> zlen (publish_body m) <= max_remaining.
Proof. unfold max_remaining. lia. Qed.

Lemma publish_checks p id m : pub_means p id m -> pub_ids_ok m -> pm_topic m <> [] ->
  (0 <? p_paylen p) && match p_payload p with None => true | _ => false end = false /\
  match p_topic p with None => true | _ => false end || (p_topiclen p =? 0) = false /\
  negb (qos_beq (p_qos p) Q0) && (id =? 0) = false /\ p_dup p && qos_beq (p_qos p) Q0 = false.
Proof.
  intros (Hq & Hr & Hd & Hi & Hidr & Htl & Ht & Hp) [Hid Hdup] Hne.
  repeat split.
  - destruct Hp as [(mm & -> & _)|(-> & -> & _)]; [apply andb_false_r|reflexivity].
  - rewrite (is_none_holds _ _ _ Ht). pose proof (holds_len _ _ _ Ht) as HtL.
    destruct (pm_topic m); [congruence|]. rewrite zlen_cons in HtL. pose proof (zlen_nonneg l). cbn [orb]. lia.
  - rewrite Hq, Hi. destruct (pm_qos m) eqn:Eq; [reflexivity| |]; specialize (Hid ltac:(discriminate)); cbn [qos_beq negb andb]; lia.
  - rewrite Hq, Hd. destruct (pm_dup m); [|reflexivity]. specialize (Hdup eq_refl).
    destruct (pm_qos m); congruence || reflexivity.
Qed.

Lemma publish_encode M p id m b : 4294967296 <= M -> pub_means p id m -> pub_ids_ok m -> pm_topic m <> [] ->
  zlen (publish_body m) <= max_remaining ->
  serializePublish M p id (zlen (publish_body m)) (Some b) =
    if zlen b <? zlen (publish_packet m) then Ok (NoMemory, Some b)
    else Ok (Success, Some (publish_packet m ++ skipn (length (publish_packet m)) b)).
Proof.
  intros HM Hm Hok Hne Hmax. destruct (publish_checks _ _ _ Hm Hok Hne) as (C1 & C2 & C3 & C4).
  unfold serializePublish. rewrite C1, C2, C3, C4.
  pose proof (encsize_bounds (zlen (publish_body m))) as HeB. pose proof (zlen_nonneg (publish_body m)) as HbN.
  unfold max_remaining in *. rewrite Z.mod_small by lia.
  unfold publish_packet in *. rewrite zlen_packet.
  destruct (zlen b <? 1 + remainingLengthEncodedSize (zlen (publish_body m)) + zlen (publish_body m)) eqn:E; [reflexivity|].
  rewrite (publish_common p id m b true Hm Hok Hmax); [reflexivity|].
  unfold publish_packet. rewrite zlen_packet. lia.
Qed.

Lemma publish_header_encode M p id m b : 4294967296 <= M -> pub_means p id m -> pub_ids_ok m -> pm_topic m <> [] ->
  zlen (publish_body m) <= max_remaining ->
  serializePublishHeader M p id (zlen (publish_body m)) (Some b) =
    if zlen b <? zlen (publish_header_bytes m) then Ok (NoMemory, Some b, None)
    else Ok (Success, Some (publish_header_bytes m ++ skipn (length (publish_header_bytes m)) b),
             Some (zlen (publish_header_bytes m))).
Proof.
  intros HM Hm Hok Hne Hmax. destruct (publish_checks _ _ _ Hm Hok Hne) as (C1 & C2 & C3 & C4).
  unfold serializePublishHeader. rewrite C2, C3, C4.
  pose proof (encsize_bounds (zlen (publish_body m))) as HeB. pose proof (zlen_nonneg (publish_body m)) as HbN.
  unfold max_remaining in *.
  assert (Hlen : zlen (publish_header_bytes m) =
     1 + remainingLengthEncodedSize (zlen (publish_body m)) + zlen (publish_body m) - p_paylen p).
  { assert (Eb : zlen (publish_body m) = zlen (publish_head m) + zlen (pm_payload m))
      by (unfold publish_body; autorewrite with zl; lia).
    unfold publish_header_bytes. autorewrite with zl.
    destruct Hm as (_ & _ & _ & _ & _ & _ & _ & Hp). rewrite (holds0_len _ _ _ Hp) in Eb. lia. }
  pose proof (zlen_nonneg (publish_header_bytes m)) as HhN.
  pose proof (zlen_nonneg (pm_payload m)) as HpN.
  assert (0 <= p_paylen p) by (destruct Hm as (_ & _ & _ & _ & _ & _ & _ & Hp); rewrite <- (holds0_len _ _ _ Hp); lia).
  rewrite Z.mod_small by lia. rewrite <- Hlen.
  destruct (zlen b <? zlen (publish_header_bytes m)) eqn:E; [reflexivity|].
  rewrite (publish_common p id m b false Hm Hok Hmax); [reflexivity|]. lia.
Qed.

Lemma publish_header_packet m : publish_header_bytes m ++ pm_payload m = publish_packet m.
Proof.
  unfold publish_packet, packet, publish_header_bytes, publish_body. cbn [app]. now rewrite <- !app_assoc.
Qed.

Lemma publish_wo_topic p id m b : pub_means p id m -> zlen (publish_body m) <= max_remaining ->
  let out := publish_first m :: varlen (zlen (publish_body m)) ++ be16 (zlen (pm_topic m)) in
  zlen out <= zlen b ->
  serializePublishHeaderWithoutTopic p (zlen (publish_body m)) b = Ok (out ++ skipn (length out) b, zlen out).
Proof.
  intros HM Hmax out Hb. pose proof (publishFlags_eq _ _ _ HM) as Hf.
  destruct HM as (Hq & Hr & Hd & Hi & Hidr & Htl & Ht & Hp).
  pose proof (holds_len _ _ _ Ht) as HtL. pose proof (zlen_nonneg (pm_topic m)) as HtN.
  unfold serializePublishHeaderWithoutTopic. rewrite Hf, <- HtL, wr_nil.
  assert (Ho : zlen out = 1 + remainingLengthEncodedSize (zlen (publish_body m)) + 2).
  { subst out. autorewrite with zl. lia. }
  pose proof (encsize_bounds (zlen (publish_body m))) as HeB. pose proof (zlen_nonneg (publish_body m)) as HbN.
  rewrite put_wrz by (autorewrite with zl; lia). cbn [rbind].
  rewrite encode_wr by (try split; autorewrite with zl; lia). cbn [rbind].
  rewrite put_wrz by (autorewrite with zl; lia). cbn [rbind].
  rewrite put_wrz by (autorewrite with zl; lia). cbn [rbind].
  rewrite <- !app_assoc. cbn [app]. rewrite be16_eq by lia. rewrite Ho. reflexivity.
Qed.

(** ** CONNECT *)
Lemma connectFlags_eq c will m : con_means c will m -> connectFlags c will = connect_flags m.
Proof.
  intros (Hc & Hk & Hkr & Hid & Hidl & Hu & Hp & Hw). unfold connectFlags, connect_flags.
  rewrite Hc.
  assert (Eu : is_some (c_user c) = is_some (cm_user m)).
  { unfold holds_opt in Hu. destruct (cm_user m); [destruct Hu as [(x & -> & _) _]; reflexivity|now rewrite Hu]. }
  assert (Ep : is_some (c_pass c) = is_some (cm_pass m)).
  { unfold holds_opt in Hp. destruct (cm_pass m); [destruct Hp as [(x & -> & _) _]; reflexivity|now rewrite Hp]. }
  rewrite <- Eu, <- Ep. destruct will as [w|], (cm_will m) as [wm|]; try contradiction.
  - destruct Hw as (Hq & Hr & _). rewrite Hq, Hr.
    destruct (c_user c), (c_pass c), (cm_clean m), (wm_qos wm), (wm_retain wm); reflexivity.
  - destruct (c_user c), (c_pass c), (cm_clean m); reflexivity.
Qed.

Definition optlen (o : option (list Z)) : Z := match o with Some s => 2 + zlen s | None => 0 end.
Definition willlen (m : connect_msg) : Z :=
  match cm_will m with Some w => 4 + zlen (wm_topic w) + zlen (wm_payload w) | None => 0 end.

Lemma zlen_connect_body m : zlen (connect_body m) =
  12 + zlen (cm_id m) + willlen m + optlen (cm_user m) + optlen (cm_pass m).
Proof.
  unfold connect_body, willlen, optlen. autorewrite with zl.
  destruct (cm_will m), (cm_user m), (cm_pass m); autorewrite with zl; lia.
Qed.

Lemma con_lens c will m : con_means c will m ->
  zlen (cm_id m) = c_idlen c /\ c_idlen c < 65536 /\
  optlen (cm_user m) = match c_user c with Some _ => c_userlen c + 2 | None => 0 end /\
  optlen (cm_pass m) = match c_pass c with Some _ => c_passlen c + 2 | None => 0 end /\
  willlen m = match will with Some w => p_topiclen w + 2 + p_paylen w + 2 | None => 0 end /\
  optlen (cm_user m) <= 65537 /\ optlen (cm_pass m) <= 65537 /\
  (will_fits m = true -> willlen m <= 131074) /\
  will_fits m = match will with Some w => negb (65535 <? p_paylen w) | None => true end.
Proof.
  intros (Hc & Hk & Hkr & Hid & Hidl & Hu & Hp & Hw).
  pose proof (holds_len _ _ _ Hid) as HidL.
  assert (Eu : optlen (cm_user m) = match c_user c with Some _ => c_userlen c + 2 | None => 0 end /\ optlen (cm_user m) <= 65537).
  { unfold holds_opt in Hu. destruct (cm_user m); cbn [optlen].
    - destruct Hu as [Hu Hl]. pose proof (holds_len _ _ _ Hu). destruct Hu as (x & -> & _). lia.
    - rewrite Hu. lia. }
  assert (Ep : optlen (cm_pass m) = match c_pass c with Some _ => c_passlen c + 2 | None => 0 end /\ optlen (cm_pass m) <= 65537).
  { unfold holds_opt in Hp. destruct (cm_pass m); cbn [optlen].
    - destruct Hp as [Hp Hl]. pose proof (holds_len _ _ _ Hp). destruct Hp as (x & -> & _). lia.
    - rewrite Hp. lia. }
  unfold will_fits, willlen.
  destruct will as [w|], (cm_will m) as [wm|]; try contradiction.
  - destruct Hw as (Hq & Hr & Ht & Htl & Hpl). pose proof (holds_len _ _ _ Ht). pose proof (holds0_len _ _ _ Hpl).
    repeat split; try tauto; lia.
  - repeat split; try tauto; lia.
Qed.

Lemma connect_size_ok c will m : con_means c will m -> cm_id m <> [] ->
  getConnectPacketSize c will =
    if will_fits m then (Success, Some (zlen (connect_body m), zlen (connect_packet m)))
    else (BadParameter, None).
Proof.
  intros Hm Hne. destruct (con_lens _ _ _ Hm) as (L1 & L2 & L3 & L4 & L5 & L6 & L7 & L8 & L9).
  destruct Hm as (_ & _ & _ & Hid & _).
  unfold getConnectPacketSize. rewrite (is_none_holds _ _ _ Hid).
  assert (Hn : 0 < zlen (cm_id m)).
  { destruct (cm_id m); [congruence|]. rewrite zlen_cons. pose proof (zlen_nonneg l). lia. }
  replace (c_idlen c =? 0) with false by lia. cbn [orb].
  unfold connect_packet. rewrite zlen_packet, zlen_connect_body, L1, L3, L4, L5, L9. unfold CONNECT_HEADER_SIZE.
  destruct will as [w|].
  - destruct (65535 <? p_paylen w); cbn [negb]; [reflexivity|].
    destruct (c_user c), (c_pass c);
    match goal with |- (_, Some (?x, _)) = (_, Some (?y, _)) => replace x with y by lia end; pair_lia.
  - destruct (c_user c), (c_pass c);
    match goal with |- (_, Some (?x, _)) = (_, Some (?y, _)) => replace x with y by lia end; pair_lia.
Qed.

Lemma connect_body_max m : cm_id m <> [] -> will_fits m = true ->
  zlen (cm_id m) <= 65535 -> optlen (cm_user m) <= 65537 -> optlen (cm_pass m) <= 65537 -> willlen m <= 131074 ->
  zlen (connect_body m) <= 327695.
Proof. intros. rewrite zlen_connect_body. lia. Qed.

Lemma connect_encode M c will m b : 4294967296 <= M -> con_means c will m ->
  will_fits m = true ->
  serializeConnect M c will (zlen (connect_body m)) (Some b) =
    if zlen b <? zlen (connect_packet m) then Ok (NoMemory, Some b)
    else Ok (Success, Some (connect_packet m ++ skipn (length (connect_packet m)) b)).
Proof.
  intros HM Hm Hwf. destruct (con_lens _ _ _ Hm) as (L1 & L2 & L3 & L4 & L5 & L6 & L7 & L8 & L9).
  specialize (L8 Hwf). pose proof (connectFlags_eq _ _ _ Hm) as Hfl.
  destruct Hm as (Hc & Hk & Hkr & Hid & Hidl & Hu & Hp & Hw).
  unfold serializeConnect.
  assert (E1 : match will with Some wl => match p_topic wl with None => true | _ => false end | None => false end = false).
  { destruct will as [w|], (cm_will m); try contradiction; [|reflexivity]. destruct Hw as (_ & _ & Ht & _). now apply is_none_holds in Ht. }
  rewrite E1. pose proof (zlen_connect_body m) as HB. pose proof (zlen_nonneg (cm_id m)) as HN0.
  assert (0 <= optlen (cm_user m)) by (destruct (cm_user m) as [l|]; cbn [optlen]; [pose proof (zlen_nonneg l)|]; lia).
  assert (0 <= optlen (cm_pass m)) by (destruct (cm_pass m) as [l|]; cbn [optlen]; [pose proof (zlen_nonneg l)|]; lia).
  assert (0 <= willlen m).
  { unfold willlen. destruct (cm_will m) as [x|]; [|lia]. pose proof (zlen_nonneg (wm_topic x)). pose proof (zlen_nonneg (wm_payload x)). lia. }
  set (B := zlen (connect_body m)) in *.
  pose proof (encsize_bounds B) as HeB.
  rewrite Z.mod_small by lia.
  assert (HP : zlen (connect_packet m) = 1 + remainingLengthEncodedSize B + B) by (unfold connect_packet; apply zlen_packet).
  rewrite HP. replace (B + remainingLengthEncodedSize B + 1) with (1 + remainingLengthEncodedSize B + B) by lia.
  destruct (zlen b <? 1 + remainingLengthEncodedSize B + B) eqn:E; [reflexivity|].
  unfold serializeConnectPacket, serializeConnectFixedHeader. rewrite wr_nil.
  unfold max_remaining in *.
  rewrite put_wrz by (autorewrite with zl; lia). cbn [rbind].
  rewrite encode_wr by (unfold max_remaining; try split; autorewrite with zl; lia). cbn [rbind].
  rewrite (encodeString_wr b _ _ _ [77;81;84;84]);
    [|left; exists [77;81;84;84]; repeat split; cbn; lia|lia|autorewrite with zl; lia]. cbn [rbind].
  rewrite put_wrz by (autorewrite with zl; lia). cbn [rbind].
  rewrite put_wrz by (autorewrite with zl; lia). cbn [rbind].
  rewrite be16_eq by lia. rewrite put_wrz by (autorewrite with zl; lia). cbn [rbind].
  rewrite (encodeString_wr b _ _ _ (cm_id m)); [|now left|lia|autorewrite with zl; lia]. cbn [rbind].
  rewrite Hfl, Hk.
  set (c1 := ((((((([] ++ [PKT_CONNECT]) ++ varlen B) ++ mstr [77; 81; 84; 84]) ++ [4]) ++ [connect_flags m]) ++
        be16 (cm_keepalive m)) ++ mstr (cm_id m))).
  set (wb := match cm_will m with Some w => mstr (wm_topic w) ++ mstr (wm_payload w) | None => [] end).
  set (ub := match cm_user m with Some u => mstr u | None => [] end).
  set (pb := match cm_pass m with Some u => mstr u | None => [] end).
  assert (Hc1 : zlen c1 = 1 + remainingLengthEncodedSize B + 12 + zlen (cm_id m)) by (subst c1; autorewrite with zl; lia).
  assert (Lw : zlen wb = willlen m) by (subst wb; unfold willlen; destruct (cm_will m); autorewrite with zl; lia).
  assert (Lu : zlen ub = optlen (cm_user m)) by (subst ub; unfold optlen; destruct (cm_user m); autorewrite with zl; lia).
  assert (Lp : zlen pb = optlen (cm_pass m)) by (subst pb; unfold optlen; destruct (cm_pass m); autorewrite with zl; lia).
  assert (Ew : match will with None => Ok (wr b c1)
     | Some wl => let! w := encodeString (wr b c1) (p_topic wl) (p_topiclen wl) in
                  encodeString w (p_payload wl) (u16 (p_paylen wl)) end = Ok (wr b (c1 ++ wb))).
  { subst wb. unfold willlen in *. unfold will_fits in Hwf. destruct will as [w|], (cm_will m) as [wm|]; try contradiction.
    - destruct Hw as (Hq & Hr & Ht & Htl & Hpl). pose proof (holds_len _ _ _ Ht) as K1. pose proof (holds0_len _ _ _ Hpl) as K2.
      pose proof (zlen_nonneg (wm_topic wm)). pose proof (zlen_nonneg (wm_payload wm)).
      rewrite (encodeString_wr b _ _ _ (wm_topic wm)); [|now left|lia|lia]. cbn [rbind].
      rewrite u16_id by lia.
      rewrite (encodeString_wr b _ _ _ (wm_payload wm)); [|assumption|lia|autorewrite with zl; lia].
      now rewrite app_assoc.
    - now rewrite app_nil_r. }
  rewrite Ew. cbn [rbind].
  assert (Eu : match c_user c with None => Ok (wr b (c1 ++ wb)) | Some _ => encodeString (wr b (c1 ++ wb)) (c_user c) (c_userlen c) end
       = Ok (wr b ((c1 ++ wb) ++ ub))).
  { subst ub. unfold holds_opt in Hu. destruct (cm_user m) as [u|].
    - destruct Hu as [Hu Hl]. pose proof (holds_len _ _ _ Hu) as K. pose proof (zlen_nonneg u).
      cbn [optlen] in *. pose proof Hu as Hu'. destruct Hu' as (x & Ex & _).
      rewrite Ex at 1. apply encodeString_wr; [now left|lia|autorewrite with zl; lia].
    - rewrite Hu. now rewrite app_nil_r. }
  rewrite Eu. cbn [rbind].
  assert (Ep : match c_pass c with None => Ok (wr b ((c1 ++ wb) ++ ub)) | Some _ => encodeString (wr b ((c1 ++ wb) ++ ub)) (c_pass c) (c_passlen c) end
       = Ok (wr b (((c1 ++ wb) ++ ub) ++ pb))).
  { subst pb. unfold holds_opt in Hp. destruct (cm_pass m) as [u|].
    - destruct Hp as [Hp Hl]. pose proof (holds_len _ _ _ Hp) as K. pose proof (zlen_nonneg u).
      cbn [optlen] in *. pose proof Hp as Hp'. destruct Hp' as (x & Ex & _).
      rewrite Ex at 1. apply encodeString_wr; [now left|lia|autorewrite with zl; lia].
    - rewrite Hp. now rewrite app_nil_r. }
  rewrite Ep. cbn [rbind].
  assert (Eall : ((c1 ++ wb) ++ ub) ++ pb = connect_packet m).
  { unfold connect_packet, packet, connect_body. subst c1 wb ub pb. fold (connect_body m). fold B.
    rewrite <- !app_assoc. cbn [app]. reflexivity. }
  rewrite Eall. unfold wr at 1. cbn [snd]. unfold rassert.
  replace (length (connect_packet m) <=? length b)%nat with true; [reflexivity|].
  unfold zlen in *. lia.
Qed.

(** ** SUBSCRIBE / UNSUBSCRIBE *)
Definition sub_cost (t : subtype) (x : subinfo) : Z := s_len x + match t with SUBSCRIBE => 3 | UNSUBSCRIBE => 2 end.
Fixpoint sub_total (t : subtype) (l : list subinfo) : Z :=
  match l with [] => 0 | x :: l' => sub_cost t x + sub_total t l' end.
Definition sub_bad (x : subinfo) : bool :=
  (s_len x =? 0) || match s_filter x with None => true | Some _ => false end.

Lemma sub_total_nonneg t l : Forall (fun x => 0 <= s_len x) l -> 0 <= sub_total t l.
Proof.
  induction 1 as [|x l Hx Hl IH]; cbn [sub_total]; [lia|]. unfold sub_cost. destruct t; lia.
Qed.

Lemma size_loop_exact M l t : Forall (fun x => 0 <= s_len x) l -> forall acc st, 0 <= acc -> acc + sub_total t l < M ->
  subscription_size_loop M l t acc st =
    (acc + sub_total t l, if existsb sub_bad l then BadParameter else st).
Proof.
  induction 1 as [|x l Hx Hl IH]; intros acc st Ha Hs; cbn [subscription_size_loop sub_total existsb].
  - now rewrite Z.add_0_r.
  - pose proof (sub_total_nonneg t l Hl) as HN. cbn [sub_total] in Hs. unfold sub_cost in *.
    destruct t.
    + rewrite (Z.mod_small (acc + (s_len x + 2))) by lia. rewrite Z.mod_small by lia.
      rewrite IH by lia. fold (sub_bad x). f_equal; [lia|]. destruct (sub_bad x), (existsb sub_bad l); reflexivity.
    + rewrite Z.mod_small by lia.
      rewrite IH by lia. fold (sub_bad x). f_equal; [lia|]. destruct (sub_bad x), (existsb sub_bad l); reflexivity.
Qed.

(** modulo M in general (used for the overflow finding) *)
Lemma size_loop_mod M l t : 0 < M -> forall acc st, 0 <= acc < M ->
  fst (subscription_size_loop M l t acc st) = (acc + sub_total t l) mod M.
Proof.
  intros HM. induction l as [|x l IH]; intros acc st Ha; cbn [subscription_size_loop sub_total].
  - rewrite Z.add_0_r. symmetry. now apply Z.mod_small.
  - unfold sub_cost. destruct t; rewrite IH by (apply Z.mod_pos_bound; lia).
    + rewrite (Z.add_mod_idemp_l (acc + _)) by lia. rewrite Z.add_mod_idemp_l by lia. f_equal. lia.
    + rewrite Z.add_mod_idemp_l by lia. f_equal. lia.
Qed.

Lemma subs_good l fs : subs_mean l fs -> existsb sub_bad l = false /\ Forall (fun x => 0 <= s_len x) l.
Proof.
  induction 1 as [|x f l fs Hx Hl [IH1 IH2]]; cbn [existsb]; [split; [reflexivity|constructor]|].
  destruct Hx as (Hh & Hl1 & _). split.
  - rewrite IH1, orb_false_r. unfold sub_bad. rewrite (is_none_holds _ _ _ Hh). lia.
  - constructor; [lia|exact IH2].
Qed.

Lemma sub_total_bytes l fs : subs_mean l fs ->
  2 + sub_total SUBSCRIBE l = zlen (subscribe_body 0 fs) /\
  2 + sub_total UNSUBSCRIBE l = zlen (unsubscribe_body 0 (map fst fs)).
Proof.
  intros H. unfold subscribe_body, unsubscribe_body. rewrite !zlen_app, !zlen_be16.
  induction H as [|x f l fs Hx Hl IH]; cbn [sub_total flat_map map]; [split; reflexivity|].
  destruct Hx as (Hh & _ & _). pose proof (holds_len _ _ _ Hh). unfold sub_cost. autorewrite with zl. lia.
Qed.
Lemma sub_body_id id fs : zlen (subscribe_body id fs) = zlen (subscribe_body 0 fs).
Proof. unfold subscribe_body. now rewrite !zlen_app, !zlen_be16. Qed.
Lemma unsub_body_id id fs : zlen (unsubscribe_body id fs) = zlen (unsubscribe_body 0 fs).
Proof. unfold unsubscribe_body. now rewrite !zlen_app, !zlen_be16. Qed.

Lemma sub_entries_all l : sub_entries l (zlen l) = Ok l.
Proof.
  unfold sub_entries. replace (zlen l <=? zlen l) with true by lia.
  unfold zlen. rewrite Nat2Z.id, firstn_all. reflexivity.
Qed.

Lemma subs_count_pos l fs : subs_mean l fs -> fs <> [] -> 0 < zlen l.
Proof. destruct 1; [congruence|]. intros _. rewrite zlen_cons. pose proof (zlen_nonneg l). lia. Qed.

Lemma subscribe_size_ok M l fs id : 4294967296 <= M -> subs_mean l fs -> fs <> [] ->
  zlen (subscribe_body id fs) < M ->
  getSubscribePacketSize M (Some l) (zlen l) =
    if zlen (subscribe_body id fs) <=? max_remaining
    then Ok (Success, Some (zlen (subscribe_body id fs), zlen (subscribe_packet id fs)))
    else Ok (BadParameter, None).
Proof.
  intros HM Hm Hne Hlt. destruct (subs_good _ _ Hm) as [Hb Hf]. destruct (sub_total_bytes _ _ Hm) as [Ht _].
  rewrite <- (sub_body_id id) in Ht. pose proof (subs_count_pos _ _ Hm Hne) as Hpos.
  unfold getSubscribePacketSize, calculateSubscriptionPacketSize.
  replace (zlen l =? 0) with false by lia. cbn [negb rassert]. rewrite sub_entries_all. cbn [rbind].
  rewrite size_loop_exact by (auto; lia). rewrite Hb, Ht. unfold MAX_REMAINING_LENGTH, max_remaining in *.
  pose proof (encsize_bounds (zlen (subscribe_body id fs))) as HeB.
  pose proof (zlen_nonneg (subscribe_body id fs)) as HbN.
  destruct (zlen (subscribe_body id fs) <=? 268435455) eqn:E.
  - replace (268435455 <? zlen (subscribe_body id fs)) with false by lia. cbn [status_beq].
    unfold subscribe_packet. rewrite zlen_packet, Z.mod_small by lia. pair_lia.
  - replace (268435455 <? zlen (subscribe_body id fs)) with true by lia. reflexivity.
Qed.

Lemma unsubscribe_size_ok M l fs id : 4294967296 <= M -> subs_mean l fs -> fs <> [] ->
  zlen (unsubscribe_body id (map fst fs)) < M ->
  getUnsubscribePacketSize M (Some l) (zlen l) =
    if zlen (unsubscribe_body id (map fst fs)) <=? max_remaining
    then Ok (Success, Some (zlen (unsubscribe_body id (map fst fs)), zlen (unsubscribe_packet id (map fst fs))))
    else Ok (BadParameter, None).
Proof.
  intros HM Hm Hne Hlt. destruct (subs_good _ _ Hm) as [Hb Hf]. destruct (sub_total_bytes _ _ Hm) as [_ Ht].
  rewrite <- (unsub_body_id id) in Ht. pose proof (subs_count_pos _ _ Hm Hne) as Hpos.
  unfold getUnsubscribePacketSize, calculateSubscriptionPacketSize.
  replace (zlen l =? 0) with false by lia. cbn [negb rassert]. rewrite sub_entries_all. cbn [rbind].
  rewrite size_loop_exact by (auto; lia). rewrite Hb, Ht. unfold MAX_REMAINING_LENGTH, max_remaining in *.
  set (B := zlen (unsubscribe_body id (map fst fs))) in *.
  pose proof (encsize_bounds B) as HeB.
  assert (0 <= B) by apply zlen_nonneg.
  destruct (B <=? 268435455) eqn:E.
  - replace (268435455 <? B) with false by lia. cbn [status_beq].
    unfold unsubscribe_packet. rewrite zlen_packet, Z.mod_small by lia. fold B. pair_lia.
  - replace (268435455 <? B) with true by lia. reflexivity.
Qed.

Lemma qos_byte q : u8 (qos_val q) = qos_val q.
Proof. destruct q; reflexivity. Qed.

Lemma subscribe_loop_wr b l fs : subs_mean l fs -> forall c,
  zlen c + zlen (flat_map (fun x => mstr (fst x) ++ [qos_val (snd x)]) fs) <= zlen b ->
  subscribe_loop (wr b c) l = Ok (wr b (c ++ flat_map (fun x => mstr (fst x) ++ [qos_val (snd x)]) fs)).
Proof.
  induction 1 as [|x f l fs Hx Hl IH]; intros c Hc; cbn [subscribe_loop flat_map] in *.
  - now rewrite app_nil_r.
  - destruct Hx as (Hh & Hr & Hq). pose proof (holds_len _ _ _ Hh) as HL. autorewrite with zl in Hc.
    pose proof (zlen_nonneg (flat_map (fun x => mstr (fst x) ++ [qos_val (snd x)]) fs)) as HN.
    rewrite (encodeString_wr b _ _ _ (fst f)); [|now left|lia|lia]. cbn [rbind].
    rewrite Hq, qos_byte. rewrite put_wrz by (autorewrite with zl; lia). cbn [rbind].
    rewrite IH by (autorewrite with zl; lia). now rewrite <- !app_assoc.
Qed.
Lemma unsubscribe_loop_wr b l fs : subs_mean l fs -> forall c,
  zlen c + zlen (flat_map mstr (map fst fs)) <= zlen b ->
  unsubscribe_loop (wr b c) l = Ok (wr b (c ++ flat_map mstr (map fst fs))).
Proof.
  induction 1 as [|x f l fs Hx Hl IH]; intros c Hc; cbn [unsubscribe_loop flat_map map] in *.
  - now rewrite app_nil_r.
  - destruct Hx as (Hh & Hr & Hq). pose proof (holds_len _ _ _ Hh) as HL. autorewrite with zl in Hc.
    pose proof (zlen_nonneg (flat_map mstr (map fst fs))) as HN.
    rewrite (encodeString_wr b _ _ _ (fst f)); [|now left|lia|lia]. cbn [rbind].
    rewrite IH by (autorewrite with zl; lia). now rewrite <- !app_assoc.
Qed.

Lemma subscribe_encode M l fs id b : 4294967296 <= M -> subs_mean l fs -> fs <> [] -> 0 < id < 65536 ->
  zlen (subscribe_body id fs) <= max_remaining ->
  serializeSubscribe M (Some l) (zlen l) id (zlen (subscribe_body id fs)) (Some b) =
    if zlen b <? zlen (subscribe_packet id fs) then Ok (NoMemory, Some b)
    else Ok (Success, Some (subscribe_packet id fs ++ skipn (length (subscribe_packet id fs)) b)).
Proof.
  intros HM Hm Hne Hid Hmax. pose proof (subs_count_pos _ _ Hm Hne) as Hpos.
  unfold serializeSubscribe, validateSubscriptionSerializeParams.
  replace (zlen l =? 0) with false by lia. replace (id =? 0) with false by lia.
  pose proof (encsize_bounds (zlen (subscribe_body id fs))) as HeB.
  pose proof (zlen_nonneg (subscribe_body id fs)) as HbN.
  assert (HP : zlen (subscribe_packet id fs) = 1 + remainingLengthEncodedSize (zlen (subscribe_body id fs)) + zlen (subscribe_body id fs)) by (unfold subscribe_packet; apply zlen_packet).
  unfold max_remaining in *. rewrite Z.mod_small by lia. rewrite <- HP.
  destruct (zlen b <? zlen (subscribe_packet id fs)) eqn:E; [reflexivity|].
  rewrite sub_entries_all. cbn [rbind]. unfold serializeSubscribeHeader. rewrite wr_nil.
  set (tail := flat_map (fun x => mstr (fst x) ++ [qos_val (snd x)]) fs) in *.
  assert (HB : zlen (subscribe_body id fs) = 2 + zlen tail) by (unfold subscribe_body; now rewrite zlen_app, zlen_be16).
  pose proof (zlen_nonneg tail) as HtN.
  rewrite put_wrz by (autorewrite with zl; lia). cbn [rbind].
  rewrite encode_wr by (unfold max_remaining; try split; autorewrite with zl; lia). cbn [rbind].
  rewrite be16_eq by lia. rewrite put_wrz by (autorewrite with zl; lia). cbn [rbind].
  rewrite (subscribe_loop_wr b l fs Hm) by (fold tail; autorewrite with zl; lia). cbn [rbind]. fold tail.
  rewrite wr_fst.
  assert (Eall : ((([] ++ [PKT_SUBSCRIBE]) ++ varlen (zlen (subscribe_body id fs))) ++ be16 id) ++ tail = subscribe_packet id fs).
  { unfold subscribe_packet, packet. rewrite <- !app_assoc. cbn [app]. reflexivity. }
  now rewrite Eall.
Qed.

Lemma unsubscribe_encode M l fs id b : 4294967296 <= M -> subs_mean l fs -> fs <> [] -> 0 < id < 65536 ->
  zlen (unsubscribe_body id (map fst fs)) <= max_remaining ->
  serializeUnsubscribe M (Some l) (zlen l) id (zlen (unsubscribe_body id (map fst fs))) (Some b) =
    if zlen b <? zlen (unsubscribe_packet id (map fst fs)) then Ok (NoMemory, Some b)
    else Ok (Success, Some (unsubscribe_packet id (map fst fs) ++ skipn (length (unsubscribe_packet id (map fst fs))) b)).
Proof.
  intros HM Hm Hne Hid Hmax. pose proof (subs_count_pos _ _ Hm Hne) as Hpos.
  unfold serializeUnsubscribe, validateSubscriptionSerializeParams.
  replace (zlen l =? 0) with false by lia. replace (id =? 0) with false by lia.
  set (B := unsubscribe_body id (map fst fs)) in *.
  pose proof (encsize_bounds (zlen B)) as HeB.
  pose proof (zlen_nonneg B) as HbN.
  assert (HP : zlen (unsubscribe_packet id (map fst fs)) = 1 + remainingLengthEncodedSize (zlen B) + zlen B) by (unfold unsubscribe_packet; apply zlen_packet).
  unfold max_remaining in *. rewrite Z.mod_small by lia. rewrite <- HP.
  destruct (zlen b <? zlen (unsubscribe_packet id (map fst fs))) eqn:E; [reflexivity|].
  rewrite sub_entries_all. cbn [rbind]. unfold serializeUnsubscribeHeader. rewrite wr_nil.
  set (tail := flat_map mstr (map fst fs)) in *.
  assert (HB : zlen B = 2 + zlen tail) by (unfold B, unsubscribe_body; now rewrite zlen_app, zlen_be16).
  pose proof (zlen_nonneg tail) as HtN.
  rewrite put_wrz by (autorewrite with zl; lia). cbn [rbind].
  rewrite encode_wr by (unfold max_remaining; try split; autorewrite with zl; lia). cbn [rbind].
  rewrite be16_eq by lia. rewrite put_wrz by (autorewrite with zl; lia). cbn [rbind].
  rewrite (unsubscribe_loop_wr b l fs Hm) by (fold tail; autorewrite with zl; lia). cbn [rbind]. fold tail.
  rewrite wr_fst.
  assert (Eall : ((([] ++ [PKT_UNSUBSCRIBE]) ++ varlen (zlen B)) ++ be16 id) ++ tail = unsubscribe_packet id (map fst fs)).
  { unfold unsubscribe_packet, packet. rewrite <- !app_assoc. cbn [app]. reflexivity. }
  now rewrite Eall.
Qed.

(** ** Small packets *)
Lemma ack_encode k id b : ack_kind_client k = true -> 0 < id < 65536 ->
  serializeAck (Some b) (ack_first k) id =
    if zlen b <? zlen (ack_packet k id) then Ok (NoMemory, Some b)
    else Ok (Success, Some (ack_packet k id ++ skipn (length (ack_packet k id)) b)).
Proof.
  intros Hk Hid. unfold serializeAck.
  assert (HP : ack_packet k id = [ack_first k; 2; hi8 id; lo8 id]).
  { unfold ack_packet, packet. change (zlen (be16 id)) with 2. cbn [varlen]. rewrite <- be16_eq by lia. reflexivity. }
  rewrite HP. change (zlen [ack_first k; 2; hi8 id; lo8 id]) with 4.
  destruct (zlen b <? 4) eqn:E; [reflexivity|]. replace (id =? 0) with false by lia.
  replace (_ || _ || _ || _) with true by (destruct k; try discriminate; reflexivity).
  rewrite wr_nil, put_wrz by (autorewrite with zl; lia). reflexivity.
Qed.

Lemma pingreq_encode b : serializePingreq (Some b) =
  if zlen b <? zlen pingreq_packet then Ok (NoMemory, Some b)
  else Ok (Success, Some (pingreq_packet ++ skipn (length pingreq_packet) b)).
Proof.
  unfold serializePingreq. change (zlen pingreq_packet) with 2.
  destruct (zlen b <? 2) eqn:E; [reflexivity|]. rewrite wr_nil, put_wrz by (autorewrite with zl; lia). reflexivity.
Qed.
Lemma disconnect_encode b : serializeDisconnect (Some b) =
  if zlen b <? zlen disconnect_packet then Ok (NoMemory, Some b)
  else Ok (Success, Some (disconnect_packet ++ skipn (length disconnect_packet) b)).
Proof.
  unfold serializeDisconnect. change (zlen disconnect_packet) with 2.
  destruct (zlen b <? 2) eqn:E; [reflexivity|]. rewrite wr_nil, put_wrz by (autorewrite with zl; lia). reflexivity.
Qed.
