(** Proofs about the serializer model: encoding side. *)
From Verif Require Import Base SerModel WireSpec SerHarness.

(** ** Finite sweeps over bytes *)
Definition byte_list : list Z := map Z.of_nat (seq 0 256).
Lemma in_byte_list b : 0 <= b < 256 -> In b byte_list.
Proof.
  intros H. unfold byte_list. apply in_map_iff. exists (Z.to_nat b). split; [lia|].
  apply in_seq. lia.
Qed.
Lemma byte_sweep (P : Z -> bool) : forallb P byte_list = true -> forall b, 0 <= b < 256 -> P b = true.
Proof. intros H b Hb. rewrite forallb_forall in H. apply H. now apply in_byte_list. Qed.
Lemma byte_sweep_imp (P Q : Z -> bool) : forallb (fun b => implb (P b) (Q b)) byte_list = true ->
  forall b, 0 <= b < 256 -> P b = true -> Q b = true.
Proof.
  intros H b Hb HP. pose proof (byte_sweep (fun b => implb (P b) (Q b)) H b Hb) as K. cbv beta in K.
  rewrite HP in K. exact K.
Qed.

Lemma zlen_app {A} (a b : list A) : zlen (a ++ b) = zlen a + zlen b.
Proof. unfold zlen. rewrite app_length. lia. Qed.
Lemma zlen_cons {A} (x : A) l : zlen (x :: l) = 1 + zlen l.
Proof. unfold zlen. cbn [length]. lia. Qed.
Lemma zlen_nil {A} : zlen (@nil A) = 0.
Proof. reflexivity. Qed.
Lemma zlen_nonneg {A} (l : list A) : 0 <= zlen l.
Proof. unfold zlen. lia. Qed.
Lemma zlen_firstn {A} (l : list A) n : 0 <= n <= zlen l -> zlen (firstn (Z.to_nat n) l) = n.
Proof. unfold zlen. intros H. rewrite firstn_length. lia. Qed.
#[export] Hint Rewrite @zlen_app @zlen_cons @zlen_nil : zl.

(** ** Arithmetic of the byte macros *)
Lemma u8_id x : 0 <= x < 256 -> u8 x = x.
Proof. unfold u8. intros. apply Z.mod_small. lia. Qed.
Lemma u16_id x : 0 <= x < 65536 -> u16 x = x.
Proof. unfold u16. intros. apply Z.mod_small. lia. Qed.
Lemma hi8_eq x : 0 <= x < 65536 -> hi8 x = x / 256.
Proof. intros H. unfold hi8. rewrite Z.shiftr_div_pow2 by lia. change (2 ^ 8) with 256. apply u8_id. lia. Qed.
Lemma lo8_eq x : 0 <= x < 65536 -> lo8 x = x mod 256.
Proof.
  intros H. unfold lo8. change 255 with (Z.ones 8). rewrite Z.land_ones by lia. change (2 ^ 8) with 256.
  apply u8_id. lia.
Qed.
Lemma be16_eq x : 0 <= x < 65536 -> [hi8 x; lo8 x] = be16 x.
Proof. intros H. unfold be16. now rewrite hi8_eq, lo8_eq. Qed.
Lemma set_bit7 b : 0 <= b < 128 -> set_bit b 7 = b + 128.
Proof.
  intros H. apply Z.eqb_eq.
  apply (byte_sweep_imp (fun b => b <? 128) (fun b => set_bit b 7 =? b + 128)); [vm_compute; reflexivity|lia|lia].
Qed.
Lemma land127 b : Z.land b 127 = b mod 128.
Proof. change 127 with (Z.ones 7). rewrite Z.land_ones by lia. reflexivity. Qed.
Lemma land128 b : 0 <= b < 256 -> negb (Z.land b 128 =? 0) = (128 <=? b).
Proof.
  intros H. apply eqb_prop.
  apply (byte_sweep (fun b => eqb (negb (Z.land b 128 =? 0)) (128 <=? b))); [vm_compute; reflexivity|exact H].
Qed.
Lemma land_disjoint h l : 0 <= l < 256 -> Z.land (h * 256) l = 0.
Proof.
  intros Hl. apply Z.bits_inj'. intros n Hn. rewrite Z.land_spec, Z.bits_0.
  destruct (Z.lt_ge_cases n 8) as [Hc|Hc].
  - change 256 with (2 ^ 8). rewrite Z.mul_pow2_bits_low by lia. reflexivity.
  - replace (Z.testbit l n) with false; [apply andb_false_r|]. symmetry.
    destruct (Z.eq_dec l 0) as [->|Hnz]; [apply Z.bits_0|].
    apply Z.bits_above_log2; [lia|]. apply Z.lt_le_trans with 8; [|lia]. apply Z.log2_lt_pow2; lia.
Qed.
Lemma lor_shift8 h l : 0 <= h < 256 -> 0 <= l < 256 -> Z.lor (Z.shiftl h 8) l = h * 256 + l.
Proof.
  intros Hh Hl. rewrite Z.shiftl_mul_pow2 by lia. change (2 ^ 8) with 256.
  pose proof (land_disjoint h l Hl) as D.
  rewrite <- Z.lxor_lor by exact D. rewrite <- Z.add_nocarry_lxor by exact D. reflexivity.
Qed.

(** ** Writing into a buffer *)
(** the buffer b0 whose first bytes were overwritten by c, positioned after them *)
Definition wr (b0 c : list Z) : wbuf := (c ++ skipn (length c) b0, length c).

Lemma wr_nil b : (b, O) = wr b [].
Proof. reflexivity. Qed.
Lemma skipn_add {A} (l : list A) a b : skipn a (skipn b l) = skipn (b + a) l.
Proof.
  revert l; induction b as [|b IH]; intros l; [reflexivity|].
  destruct l as [|x l]; cbn [skipn plus]; [now rewrite skipn_nil|apply IH].
Qed.
Lemma put_wr b0 c bs : (length c + length bs <= length b0)%nat -> put (wr b0 c) bs = Ok (wr b0 (c ++ bs)).
Proof.
  intros H. unfold put, wr. rewrite !app_length, skipn_length.
  replace (length c + length bs <=? length c + (length b0 - length c))%nat with true by lia.
  rewrite firstn_app, Nat.sub_diag, firstn_O, app_nil_r, firstn_all, <- app_assoc.
  rewrite skipn_app, (skipn_all2 c) by lia. cbn [app]. rewrite skipn_add.
  replace (length c + (length c + length bs - length c))%nat with (length c + length bs)%nat by lia.
  reflexivity.
Qed.
Lemma put_wr_ub b0 c bs : (length c <= length b0)%nat -> (length b0 < length c + length bs)%nat ->
  put (wr b0 c) bs = Ub.
Proof.
  intros H1 H. unfold put, wr. rewrite app_length, skipn_length.
  replace (length c + length bs <=? length c + (length b0 - length c))%nat with false by lia. reflexivity.
Qed.
Lemma copy_wr b0 c m n : 0 <= n <= zlen m -> (length c + Z.to_nat n <= length b0)%nat ->
  copy_from (wr b0 c) (Some m) n = Ok (wr b0 (c ++ firstn (Z.to_nat n) m)).
Proof.
  intros H1 H2. unfold copy_from. replace (n <=? zlen m) with true by lia. apply put_wr.
  rewrite firstn_length. unfold zlen in *. lia.
Qed.

Lemma skip0_wr b0 c : skip (wr b0 c) 0 = Ok (wr b0 c).
Proof.
  unfold skip, wr. change (Z.to_nat 0) with 0%nat. rewrite Nat.add_0_r, app_length.
  replace (length c <=? length c + length (skipn (length c) b0))%nat with true by lia. reflexivity.
Qed.

(** ** Remaining length *)
Lemma zlen_varlen n : zlen (varlen n) = remainingLengthEncodedSize n.
Proof.
  unfold varlen, remainingLengthEncodedSize.
  destruct (n <? 128); [reflexivity|]. destruct (n <? 16384); [reflexivity|].
  destruct (n <? 2097152); reflexivity.
Qed.
Lemma encsize_bounds n : 1 <= remainingLengthEncodedSize n <= 4.
Proof.
  unfold remainingLengthEncodedSize. destruct (n <? 128), (n <? 16384), (n <? 2097152); lia.
Qed.
Lemma varlen_bytes n : 0 <= n <= max_remaining -> bytes_ok (varlen n).
Proof.
  unfold max_remaining, varlen, bytes_ok, is_byte. intros H.
  destruct (n <? 128) eqn:E1; [repeat constructor; lia|].
  destruct (n <? 16384) eqn:E2; [repeat constructor; lia|].
  destruct (n <? 2097152) eqn:E3; repeat constructor; lia.
Qed.

Lemma encode_more fuel b0 c n : 128 <= n -> (length c + 1 <= length b0)%nat ->
  encode_loop (S fuel) (wr b0 c) n = encode_loop fuel (wr b0 (c ++ [n mod 128 + 128])) (n / 128).
Proof.
  intros H Hl. cbn [encode_loop]. replace (0 <? n / 128) with true by lia.
  rewrite u8_id by lia. rewrite set_bit7 by lia. rewrite put_wr by (cbn [length]; lia). reflexivity.
Qed.
Lemma encode_last fuel b0 c n : 0 <= n < 128 -> (length c + 1 <= length b0)%nat ->
  encode_loop (S fuel) (wr b0 c) n = Ok (wr b0 (c ++ [n])).
Proof.
  intros H Hl. cbn [encode_loop]. replace (0 <? n / 128) with false by lia.
  rewrite u8_id by lia. replace (n mod 128) with n by lia.
  rewrite put_wr by (cbn [length]; lia). reflexivity.
Qed.
Lemma encode_wr b0 c n : 0 <= n <= max_remaining ->
  zlen c + remainingLengthEncodedSize n <= zlen b0 ->
  encodeRemainingLength (wr b0 c) n = Ok (wr b0 (c ++ varlen n)).
Proof.
  intros Hn Hl. unfold encodeRemainingLength, remainingLengthEncodedSize, varlen, max_remaining, zlen in *.
  destruct (n <? 128) eqn:E1; [apply encode_last; lia|].
  destruct (n <? 16384) eqn:E2.
  { rewrite encode_more by lia. rewrite encode_last by (rewrite ?app_length; cbn [length]; lia).
    now rewrite <- app_assoc. }
  destruct (n <? 2097152) eqn:E3.
  { rewrite encode_more by lia. rewrite encode_more by (rewrite ?app_length; cbn [length]; lia).
    rewrite encode_last by (rewrite ?app_length; cbn [length]; lia).
    rewrite <- !app_assoc. cbn [app]. rewrite !Z.div_div by lia. reflexivity. }
  rewrite encode_more by lia. rewrite encode_more by (rewrite ?app_length; cbn [length]; lia).
  rewrite encode_more by (rewrite ?app_length; cbn [length]; lia).
  rewrite encode_last by (rewrite ?app_length; cbn [length]; lia).
  rewrite <- !app_assoc. cbn [app]. rewrite !Z.div_div by lia. reflexivity.
Qed.

(** ** Strings *)
Lemma holds_len p len s : holds p len s -> zlen s = len.
Proof. intros (m & _ & H & ->). now apply zlen_firstn. Qed.
Lemma holds0_len p len s : holds0 p len s -> zlen s = len.
Proof. intros [H|(_ & -> & ->)]; [now apply holds_len in H|reflexivity]. Qed.

Lemma encodeString_wr b0 c p len s : holds0 p len s -> 0 <= len < 65536 ->
  zlen c + 2 + len <= zlen b0 ->
  encodeString (wr b0 c) p len = Ok (wr b0 (c ++ mstr s)).
Proof.
  intros H Hlen Hb. unfold encodeString. unfold zlen in Hb.
  rewrite put_wr by (cbn [length]; lia). cbn [rbind]. rewrite be16_eq by lia.
  pose proof (holds0_len _ _ _ H) as Hs. unfold mstr. rewrite Hs.
  destruct H as [(m & -> & Hm & ->)|(-> & -> & ->)].
  - rewrite copy_wr; [now rewrite <- app_assoc|lia|]. rewrite app_length. cbn [length be16]. lia.
  - rewrite app_nil_r. apply skip0_wr.
Qed.

Lemma zlen_mstr s : zlen (mstr s) = 2 + zlen s.
Proof. unfold mstr, be16. rewrite zlen_app, !zlen_cons, zlen_nil. lia. Qed.
Lemma zlen_be16 n : zlen (be16 n) = 2.
Proof. reflexivity. Qed.
Lemma zlen_packet f body : zlen (packet f body) = 1 + remainingLengthEncodedSize (zlen body) + zlen body.
Proof. unfold packet. rewrite zlen_cons, zlen_app, zlen_varlen. lia. Qed.
#[export] Hint Rewrite zlen_mstr zlen_be16 zlen_packet zlen_varlen : zl.

(** the final buffer: the packet followed by the untouched rest *)
Lemma wr_fst b0 c : fst (wr b0 c) = c ++ skipn (length c) b0.
Proof. reflexivity. Qed.

Lemma put_wrz b0 c bs : zlen c + zlen bs <= zlen b0 -> put (wr b0 c) bs = Ok (wr b0 (c ++ bs)).
Proof. unfold zlen. intros H. apply put_wr. lia. Qed.

Lemma zlen_wr b0 c : zlen c <= zlen b0 -> zlen (fst (wr b0 c)) = zlen b0.
Proof. unfold wr, zlen. cbn [fst]. rewrite app_length, skipn_length. lia. Qed.

(** ** PUBLISH *)
Lemma publishFlags_eq p id m : pub_means p id m -> publishFlags p = publish_first m.
Proof.
  intros (Hq & Hr & Hd & _). unfold publishFlags, publish_first. rewrite Hq, Hr, Hd.
  destruct (pm_qos m), (pm_retain m), (pm_dup m); reflexivity.
Qed.

Lemma zlen_publish_body m :
  zlen (publish_body m) = 2 + zlen (pm_topic m) + match pm_qos m with Q0 => 0 | _ => 2 end + zlen (pm_payload m).
Proof. unfold publish_body, publish_head. destruct (pm_qos m); autorewrite with zl; lia. Qed.
Lemma zlen_publish_head m :
  zlen (publish_head m) = 2 + zlen (pm_topic m) + match pm_qos m with Q0 => 0 | _ => 2 end.
Proof. unfold publish_head. destruct (pm_qos m); autorewrite with zl; lia. Qed.

Lemma publish_common p id m b (pay : bool) : pub_means p id m -> pub_ids_ok m ->
  zlen (publish_body m) <= max_remaining ->
  let out := if pay then publish_packet m else publish_header_bytes m in
  zlen out <= zlen b ->
  serializePublishCommon p (zlen (publish_body m)) id b pay = Ok (out ++ skipn (length out) b).
Proof.
  intros HM [Hid Hdup] Hmax out Hb. pose proof (publishFlags_eq _ _ _ HM) as Hf.
  destruct HM as (Hq & Hr & Hd & Hi & Hidr & Htl & Ht & Hp).
  pose proof (holds_len _ _ _ Ht) as HtL. pose proof (holds0_len _ _ _ Hp) as HpL.
  unfold serializePublishCommon. rewrite Hf, Hq, Hd, Hi.
  assert (E1 : qos_beq (pm_qos m) Q0 || negb (pm_id m =? 0) = true).
  { destruct (pm_qos m) eqn:Eq; [reflexivity| |]; cbn [qos_beq orb]; specialize (Hid ltac:(discriminate)); lia. }
  assert (E2 : negb (pm_dup m) || negb (qos_beq (pm_qos m) Q0) = true).
  { destruct (pm_dup m); [|reflexivity]. specialize (Hdup eq_refl). destruct (pm_qos m); congruence || reflexivity. }
  rewrite E1, E2. unfold rassert. rewrite wr_nil.
  assert (Hlen : 1 + remainingLengthEncodedSize (zlen (publish_body m)) + zlen (publish_head m) +
     (if pay then zlen (pm_payload m) else 0) <= zlen b).
  { subst out. destruct pay; unfold publish_packet, publish_header_bytes in Hb; autorewrite with zl in Hb;
    unfold publish_body in *; autorewrite with zl in *; lia. }
  pose proof (encsize_bounds (zlen (publish_body m))) as HeB.
  pose proof (zlen_publish_head m) as HhL. pose proof (zlen_nonneg (pm_payload m)) as HpN.
  pose proof (zlen_nonneg (pm_topic m)) as HtN. pose proof (zlen_nonneg (publish_body m)) as HbN.
  assert (HhL' : 2 + zlen (pm_topic m) <= zlen (publish_head m)) by (rewrite HhL; destruct (pm_qos m); lia).
  rewrite put_wrz by (autorewrite with zl; destruct pay; lia). cbn [rbind].
  rewrite encode_wr by (try split; autorewrite with zl; try lia; destruct pay; lia). cbn [rbind].
  rewrite (encodeString_wr b _ _ _ (pm_topic m)); [|now left|lia|autorewrite with zl; destruct pay; lia].
  cbn [rbind].
  set (c1 := (([] ++ [publish_first m]) ++ varlen (zlen (publish_body m))) ++ mstr (pm_topic m)).
  assert (Hc1 : zlen c1 = 1 + remainingLengthEncodedSize (zlen (publish_body m)) + 2 + zlen (pm_topic m)).
  { subst c1. autorewrite with zl. lia. }
  assert (Estep : match pm_qos m with Q0 => Ok (wr b c1)
       | _ => put (wr b c1) [hi8 (pm_id m); lo8 (pm_id m)] end = Ok (wr b (publish_header_bytes m))).
  { unfold publish_header_bytes, publish_head in *. subst c1.
    destruct (pm_qos m) eqn:Eq.
    - rewrite app_nil_r. cbn [app]. reflexivity.
    - rewrite be16_eq by lia. rewrite put_wrz by (rewrite Hc1; autorewrite with zl; destruct pay; lia).
      cbn [app]. rewrite <- !app_assoc. reflexivity.
    - rewrite be16_eq by lia. rewrite put_wrz by (rewrite Hc1; autorewrite with zl; destruct pay; lia).
      cbn [app]. rewrite <- !app_assoc. reflexivity. }
  rewrite Estep. cbn [rbind].
  assert (Hh : zlen (publish_header_bytes m) = 1 + remainingLengthEncodedSize (zlen (publish_body m)) + zlen (publish_head m)).
  { unfold publish_header_bytes. autorewrite with zl. lia. }
  assert (Estep2 : (if (0 <? p_paylen p) && pay then copy_from (wr b (publish_header_bytes m)) (p_payload p) (p_paylen p)
     else Ok (wr b (publish_header_bytes m))) = Ok (wr b out)).
  { subst out. destruct pay; [|now rewrite andb_false_r]. rewrite andb_true_r.
    assert (Ep : publish_packet m = publish_header_bytes m ++ pm_payload m).
    { unfold publish_packet, packet, publish_header_bytes, publish_body. cbn [app]. now rewrite <- !app_assoc. }
    rewrite Ep. destruct Hp as [(mm & -> & Hm & Epl)|(-> & E0 & Epl)].
    - destruct (0 <? p_paylen p) eqn:E0.
      + rewrite copy_wr; [now rewrite <- Epl|lia|]. unfold zlen in *. lia.
      + rewrite Epl. replace (p_paylen p) with 0 by lia. cbn [Z.to_nat firstn]. now rewrite app_nil_r.
    - rewrite E0, Epl. now rewrite app_nil_r. }
  rewrite Estep2. cbn [rbind]. unfold wr at 1. cbn [snd].
  replace (length out <=? length b)%nat with true by (unfold zlen in Hb; lia).
  reflexivity.
Qed.
