(** Proofs about the serializer model: packet bodies, small results, overflow. *)
From Verif Require Import Base SerModel WireSpec SerHarness SerProofs SerProofs2 SerProofs3.

(** ** 16-bit reads *)
Lemma rd_app pre x l : rd (pre ++ x :: l) (zlen pre) = Ok x.
Proof.
  unfold rd. rewrite zlen_app, zlen_cons. pose proof (zlen_nonneg pre). pose proof (zlen_nonneg l).
  replace ((0 <=? zlen pre) && (zlen pre <? zlen pre + (1 + zlen l))) with true by lia.
  unfold zlen at 1. rewrite Nat2Z.id, app_nth2, Nat.sub_diag by lia. reflexivity.
Qed.
Lemma rd16_app pre a b l : is_byte a -> is_byte b -> rd16 (pre ++ a :: b :: l) (zlen pre) = Ok (a * 256 + b).
Proof.
  unfold is_byte. intros Ha Hb. unfold rd16. rewrite rd_app. cbn [rbind].
  replace (zlen pre + 1) with (zlen (pre ++ [a])) by (rewrite zlen_app; reflexivity).
  replace (pre ++ a :: b :: l) with ((pre ++ [a]) ++ b :: l) by now rewrite <- app_assoc.
  rewrite rd_app. cbn [rbind]. rewrite lor_shift8 by assumption. rewrite u16_id by lia. reflexivity.
Qed.
Lemma rd16_prefix data rem k : 0 <= rem <= zlen data -> k + 1 < rem -> rd16 data k = rd16 (firstn (Z.to_nat rem) data) k.
Proof. intros Hr Hk. unfold rd16. rewrite !(rd_prefix data rem) by lia. reflexivity. Qed.
Lemma be16_split a b : is_byte a -> is_byte b -> [a; b] = be16 (a * 256 + b).
Proof. unfold is_byte, be16. intros Ha Hb. f_equal; [|f_equal]; lia. Qed.

(** ** PUBLISH flags *)
Definition flags_of (t : Z) : option (qos * bool * bool) :=
  let q := (t / 2) mod 4 in
  let rest q := Some (q, t mod 2 =? 1, (t / 8) mod 2 =? 1) in
  if q =? 0 then rest Q0 else if q =? 1 then rest Q1 else if q =? 2 then rest Q2 else None.
Definition flags_beq (a b : option (qos * bool * bool)) : bool :=
  match a, b with
  | None, None => true
  | Some (q, r, d), Some (q', r', d') => qos_beq q q' && eqb r r' && eqb d d'
  | _, _ => false
  end.
Lemma flags_beq_eq a b : flags_beq a b = true -> a = b.
Proof.
  destruct a as [[[q r] d]|], b as [[[q' r'] d']|]; cbn; try discriminate; [|reflexivity].
  intros H. apply andb_true_iff in H. destruct H as [H H3]. apply andb_true_iff in H. destruct H as [H1 H2].
  apply internal_qos_dec_bl in H1. apply eqb_prop in H2, H3. congruence.
Qed.
Lemma flags_eq t : is_byte t -> processPublishFlags (Z.land t 15) = flags_of t.
Proof.
  intros H. apply flags_beq_eq.
  apply (byte_sweep (fun t => flags_beq (processPublishFlags (Z.land t 15)) (flags_of t))); [vm_compute; reflexivity|exact H].
Qed.
Lemma flags_first m : flags_of (publish_first m) = Some (pm_qos m, pm_retain m, pm_dup m).
Proof. unfold publish_first. destruct (pm_qos m), (pm_retain m), (pm_dup m); reflexivity. Qed.
Lemma first_flags t q r d : is_byte t -> t / 16 = 3 -> flags_of t = Some (q, r, d) ->
  forall topic id pl, t = publish_first (mkPublish d q r topic id pl).
Proof.
  unfold is_byte, flags_of. intros Ht H3 Hf topic id pl. unfold publish_first. cbn.
  destruct ((t / 2) mod 4 =? 0) eqn:E0; [|destruct ((t / 2) mod 4 =? 1) eqn:E1; [|destruct ((t / 2) mod 4 =? 2) eqn:E2; [|discriminate]]];
  injection Hf as <- <- <-; destruct (t mod 2 =? 1) eqn:Er, ((t / 8) mod 2 =? 1) eqn:Ed; cbn; lia.
Qed.
Lemma publish_first_range m : is_byte (publish_first m) /\ publish_first m / 16 = 3.
Proof. unfold publish_first, is_byte. destruct (pm_qos m), (pm_retain m), (pm_dup m); cbn; lia. Qed.

(** ** PUBLISH bodies *)
Definition idlen (q : qos) : Z := match q with Q0 => 0 | _ => 2 end.
Definition pdec (t : Z) (body : list Z) : option publish_msg :=
  match flags_of t with
  | None => None
  | Some (q, r, d) =>
      if zlen body <? 3 + idlen q then None else
      match body with
      | a :: b :: rest =>
          let tl := a * 256 + b in
          if zlen rest <? tl + idlen q then None else
          let topic := firstn (Z.to_nat tl) rest in
          let rest2 := skipn (Z.to_nat tl) rest in
          match q, rest2 with
          | Q0, _ => Some (mkPublish d q r topic 0 rest2)
          | _, h :: l :: pl => if h * 256 + l =? 0 then None else Some (mkPublish d q r topic (h * 256 + l) pl)
          | _, _ => None
          end
      | _ => None
      end
  end.

(** what the C structures hold when m has been decoded from a body at offset 0 *)
Definition dpub_of (m : publish_msg) : dpub * option Z :=
  (mkDpub (pm_qos m) (pm_retain m) (pm_dup m) 2 (zlen (pm_topic m))
     (if zlen (pm_payload m) =? 0 then None else Some (2 + zlen (pm_topic m) + idlen (pm_qos m)))
     (zlen (pm_payload m)),
   match pm_qos m with Q0 => None | _ => Some (pm_id m) end).

Lemma check_len rem q n : status_beq (checkPublishRemainingLength rem q n) Success = negb (rem <? n + idlen q).
Proof.
  unfold checkPublishRemainingLength, idlen. destruct q; rewrite ?Z.add_0_r.
  - destruct (rem <? n); reflexivity.
  - destruct (rem <? n + 2); reflexivity.
  - destruct (rem <? n + 2); reflexivity.
Qed.

Lemma deser_pub M t rem data : 4294967296 <= M -> is_byte t ->
  0 <= rem <= zlen data -> rem < M -> bytes_ok (firstn (Z.to_nat rem) data) ->
  deserializePublish M t rem data =
    match pdec t (firstn (Z.to_nat rem) data) with
    | None => Ok (BadResponse, None)
    | Some m => Ok (Success, Some (dpub_of m))
    end.
Proof.
  intros HM Ht Hrem HrM Hb. unfold deserializePublish, pdec. rewrite flags_eq by exact Ht.
  destruct (flags_of t) as [[[q r] d]|]; [|reflexivity]. rewrite check_len, negb_involutive.
  pose proof (zlen_firstn data rem Hrem) as HL.
  set (body := firstn (Z.to_nat rem) data) in *. rewrite HL.
  destruct (rem <? 3 + idlen q) eqn:E3; [reflexivity|].
  assert (Hq0 : 0 <= idlen q) by (destruct q; cbn; lia).
  destruct body as [|a [|b rest]] eqn:Eb; [rewrite zlen_nil in HL; lia|rewrite zlen_cons, zlen_nil in HL; lia|].
  rewrite (rd16_prefix data rem) by lia. fold body. rewrite Eb.
  apply bytes_cons in Hb. destruct Hb as [Ha Hb]. apply bytes_cons in Hb. destruct Hb as [Hb Hrest].
  change 0 with (zlen (@nil Z)) at 1. change (a :: b :: rest) with ([] ++ a :: b :: rest) at 1.
  rewrite rd16_app by assumption. cbn [rbind]. rewrite check_len, negb_involutive.
  set (tl := a * 256 + b) in *. rewrite !zlen_cons in HL. unfold is_byte in Ha, Hb.
  replace (rem <? tl + 2 + idlen q) with (zlen rest <? tl + idlen q) by lia.
  destruct (zlen rest <? tl + idlen q) eqn:E4; [reflexivity|].
  assert (Htl : 0 <= tl <= 65535) by (subst tl; lia).
  pose proof (firstn_skipn (Z.to_nat tl) rest) as Hsplit.
  set (topic := firstn (Z.to_nat tl) rest) in *. set (rest2 := skipn (Z.to_nat tl) rest) in *.
  assert (HtL : zlen topic = tl) by (apply zlen_firstn; lia).
  assert (HrL : zlen rest = tl + zlen rest2) by (rewrite <- Hsplit, zlen_app; lia).
  assert (Hr2 : bytes_ok rest2) by (unfold bytes_ok in *; rewrite <- Hsplit in Hrest; apply Forall_app in Hrest; tauto).
  assert (Hq12 : q <> Q0 ->
    (let! (pid, payoff) := let! id := rd16 data (2 + tl) in Ok (Some id, 2 + tl + 2) in
     if match pid with Some id => id =? 0 | None => false end then Ok (BadResponse, None)
     else let payloadLength := (rem - tl - 2) mod M in
          let payloadLength := (payloadLength - 2) mod M in
          Ok (Success, Some (mkDpub q r d 2 tl (if payloadLength =? 0 then None else Some payoff) payloadLength, pid)))
    = match match rest2 with
            | h :: l :: pl => if h * 256 + l =? 0 then None else Some (mkPublish d q r topic (h * 256 + l) pl)
            | _ => None end with
      | None => Ok (BadResponse, None)
      | Some m => Ok (Success, Some (dpub_of m))
      end).
  { intros Hq. assert (Hi : idlen q = 2) by (destruct q; [congruence|reflexivity|reflexivity]).
    destruct rest2 as [|h [|l pl]] eqn:Er2; [rewrite zlen_nil in HrL; lia|rewrite zlen_cons, zlen_nil in HrL; lia|].
    rewrite !zlen_cons in HrL. pose proof (zlen_nonneg pl) as HplN.
    apply bytes_cons in Hr2. destruct Hr2 as [Hh Hr2]. apply bytes_cons in Hr2. destruct Hr2 as [Hl Hpl].
    rewrite (rd16_prefix data rem) by lia. fold body. rewrite Eb.
    assert (Esp : a :: b :: rest = (a :: b :: topic) ++ h :: l :: pl) by (cbn [app]; now rewrite Hsplit).
    rewrite Esp. replace (2 + tl) with (zlen (a :: b :: topic)) by (rewrite !zlen_cons; lia).
    rewrite rd16_app by assumption. cbn [rbind]. destruct (h * 256 + l =? 0) eqn:Eid; [reflexivity|].
    cbv zeta. rewrite (Z.mod_small (rem - tl - 2)) by lia. rewrite Z.mod_small by lia.
    replace (rem - tl - 2 - 2) with (zlen pl) by lia. unfold dpub_of. cbn [pm_qos pm_retain pm_dup pm_topic pm_payload pm_id].
    rewrite HtL, Hi, !zlen_cons, HtL. replace (1 + (1 + tl) + 2) with (2 + tl + 2) by lia.
    destruct q; [congruence|reflexivity|reflexivity]. }
  destruct q; [|apply Hq12; discriminate|apply Hq12; discriminate].
  cbn [rbind]. pose proof (zlen_nonneg rest2). cbn [idlen] in *. rewrite Z.mod_small by lia.
  replace (rem - tl - 2) with (zlen rest2) by lia. unfold dpub_of. cbn [pm_qos pm_retain pm_dup pm_topic pm_payload pm_id idlen].
  rewrite HtL, Z.add_0_r. reflexivity.
Qed.

Lemma pdec_sound t body m : is_byte t -> t / 16 = 3 -> bytes_ok body -> pdec t body = Some m ->
  publish_means t body m /\ (pm_topic m <> [] \/ pm_payload m <> []).
Proof.
  intros Ht H3 Hb. unfold pdec. destruct (flags_of t) as [[[q r] d]|] eqn:Ef; [|discriminate].
  pose proof (first_flags t q r d Ht H3 Ef) as Hf.
  destruct (zlen body <? 3 + idlen q) eqn:E3; [discriminate|].
  destruct body as [|a [|b rest]]; [discriminate|discriminate|].
  apply bytes_cons in Hb. destruct Hb as [Ha Hb]. apply bytes_cons in Hb. destruct Hb as [Hb Hrest].
  pose proof (be16_split a b Ha Hb) as Eab. unfold is_byte in Ha, Hb. cbv zeta.
  set (tl := a * 256 + b) in *. destruct (zlen rest <? tl + idlen q) eqn:E4; [discriminate|].
  assert (Htl : 0 <= tl <= 65535) by (subst tl; lia).
  assert (Hi : 0 <= idlen q) by (destruct q; cbn; lia).
  pose proof (firstn_skipn (Z.to_nat tl) rest) as Hsplit.
  set (topic := firstn (Z.to_nat tl) rest) in *. set (rest2 := skipn (Z.to_nat tl) rest) in *.
  assert (HtL : zlen topic = tl) by (apply zlen_firstn; lia).
  assert (Hr2 : bytes_ok rest2) by (unfold bytes_ok in *; rewrite <- Hsplit in Hrest; apply Forall_app in Hrest; tauto).
  rewrite !zlen_cons in E3. rewrite <- Hsplit, zlen_app in E3.
  assert (Hbody : forall z, [a; b] ++ topic ++ z = mstr topic ++ z).
  { intros z. unfold mstr. rewrite HtL, <- Eab. reflexivity. }
  destruct q.
  - intros H. injection H as <-. unfold publish_means, publish_body, publish_head. cbn [pm_topic pm_payload pm_qos pm_id].
    split.
    + repeat split; try lia; try apply Hf; try congruence. rewrite app_nil_r, <- Hbody.
      cbn [app]. now rewrite Hsplit.
    + cbn [idlen] in E3. destruct topic; [|left; discriminate]. right. intros K. rewrite K in E3. change (zlen (@nil Z)) with 0 in E3. lia.
  - destruct rest2 as [|h [|l pl]]; [discriminate|discriminate|].
    apply bytes_cons in Hr2. destruct Hr2 as [Hh Hr2]. apply bytes_cons in Hr2. destruct Hr2 as [Hl Hpl].
    pose proof (be16_split h l Hh Hl) as Ehl. unfold is_byte in Hh, Hl.
    destruct (h * 256 + l =? 0) eqn:Eid; [discriminate|]. intros H. injection H as <-.
    unfold publish_means, publish_body, publish_head. cbn [pm_topic pm_payload pm_qos pm_id]. split.
    + repeat split; try lia; try apply Hf; try congruence. rewrite <- app_assoc, <- Hbody, <- Ehl. cbn [app]. now rewrite Hsplit.
    + cbn [idlen] in E3. rewrite !zlen_cons in E3. destruct topic; [|left; discriminate]. right. intros K. rewrite K in E3. change (zlen (@nil Z)) with 0 in E3. lia.
  - destruct rest2 as [|h [|l pl]]; [discriminate|discriminate|].
    apply bytes_cons in Hr2. destruct Hr2 as [Hh Hr2]. apply bytes_cons in Hr2. destruct Hr2 as [Hl Hpl].
    pose proof (be16_split h l Hh Hl) as Ehl. unfold is_byte in Hh, Hl.
    destruct (h * 256 + l =? 0) eqn:Eid; [discriminate|]. intros H. injection H as <-.
    unfold publish_means, publish_body, publish_head. cbn [pm_topic pm_payload pm_qos pm_id]. split.
    + repeat split; try lia; try apply Hf; try congruence. rewrite <- app_assoc, <- Hbody, <- Ehl. cbn [app]. now rewrite Hsplit.
    + cbn [idlen] in E3. rewrite !zlen_cons in E3. destruct topic; [|left; discriminate]. right. intros K. rewrite K in E3. change (zlen (@nil Z)) with 0 in E3. lia.
Qed.

Lemma firstn_zlen_app {A} (a b : list A) n : n = zlen a -> firstn (Z.to_nat n) (a ++ b) = a /\ skipn (Z.to_nat n) (a ++ b) = b.
Proof.
  intros ->. unfold zlen. rewrite Nat2Z.id, firstn_app, skipn_app, Nat.sub_diag, firstn_all, skipn_all. cbn.
  now rewrite app_nil_r.
Qed.

Lemma pdec_complete t body m : publish_means t body m -> pm_topic m <> [] \/ pm_payload m <> [] -> pdec t body = Some m.
Proof.
  intros (Ht & Ef & Eb & HtL & Hi0 & Hi12) Hne. unfold pdec. rewrite Ef, flags_first.
  pose proof (zlen_publish_body m) as HB. rewrite <- Eb in HB.
  pose proof (zlen_nonneg (pm_topic m)) as HtN. pose proof (zlen_nonneg (pm_payload m)) as HpN.
  assert (Hpos : 0 < zlen (pm_topic m) + zlen (pm_payload m)).
  { destruct Hne as [K|K].
    - destruct (pm_topic m); [congruence|]. rewrite zlen_cons in *. pose proof (zlen_nonneg l). lia.
    - destruct (pm_payload m); [congruence|]. rewrite zlen_cons in *. pose proof (zlen_nonneg l). lia. }
  replace (zlen body <? 3 + idlen (pm_qos m)) with false by (unfold idlen; destruct (pm_qos m); lia).
  unfold publish_body, publish_head, mstr, be16 in Eb. rewrite <- !app_assoc in Eb. cbn [app] in Eb. rewrite Eb. cbv zeta.
  set (rest := pm_topic m ++ match pm_qos m with Q0 => [] | _ => [pm_id m / 256; pm_id m mod 256] end ++ pm_payload m) in *.
  replace (zlen (pm_topic m) / 256 * 256 + zlen (pm_topic m) mod 256) with (zlen (pm_topic m)) by lia.
  assert (HR : zlen rest = zlen (pm_topic m) + idlen (pm_qos m) + zlen (pm_payload m)).
  { subst rest. rewrite !zlen_app. destruct (pm_qos m); cbn [idlen]; rewrite ?zlen_cons, zlen_nil; lia. }
  replace (zlen rest <? zlen (pm_topic m) + idlen (pm_qos m)) with false by lia.
  destruct (firstn_zlen_app (pm_topic m) (match pm_qos m with Q0 => [] | _ => [pm_id m / 256; pm_id m mod 256] end ++ pm_payload m) _ eq_refl) as [E1 E2].
  fold rest in E1, E2. rewrite E1, E2. destruct m as [dd q r topic id pl]. cbn [pm_qos pm_id pm_dup pm_retain pm_topic pm_payload] in *.
  destruct q; cbn [app].
  - now rewrite Hi0.
  - specialize (Hi12 ltac:(discriminate)). replace (id / 256 * 256 + id mod 256) with id by lia.
    replace (id =? 0) with false by lia. reflexivity.
  - specialize (Hi12 ltac:(discriminate)). replace (id / 256 * 256 + id mod 256) with id by lia.
    replace (id =? 0) with false by lia. reflexivity.
Qed.

Lemma land240 t : is_byte t -> (Z.land t 240 =? PKT_PUBLISH) = (t / 16 =? 3).
Proof.
  intros H. apply eqb_prop.
  apply (byte_sweep (fun t => eqb (Z.land t 240 =? PKT_PUBLISH) (t / 16 =? 3))); [vm_compute; reflexivity|exact H].
Qed.

Lemma deser_api M t rem data : 4294967296 <= M -> is_byte t -> t / 16 = 3 ->
  0 <= rem <= zlen data -> rem < M -> bytes_ok (firstn (Z.to_nat rem) data) ->
  deserializePublishApi M (mkPkt t rem (Some data)) =
    match pdec t (firstn (Z.to_nat rem) data) with
    | None => Ok (BadResponse, None)
    | Some m => Ok (Success, Some (dpub_of m))
    end.
Proof.
  intros HM Ht H3 Hr HrM Hb. unfold deserializePublishApi. cbn [k_type k_data k_rem].
  rewrite land240 by exact Ht. replace (t / 16 =? 3) with true by lia. cbn [negb]. now apply deser_pub.
Qed.

Lemma sub_of_prefix (data : list Z) rem body o n : firstn (Z.to_nat rem) data = body -> 0 <= o -> 0 <= n -> o + n <= rem ->
  sub data o n = sub body o n.
Proof.
  intros <- Ho Hn Hr. unfold sub. rewrite skipn_firstn_comm, firstn_firstn. f_equal. lia.
Qed.
Lemma sub_app {A} (a b c : list A) o n : o = zlen a -> n = zlen b -> sub (a ++ b ++ c) o n = b.
Proof.
  intros -> ->. unfold sub. destruct (firstn_zlen_app a (b ++ c) _ eq_refl) as [_ ->].
  now destruct (firstn_zlen_app b c _ eq_refl) as [-> _].
Qed.

Lemma dpub_of_means data rem t m : 0 <= rem <= zlen data -> publish_means t (firstn (Z.to_nat rem) data) m ->
  dpub_means data (fst (dpub_of m)) (snd (dpub_of m)) m.
Proof.
  intros Hr (Ht & Ef & Eb & HtL & Hi0 & Hi12). unfold dpub_means, dpub_of.
  cbn [fst snd d_qos d_retain d_dup d_topiclen d_topicoff d_paylen d_payoff].
  pose proof (zlen_publish_body m) as HB. rewrite <- Eb, zlen_firstn in HB by exact Hr.
  pose proof (zlen_nonneg (pm_topic m)) as HtN. pose proof (zlen_nonneg (pm_payload m)) as HpN.
  repeat split.
  - rewrite (sub_of_prefix data rem _ _ _ Eb) by (try lia; destruct (pm_qos m); lia).
    unfold publish_body, publish_head, mstr. rewrite <- !app_assoc. apply sub_app; reflexivity.
  - destruct (zlen (pm_payload m) =? 0) eqn:E0.
    + destruct (pm_payload m); [reflexivity|]. rewrite zlen_cons in E0. pose proof (zlen_nonneg l). lia.
    + rewrite (sub_of_prefix data rem _ _ _ Eb) by (unfold idlen; destruct (pm_qos m); lia).
      unfold publish_body. rewrite <- (app_nil_r (pm_payload m)) at 1. apply sub_app; [|reflexivity].
      rewrite zlen_publish_head. destruct (pm_qos m); cbn [idlen]; lia.
Qed.

Lemma publish_decode M t rem data : 4294967296 <= M -> is_byte t -> t / 16 = 3 ->
  0 <= rem <= zlen data -> rem < M -> bytes_ok (firstn (Z.to_nat rem) data) ->
  (exists m d pid, deserializePublishApi M (mkPkt t rem (Some data)) = Ok (Success, Some (d, pid)) /\
     publish_means t (firstn (Z.to_nat rem) data) m /\ (pm_topic m <> [] \/ pm_payload m <> []) /\
     dpub_means data d pid m) \/
  (deserializePublishApi M (mkPkt t rem (Some data)) = Ok (BadResponse, None) /\
     forall m, publish_means t (firstn (Z.to_nat rem) data) m -> pm_topic m = [] /\ pm_payload m = []).
Proof.
  intros HM Ht H3 Hr HrM Hb. rewrite deser_api by assumption.
  destruct (pdec t (firstn (Z.to_nat rem) data)) as [m|] eqn:E.
  - left. destruct (pdec_sound _ _ _ Ht H3 Hb E) as [Hm Hne].
    exists m, (fst (dpub_of m)), (snd (dpub_of m)). split; [reflexivity|]. split; [exact Hm|]. split; [exact Hne|].
    now apply (dpub_of_means data rem t m).
  - right. split; [reflexivity|]. intros m Hm.
    destruct (pm_topic m) eqn:E1; [destruct (pm_payload m) eqn:E2; [auto|]|]; exfalso;
    rewrite (pdec_complete t _ m Hm) in E; congruence || (left; congruence) || (right; congruence).
Qed.

Lemma publish_means_inj t b m m' : publish_means t b m -> publish_means t b m' ->
  pm_topic m <> [] \/ pm_payload m <> [] -> pm_topic m' <> [] \/ pm_payload m' <> [] -> m = m'.
Proof. intros H H' K K'. pose proof (pdec_complete _ _ _ H K). pose proof (pdec_complete _ _ _ H' K'). congruence. Qed.

(** ** Acknowledgements *)
Definition ack_id (body : list Z) : option Z :=
  match body with [a; b] => Some (a * 256 + b) | _ => None end.

Lemma simple_ack rem data : 0 <= rem <= zlen data -> bytes_ok (firstn (Z.to_nat rem) data) ->
  deserializeSimpleAck rem data =
    match ack_id (firstn (Z.to_nat rem) data) with
    | Some id => Ok (if id =? 0 then BadResponse else Success, Some id)
    | None => Ok (BadResponse, None)
    end.
Proof.
  intros Hr Hb. unfold deserializeSimpleAck. pose proof (zlen_firstn data rem Hr) as HL.
  destruct (rem =? 2) eqn:E; cbn [negb].
  - rewrite (rd16_prefix data rem) by lia. destruct (firstn (Z.to_nat rem) data) as [|a [|b [|c l]]];
      rewrite ?zlen_cons, ?zlen_nil in HL; try lia; [|pose proof (zlen_nonneg l); lia].
    apply bytes_cons in Hb. destruct Hb as [Ha Hb]. apply bytes_cons in Hb. destruct Hb as [Hb _].
    change [a; b] with ([] ++ [a; b]). change 0 with (zlen (@nil Z)) at 1. rewrite rd16_app by assumption. reflexivity.
  - destruct (firstn (Z.to_nat rem) data) as [|a [|b [|c l]]]; try reflexivity. rewrite ?zlen_cons, ?zlen_nil in HL. lia.
Qed.

Lemma ack_id_iff body id : bytes_ok body -> (ack_id body = Some id <-> 0 <= id <= 65535 /\ body = be16 id).
Proof.
  intros Hb. split.
  - destruct body as [|a [|b [|]]]; try discriminate. cbn. intros H. injection H as <-.
    apply bytes_cons in Hb. destruct Hb as [Ha Hb]. apply bytes_cons in Hb. destruct Hb as [Hb _].
    split; [unfold is_byte in *; lia|]. now apply be16_split.
  - intros [Hi ->]. cbn [be16 ack_id]. f_equal. lia.
Qed.

Lemma ack_decode k rem data : 0 <= rem <= zlen data -> bytes_ok (firstn (Z.to_nat rem) data) ->
  (exists id, 1 <= id <= 65535 /\ firstn (Z.to_nat rem) data = be16 id /\
     deserializeAck (mkPkt (ack_first k) rem (Some data)) = Ok (Success, Some id, None)) \/
  ((forall id, 1 <= id <= 65535 -> firstn (Z.to_nat rem) data <> be16 id) /\
   exists o, deserializeAck (mkPkt (ack_first k) rem (Some data)) = Ok (BadResponse, o, None)).
Proof.
  intros Hr Hb.
  assert (E : deserializeAck (mkPkt (ack_first k) rem (Some data)) =
     let! (st, id) := deserializeSimpleAck rem data in Ok (st, id, None)).
  { destruct k; reflexivity. }
  rewrite E, simple_ack by assumption.
  destruct (ack_id (firstn (Z.to_nat rem) data)) as [id|] eqn:Ei; cbn [rbind].
  - apply ack_id_iff in Ei; [|exact Hb]. destruct Ei as [Hi Eb]. destruct (id =? 0) eqn:E0.
    + right. split; [|eexists; reflexivity]. intros id' Hi' Eb'.
      assert (K : ack_id (firstn (Z.to_nat rem) data) = Some id') by (apply ack_id_iff; [exact Hb|split; [lia|exact Eb']]).
      assert (K2 : ack_id (firstn (Z.to_nat rem) data) = Some id) by (apply ack_id_iff; [exact Hb|split; [lia|exact Eb]]).
      rewrite K in K2. injection K2 as ->. lia.
    + left. exists id. split; [lia|]. split; [exact Eb|reflexivity].
  - right. split; [|eexists; reflexivity]. intros id Hi Eb. assert (K : ack_id (firstn (Z.to_nat rem) data) = Some id) by (apply ack_id_iff; [exact Hb|split; [lia|exact Eb]]). congruence.
Qed.

Lemma pingresp_decode rem data : deserializeAck (mkPkt PKT_PINGRESP rem data) =
  Ok (if rem =? 0 then Success else BadResponse, None, None).
Proof. unfold deserializeAck. cbn [k_data k_type]. destruct data; cbn; unfold deserializePingresp; cbn [k_rem]; destruct (rem =? 0); reflexivity. Qed.

(** ** CONNACK *)
Lemma lor1 b : is_byte b -> (Z.lor b 1 =? 1) = (b =? 0) || (b =? 1).
Proof.
  intros H. apply eqb_prop.
  apply (byte_sweep (fun b => eqb (Z.lor b 1 =? 1) ((b =? 0) || (b =? 1)))); [vm_compute; reflexivity|exact H].
Qed.
Lemma connack_decode rem data : 0 <= rem <= zlen data -> bytes_ok (firstn (Z.to_nat rem) data) ->
  exists sp, deserializeAck (mkPkt PKT_CONNACK rem (Some data)) =
    Ok (fst (connack_result (firstn (Z.to_nat rem) data)), None, sp) /\
    (fst (connack_result (firstn (Z.to_nat rem) data)) <> BadResponse -> sp = snd (connack_result (firstn (Z.to_nat rem) data))).
Proof.
  intros Hr Hb. unfold deserializeAck. cbn [k_data k_type k_rem]. change (PKT_CONNACK =? PKT_CONNACK) with true. cbv iota.
  unfold deserializeConnack. pose proof (zlen_firstn data rem Hr) as HL.
  destruct (rem =? 2) eqn:E; cbn [negb].
  - rewrite (rd_prefix data rem 0), !(rd_prefix data rem 1) by lia.
    destruct (firstn (Z.to_nat rem) data) as [|f [|rc [|c l]]];
      rewrite ?zlen_cons, ?zlen_nil in HL; try lia; [|pose proof (zlen_nonneg l); lia].
    apply bytes_cons in Hb. destruct Hb as [Hf Hb]. apply bytes_cons in Hb. destruct Hb as [Hrc _].
    rewrite rd_0. cbn [rbind]. rewrite lor1 by exact Hf. change 1 with (0 + 1). rewrite rd_cons, rd_0 by lia. change (0 + 1) with 1.
    unfold connack_result. unfold is_byte in *. destruct (f =? 0) eqn:F0; cbn [orb].
    + assert (f = 0) by lia. subst f. cbn [negb]. change (Z.land 0 1 =? 1) with false. cbv iota. cbn [rbind status_beq].
      change (0 =? 1) with false. cbn [andb].
      destruct (5 <? rc) eqn:R5; cbn [rbind].
      * replace (rc =? 0) with false by lia. replace (rc <=? 5) with false by lia. rewrite andb_false_r. cbn. eexists; split; [reflexivity|congruence].
      * unfold rassert. replace (rc <=? 5) with true by lia. destruct (0 <? rc) eqn:R0; cbn [rbind].
        -- replace (rc =? 0) with false by lia. replace (1 <=? rc) with true by lia. cbn. eexists; split; reflexivity.
        -- replace (rc =? 0) with true by lia. cbn. eexists; split; reflexivity.
    + destruct (f =? 1) eqn:F1; cbn [negb].
      * assert (f = 1) by lia. subst f. change (Z.land 1 1 =? 1) with true. cbv iota. cbn [rbind andb].
        destruct (rc =? 0) eqn:R0; cbn [negb status_beq rbind].
        -- assert (rc = 0) by lia. subst rc. cbn. eexists; split; reflexivity.
        -- cbn. eexists; split; [reflexivity|congruence].
      * cbn. eexists; split; [reflexivity|congruence].
  - cbn [rbind]. exists None. destruct (firstn (Z.to_nat rem) data) as [|a [|b [|c l]]]; cbn; try (split; [reflexivity|congruence]).
    rewrite ?zlen_cons, ?zlen_nil in HL. lia.
Qed.

(** ** SUBACK *)
Lemma suback_loop codes : forall pre st, st = Success \/ st = ServerRefused ->
  readSubackStatus_loop (length codes) (pre ++ codes) (zlen pre) st =
    Ok (if forallb (fun c => (c =? 0) || (c =? 1) || (c =? 2) || (c =? 128)) codes
        then if existsb (fun c => c =? 128) codes then ServerRefused else st else BadResponse).
Proof.
  induction codes as [|c codes IH]; intros pre st Hst; cbn [length readSubackStatus_loop forallb existsb]; [reflexivity|].
  rewrite rd_app. cbn [rbind]. cbv zeta.
  assert (IH' : forall st, st = Success \/ st = ServerRefused ->
    readSubackStatus_loop (length codes) (pre ++ c :: codes) (zlen pre + 1) st =
     Ok (if forallb (fun c => (c =? 0) || (c =? 1) || (c =? 2) || (c =? 128)) codes
        then if existsb (fun c => c =? 128) codes then ServerRefused else st else BadResponse)).
  { intros st0 H0. specialize (IH (pre ++ [c]) st0 H0). rewrite zlen_app, <- app_assoc in IH. exact IH. }
  destruct ((c =? 0) || (c =? 1) || (c =? 2)) eqn:E; cbn [orb andb].
  - replace (status_beq st BadResponse) with false by (destruct Hst; subst; reflexivity).
    rewrite IH' by exact Hst. replace (c =? 128) with false by lia. reflexivity.
  - destruct (c =? 128) eqn:E8; cbn [andb orb]; [|reflexivity]. cbn [status_beq]. rewrite IH' by auto.
    destruct (forallb _ codes); [destruct (existsb _ codes)|]; reflexivity.
Qed.
Lemma suback_loop_prefix n data rem : forall off st, 0 <= rem <= zlen data -> off + Z.of_nat n <= rem ->
  readSubackStatus_loop n data off st = readSubackStatus_loop n (firstn (Z.to_nat rem) data) off st.
Proof.
  induction n as [|n IH]; intros off st Hr Ho; cbn [readSubackStatus_loop]; [reflexivity|].
  rewrite (rd_prefix data rem off) by lia. destruct (rd (firstn (Z.to_nat rem) data) off) as [b|]; cbn [rbind]; [|reflexivity].
  cbv zeta. match goal with |- (if ?c then _ else _) = _ => destruct c end; [reflexivity|]. apply IH; lia.
Qed.

Lemma suback_decode rem data : 0 <= rem <= zlen data -> bytes_ok (firstn (Z.to_nat rem) data) ->
  exists id, deserializeAck (mkPkt PKT_SUBACK rem (Some data)) =
    Ok (fst (suback_result (firstn (Z.to_nat rem) data)), id, None) /\
    (fst (suback_result (firstn (Z.to_nat rem) data)) <> BadResponse -> id = snd (suback_result (firstn (Z.to_nat rem) data))).
Proof.
  intros Hr Hb. unfold deserializeAck. cbn [k_data k_type k_rem].
  change (PKT_SUBACK =? PKT_CONNACK) with false. change (PKT_SUBACK =? PKT_SUBACK) with true. cbv iota.
  unfold deserializeSuback. pose proof (zlen_firstn data rem Hr) as HL.
  destruct (rem <? 3) eqn:E.
  - cbn [rbind]. exists None. destruct (firstn (Z.to_nat rem) data) as [|a [|b codes]]; cbn [suback_result fst snd]; try (split; [reflexivity|congruence]).
    rewrite !zlen_cons in HL. pose proof (zlen_nonneg codes). replace (zlen codes =? 0) with true by lia. rewrite orb_true_r.
    split; [reflexivity|cbn; congruence].
  - rewrite (rd16_prefix data rem) by lia. unfold readSubackStatus. rewrite (suback_loop_prefix _ data rem) by lia.
    destruct (firstn (Z.to_nat rem) data) as [|a [|b codes]]; [rewrite zlen_nil in HL; lia|rewrite zlen_cons, zlen_nil in HL; lia|].
    apply bytes_cons in Hb. destruct Hb as [Ha Hb]. apply bytes_cons in Hb. destruct Hb as [Hb _].
    rewrite !zlen_cons in HL. pose proof (rd16_app [] a b codes Ha Hb) as R. cbn [app] in R. change (zlen (@nil Z)) with 0 in R. rewrite R. cbn [rbind suback_result].
    replace (zlen codes =? 0) with false by lia. rewrite orb_false_r.
    destruct (a * 256 + b =? 0) eqn:E0; cbn [rbind]; [eexists; split; [reflexivity|cbn; congruence]|].
    replace (Z.to_nat (rem - 2)) with (length codes) by (unfold zlen in HL; lia).
    pose proof (suback_loop codes [a; b] Success (or_introl eq_refl)) as K. cbn [app] in K. change (zlen [a; b]) with 2 in K. rewrite K. cbn [rbind].
    eexists; split; reflexivity.
Qed.

(** ** The remaining packet types *)
Lemma other_ack t rem data : is_byte t -> ~ In t [PKT_CONNACK; PKT_SUBACK; PKT_PINGRESP; PKT_UNSUBACK; PKT_PUBACK; PKT_PUBREC; PKT_PUBREL; PKT_PUBCOMP] ->
  deserializeAck (mkPkt t rem (Some data)) = Ok (BadResponse, None, None).
Proof.
  intros _ H. unfold deserializeAck. cbn [k_data k_type k_rem].
  repeat match goal with |- context [t =? ?c] => destruct (t =? c) eqn:?; [exfalso; apply H; cbn [In]; rewrite Z.eqb_eq in *; subst; tauto|] end.
  reflexivity.
Qed.

(** ** DUP flag *)
Lemma dup_flag m b : updateDuplicatePublishFlag (publish_first m) b =
  (Success, publish_first (mkPublish b (pm_qos m) (pm_retain m) (pm_topic m) (pm_id m) (pm_payload m))).
Proof. unfold publish_first. cbn. destruct (pm_dup m), (pm_qos m), (pm_retain m), b; reflexivity. Qed.
Lemma dup_flag_other h b : is_byte h -> h / 16 <> 3 -> updateDuplicatePublishFlag h b = (BadParameter, h).
Proof. intros Hh H. unfold updateDuplicatePublishFlag. rewrite land240 by exact Hh. replace (h / 16 =? 3) with false by lia. reflexivity. Qed.
Lemma dup_flag_byte h b : is_byte h -> h / 16 = 3 ->
  updateDuplicatePublishFlag h b = (Success, h - h / 8 mod 2 * 8 + bit b 8).
Proof.
  intros Hh H. unfold updateDuplicatePublishFlag. rewrite land240 by exact Hh. replace (h / 16 =? 3) with true by lia. cbn [negb].
  f_equal. destruct b; cbn [bit]; apply Z.eqb_eq.
  - apply (byte_sweep (fun h => set_bit h 3 =? h - h / 8 mod 2 * 8 + 8)); [vm_compute; reflexivity|exact Hh].
  - apply (byte_sweep (fun h => clear_bit h 3 =? h - h / 8 mod 2 * 8 + 0)); [vm_compute; reflexivity|exact Hh].
Qed.

(** ** Size limits *)
Lemma publish_size_max p rl ps : 0 <= p_topiclen p -> 0 <= p_paylen p ->
  getPublishPacketSize p = (Success, Some (rl, ps)) ->
  0 <= rl <= max_remaining /\ ps = 1 + zlen (varlen rl) + rl.
Proof.
  unfold getPublishPacketSize, calculatePublishPacketSize, max_remaining, MAX_REMAINING_LENGTH. intros H0 H1.
  destruct (_ || _); [discriminate|]. destruct (_ <? p_paylen p) eqn:E1; [discriminate|].
  destruct (_ <? p_paylen p) eqn:E2 in |- *; [discriminate|]. intros H. apply some_inj in H. destruct H as [<- <-].
  set (n := match p_qos p with Q0 => p_topiclen p + 2 | _ => p_topiclen p + 2 + 2 end) in *.
  assert (2 <= n) by (subst n; destruct (p_qos p); lia).
  pose proof (encsize_bounds (n + p_paylen p)). rewrite zlen_varlen. lia.
Qed.
Lemma connect_size_max c will rl ps : 0 <= c_idlen c < 65536 -> 0 <= c_userlen c < 65536 -> 0 <= c_passlen c < 65536 ->
  match will with Some w => 0 <= p_topiclen w < 65536 /\ 0 <= p_paylen w | None => True end ->
  getConnectPacketSize c will = (Success, Some (rl, ps)) ->
  0 <= rl <= max_remaining /\ ps = 1 + zlen (varlen rl) + rl.
Proof.
  unfold getConnectPacketSize, max_remaining, CONNECT_HEADER_SIZE. intros H0 H1 H2 H3.
  destruct (_ || _); [discriminate|]. destruct will as [w|].
  - destruct (65535 <? p_paylen w) eqn:E; [discriminate|]. intros H. apply some_inj in H. destruct H as [<- <-].
    rewrite zlen_varlen. destruct (c_user c), (c_pass c); lia.
  - intros H. apply some_inj in H. destruct H as [<- <-].
    rewrite zlen_varlen. destruct (c_user c), (c_pass c); lia.
Qed.
Lemma subscription_size_max M l count t rl ps : 4294967296 <= M ->
  calculateSubscriptionPacketSize M l count t = Ok (Success, Some (rl, ps)) ->
  0 <= rl <= max_remaining /\ ps = 1 + zlen (varlen rl) + rl.
Proof.
  intros HM. unfold calculateSubscriptionPacketSize, rassert, max_remaining.
  destruct (negb (count =? 0)); [|discriminate]. destruct (sub_entries l count) as [es|]; cbn [rbind]; [|discriminate].
  pose proof (size_loop_mod M es t ltac:(lia) 2 Success ltac:(lia)) as Hm.
  destruct (subscription_size_loop M es t 2 Success) as [n st] eqn:E. cbn [fst] in Hm. unfold MAX_REMAINING_LENGTH.
  destruct (268435455 <? n) eqn:En; [discriminate|]. destruct (status_beq st Success); [|discriminate].
  intros H. assert (H' := f_equal (fun r => match r with Ok x => x | Ub => (Success, None) end) H). cbv beta iota in H'.
  apply some_inj in H'. destruct H' as [<- <-]. pose proof (Z.mod_pos_bound (2 + sub_total t es) M ltac:(lia)).
  pose proof (encsize_bounds n). rewrite zlen_varlen, Z.mod_small by lia. lia.
Qed.

(** ** 32-bit size_t: the sum of many filters wraps *)
Definition big_filter : list Z := repeat 97 (Z.to_nat 65535).
Definition big_subs : list subinfo := repeat (mkSub Q0 (Some big_filter) 65535) (Z.to_nat 65535).
Definition big_fs : list (list Z * qos) := repeat (big_filter, Q0) (Z.to_nat 65535).

Lemma zlen_repeat {A} (x : A) n : zlen (repeat x n) = Z.of_nat n.
Proof. unfold zlen. now rewrite repeat_length. Qed.
Lemma big_filter_len : zlen big_filter = 65535.
Proof. unfold big_filter. rewrite zlen_repeat. lia. Qed.
Lemma big_means : subs_mean big_subs big_fs.
Proof.
  unfold subs_mean, big_subs, big_fs. generalize (Z.to_nat 65535). intros n.
  induction n as [|n IH]; cbn [repeat]; constructor; [|exact IH].
  split; [|split; [cbn [s_len]; lia|reflexivity]]. exists big_filter. cbn [s_filter s_len fst].
  split; [reflexivity|]. rewrite big_filter_len. split; [lia|].
  unfold big_filter at 2. symmetry. rewrite <- (repeat_length 97 (Z.to_nat 65535)) at 1. apply firstn_all.
Qed.
Lemma sub_total_repeat t x n : sub_total t (repeat x n) = Z.of_nat n * sub_cost t x.
Proof. induction n as [|n IH]; cbn [repeat sub_total]; [reflexivity|]. rewrite IH. lia. Qed.
Lemma big_total : sub_total SUBSCRIBE big_subs = 4295032830.
Proof. unfold big_subs. rewrite sub_total_repeat. unfold sub_cost. cbn [s_len]. lia. Qed.

Lemma size_loop_status M l t : forall acc st, existsb sub_bad l = false ->
  snd (subscription_size_loop M l t acc st) = st.
Proof.
  induction l as [|x l IH]; intros acc st H; cbn [subscription_size_loop existsb] in *; [reflexivity|].
  apply orb_false_iff in H. destruct H as [H1 H2]. fold (sub_bad x). rewrite H1. destruct t; now apply IH.
Qed.

Lemma big_size : getSubscribePacketSize 4294967296 (Some big_subs) (zlen big_subs) = Ok (Success, Some (65536, 65540)).
Proof.
  unfold getSubscribePacketSize, calculateSubscriptionPacketSize.
  assert (HL : zlen big_subs = 65535) by (unfold big_subs; rewrite zlen_repeat; lia).
  rewrite sub_entries_all, HL. cbn [Z.eqb negb rassert rbind]. change (65535 =? 0) with false. cbv iota. cbn [negb rassert rbind].
  pose proof (size_loop_mod 4294967296 big_subs SUBSCRIBE ltac:(lia) 2 Success ltac:(lia)) as Hm.
  pose proof (size_loop_status 4294967296 big_subs SUBSCRIBE 2 Success (proj1 (subs_good _ _ big_means))) as Hs.
  destruct (subscription_size_loop 4294967296 big_subs SUBSCRIBE 2 Success) as [n st]. cbn [fst snd] in *. rewrite big_total in Hm.
  change ((2 + 4295032830) mod 4294967296) with 65536 in Hm. subst. reflexivity.
Qed.
Lemma big_real : zlen (subscribe_body 1 big_fs) = 4295032832.
Proof.
  rewrite sub_body_id. destruct (sub_total_bytes _ _ big_means) as [H _]. rewrite <- H, big_total. reflexivity.
Qed.

(** writing past the end of the buffer *)
Lemma encodeString_ub b c p len s : holds p len s -> 0 <= len < 65536 -> zlen c <= zlen b ->
  zlen b < zlen c + 2 + len -> encodeString (wr b c) p len = Ub.
Proof.
  intros H Hl Hc Hb. unfold encodeString. unfold zlen in *.
  destruct (Nat.le_gt_cases (length c + 2) (length b)) as [K|K].
  - rewrite put_wr by (cbn [length]; lia). cbn [rbind]. destruct H as (m & -> & Hm & ->). unfold copy_from, zlen in *.
    replace (len <=? Z.of_nat (length m)) with true by lia.
    apply put_wr_ub; rewrite ?app_length, ?firstn_length; cbn [length]; lia.
  - rewrite put_wr_ub by (cbn [length]; lia). reflexivity.
Qed.
Lemma big_overrun b id : zlen b = 65540 -> 0 < id < 65536 ->
  serializeSubscribe 4294967296 (Some big_subs) (zlen big_subs) id 65536 (Some b) = Ub.
Proof.
  intros Hb Hid. unfold serializeSubscribe, validateSubscriptionSerializeParams.
  assert (HL : zlen big_subs = 65535) by (unfold big_subs; rewrite zlen_repeat; lia).
  replace (zlen big_subs =? 0) with false by lia. replace (id =? 0) with false by lia. rewrite Hb.
  change (65540 <? (1 + remainingLengthEncodedSize 65536 + 65536) mod 4294967296) with false. cbv iota.
  rewrite sub_entries_all. cbn [rbind]. unfold serializeSubscribeHeader. rewrite wr_nil.
  rewrite put_wrz by (autorewrite with zl; lia). cbn [rbind].
  rewrite encode_wr by (unfold max_remaining; try split; autorewrite with zl; change (remainingLengthEncodedSize 65536) with 3; lia). cbn [rbind].
  rewrite put_wrz by (autorewrite with zl; change (remainingLengthEncodedSize 65536) with 3; lia). cbn [rbind].
  assert (E : exists l, big_subs = mkSub Q0 (Some big_filter) 65535 :: l).
  { unfold big_subs. replace (Z.to_nat 65535) with (S (Z.to_nat 65534)) at 1 by lia. cbn [repeat]. eexists. reflexivity. }
  destruct E as [l ->]. cbn [subscribe_loop s_filter s_len].
  rewrite (encodeString_ub b _ _ _ big_filter); [reflexivity| |lia|autorewrite with zl; change (remainingLengthEncodedSize 65536) with 3; lia|autorewrite with zl; change (remainingLengthEncodedSize 65536) with 3; lia].
  exists big_filter. split; [reflexivity|]. rewrite big_filter_len. split; [lia|].
  unfold big_filter at 2. symmetry. rewrite <- (repeat_length 97 (Z.to_nat 65535)) at 1. apply firstn_all.
Qed.
