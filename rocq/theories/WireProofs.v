(** The encoding of WireSpec can be read in one way only. *)
From Verif Require Import Base StateModel SerModel WireSpec SerHarness SerProofs SerProofs3 CoreModel CoreHarness Machine.

(** packets whose encoding is theirs alone: within the bounds of the standard, no
    identifier where none is sent, no stored copies (whose bytes are the application's) *)
Definition standard (p : cpkt) : Prop :=
  pkt_ok p /\ match p with KPublish m => pm_qos m = Q0 -> pm_id m = 0 | KAgain _ _ => False | _ => True end.

Lemma len_of_zlen {A} (a b : list A) : zlen a = zlen b -> length a = length b.
Proof. unfold zlen. lia. Qed.
Lemma app_eq_len {A} (a a' r r' : list A) : length a = length a' -> a ++ r = a' ++ r' -> a = a' /\ r = r'.
Proof.
  revert a'. induction a as [|x a IH]; intros [|x' a'] Hl H; cbn in *; try discriminate; auto.
  inversion H; subst. destruct (IH a') as (-> & ->); auto.
Qed.
Lemma packet_split f b r f' b' r' : zlen b <= max_remaining -> zlen b' <= max_remaining ->
  packet f b ++ r = packet f' b' ++ r' -> f = f' /\ b = b' /\ r = r'.
Proof.
  intros Hb Hb' H. unfold packet in H. cbn [app] in H. injection H as -> H. rewrite <- !app_assoc in H.
  pose proof (zlen_nonneg b). pose proof (zlen_nonneg b').
  assert (E : dec (varlen (zlen b) ++ b ++ r) = dec (varlen (zlen b') ++ b' ++ r')) by now rewrite H.
  rewrite !dec_varlen in E by lia. injection E as E _. rewrite E in H. apply app_inv_head in H.
  apply app_eq_len in H; [|now apply len_of_zlen]. destruct H. auto.
Qed.
Lemma be16_split n n' r r' : 0 <= n < 65536 -> 0 <= n' < 65536 -> be16 n ++ r = be16 n' ++ r' -> n = n' /\ r = r'.
Proof. intros H H' E. unfold be16 in E. cbn [app] in E. injection E as E1 E2 ->. split; auto. lia. Qed.
Lemma mstr_split s s' r r' : str_ok s -> str_ok s' -> mstr s ++ r = mstr s' ++ r' -> s = s' /\ r = r'.
Proof.
  unfold str_ok, mstr. intros H H' E. rewrite <- !app_assoc in E. pose proof (zlen_nonneg s). pose proof (zlen_nonneg s').
  apply be16_split in E; try lia. destruct E as (E1 & E2). apply app_eq_len in E2; auto. now apply len_of_zlen.
Qed.
Lemma mstr_opt_split o o' r r' : opt_ok o -> opt_ok o' -> is_some o = is_some o' ->
  match o with Some s => mstr s | None => [] end ++ r = match o' with Some s => mstr s | None => [] end ++ r' -> o = o' /\ r = r'.
Proof.
  destruct o as [s|], o' as [s'|]; cbn [opt_ok is_some]; intros H H' E K; try discriminate.
  - apply mstr_split in K; auto. destruct K as (-> & ->). auto.
  - auto.
Qed.

Lemma connect_flags_inj m m' : connect_flags m = connect_flags m' ->
  is_some (cm_user m) = is_some (cm_user m') /\ is_some (cm_pass m) = is_some (cm_pass m') /\ cm_clean m = cm_clean m' /\
  match cm_will m, cm_will m' with
  | Some w, Some w' => wm_qos w = wm_qos w' /\ wm_retain w = wm_retain w'
  | None, None => True
  | _, _ => False
  end.
Proof.
  unfold connect_flags. generalize (is_some (cm_user m)), (is_some (cm_user m')), (is_some (cm_pass m)), (is_some (cm_pass m')), (cm_clean m), (cm_clean m').
  intros u u' p p' c c'.
  destruct (cm_will m) as [[? ? q r]|], (cm_will m') as [[? ? q' r']|]; cbn [wm_qos wm_retain].
  - destruct u, u', p, p', c, c', q, q', r, r'; cbn; intro H; try discriminate; auto.
  - destruct u, u', p, p', c, c', q, r; cbn; intro H; discriminate.
  - destruct u, u', p, p', c, c', q', r'; cbn; intro H; discriminate.
  - destruct u, u', p, p', c, c'; cbn; intro H; try discriminate; auto.
Qed.
Lemma connect_body_inj m m' : pkt_ok (KConnect m) -> pkt_ok (KConnect m') -> connect_body m = connect_body m' -> m = m'.
Proof.
  cbn [pkt_ok]. intros (A1 & A2 & A3 & A4 & A5 & _) (B1 & B2 & B3 & B4 & B5 & _) H. unfold connect_body in H.
  apply app_inv_head in H. apply app_inv_head in H. apply app_eq_len in H; [|reflexivity]. destruct H as (Hf & H). injection Hf as Hf. apply connect_flags_inj in Hf. destruct Hf as (F1 & F2 & F3 & F4).
  unfold u16_ok in *. apply be16_split in H; [|lia|lia]. destruct H as (E1 & H). apply mstr_split in H; auto. destruct H as (E2 & H).
  assert (K : cm_will m = cm_will m' /\
    match cm_user m with Some u => mstr u | None => [] end ++ match cm_pass m with Some p => mstr p | None => [] end =
    match cm_user m' with Some u => mstr u | None => [] end ++ match cm_pass m' with Some p => mstr p | None => [] end).
  { destruct (cm_will m) as [[t y q r]|], (cm_will m') as [[t' y' q' r']|]; try contradiction; [|cbn [app] in H; auto].
    cbn [wm_topic wm_payload wm_qos wm_retain] in *. rewrite <- !app_assoc in H.
    apply mstr_split in H; [|tauto|tauto]. destruct H as (-> & H). apply mstr_split in H; [|tauto|tauto]. destruct H as (-> & H). destruct F4 as (-> & ->). auto. }
  destruct K as (E3 & K). apply mstr_opt_split in K; auto. destruct K as (E4 & K).
  rewrite <- (app_nil_r (match cm_pass m with Some p => mstr p | None => [] end)) in K.
  rewrite <- (app_nil_r (match cm_pass m' with Some p => mstr p | None => [] end)) in K.
  apply mstr_opt_split in K; auto. destruct K as (E5 & _). destruct m, m'; cbn in *; congruence.
Qed.
Lemma publish_first_inj m m' : publish_first m = publish_first m' -> pm_dup m = pm_dup m' /\ pm_qos m = pm_qos m' /\ pm_retain m = pm_retain m'.
Proof. unfold publish_first. destruct (pm_dup m), (pm_dup m'), (pm_qos m), (pm_qos m'), (pm_retain m), (pm_retain m'); cbn; intro H; try discriminate; auto. Qed.
Lemma publish_body_inj m m' : standard (KPublish m) -> standard (KPublish m') -> publish_first m = publish_first m' ->
  publish_body m = publish_body m' -> m = m'.
Proof.
  intros (((_ & A1) & A2 & _) & A3) (((_ & B1) & B2 & _) & B3) Hf H. apply publish_first_inj in Hf. destruct Hf as (F1 & F2 & F3).
  unfold publish_body, publish_head in H. rewrite <- !app_assoc in H. apply mstr_split in H; auto. destruct H as (E1 & H). unfold id_ok in *.
  assert (K : pm_id m = pm_id m' /\ pm_payload m = pm_payload m').
  { rewrite F2 in *. destruct (pm_qos m') eqn:Eq.
    - split; [rewrite A3, B3; auto|exact H].
    - apply be16_split in H; [exact H| |]; [assert (1 <= pm_id m <= 65535) by (apply A2; discriminate)|assert (1 <= pm_id m' <= 65535) by (apply B2; discriminate)]; lia.
    - apply be16_split in H; [exact H| |]; [assert (1 <= pm_id m <= 65535) by (apply A2; discriminate)|assert (1 <= pm_id m' <= 65535) by (apply B2; discriminate)]; lia. }
  destruct K as (E2 & E3). destruct m, m'; cbn in *; congruence.
Qed.
Lemma filters_inj fs : forall fs', Forall (fun f : list Z * qos => name_ok (fst f)) fs -> Forall (fun f : list Z * qos => name_ok (fst f)) fs' ->
  flat_map (fun x => mstr (fst x) ++ [qos_val (snd x)]) fs = flat_map (fun x => mstr (fst x) ++ [qos_val (snd x)]) fs' -> fs = fs'.
Proof.
  induction fs as [|[s q] fs IH]; intros [|[s' q'] fs'] H H' E; cbn [flat_map] in E; auto; try (cbn in E; discriminate).
  apply Forall_cons_iff in H. destruct H as ((_ & H1) & H2). apply Forall_cons_iff in H'. destruct H' as ((_ & H1') & H2'). cbn [fst snd] in *.
  rewrite <- !app_assoc in E. apply mstr_split in E; auto. destruct E as (-> & E). apply app_eq_len in E; [|reflexivity]. destruct E as (Eq & E). injection Eq as Eq.
  assert (q = q') by (destruct q, q'; cbn in Eq; congruence). subst. f_equal. now apply IH.
Qed.
Lemma names_inj fs : forall fs', Forall name_ok fs -> Forall name_ok fs' -> flat_map mstr fs = flat_map mstr fs' -> fs = fs'.
Proof.
  induction fs as [|s fs IH]; intros [|s' fs'] H H' E; cbn [flat_map] in E; auto; try (cbn in E; discriminate).
  apply Forall_cons_iff in H. destruct H as ((_ & H1) & H2). apply Forall_cons_iff in H'. destruct H' as ((_ & H1') & H2').
  apply mstr_split in E; auto. destruct E as (-> & E). f_equal. now apply IH.
Qed.

(** the packet as its first byte and the rest *)
Definition first_of (p : cpkt) : Z :=
  match p with
  | KConnect _ => 16 | KPublish m => publish_first m | KSubscribe _ _ => 130 | KUnsubscribe _ _ => 162
  | KPing => 192 | KDisconnect => 224 | KAck k _ => ack_first (ack_of k) | KAgain _ _ => 0
  end.
Definition body_of (p : cpkt) : list Z :=
  match p with
  | KConnect m => connect_body m | KPublish m => publish_body m | KSubscribe id fs => subscribe_body id fs
  | KUnsubscribe id fs => unsubscribe_body id fs | KPing | KDisconnect => [] | KAck _ id => be16 id | KAgain _ _ => []
  end.
Lemma bytes_packet p : standard p -> bytes p = packet (first_of p) (body_of p) /\ zlen (body_of p) <= max_remaining.
Proof.
  intros (H & H'). destruct p; cbn [bytes first_of body_of pkt_ok] in *; try contradiction; (split; [reflexivity|]); try tauto; try (vm_compute; discriminate).
Qed.
Lemma publish_first_type m : publish_first m / 16 = 3.
Proof. unfold publish_first. destruct (pm_dup m), (pm_qos m), (pm_retain m); reflexivity. Qed.
Lemma standard_inj p p' : standard p -> standard p' -> first_of p = first_of p' -> body_of p = body_of p' -> p = p'.
Proof.
  intros H H' Hf Hb.
  destruct p as [m|m|i fs|i fs| | |k i|i bs]; [| | | | | | |now destruct H];
  (destruct p' as [m'|m'|i' fs'|i' fs'| | |k' i'|i' bs']; [| | | | | | |now destruct H']); cbn [first_of body_of] in Hf, Hb;
  try (exfalso; pose proof (publish_first_type m) as K; rewrite Hf in K; try destruct k; try destruct k'; vm_compute in K; discriminate);
  try (exfalso; pose proof (publish_first_type m') as K; rewrite <- Hf in K; try destruct k; try destruct k'; vm_compute in K; discriminate);
  try (try destruct k; try destruct k'; discriminate); auto.
  - f_equal. apply connect_body_inj; [apply H|apply H'|exact Hb].
  - f_equal. now apply publish_body_inj.
  - destruct H as ((H1 & _ & H3 & _) & _), H' as ((H1' & _ & H3' & _) & _). unfold id_ok, subscribe_body in *. apply be16_split in Hb; [|lia|lia].
    destruct Hb as (-> & Hb). f_equal. now apply filters_inj.
  - destruct H as ((H1 & _ & H3 & _) & _), H' as ((H1' & _ & H3' & _) & _). unfold id_ok, unsubscribe_body in *. apply be16_split in Hb; [|lia|lia].
    destruct Hb as (-> & Hb). f_equal. now apply names_inj.
  - destruct H as (H & _), H' as (H' & _). cbn in H, H'. unfold id_ok in *.
    rewrite <- (app_nil_r (be16 i)), <- (app_nil_r (be16 i')) in Hb. apply be16_split in Hb; [|lia|lia]. destruct Hb as (-> & _).
    f_equal. destruct k, k'; try discriminate; reflexivity.
Qed.
Lemma bytes_split p p' r r' : standard p -> standard p' -> bytes p ++ r = bytes p' ++ r' -> p = p' /\ r = r'.
Proof.
  intros H H' E. destruct (bytes_packet p H) as (E1 & L1), (bytes_packet p' H') as (E2 & L2). rewrite E1, E2 in E.
  apply packet_split in E; auto. destruct E as (Ef & Eb & Er). split; auto. now apply standard_inj.
Qed.
Lemma bytes_ne p : standard p -> bytes p <> [].
Proof. intro H. destruct (bytes_packet p H) as (-> & _). discriminate. Qed.

(** a packet cut off: some bytes of its beginning, maybe none *)
Definition cut (x : list Z) : Prop := exists p y, standard p /\ y <> [] /\ bytes p = x ++ y.
Lemma cut_whole p r x : standard p -> cut x -> bytes p ++ r = x -> False.
Proof.
  intros H (p' & y & H' & Hy & E) Ex. subst x. rewrite <- app_assoc in E. rewrite <- (app_nil_r (bytes p')) in E.
  apply bytes_split in E; auto. destruct E as (_ & E). symmetry in E. apply app_eq_nil in E. destruct E. congruence.
Qed.
Lemma stream_unique ps : forall qs x y, Forall standard ps -> Forall standard qs -> cut x -> cut y ->
  concat (map bytes ps) ++ x = concat (map bytes qs) ++ y -> ps = qs /\ x = y.
Proof.
  induction ps as [|p ps IH]; intros [|q qs] x y Hp Hq Hx Hy E; cbn [map concat app] in E.
  - auto.
  - exfalso. apply Forall_cons_iff in Hq. destruct Hq as (Hq & _). rewrite <- app_assoc in E. eapply (cut_whole q _ x); eauto.
  - exfalso. apply Forall_cons_iff in Hp. destruct Hp as (Hp & _). rewrite <- app_assoc in E. eapply (cut_whole p _ y); eauto.
  - apply Forall_cons_iff in Hp. destruct Hp as (Hp & Hps). apply Forall_cons_iff in Hq. destruct Hq as (Hq & Hqs).
    rewrite <- !app_assoc in E. apply bytes_split in E; auto. destruct E as (-> & E). apply IH in E; auto. destruct E as (-> & ->). auto.
Qed.
Lemma cut_nil : cut [].
Proof. exists KPing, (bytes KPing). split; [split; exact I|]. split; [discriminate|reflexivity]. Qed.

(** ** Packets of a run *)
Definition sent_packets (k : list tok) : list cpkt := flat_map (fun x => match x with Sent p => [p] | _ => [] end) k.
(** nothing cut off, and stored copies are packets *)
Definition whole (x : tok) : Prop :=
  match x with Cut _ _ => False | Sent (KAgain _ bs) => exists q, standard q /\ bs = bytes q | _ => True end.
(** without the identifier that a QoS 0 publish does not carry *)
Definition plain (p : cpkt) : cpkt :=
  match p with
  | KPublish (mkPublish d Q0 r t _ y) => KPublish (mkPublish d Q0 r t 0 y)
  | _ => p
  end.
Lemma plain_bytes p : bytes (plain p) = bytes p.
Proof. destruct p as [|[d [] r t i y]| | | | | |]; reflexivity. Qed.
Lemma plain_standard p : pkt_ok p -> (forall id bs, p <> KAgain id bs) -> standard (plain p).
Proof.
  intros H Hn. destruct p as [m|[d q r t i y]|i fs|i fs| | |k i|i bs]; [| | | | | | |exfalso; eapply Hn; reflexivity]; try (split; [exact H|exact I]).
  destruct q; (split; [|cbn; congruence]); cbn [plain pkt_ok pm_topic pm_qos pm_id] in *; try exact H.
  destruct H as (H1 & _ & H3). split; auto. split; auto. congruence.
Qed.
Lemma says_outs t k : Says t k -> Forall whole k -> outs t = concat (map bytes (sent_packets k)).
Proof.
  induction 1 as [|p b t k Hs He Ho Hk IH|p n b t k Hs He Hn Ho Hk IH|p n b t k Hs He Hn Ho Hk IH|e t k He Hk IH]; intro H.
  - reflexivity.
  - apply Forall_cons_iff in H. destruct H as (_ & H). cbn [sent_packets flat_map map concat app]. unfold outs in *. rewrite flat_map_app, Ho, IH by auto. reflexivity.
  - apply Forall_cons_iff in H. destruct H as (H & _). destruct H.
  - apply Forall_cons_iff in H. destruct H as (H & _). destruct H.
  - apply Forall_cons_iff in H. destruct H as (_ & H). cbn [sent_packets flat_map]. cbn [outs flat_map]. destruct e; try discriminate; cbn [app]; now apply IH.
Qed.
(** [q] is what a reader makes of the packet [p] *)
Definition understood (p q : cpkt) : Prop := match p with KAgain _ bs => standard q /\ bs = bytes q | _ => q = plain p end.
Lemma understood_bytes ps qs : Forall2 understood ps qs -> concat (map bytes qs) = concat (map bytes ps).
Proof.
  induction 1 as [|p q ps qs H Hs IH]; [reflexivity|]. cbn [map concat]. rewrite IH. f_equal.
  destruct p; cbn [understood] in H; try (subst q; apply plain_bytes). destruct H as (_ & ->). reflexivity.
Qed.
Lemma understand k : Forall whole k -> Forall pkt_ok (sent_packets k) -> exists qs, Forall2 understood (sent_packets k) qs /\ Forall standard qs.
Proof.
  induction k as [|x k IH]; intros Hw Hp; [exists []; split; constructor|]. apply Forall_cons_iff in Hw. destruct Hw as (Hx & Hw).
  destruct x as [p|p e|e]; [|destruct Hx|exact (IH Hw Hp)]. cbn [sent_packets flat_map app] in *. apply Forall_cons_iff in Hp. destruct Hp as (Hp1 & Hp).
  destruct (IH Hw Hp) as (qs & K1 & K2). destruct p as [m|m|i fs|i fs| | |a i|i bs].
  8: { destruct Hx as (q & Q1 & Q2). exists (q :: qs). split; constructor; auto. split; auto. }
  all: match goal with |- context [?p :: _] => exists (plain p :: qs) end; split; constructor; auto; [reflexivity|apply plain_standard; [exact Hp1|discriminate]].
Qed.
Lemma run_understood t k ps x : Says t k -> Forall pkt_ok (sent_packets k) -> Forall whole k -> Forall standard ps -> cut x ->
  outs t = concat (map bytes ps) ++ x -> Forall2 understood (sent_packets k) ps /\ x = [].
Proof.
  intros Hs Hp Hw Hps Hx E. destruct (understand k Hw Hp) as (qs & K1 & K2). rewrite (says_outs _ _ Hs Hw), <- (understood_bytes _ _ K1) in E.
  rewrite <- (app_nil_r (concat (map bytes qs))) in E. apply stream_unique in E; auto using cut_nil. destruct E as (-> & <-). auto.
Qed.
